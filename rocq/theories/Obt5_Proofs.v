(** Proofs about the onboarding tool, part 5: a decision procedure for the
    examples. *)

From Coq Require Import List Bool Arith Lia.
From Verif Require Import Obt_Model Obt_Spec Obt_Proofs.
Import ListNotations.

Definition ok_pair (k : call) (t : task) : bool :=
  match k with CReset u => negb (member u (uuids t)) | _ => true end &&
  match t with TReset d => negb (member (snd d) (named k)) | _ => true end.

Definition apartb (k : call) (l : list ev) : bool :=
  forallb (fun e => match e with
                    | ECall c t => if reported c l =? 0 then ok_pair k t else true
                    | _ => true
                    end) l.

Fixpoint carefulb (before rest : list op) : bool :=
  match rest with
  | [] => true
  | o :: r =>
      match o with OCall k _ => apartb k (tr (run before)) | _ => true end &&
      carefulb (before ++ [o]) r
  end.

Lemma apartb_sound : forall k l, apartb k l = true -> apart k l.
Proof.
  intros k l H c t [A B]. unfold apartb in H. rewrite forallb_forall in H.
  specialize (H _ A). cbn beta iota in H. rewrite B in H. cbn [Nat.eqb] in H.
  unfold ok_pair in H. apply andb_true_iff in H. destruct H as [H1 H2]. split.
  - intros u ->. apply negb_true_iff in H1. apply member_false. exact H1.
  - intros d ->. apply negb_true_iff in H2. apply member_false. exact H2.
Qed.

Lemma carefulb_from : forall rest before, carefulb before rest = true ->
  forall b k ok a, rest = b ++ OCall k ok :: a -> apart k (tr (run (before ++ b))).
Proof.
  induction rest as [|o r IH]; intros before H b k ok a E.
  - destruct b; discriminate E.
  - cbn [carefulb] in H. apply andb_true_iff in H. destruct H as [H1 H2].
    destruct b as [|q b].
    + cbn [app] in E. injection E as -> ->. rewrite app_nil_r. apply apartb_sound. exact H1.
    + cbn [app] in E. injection E as -> E.
      specialize (IH _ H2 b k ok a E). rewrite <- app_assoc in IH. exact IH.
Qed.

Lemma carefulb_sound : forall ops, carefulb [] ops = true -> careful ops.
Proof. intros ops H before k ok after E. apply (carefulb_from ops [] H before k ok after E). Qed.
