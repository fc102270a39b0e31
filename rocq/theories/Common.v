(** Shared vocabulary: bytes, byte strings, finite sweeps. *)
From Coq Require Export List Arith NArith ZArith Lia Bool.
From Coq Require Export ZifyBool ZifyNat ZifyN.
From Coq Require Import String Ascii.
Export ListNotations.
Ltac Zify.zify_post_hook ::= Z.div_mod_to_equations.

#[global] Arguments N.add : simpl never.
#[global] Arguments N.sub : simpl never.
#[global] Arguments N.mul : simpl never.
#[global] Arguments N.div : simpl never.
#[global] Arguments N.modulo : simpl never.
#[global] Arguments N.shiftl : simpl never.
#[global] Arguments N.shiftr : simpl never.
#[global] Arguments N.land : simpl never.
#[global] Arguments N.lor : simpl never.
#[global] Arguments N.lxor : simpl never.
#[global] Arguments N.pow : simpl never.
#[global] Arguments N.ltb : simpl never.
#[global] Arguments N.leb : simpl never.
#[global] Arguments N.eqb : simpl never.
#[global] Arguments N.of_nat : simpl never.
#[global] Arguments N.to_nat : simpl never.
#[global] Arguments Z.add : simpl never.
#[global] Arguments Z.sub : simpl never.
#[global] Arguments Z.mul : simpl never.
#[global] Arguments Z.of_nat : simpl never.
#[global] Arguments Z.of_N : simpl never.
#[global] Arguments Nat.div : simpl never.
#[global] Arguments Nat.modulo : simpl never.

(** A byte (uint8_t) is an [N] below 256. *)
Definition is_byte (b : N) : Prop := (b < 256)%N.
Definition bytes_ok (l : list N) : Prop := Forall is_byte l.

Definition is_byteb (b : N) : bool := (b <? 256)%N.
Definition bytes_okb (l : list N) : bool := forallb is_byteb l.

(** All numbers below [n]. *)
Fixpoint below (n : nat) : list N :=
  match n with
  | O => []
  | S k => below k ++ [N.of_nat k]
  end.

Lemma below_In (n : nat) (x : N) : (x < N.of_nat n)%N -> In x (below n).
Proof.
  induction n as [|k IH]; intros H; [lia|].
  cbn [below]. apply in_or_app.
  destruct (N.eq_dec x (N.of_nat k)) as [->|Hne]; [right; left; reflexivity|].
  left. apply IH. lia.
Qed.

Definition all_bytes : list N := below 256.

Lemma sweep1 (P : N -> bool) :
  forallb P all_bytes = true -> forall x, is_byte x -> P x = true.
Proof.
  intros H x Hx. rewrite forallb_forall in H. apply H. apply below_In. exact Hx.
Qed.

Lemma sweep_below (n : nat) (P : N -> bool) :
  forallb P (below n) = true -> forall x, (x < N.of_nat n)%N -> P x = true.
Proof.
  intros H x Hx. rewrite forallb_forall in H. apply H. apply below_In. exact Hx.
Qed.

Lemma sweep2 (P : N -> N -> bool) :
  forallb (fun x => forallb (P x) all_bytes) all_bytes = true ->
  forall x y, is_byte x -> is_byte y -> P x y = true.
Proof.
  intros H x y Hx Hy.
  pose proof (sweep1 _ H x Hx) as H1. cbv beta in H1. exact (sweep1 _ H1 y Hy).
Qed.

Lemma bytes_ok_app (a b : list N) : bytes_ok (a ++ b) <-> bytes_ok a /\ bytes_ok b.
Proof. unfold bytes_ok. apply Forall_app. Qed.

Lemma bytes_ok_cons (a : N) (l : list N) : bytes_ok (a :: l) <-> is_byte a /\ bytes_ok l.
Proof. unfold bytes_ok. split; intros H; [inversion H; auto | constructor; tauto]. Qed.

Lemma bytes_okb_spec (l : list N) : bytes_okb l = true <-> bytes_ok l.
Proof.
  unfold bytes_okb, bytes_ok. rewrite forallb_forall, Forall_forall.
  unfold is_byteb, is_byte. split; intros H x Hx; specialize (H x Hx); lia.
Qed.

(** Characters and string literals as byte lists. *)
Fixpoint str (s : string) : list N :=
  match s with
  | EmptyString => []
  | String a r => N_of_ascii a :: str r
  end.

Definition list_eqb (a b : list N) : bool :=
  if list_eq_dec N.eq_dec a b then true else false.

Lemma list_eqb_spec (a b : list N) : list_eqb a b = true <-> a = b.
Proof. unfold list_eqb. destruct (list_eq_dec N.eq_dec a b); split; congruence. Qed.

Lemma list_eqb_refl (a : list N) : list_eqb a a = true.
Proof. apply list_eqb_spec; reflexivity. Qed.

(** Strong induction on list length. *)
Lemma list_len_ind {A} (P : list A -> Prop) :
  (forall l, (forall l', List.length l' < List.length l -> P l') -> P l) -> forall l, P l.
Proof.
  intros H l. remember (List.length l) as n eqn:En. revert l En.
  induction n as [n IH] using lt_wf_ind. intros l ->.
  apply H. intros l' Hl'. eapply IH; [exact Hl'|reflexivity].
Qed.

Lemma skipn_skipn {A} (a b : nat) (l : list A) : skipn a (skipn b l) = skipn (b + a) l.
Proof.
  revert l. induction b as [|b IH]; intros l; [reflexivity|].
  destruct l as [|x l]; [rewrite !skipn_nil; reflexivity|]. cbn [skipn Nat.add]. apply IH.
Qed.

Lemma NoDup_app_snoc {A} (l : list A) (x : A) : NoDup l -> ~ In x l -> NoDup (l ++ [x]).
Proof.
  intros H Hx. apply NoDup_rev in H. rewrite <- (rev_involutive (l ++ [x])). apply NoDup_rev. rewrite rev_app_distr. cbn [rev app].
  constructor; [rewrite <- in_rev; exact Hx|exact H].
Qed.
