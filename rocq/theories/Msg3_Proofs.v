(** Messages of one lane arrive in the order in which they were handed
    over. *)

From Coq Require Import List Bool Arith Lia.
From Verif Require Import Msg_Model Msg_Spec Msg_Proofs Msg2_Proofs.
Import ListNotations.

Definition stage (w : what) : nat :=
  match w with NetIn | NetOut => 1 | OscIn | OscOut | OscGroup => 2 | _ => 3 end.

Definition one (c : cfg) (n : nat) (i : item) : list nat := if lane c i =? n then [no i] else [].

Definition spot (c : cfg) (k n : nat) (e : qev) : list nat :=
  match e with Ev w i => if stage w =? k then one c n i else [] | Misc => [] end.

Definition at_ (c : cfg) (k n : nat) (q : list qev) : list nat := flat_map (spot c k n) q.

Definition line (c : cfg) (n : nat) (t : list ev) (q : list qev) : list nat :=
  arrived c n t ++ at_ c 3 n q ++ at_ c 2 n q ++ at_ c 1 n q.

Lemma at_snoc : forall c k n q e, at_ c k n (q ++ [e]) = at_ c k n q ++ spot c k n e.
Proof.
  intros. unfold at_. rewrite flat_map_app. cbn [flat_map]. rewrite app_nil_r. reflexivity.
Qed.

Lemma at_cons : forall c k n q e, at_ c k n (e :: q) = spot c k n e ++ at_ c k n q.
Proof. reflexivity. Qed.

Definition fit_all (c : cfg) (q : list qev) : Prop := forall w i, In (Ev w i) q -> fits c w i.

Lemma fit_tail : forall c e q, fit_all c (e :: q) -> fit_all c q.
Proof. intros c e q H w i X. apply H. right. exact X. Qed.

Lemma at_none : forall c k n q, fit_all c q ->
  (forall w i, fits c w i -> stage w = k -> lane c i = n -> False) -> at_ c k n q = [].
Proof.
  intros c k n q F H. induction q as [|e q IH]; [reflexivity|]. rewrite at_cons, IH by (apply (fit_tail c e); exact F).
  destruct e as [w i|]; [|reflexivity]. cbn [spot]. rewrite app_nil_r. destruct (stage w =? k) eqn:S; [|reflexivity].
  unfold one. destruct (lane c i =? n) eqn:L; [|reflexivity]. exfalso. apply Nat.eqb_eq in S, L.
  apply (H w i); auto. apply F. left. reflexivity.
Qed.

(** The lanes of messages at each stage. *)
Lemma lane_dec : forall c i, org i = Dec -> lane c i = 6.
Proof. intros c i H. unfold lane. rewrite H. reflexivity. Qed.

Lemma stage_two : forall c w i, fits c w i -> stage w = 2 ->
  lane c i = 0 \/ (oscore c = true /\ (lane c i = 2 \/ lane c i = 4 \/ lane c i = 6)).
Proof.
  intros c w i F S. destruct w; try discriminate S; cbn [fits] in F.
  - destruct F as [_ [O [D|[A [B [M Z]]]]]]; right; (split; [exact O|]).
    + right. right. apply lane_dec. exact D.
    + right. left. unfold lane. rewrite A, B, O, M. reflexivity.
  - right. split; [apply F|]. left. apply F.
  - left. apply F.
Qed.

Lemma stage_three : forall c w i, fits c w i -> stage w = 3 -> lane c i <> 0 /\ lane c i <> 1.
Proof.
  intros c w i F S. destruct w; try discriminate S; cbn [fits] in F.
  - rewrite F. lia.
  - rewrite F. lia.
  - destruct F as [D|[A [B _]]].
    + rewrite (lane_dec c i D). lia.
    + unfold lane. rewrite A, B. destruct (oscore c && multi i); lia.
Qed.

Lemma stage_one : forall c w i, fits c w i -> stage w = 1 -> lane c i <> 6.
Proof.
  intros c w i F S. destruct w; try discriminate S; cbn [fits] in F; destruct F as [A _]; unfold lane; rewrite A.
  - destruct (enc i); [lia|]. destruct (oscore c && multi i); lia.
  - destruct (client c && disc i); [lia|]. destruct (client c && oscore c && (multi i && sec i)); [lia|].
    destruct (sec i); lia.
Qed.

(** Some of the elements. *)
Lemma within_refl : forall A (l : list A), within l l.
Proof. intros A l. induction l; constructor; assumption. Qed.

Lemma within_app : forall A (a b d e : list A), within a b -> within d e -> within (a ++ d) (b ++ e).
Proof. intros A a b d e H G. induction H; cbn [app]; [exact G| |]; constructor; assumption. Qed.

Lemma within_none : forall A (l : list A), within [] l.
Proof. intros A l. induction l; constructor; assumption. Qed.

Lemma within_trans : forall A (b d : list A), within b d -> forall a, within a b -> within a d.
Proof.
  intros A b d H. induction H as [|x l m H IH|x l m H IH]; intros a G; [exact G| |].
  - apply within_skip. apply IH. exact G.
  - inversion G; subst.
    + apply within_skip. apply IH. assumption.
    + apply within_keep. apply IH. assumption.
Qed.

Lemma one_cases : forall c n i, one c n i = [] \/ lane c i = n.
Proof.
  intros. unfold one. destruct (lane c i =? n) eqn:E; [right; apply Nat.eqb_eq; exact E|left; reflexivity].
Qed.

(** A message moves on. *)
Lemma line_hop : forall c n t w i w' i' q,
  fit_all c q -> no i' = no i -> lane c i' = lane c i ->
  (stage w = 2 /\ stage w' = 3) \/
  (stage w = 1 /\ (stage w' = 2 \/ (stage w' = 3 /\ lane c i <> 0 /\ (oscore c = false \/ lane c i = 3 \/ lane c i = 5)))) ->
  line c n t (q ++ [Ev w' i']) = line c n t (Ev w i :: q).
Proof.
  intros c n t w i w' i' q F N L H. unfold line. f_equal.
  assert (O : one c n i' = one c n i) by (unfold one; rewrite N, L; reflexivity).
  rewrite !at_snoc, !at_cons. cbn [spot]. rewrite O.
  destruct H as [[S S']|[S [S'|[S' [NZ C]]]]]; rewrite S, S'; cbn [Nat.eqb]; cbn [app]; rewrite ?app_nil_r.
  - rewrite <- !app_assoc. reflexivity.
  - rewrite <- !app_assoc. reflexivity.
  - destruct (one_cases c n i) as [E|E]; [rewrite E, app_nil_r; reflexivity|].
    rewrite (at_none c 2 n q F); [cbn [app]; rewrite <- !app_assoc; reflexivity|].
    intros v j FV SV LV. apply (stage_two c v j FV) in SV. rewrite LV, <- E in SV.
    destruct SV as [SV|[SO SV]]; [destruct (NZ SV)|]. destruct C as [C|C]; [congruence|lia].
Qed.

(** A message arrives. *)
Lemma line_sink : forall c n t w i q e,
  fit_all c q -> arrived c n [e] = one c n i ->
  stage w = 3 \/ (stage w = 1 /\ lane c i = 1) ->
  line c n (t ++ [e]) q = line c n t (Ev w i :: q).
Proof.
  intros c n t w i q e F A H. unfold line. unfold arrived at 1. rewrite flat_map_app.
  change (flat_map _ [e]) with (arrived c n [e]). rewrite A, <- app_assoc.
  change (flat_map _ t) with (arrived c n t). f_equal.
  rewrite !at_cons. cbn [spot]. destruct H as [S|[S L]]; rewrite S; cbn [Nat.eqb]; cbn [app].
  - rewrite <- app_assoc. reflexivity.
  - destruct (one_cases c n i) as [E|E]; [rewrite E; reflexivity|]. rewrite L in E.
    rewrite (at_none c 3 n q F), (at_none c 2 n q F); [reflexivity| |].
    + intros v j FV SV LV. apply (stage_two c v j FV) in SV. lia.
    + intros v j FV SV LV. apply (stage_three c v j FV) in SV. lia.
Qed.

(** A message is lost. *)
Lemma line_lost : forall c n t w i q, within (line c n t q) (line c n t (Ev w i :: q)) /\
  (lane c i <> n -> line c n t q = line c n t (Ev w i :: q)).
Proof.
  intros c n t w i q. unfold line. rewrite !at_cons. split.
  - repeat apply within_app; try apply within_refl;
      match goal with |- within ?l (?x ++ ?l) => change l with ([] ++ l) at 1 end;
      apply within_app; [apply within_none|apply within_refl|apply within_none|apply within_refl|apply within_none|apply within_refl].
  - intros H. cbn [spot]. assert (E : one c n i = []) by (destruct (one_cases c n i); [assumption|congruence]).
    rewrite E. destruct (stage w =? 3), (stage w =? 2), (stage w =? 1); reflexivity.
Qed.

(** A message is handed over. *)
Lemma line_hand : forall c n t w i q, fit_all c q -> fits c w i ->
  stage w = 1 \/ (org i = Dec /\ (stage w = 2 \/ oscore c = false)) ->
  line c n t (q ++ [Ev w i]) = line c n t q ++ one c n i.
Proof.
  intros c n t w i q F FI H. unfold line. rewrite !at_snoc, <- !app_assoc. f_equal. cbn [spot].
  destruct (one_cases c n i) as [E|E].
  { rewrite E. destruct (stage w =? 3), (stage w =? 2), (stage w =? 1); cbn [app]; rewrite ?app_nil_r; reflexivity. }
  destruct H as [S|[D H]].
  - rewrite S. cbn [Nat.eqb app]. rewrite ?app_nil_r. reflexivity.
  - rewrite (lane_dec c i D) in E.
    assert (A1 : at_ c 1 n q = []).
    { apply at_none; [exact F|]. intros v j FV SV LV. apply (stage_one c v j FV) in SV. lia. }
    assert (A2 : oscore c = false -> at_ c 2 n q = []).
    { intros O. apply at_none; [exact F|]. intros v j FV SV LV. apply (stage_two c v j FV) in SV.
      destruct SV as [SV|[SV _]]; [lia|congruence]. }
    rewrite A1. cbn [app]. destruct H as [H|H].
    + rewrite H. cbn [Nat.eqb app]. rewrite ?app_nil_r. reflexivity.
    + rewrite (A2 H). cbn [app]. destruct (stage w =? 3) eqn:S3, (stage w =? 2) eqn:S2, (stage w =? 1) eqn:S1;
        cbn [app]; rewrite ?app_nil_r; try reflexivity; destruct w; discriminate.
Qed.
