(* A refused cloud configuration ends the provisioning for good. *)
From Coq Require Import List Bool Arith Lia.
Import ListNotations.
From Verif Require Import Dps_Model Dps_Spec Dps_Proofs Dps2_Proofs Dps3_Proofs
  Dps4_Proofs Dps5_Proofs.

Record dead (s : ctx) : Prop := {
  D_pend : pend s = [];
  D_reqs : reqs s = [];
  D_rnws : rnws s = 0;
  D_closing : closing s = false;
  D_err : err (st s) = true;
  D_fai : fai (st s) = true;
  D_oini : oini s = false;
  D_cmgr : cmgr s = false }.

Lemma dead_step : forall e o s, dead s -> outside o = true ->
  dead (step (e, o) s) /\ tr (step (e, o) s) = tr s
  /\ st (step (e, o) s) = st s.
Proof.
  intros e o s [H1 H2 H3 H4 H5 H6 H7 H8] O.
  assert (K : dead s) by (constructor; assumption).
  unfold step. destruct o; try discriminate O.
  - unfold fire. rewrite H1. auto.
  - rewrite H2. auto.
  - rewrite H3. auto.
  - unfold sess_up. destruct (sreg s && epset s && mgr s); [|auto].
    split; [constructor; assumption|auto].
  - unfold sess_down. cbv zeta.
    destruct (sreg s && epset s && mgr s && conn s); [|auto].
    change (closing (w_conn false s)) with (closing s).
    change (err (st (w_conn false s))) with (err (st s)).
    rewrite H4, H5. cbn [negb andb]. split; [constructor; assumption|auto].
  - rewrite H8, andb_false_r. auto.
  - assert (N : only_ini (st s) = false)
      by (unfold only_ini; rewrite H6, andb_false_r; reflexivity).
    rewrite N, andb_false_r. auto.
  - rewrite H7. auto.
Qed.

Lemma dead_later : forall l s, dead s ->
  (forall eo, In eo l -> outside (snd eo) = true) ->
  tr (later l s) = tr s /\ st (later l s) = st s.
Proof.
  induction l as [|[e o] l IH]; intros s H A; [auto|].
  change (later ((e, o) :: l) s) with (later l (step (e, o) s)).
  destruct (dead_step e o s H) as (B & C & D); [apply (A (e, o)); left; reflexivity|].
  destruct (IH _ B) as [E F]; [intros eo I; apply A; right; exact I|].
  split; congruence.
Qed.
