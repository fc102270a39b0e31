(* The retry counter and the renewal of certificates: properties. *)
From Coq Require Import List NArith Arith Bool Lia.
Import ListNotations.
From Verif Require Import Dpr_Model Dpr_Spec Dpr_Proofs.
Local Open Scope N_scope.

(* ------------------------------------------------------------------ *)
(* C118 *)
Theorem C118_configuration : forall c r,
  (fst (set_cfg c r) = true <-> acceptable c)
  /\ (acceptable c -> get_cfg 8 (snd (set_cfg c r)) = Some c)
  /\ (~ acceptable c -> snd (set_cfg c r) = r).
Proof.
  intros c r. pose proof (set_cfg_iff c r) as I. split; [exact I|]. split.
  - intros A. rewrite set_cfg_kept by (apply I, A). unfold get_cfg. cbn [cfg].
    destruct A as [A _]. destruct (Nat.ltb 8 (length c)) eqn:E; [|reflexivity].
    apply PeanoNat.Nat.ltb_lt in E. lia.
  - intros A. apply set_cfg_refused. destruct (fst (set_cfg c r)); [|reflexivity].
    exfalso. apply A, I. reflexivity.
Qed.

Theorem C118_delays : forall l rnd, (forall o, In o l -> ~ own_schedule o) ->
  (forall o, In o l -> byte_cfg o) ->
  exists d t, get_delay rnd (rrun l) = Some d /\ get_timeout (rrun l) = Some t
    /\ around t d /\ 1 <= t <= 255.
Proof. intros l rnd A. apply delay_bounds. exact A. Qed.

(* After the first reset or increment the delay belongs to a value of the
   configuration, the one of the current count. *)
Theorem C118_rotation : forall l a rnd n l2,
  (forall o, In o l -> ~ own_schedule o) -> increments n l2 ->
  let r := rrun (l ++ [RReset a rnd]) in
  let r' := rrun (l ++ [RReset a rnd] ++ l2) in
  let m := length (cfg r) in
  cfg r' = cfg r /\ get_timeout r' = Some (nth (n mod m)%nat (cfg r) 0)
  /\ around (nth (n mod m)%nat (cfg r) 0) (delay r')
  /\ nsel r' = (nsel r + n / m)%nat.
Proof.
  intros l a rnd n l2 A H. cbv zeta.
  pose proof (run_ok l A) as K0.
  assert (E : rrun (l ++ [RReset a rnd]) = rreset a rnd (rrun l))
    by (unfold rrun; apply fold_snoc).
  assert (E2 : rrun (l ++ [RReset a rnd] ++ l2)
    = fold_left rstep l2 (rreset a rnd (rrun l))).
  { unfold rrun. rewrite app_assoc, fold_left_app, fold_snoc. reflexivity. }
  rewrite E, E2.
  destruct (reset_ok a rnd (rrun l) (O_custom _ K0) (O_cfg _ K0))
    as (R1 & R2 & R3 & R4 & R5 & R6).
  set (r := rreset a rnd (rrun l)) in *. clearbody r. clear E E2.
  destruct (rotation n l2 H r R1 R2) as (Q1 & Q2 & Q3 & Q4).
  split; [exact Q2|].
  assert (T : tmo (fold_left rstep l2 r) = nth (n mod length (cfg r)) (cfg r) 0
    /\ around (tmo (fold_left rstep l2 r)) (delay (fold_left rstep l2 r))).
  { destruct H as [|n l2 x y rnd2 H].
    - destruct (O_cfg _ R1) as [L _]. rewrite PeanoNat.Nat.mod_0_l by lia.
      cbn [fold_left]. rewrite R4, R3 in *. auto.
    - rewrite fold_snoc in *. cbn [rstep] in *.
      destruct (rotation n l2 H r R1 R2) as (P1 & P2 & P3 & P4).
      destruct (inc_ok x y rnd2 _ P1) as (_ & _ & _ & _ & I1 & I2).
      rewrite Q3, P2, Nnat.Nat2N.id in I1. auto. }
  destruct T as [T1 T2]. rewrite <- T1.
  split; [|split; [exact T2|exact Q4]].
  unfold get_timeout. rewrite (proj2 (N.ltb_lt _ _) (O_cnt _ Q1)).
  destruct (tmo (fold_left rstep l2 r) =? 0) eqn:Z; [|reflexivity].
  apply N.eqb_eq in Z. unfold around in T2. lia.
Qed.

Definition no := mkAns None 7.
Definition inc := RInc no no 7.
Example C118_case : let r := rrun (RReset no 7 :: repeat inc 7) in
  tmo r = 40 /\ delay r = 20007 /\ nsel r = 1%nat.
Proof. vm_compute. auto. Qed.
Example C118_acceptable : acceptable [3; 5].
Proof.
  split; [cbn; lia|]. intros x X. cbn in X.
  repeat destruct X as [X|X]; subst; try discriminate; destruct X.
Qed.

(* A schedule of the application that never gives up violates the assertion on
   the counter. *)
Definition always := mkAns (Some (100, 1)) 0.

Theorem C118_own_schedule_refuted : exists l,
  l = RCustom true :: repeat (RInc always always 0) 8
  /\ forall rnd, get_delay rnd (rrun l) = None.
Proof. eexists. split; [reflexivity|]. intros rnd. vm_compute. reflexivity. Qed.

(* ------------------------------------------------------------------ *)
(* C119 *)
Theorem C119_states : forall limit from to now, limit < 65536 -> now < lim ->
  (validate limit from to now = NotYet <-> now < from)
  /\ (validate limit from to now = Valid <-> from <= now /\ now + limit <= to)
  /\ (validate limit from to now = Expired <-> from <= now /\ to < now)
  /\ (validate limit from to now = Expiring
        <-> from <= now /\ now <= to /\ to < now + limit).
Proof.
  intros limit from to now A B. unfold validate.
  pose proof (expiring_iff limit to now A B) as E.
  destruct (now <? from) eqn:C; [apply N.ltb_lt in C|apply N.ltb_ge in C].
  - repeat split; try discriminate; intros; lia.
  - destruct (is_expiring limit to now).
    + pose proof (proj1 E eq_refl) as E1.
      destruct (to <? now) eqn:D; [apply N.ltb_lt in D|apply N.ltb_ge in D];
        repeat split; try discriminate; try reflexivity; intros; lia.
    + assert (E1 : now + limit <= to).
      { destruct (N.lt_ge_cases to (now + limit)) as [Z|Z]; [|exact Z].
        apply E in Z. discriminate. }
      repeat split; try discriminate; try reflexivity; intros; lia.
Qed.

(* The next look at a certificate that is not expiring is at least ten seconds
   away and not after the end of its validity. *)
Theorem C119_in_time : forall limit to now, limit < 65536 -> to < lim ->
  now + limit <= to -> now + 10 <= to ->
  10000 <= interval limit to now /\ 1000 * now + interval limit to now <= 1000 * to.
Proof.
  intros limit to now A B C D.
  destruct (interval_bounds limit to now A B) as (I1 & I2 & _); try assumption.
  - lia.
  - destruct (is_expiring limit to now) eqn:E; [|reflexivity].
    apply expiring_iff in E; lia.
  - split; [exact I1|]. lia.
Qed.

(* Looking again and again finds that the certificate is expiring while it is
   still valid. *)
Theorem C119_found_expiring : forall limit from to now,
  10 <= limit < 65536 -> to < lim -> from <= now <= to ->
  exists k last, rechecks limit to now k last
    /\ validate limit from to last = Expiring /\ interval limit to last = 0.
Proof.
  intros limit from to now L T A.
  destruct (rechecks_end limit to L T (S (N.to_nat (to - now))) now)
    as (k & last & R & _ & B & C); [lia|lia|].
  exists k, last. split; [exact R|].
  assert (E : is_expiring limit to last = true) by (apply expiring_iff; lia).
  split.
  - apply C119_states; lia.
  - unfold interval. rewrite E. reflexivity.
Qed.

Theorem C119_one_way : forall limit to now k last, rechecks limit to now k last ->
  forall k' last', rechecks limit to now k' last' -> k = k' /\ last = last'.
Proof. exact rechecks_fun. Qed.

(* After a failed renewal the next try is not before the delay of the retry
   counter and not before the computed moment. *)
Theorem C119_retry_waits : forall limit to now min,
  min <= renew_in limit to now min
  /\ interval limit to now <= renew_in limit to now min
  /\ (renew_in limit to now min = min \/ renew_in limit to now min = interval limit to now).
Proof.
  intros limit to now min. unfold renew_in. cbv zeta.
  destruct (interval limit to now <? min) eqn:E;
    [apply N.ltb_lt in E|apply N.ltb_ge in E]; repeat split; auto; lia.
Qed.

Example C119_day : interval 3600 86400 0 = 57600000.
Proof. vm_compute. reflexivity. Qed.
Example C119_case : validate 3600 0 86400 57600 = Valid
  /\ validate 3600 0 86400 83000 = Expiring /\ validate 3600 0 86400 86401 = Expired.
Proof. vm_compute. auto. Qed.

(* With a limit below ten seconds the next look can come too late. *)
Theorem C119_small_limit_refuted : exists limit to now,
  limit = 2 /\ to = 5 /\ now = 0 /\ validate limit 0 to now = Valid
  /\ 1000 * to < 1000 * now + interval limit to now
  /\ validate limit 0 to (now + interval limit to now / 1000) = Expired.
Proof. exists 2, 5, 0. vm_compute. auto 10. Qed.

Print Assumptions C118_configuration.
Print Assumptions C118_delays.
Print Assumptions C118_rotation.
Print Assumptions C118_own_schedule_refuted.
Print Assumptions C119_states.
Print Assumptions C119_in_time.
Print Assumptions C119_found_expiring.
Print Assumptions C119_one_way.
Print Assumptions C119_retry_waits.
Print Assumptions C119_small_limit_refuted.
