(* Proofs about the retry counter and the renewal of certificates. *)
From Coq Require Import List NArith Bool Lia Arith.
Import ListNotations.
From Verif Require Import Dpr_Model Dpr_Spec.
Local Open Scope N_scope.

Lemma set_cfg_iff : forall c r, fst (set_cfg c r) = true <-> acceptable c.
Proof.
  intros c r. unfold set_cfg, acceptable, max_size.
  destruct (Nat.eqb (length c) 0) eqn:A; cbn [orb].
  { apply Nat.eqb_eq in A. cbn [fst]. split; [discriminate|lia]. }
  apply Nat.eqb_neq in A.
  destruct (Nat.ltb 8 (length c)) eqn:B.
  { apply Nat.ltb_lt in B. cbn [fst]. split; [discriminate|lia]. }
  apply Nat.ltb_ge in B.
  destruct (existsb (N.eqb 0) c) eqn:E; cbn [fst].
  - split; [discriminate|]. intros [_ H]. apply existsb_exists in E.
    destruct E as (x & E1 & E2). apply N.eqb_eq in E2. exfalso.
    exact (H x E1 (eq_sym E2)).
  - split; [|reflexivity]. intros _. split; [lia|]. intros x X Y. subst x.
    assert (Z : existsb (N.eqb 0) c = true)
      by (apply existsb_exists; exists 0; split; [exact X|reflexivity]).
    congruence.
Qed.

Lemma set_cfg_kept : forall c r, fst (set_cfg c r) = true ->
  snd (set_cfg c r) = mkRetry c (cnt r) (delay r) (tmo r) (custom r) (nsel r).
Proof.
  intros c r. unfold set_cfg.
  destruct (Nat.eqb (length c) 0 || Nat.ltb max_size (length c))%bool;
    [discriminate|].
  destruct (existsb (N.eqb 0) c); [discriminate|reflexivity].
Qed.

Lemma set_cfg_refused : forall c r, fst (set_cfg c r) = false ->
  snd (set_cfg c r) = r.
Proof.
  intros c r. unfold set_cfg.
  destruct (Nat.eqb (length c) 0 || Nat.ltb max_size (length c))%bool;
    [reflexivity|].
  destruct (existsb (N.eqb 0) c); [reflexivity|discriminate].
Qed.

Lemma from_around : forall t rnd, t <> 0 -> around t (from_timeout t rnd).
Proof.
  intros t rnd H. unfold from_timeout, around.
  destruct (t =? 0) eqn:E; [apply N.eqb_eq in E; contradiction|].
  assert (D : t * 1000 / 2 = 500 * t).
  { replace (t * 1000) with ((500 * t) * 2) by lia. apply N.div_mul. lia. }
  cbv zeta. rewrite D.
  assert (P : 0 < t) by lia.
  assert (Z : 500 * t <> 0) by lia.
  pose proof (N.mod_lt rnd (500 * t) Z) as M.
  generalize dependent (rnd mod (500 * t)). clear D. intros m M. lia.
Qed.

(* Without a schedule of the application. *)
Record ok (r : retry) : Prop := {
  O_custom : custom r = false;
  O_cfg : acceptable (cfg r);
  O_cnt : cnt r < 8;
  O_delay : (delay r = 0 /\ tmo r = 0) \/ around (tmo r) (delay r) /\ tmo r <> 0 }.

Lemma nth_in_cfg : forall c k, acceptable c -> (k < length c)%nat ->
  nth k c 0 <> 0.
Proof. intros c k [_ H] K. apply H, nth_In, K. Qed.

Lemma reset_ok : forall a rnd r, custom r = false -> acceptable (cfg r) ->
  ok (rreset a rnd r) /\ cnt (rreset a rnd r) = 0
  /\ cfg (rreset a rnd r) = cfg r /\ tmo (rreset a rnd r) = nth 0 (cfg r) 0
  /\ around (tmo (rreset a rnd r)) (delay (rreset a rnd r))
  /\ nsel (rreset a rnd r) = nsel r.
Proof.
  intros a rnd r H1 H2. unfold rreset, schedule.
  change (custom (put_cnt 0 r)) with (custom r). rewrite H1.
  change (cfg (put_cnt 0 r)) with (cfg r).
  destruct (N.of_nat (length (cfg r)) <=? 0) eqn:E.
  { apply N.leb_le in E. destruct H2 as [H2 _]. lia. }
  change (N.to_nat 0) with 0%nat.
  assert (Z : nth 0 (cfg r) 0 <> 0)
    by (apply nth_in_cfg; [exact H2|destruct H2 as [H2 _]; lia]).
  pose proof (from_around _ (a_rnd a) Z) as A.
  cbv zeta. cbn [put put_cnt cnt cfg tmo delay nsel custom].
  split; [constructor; cbn; auto; lia|]. auto 10.
Qed.

Lemma inc_ok : forall a b rnd r, ok r ->
  ok (rinc a b rnd r) /\ cfg (rinc a b rnd r) = cfg r
  /\ (cnt r + 1 < N.of_nat (length (cfg r)) ->
        cnt (rinc a b rnd r) = cnt r + 1 /\ nsel (rinc a b rnd r) = nsel r)
  /\ (N.of_nat (length (cfg r)) <= cnt r + 1 ->
        cnt (rinc a b rnd r) = 0 /\ nsel (rinc a b rnd r) = S (nsel r))
  /\ tmo (rinc a b rnd r) = nth (N.to_nat (cnt (rinc a b rnd r))) (cfg r) 0
  /\ around (tmo (rinc a b rnd r)) (delay (rinc a b rnd r)).
Proof.
  intros a b rnd r [H1 H2 H3 H4]. unfold rinc.
  rewrite N.mod_small by lia. cbv zeta.
  unfold schedule. change (custom (put_cnt (cnt r + 1) r)) with (custom r).
  rewrite H1. change (cfg (put_cnt (cnt r + 1) r)) with (cfg r).
  destruct (N.of_nat (length (cfg r)) <=? cnt r + 1) eqn:E.
  - apply N.leb_le in E.
    destruct (cnt r + 1 =? 0) eqn:Z; [apply N.eqb_eq in Z; lia|].
    set (y := mkRetry (cfg r) (cnt (put_cnt (cnt r + 1) r))
      (delay (put_cnt (cnt r + 1) r)) (tmo (put_cnt (cnt r + 1) r))
      false (S (nsel (put_cnt (cnt r + 1) r)))).
    destruct (reset_ok b rnd y eq_refl H2) as (R1 & R2 & R3 & R4 & R5 & R6).
    split; [exact R1|]. split; [exact R3|]. split; [lia|].
    split; [intros _; split; [exact R2|exact R6]|].
    split; [rewrite R4, R2; reflexivity|exact R5].
  - apply N.leb_gt in E.
    assert (Z : nth (N.to_nat (cnt r + 1)) (cfg r) 0 <> 0)
      by (apply nth_in_cfg; [exact H2|lia]).
    pose proof (from_around _ (a_rnd a) Z) as A.
    cbv zeta. cbn [put put_cnt cnt cfg tmo delay nsel custom].
    split; [constructor; cbn; auto; destruct H2 as [H2 _]; lia|].
    split; [reflexivity|]. split; [auto|]. split; [lia|]. auto.
Qed.

Lemma init_ok : ok rinit.
Proof.
  constructor; try reflexivity; [|left; auto].
  split; [cbn; lia|]. intros x X. cbn in X.
  repeat destruct X as [X|X]; subst; try discriminate; destruct X.
Qed.

Lemma step_ok : forall r o, ok r -> o <> RCustom true -> ok (rstep r o).
Proof.
  intros r o H N. destruct o as [c|b|a b rnd|a rnd]; cbn [rstep].
  - destruct (fst (set_cfg c r)) eqn:E.
    + rewrite (set_cfg_kept c r E). apply set_cfg_iff in E.
      destruct H as [H1 H2 H3 H4]. constructor; auto.
    + rewrite (set_cfg_refused c r E). exact H.
  - destruct b; [congruence|]. destruct H as [H1 H2 H3 H4]. constructor; auto.
  - apply inc_ok, H.
  - destruct H as [H1 H2 H3 H4]. apply reset_ok; assumption.
Qed.

Lemma run_ok : forall l, (forall o, In o l -> o <> RCustom true) -> ok (rrun l).
Proof.
  intros l. unfold rrun. generalize init_ok. generalize rinit.
  induction l as [|o l IH]; intros r H A; [exact H|]. cbn [fold_left].
  apply IH; [apply step_ok; [exact H|apply A; left; reflexivity]|].
  intros p P. apply A. right. exact P.
Qed.

(* Values are bytes. *)
Definition small (r : retry) : Prop := bytes (cfg r) /\ tmo r <= 255.

Lemma nth_bytes : forall c k, bytes c -> nth k c 0 <= 255.
Proof.
  intros c k H. destruct (Nat.lt_ge_cases k (length c)) as [L|L].
  - apply H, nth_In, L.
  - rewrite nth_overflow by exact L. lia.
Qed.

Lemma step_small : forall r o, ok r -> o <> RCustom true -> byte_cfg o ->
  small r -> small (rstep r o).
Proof.
  intros r o H N B [S1 S2]. destruct o as [c|b|a b rnd|a rnd]; cbn [rstep].
  - destruct (fst (set_cfg c r)) eqn:E.
    + rewrite (set_cfg_kept c r E). split; [exact B|exact S2].
    + rewrite (set_cfg_refused c r E). split; assumption.
  - split; assumption.
  - destruct (inc_ok a b rnd r H) as (_ & C & _ & _ & T & _).
    split; [rewrite C; exact S1|]. rewrite T. apply nth_bytes, S1.
  - destruct H as [H1 H2 H3 H4].
    destruct (reset_ok a rnd r H1 H2) as (_ & _ & C & T & _).
    split; [rewrite C; exact S1|]. rewrite T. apply nth_bytes, S1.
Qed.

Lemma run_small : forall l, (forall o, In o l -> o <> RCustom true) ->
  (forall o, In o l -> byte_cfg o) -> small (rrun l).
Proof.
  intros l. unfold rrun.
  assert (S0 : small rinit).
  { split; [|cbn; lia]. intros x X. cbn in X.
    repeat destruct X as [X|X]; subst; try lia; destruct X. }
  revert S0. generalize init_ok. generalize rinit.
  induction l as [|o l IH]; intros r H S0 A B; [exact S0|]. cbn [fold_left].
  apply IH.
  - apply step_ok; [exact H|apply A; left; reflexivity].
  - apply step_small; auto; [apply A|apply B]; left; reflexivity.
  - intros p P. apply A. right. exact P.
  - intros p P. apply B. right. exact P.
Qed.

Lemma delay_bounds : forall l rnd, (forall o, In o l -> o <> RCustom true) ->
  (forall o, In o l -> byte_cfg o) ->
  exists d t, get_delay rnd (rrun l) = Some d /\ get_timeout (rrun l) = Some t
    /\ around t d /\ 1 <= t <= 255.
Proof.
  intros l rnd A B. pose proof (run_ok l A) as [H1 H2 H3 H4].
  pose proof (run_small l A B) as [_ S2].
  set (r := rrun l) in *. clearbody r.
  unfold get_delay, get_timeout. apply N.ltb_lt in H3. rewrite H3.
  destruct H4 as [[E1 E2]|[E1 E2]].
  - rewrite E1, E2. cbn [N.eqb]. exists (from_timeout 2 rnd), 2.
    split; [reflexivity|]. split; [reflexivity|].
    split; [apply from_around; discriminate|lia].
  - exists (delay r), (tmo r).
    destruct (delay r =? 0) eqn:Z.
    { apply N.eqb_eq in Z. unfold around in E1. lia. }
    destruct (tmo r =? 0) eqn:Y; [apply N.eqb_eq in Y; contradiction|].
    split; [reflexivity|]. split; [reflexivity|]. split; [exact E1|]. lia.
Qed.

Lemma fold_snoc : forall l o r, fold_left rstep (l ++ [o]) r
  = rstep (fold_left rstep l r) o.
Proof. intros. rewrite fold_left_app. reflexivity. Qed.

Lemma mod_div_S : forall n m : nat, (0 < m)%nat ->
  ((S (n mod m) < m)%nat -> S n mod m = S (n mod m) /\ S n / m = n / m)%nat
  /\ ((m <= S (n mod m))%nat -> S n mod m = 0 /\ S n / m = S (n / m))%nat.
Proof.
  intros n m M. pose proof (Nat.div_mod n m ltac:(lia)) as D.
  pose proof (Nat.mod_upper_bound n m ltac:(lia)) as U.
  split; intros H.
  - assert (E : (S n = m * (n / m) + S (n mod m))%nat) by lia.
    split.
    + symmetry. apply (Nat.mod_unique (S n) m (n / m)); assumption.
    + symmetry. apply (Nat.div_unique (S n) m (n / m) (S (n mod m))); assumption.
  - assert (E : (S n = m * S (n / m) + 0)%nat) by lia.
    split.
    + symmetry. apply (Nat.mod_unique (S n) m (S (n / m))); [lia|exact E].
    + symmetry. apply (Nat.div_unique (S n) m (S (n / m)) 0); [lia|exact E].
Qed.

Lemma rotation : forall n l, increments n l -> forall r, ok r -> cnt r = 0 ->
  let r' := fold_left rstep l r in let m := length (cfg r) in
  ok r' /\ cfg r' = cfg r /\ cnt r' = N.of_nat (n mod m)%nat
  /\ nsel r' = (nsel r + n / m)%nat.
Proof.
  intros n l H. induction H as [|n l a b rnd H IH]; intros r K Z; cbv zeta.
  - destruct (O_cfg _ K) as [L _]. rewrite Nat.mod_0_l, Nat.div_0_l by lia.
    cbn [fold_left]. split; [exact K|]. split; [reflexivity|]. split; [exact Z|lia].
  - rewrite fold_snoc. cbn [rstep].
    destruct (IH r K Z) as (I1 & I2 & I3 & I4).
    set (y := fold_left rstep l r) in *. clearbody y.
    destruct (inc_ok a b rnd y I1) as (J1 & J2 & J3 & J4 & _).
    rewrite I2 in *. destruct (O_cfg _ K) as [L _].
    destruct (mod_div_S n (length (cfg r)) ltac:(lia)) as [M1 M2].
    split; [exact J1|]. split; [exact J2|].
    destruct (Nat.lt_ge_cases (S (n mod length (cfg r))) (length (cfg r))) as [C|C].
    + destruct (M1 C) as [E1 E2]. destruct (J3 ltac:(lia)) as [F1 F2].
      split; [rewrite F1, I3, E1; lia|rewrite F2, I4, E2; reflexivity].
    + destruct (M2 C) as [E1 E2]. destruct (J4 ltac:(lia)) as [F1 F2].
      split; [rewrite F1, E1; reflexivity|rewrite F2, I4, E2; lia].
Qed.

(* ------------------------------------------------------------------ *)
(* Certificates *)

Lemma w64_small : forall x, x < 18446744073709551616 -> w64 x = x.
Proof. intros x H. apply N.mod_small, H. Qed.

Definition lim : N := 1125899906842624.

Lemma expiring_iff : forall limit to now, limit < 65536 -> now < lim ->
  (is_expiring limit to now = true <-> to < now + limit).
Proof.
  intros limit to now A B. unfold is_expiring, lim in *.
  rewrite w64_small by lia. apply N.ltb_lt.
Qed.

Lemma interval_bounds : forall limit to now, limit < 65536 -> to < lim ->
  now < lim -> is_expiring limit to now = false -> now + 10 <= to ->
  10000 <= interval limit to now /\ interval limit to now <= 1000 * (to - now)
  /\ 1000 * (interval limit to now / 1000) = interval limit to now.
Proof.
  intros limit to now A B C E D. unfold interval. rewrite E. unfold lim in *.
  rewrite (w64_small (now + 60)), (w64_small (now + 180)),
    (w64_small (now + 360)), (w64_small (2 * (to - now))) by lia.
  destruct (to <? now + 60) eqn:E1; [apply N.ltb_lt in E1; split; [lia|split; [lia|reflexivity]]|].
  apply N.ltb_ge in E1.
  destruct (to <? now + 180) eqn:E2; [apply N.ltb_lt in E2; split; [lia|split; [lia|reflexivity]]|].
  apply N.ltb_ge in E2.
  destruct (to <? now + 360) eqn:E3; [apply N.ltb_lt in E3; split; [lia|split; [lia|reflexivity]]|].
  apply N.ltb_ge in E3.
  pose proof (N.div_mod (2 * (to - now)) 3 ltac:(discriminate)) as Q.
  pose proof (N.mod_lt (2 * (to - now)) 3 ltac:(discriminate)) as R.
  set (q := 2 * (to - now) / 3) in *.
  set (m := (2 * (to - now)) mod 3) in *. clearbody q m.
  rewrite (w64_small (q * 1000)) by lia.
  split; [lia|]. split; [lia|].
  rewrite N.div_mul by discriminate. lia.
Qed.

Lemma rechecks_end : forall limit to, 10 <= limit < 65536 -> to < lim ->
  forall n now, now <= to -> to - now < N.of_nat n ->
  exists k last, rechecks limit to now k last /\ (k <= n)%nat
    /\ now <= last <= to /\ to < last + limit.
Proof.
  intros limit to L T. induction n as [|n IH]; intros now A B; [lia|].
  destruct (is_expiring limit to now) eqn:E.
  - exists 0%nat, now. split; [constructor; exact E|]. split; [lia|].
    apply expiring_iff in E; [lia|lia|lia].
  - assert (E' : ~ to < now + limit).
    { intros Z. apply (expiring_iff limit to now) in Z; [congruence|lia|lia]. }
    destruct (interval_bounds limit to now) as (I1 & I2 & I3);
      try assumption; try lia.
    set (w := interval limit to now / 1000) in *.
    assert (W : 10 <= w /\ w <= to - now) by lia.
    destruct (IH (now + w)) as (k & last & K1 & K2 & K3 & K4); [lia|lia|].
    exists (S k), last. split; [apply re_wait; [exact E|exact K1]|].
    split; [lia|]. split; [lia|exact K4].
Qed.

Lemma rechecks_fun : forall limit to now k last, rechecks limit to now k last ->
  forall k' last', rechecks limit to now k' last' -> k = k' /\ last = last'.
Proof.
  intros limit to now k last H. induction H as [now E|now n last E H IH];
    intros k' last' H'; inversion H'; subst; try congruence.
  - auto.
  - destruct (IH _ _ H1). subst. auto.
Qed.
