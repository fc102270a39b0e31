From Verif Require Import Common Ts_Model Ts_Spec.
From Coq Require Import ZArith Lia.
Local Open Scope Z_scope.

(** * The calendar *)
Lemma leapb_spec y : leapb y = true <-> leap y.
Proof.
  unfold leapb, leap. rewrite andb_true_iff, orb_true_iff, negb_true_iff, !Z.eqb_eq, Z.eqb_neq. tauto.
Qed.
Lemma leap_year_eq y : 0 <= y -> leap_year y = leapb y.
Proof. intros H. unfold leap_year, leapb. change 3 with (Z.ones 2). rewrite Z.land_ones by lia. reflexivity. Qed.

Definition yearly (y : Z) : Z := 1461 * y / 4 - y / 100 + y / 400.
Lemma yearly_step y : yearly (y + 1) = yearly y + 365 + (if leapb (y + 1) then 1 else 0).
Proof.
  unfold yearly, leapb.
  assert (H4 : 1461 * y / 4 = 365 * y + y / 4) by (replace (1461 * y) with (y + 365 * y * 4) by lia; rewrite Z.div_add by lia; lia).
  assert (H4' : 1461 * (y + 1) / 4 = 365 * (y + 1) + (y + 1) / 4)
    by (replace (1461 * (y + 1)) with (y + 1 + 365 * (y + 1) * 4) by lia; rewrite Z.div_add by lia; lia).
  rewrite H4, H4'. clear H4 H4'.
  destruct (Z.eqb_spec ((y + 1) mod 4) 0), (Z.eqb_spec ((y + 1) mod 100) 0), (Z.eqb_spec ((y + 1) mod 400) 0); cbn [andb orb negb];
    Z.to_euclidean_division_equations; lia.
Qed.

Lemma months m : 1 <= m <= 12 -> m = 1 \/ m = 2 \/ m = 3 \/ m = 4 \/ m = 5 \/ m = 6 \/ m = 7 \/ m = 8 \/ m = 9 \/ m = 10 \/ m = 11 \/ m = 12.
Proof. lia. Qed.

Lemma rdn_yearly y m d : rdn_of y m d = yearly (if m <? 3 then y - 1 else y) + day_offset m + d - 306.
Proof. reflexivity. Qed.

Ltac consts :=
  repeat match goal with
  | |- context [Z.pos ?p + 1] => let v := eval vm_compute in (Z.pos p + 1) in change (Z.pos p + 1) with v
  | |- context [day_offset (Z.pos ?p)] => let v := eval vm_compute in (day_offset (Z.pos p)) in change (day_offset (Z.pos p)) with v
  | |- context [Z.pos ?p <? Z.pos ?q] => let v := eval vm_compute in (Z.pos p <? Z.pos q) in change (Z.pos p <? Z.pos q) with v
  | |- context [Z.pos ?p =? Z.pos ?q] => let v := eval vm_compute in (Z.pos p =? Z.pos q) in change (Z.pos p =? Z.pos q) with v
  end; cbn [orb andb]; cbv iota.

Definition rdn_date (x : date) : Z := let '(y, m, d) := x in rdn_of y m d.
Lemma rdn_tomorrow x : real x -> rdn_date (tomorrow x) = rdn_date x + 1.
Proof.
  destruct x as [[y m] d]. intros (Hm & Hd). unfold tomorrow. destruct (Z.ltb_spec d (last_day y m)) as [H|H].
  { unfold rdn_date. rewrite !rdn_yearly. lia. }
  assert (E : d = last_day y m) by lia. subst d. clear H Hd.
  pose proof (yearly_step (y - 1)) as Hs. replace (y - 1 + 1) with y in Hs by lia.
  destruct (months m Hm) as [->|[->|[->|[->|[->|[->|[->|[->|[->|[->|[->| ->]]]]]]]]]]];
    unfold last_day, rdn_date; consts; rewrite ?rdn_yearly; consts; try (replace (y + 1 - 1) with y by lia); try destruct (leapb y); lia.
Qed.

Lemma last_day_range y m : 28 <= last_day y m <= 31.
Proof. unfold last_day. destruct (m =? 2); [destruct (leapb y); lia|]. destruct (_ || _); lia. Qed.
Lemma real_tomorrow x : real x -> real (tomorrow x).
Proof.
  destruct x as [[y m] d]. intros (Hm & Hd). unfold tomorrow. destruct (Z.ltb_spec d (last_day y m)); [unfold real; lia|].
  destruct (Z.ltb_spec m 12); unfold real.
  - pose proof (last_day_range y (m + 1)). lia.
  - pose proof (last_day_range (y + 1) 1). lia.
Qed.
Lemma proper_tomorrow x : proper x -> proper (tomorrow x).
Proof.
  intros [Hy Hr]. split; [|apply real_tomorrow; exact Hr]. destruct x as [[y m] d]. cbn [fst] in Hy. unfold tomorrow.
  destruct (d <? last_day y m); [exact Hy|]. destruct (m <? 12); cbn [fst]; lia.
Qed.

(** the inverse, without the bound of 32 bits *)
Definition ymd (rdn : Z) : date :=
  let z := rdn + 306 in
  let h := 100 * z - 25 in
  let a := h / 3652425 in
  let b := a - Z.shiftr a 2 in
  let y := (100 * b + h) / 36525 in
  let d := b + z - Z.shiftr (1461 * y) 2 in
  let m := Z.shiftr (535 * d + 48950) 14 in
  if 12 <? m then (y + 1, m - 12, d - day_offset (m - 12)) else (y, m, d - day_offset m).
Lemma ymd_u32 n : 0 <= n <= 42949366 -> rdn_to_ymd n = ymd n.
Proof. intros H. unfold rdn_to_ymd, ymd, u32. rewrite Z.mod_small by (change (2 ^ 32) with 4294967296; lia). reflexivity. Qed.

Definition shift400 (x : date) : date := let '(y, m, d) := x in (y + 400, m, d).
Lemma ymd_period n : ymd (n + 146097) = shift400 (ymd n).
Proof.
  unfold ymd. rewrite !Z.shiftr_div_pow2 by lia. change (2 ^ 2) with 4. change (2 ^ 14) with 16384.
  set (h := 100 * (n + 306) - 25). replace (100 * (n + 146097 + 306) - 25) with (h + 4 * 3652425) by (unfold h; lia).
  rewrite Z.div_add by lia. set (a := h / 3652425).
  assert (Ha : (a + 4) / 4 = a / 4 + 1) by (replace (a + 4) with (a + 1 * 4) by lia; rewrite Z.div_add by lia; reflexivity).
  rewrite Ha. clear Ha.
  set (b := a - a / 4). replace (a + 4 - (a / 4 + 1)) with (b + 3) by (unfold b; lia).
  replace (100 * (b + 3) + (h + 4 * 3652425)) with (100 * b + h + 400 * 36525) by lia. rewrite Z.div_add by lia.
  set (y := (100 * b + h) / 36525).
  replace (1461 * (y + 400)) with (1461 * y + 146100 * 4) by lia. rewrite Z.div_add by lia.
  replace (b + 3 + (n + 146097 + 306) - (1461 * y / 4 + 146100)) with (b + (n + 306) - 1461 * y / 4) by lia.
  set (d := b + (n + 306) - 1461 * y / 4). set (m := (535 * d + 48950) / 16384).
  destruct (12 <? m); cbn [shift400]; [|reflexivity]. f_equal. f_equal. lia.
Qed.
Lemma leapb_400 y : leapb (y + 400) = leapb y.
Proof.
  unfold leapb. replace (y + 400) with (y + 100 * 4) at 1 by lia. rewrite Z.mod_add by lia.
  replace (y + 400) with (y + 4 * 100) at 1 by lia. rewrite Z.mod_add by lia.
  replace (y + 400) with (y + 1 * 400) by lia. rewrite Z.mod_add by lia. reflexivity.
Qed.
Lemma tomorrow_400 x : tomorrow (shift400 x) = shift400 (tomorrow x).
Proof.
  destruct x as [[y m] d]. unfold tomorrow, shift400, last_day. rewrite leapb_400.
  match goal with |- context [if ?c then (y + 400, m, d + 1) else _] => destruct c end; [reflexivity|].
  destruct (m <? 12); [reflexivity|]. f_equal. f_equal. lia.
Qed.

Definition date_eqb (a b : date) : bool :=
  let '(y, m, d) := a in let '(y', m', d') := b in (y =? y') && (m =? m') && (d =? d').
Lemma date_eqb_spec a b : date_eqb a b = true -> a = b.
Proof.
  destruct a as [[y m] d], b as [[y' m'] d']. unfold date_eqb. rewrite !andb_true_iff, !Z.eqb_eq. intros [[-> ->] ->]. reflexivity.
Qed.

Definition sweep (P : Z -> bool) (k : N) : bool * Z := N.iter k (fun s => (fst s && P (snd s), snd s + 1)) (true, 0).
Lemma sweep_spec P k : snd (sweep P k) = Z.of_N k /\ (fst (sweep P k) = true -> forall n, 0 <= n < Z.of_N k -> P n = true).
Proof.
  induction k as [|k [IH1 IH2]] using N.peano_ind.
  - split; [reflexivity|]. intros _ n Hn. change (Z.of_N 0) with 0 in Hn. lia.
  - unfold sweep in *. rewrite N.iter_succ. cbn [fst snd]. split; [lia|]. intros H n Hn. apply andb_true_iff in H as [H1 H2].
    destruct (Z.eq_dec n (Z.of_N k)) as [->|]; [rewrite IH1 in H2; exact H2|]. apply IH2; [exact H1|lia].
Qed.

Lemma ymd_step n : 0 <= n -> ymd (n + 1) = tomorrow (ymd n).
Proof.
  assert (H : forall n, 0 <= n < 146097 -> ymd (n + 1) = tomorrow (ymd n)).
  { assert (H : fst (sweep (fun n => date_eqb (ymd (n + 1)) (tomorrow (ymd n))) 146097) = true) by (vm_compute; reflexivity).
    intros k Hk. apply date_eqb_spec. apply (proj2 (sweep_spec (fun n => date_eqb (ymd (n + 1)) (tomorrow (ymd n))) 146097) H). exact Hk. }
  intros Hn. rewrite (Z.div_mod n 146097) by lia. set (q := n / 146097). assert (Hq : 0 <= q) by (apply Z.div_pos; lia).
  set (r := n mod 146097). assert (Hr : 0 <= r < 146097) by (apply Z.mod_pos_bound; lia).
  revert Hq. generalize q. apply (natlike_ind (fun q => ymd (146097 * q + r + 1) = tomorrow (ymd (146097 * q + r)))).
  - rewrite Z.mul_0_r. apply H. exact Hr.
  - intros x Hx IH. replace (146097 * Z.succ x + r + 1) with (146097 * x + r + 1 + 146097) by lia.
    replace (146097 * Z.succ x + r) with (146097 * x + r + 146097) by lia. rewrite !ymd_period, tomorrow_400, IH. reflexivity.
Qed.

(** yesterday *)
Lemma yesterday x : real x -> exists w, real w /\ tomorrow w = x.
Proof.
  destruct x as [[y m] d]. intros [Hm Hd]. destruct (Z.eq_dec d 1) as [->|Hd1].
  - destruct (Z.eq_dec m 1) as [->|Hm1].
    + exists (y - 1, 12, 31). split; [unfold real, last_day; cbn; lia|]. unfold tomorrow, last_day. cbn. f_equal. f_equal. lia.
    + exists (y, m - 1, last_day y (m - 1)). pose proof (last_day_range y (m - 1)). split; [unfold real; lia|].
      unfold tomorrow. rewrite Z.ltb_irrefl. destruct (Z.ltb_spec (m - 1) 12); [|lia]. f_equal. f_equal. lia.
  - exists (y, m, d - 1). split; [unfold real; lia|]. unfold tomorrow. destruct (Z.ltb_spec (d - 1) (last_day y m)); [|lia]. f_equal. lia.
Qed.

Lemma rdn_positive x : proper x -> 1 <= rdn_date x.
Proof.
  destruct x as [[y m] d]. intros [Hy [Hm Hd]]. cbn [fst] in Hy. unfold rdn_date. rewrite rdn_yearly.
  assert (Hy1 : forall k, 0 <= k -> 0 <= yearly k /\ (1 <= k -> 365 <= yearly k)).
  { intros k Hk. unfold yearly. assert (1461 * k / 4 = 365 * k + k / 4) as -> by (replace (1461 * k) with (k + 365 * k * 4) by lia; rewrite Z.div_add by lia; lia).
    pose proof (Z.div_pos k 400 Hk). pose proof (Z.div_pos k 4 Hk). assert (k / 100 <= k) by (apply Z.div_le_upper_bound; lia). lia. }
  destruct (months m Hm) as [->|[->|[->|[->|[->|[->|[->|[->|[->|[->|[->| ->]]]]]]]]]]]; consts;
    try (pose proof (Hy1 (y - 1) ltac:(lia))); pose proof (Hy1 y ltac:(lia)); lia.
Qed.

Lemma ymd_rdn_nat k : forall x, proper x -> rdn_date x = Z.of_nat k -> ymd (rdn_date x) = x.
Proof.
  induction k as [|k IH]; intros x Hx E; [pose proof (rdn_positive x Hx); lia|].
  destruct (yesterday x (proj2 Hx)) as (w & Hw & <-). rewrite rdn_tomorrow in * by exact Hw.
  destruct (Z_le_gt_dec 1 (fst (fst w))) as [Hy|Hy].
  - assert (Hp : proper w) by (split; assumption). rewrite ymd_step by (pose proof (rdn_positive w Hp); lia). rewrite IH; [reflexivity|exact Hp|lia].
  - (* the first day *)
    destruct Hx as [Hx _]. destruct w as [[y m] d]. destruct Hw as [Hm Hd]. cbn [fst] in Hy. unfold tomorrow in *.
    destruct (Z.ltb_spec d (last_day y m)) as [|Hd2]; [cbn [fst] in Hx; lia|]. destruct (Z.ltb_spec m 12); [cbn [fst] in Hx; lia|]. cbn [fst] in Hx.
    assert (y = 0) by lia. assert (m = 12) by lia. subst y m. change (last_day 0 12) with 31 in *. assert (d = 31) by lia. subst d. reflexivity.
Qed.
Lemma ymd_rdn x : proper x -> ymd (rdn_date x) = x.
Proof.
  intros H. apply (ymd_rdn_nat (Z.to_nat (rdn_date x))); [exact H|]. pose proof (rdn_positive x H). lia.
Qed.

Lemma ymd_0 : ymd 0 = (0, 12, 31). Proof. reflexivity. Qed.
Lemma ymd_1 : ymd 1 = (1, 1, 1). Proof. reflexivity. Qed.
Lemma ymd_proper n : 1 <= n -> proper (ymd n) /\ rdn_date (ymd n) = n.
Proof.
  intros H. replace n with (Z.of_nat (Z.to_nat (n - 1)) + 1) by lia. induction (Z.to_nat (n - 1)) as [|k [IH1 IH2]].
  - change (Z.of_nat 0 + 1) with 1. rewrite ymd_1. split; [|reflexivity]. unfold proper, real, last_day. cbn. lia.
  - rewrite Nat2Z.inj_succ. unfold Z.succ. rewrite ymd_step by lia. split; [apply proper_tomorrow; exact IH1|].
    rewrite rdn_tomorrow by apply IH1. rewrite IH2. reflexivity.
Qed.

(** * Counting days *)
Lemma later_rdn a n b : later a n b -> real a -> real b /\ rdn_date b = rdn_date a + n /\ 0 <= n.
Proof.
  induction 1 as [a|a n b H IH]; intros Ha; [repeat split; try assumption; lia|].
  destruct (IH Ha) as (H1 & H2 & H3). split; [apply real_tomorrow; exact H1|]. rewrite rdn_tomorrow by exact H1. lia.
Qed.
Lemma later_proper a n b : later a n b -> proper a -> proper b.
Proof. induction 1 as [a|a n b H IH]; intros Ha; [exact Ha|]. apply proper_tomorrow, IH, Ha. Qed.
Lemma later_total a n : 0 <= n -> exists b, later a n b.
Proof.
  intros H. replace n with (Z.of_nat (Z.to_nat n)) by lia. induction (Z.to_nat n) as [|k [b IH]].
  - exists a. constructor.
  - exists (tomorrow b). rewrite Nat2Z.inj_succ. unfold Z.succ. constructor. exact IH.
Qed.
Lemma proper_epoch : proper epoch.
Proof. unfold proper, real, last_day. cbn. lia. Qed.
Lemma rdn_inj a b : proper a -> proper b -> rdn_date a = rdn_date b -> a = b.
Proof. intros Ha Hb H. rewrite <- (ymd_rdn a Ha), <- (ymd_rdn b Hb), H. reflexivity. Qed.

Lemma day_count_rdn x k : proper x -> (day_count x k <-> rdn_date x = 719163 + k).
Proof.
  intros Hx. assert (He : rdn_date epoch = 719163) by reflexivity. split.
  - intros [H|H].
    + apply later_rdn in H; [lia|apply proper_epoch].
    + apply later_rdn in H; [lia|apply Hx].
  - intros H. destruct (Z_le_gt_dec 0 k) as [Hk|Hk].
    + left. destruct (later_total epoch k Hk) as [b Hb]. pose proof (later_proper _ _ _ Hb proper_epoch) as Hp.
      pose proof (later_rdn _ _ _ Hb (proj2 proper_epoch)) as (_ & E & _). replace x with b; [exact Hb|]. apply rdn_inj; try assumption. lia.
    + right. destruct (later_total x (- k) ltac:(lia)) as [b Hb]. pose proof (later_proper _ _ _ Hb Hx) as Hp.
      pose proof (later_rdn _ _ _ Hb (proj2 Hx)) as (_ & E & _). replace epoch with b; [exact Hb|]. apply rdn_inj; [exact Hp|exact proper_epoch|lia].
Qed.
