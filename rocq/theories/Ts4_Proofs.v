From Verif Require Import Common Ts_Model Ts_Spec Ts_Proofs Ts2_Proofs Ts3_Proofs.
From Coq Require Import ZArith Lia.
Local Open Scope Z_scope.

(** * Valid time stamps *)
Lemma day_offset_range m : 1 <= m <= 12 -> 0 <= day_offset m <= 337.
Proof. intros H. destruct (months m H) as [->|D]; [vm_compute; split; discriminate|]. repeat (destruct D as [->|D]; [vm_compute; split; discriminate|]). subst m; vm_compute; split; discriminate. Qed.
Lemma year_bound x : proper x -> (rdn_date x <= 3652059 <-> four_digits x).
Proof.
  destruct x as [[y m] d]. unfold proper, real, four_digits. cbn [fst]. intros [Hy [Hm Hd]]. unfold rdn_date. cbn [fst snd]. rewrite rdn_yearly.
  pose proof (last_day_range y m). unfold yearly.
  destruct (Z.ltb_spec m 3) as [L|L].
  - assert (O : day_offset m = 306 /\ m = 1 \/ day_offset m = 337 /\ m = 2) by (assert (m = 1 \/ m = 2) as [-> | ->] by lia; [left|right]; split; reflexivity).
    assert (B : m = 2 -> d <= 29) by (intros ->; unfold last_day in Hd; change (2 =? 2) with true in Hd; cbv iota in Hd; destruct (leapb y); lia).
    Z.to_euclidean_division_equations. lia.
  - assert (O : day_offset m + d <= 306).
    { clear H. revert Hd. unfold last_day. assert (m = 3 \/ m = 4 \/ m = 5 \/ m = 6 \/ m = 7 \/ m = 8 \/ m = 9 \/ m = 10 \/ m = 11 \/ m = 12) as D by lia.
      repeat (destruct D as [->|D]; [consts; lia|]). subst m; consts; lia. }
    pose proof (day_offset_range m Hm). Z.to_euclidean_division_equations. lia.
Qed.
Lemma valid_day t : timestamp_valid t = true ->
  let n := (t_sec t + t_off t * 60) / 86400 + 719163 in 1 <= n <= 3652059 /\ 0 <= t_nsec t < 10 ^ 9 /\ -1440 < t_off t < 1440.
Proof.
  unfold timestamp_valid. cbv zeta. set (sec := t_sec t + t_off t * 60). change (10 ^ 9) with 1000000000.
  destruct (Z.ltb_spec sec (-62135596800)); [discriminate|]. destruct (Z.ltb_spec 253402300799 sec); [discriminate|].
  destruct (Z.ltb_spec (t_nsec t) 0); [discriminate|]. destruct (Z.ltb_spec 999999999 (t_nsec t)); [discriminate|].
  destruct (Z.ltb_spec (t_off t) (-1439)); [discriminate|]. destruct (Z.ltb_spec 1439 (t_off t)); [discriminate|]. intros _.
  split; [|lia]. Z.to_euclidean_division_equations. lia.
Qed.
Lemma valid_iff t : timestamp_valid t = true <-> representable t.
Proof.
  split.
  - intros H. destruct (valid_day t H) as (Hn & Hs & Ho). cbv zeta in Hn. set (sec := t_sec t + t_off t * 60) in *.
    split; [|split; assumption]. destruct (ymd_proper (sec / 86400 + 719163) ltac:(lia)) as [P R].
    exists (ymd (sec / 86400 + 719163)), (sec / 86400), (sec mod 86400). split; [exact P|]. split; [apply year_bound; [exact P|lia]|].
    split; [apply day_count_rdn; [exact P|lia]|]. split; [apply Z.mod_pos_bound; lia|]. fold sec. pose proof (Z.div_mod sec 86400). lia.
  - intros ((x & k & s & P & F & D & Hs & E) & Hn & Ho). apply day_count_rdn in D; [|exact P]. apply year_bound in F; [|exact P]. pose proof (rdn_positive x P).
    unfold timestamp_valid. cbv zeta. rewrite E. change (10 ^ 9) with 1000000000 in Hn.
    destruct (Z.ltb_spec (k * 86400 + s) (-62135596800)); [lia|]. destruct (Z.ltb_spec 253402300799 (k * 86400 + s)); [lia|].
    destruct (Z.ltb_spec (t_nsec t) 0); [lia|]. destruct (Z.ltb_spec 999999999 (t_nsec t)); [lia|].
    destruct (Z.ltb_spec (t_off t) (-1439)); [lia|]. destruct (Z.ltb_spec 1439 (t_off t)); [lia|]. reflexivity.
Qed.
Lemma fraction_range f n : written_fraction f n -> 0 <= n < 10 ^ 9.
Proof.
  intros [|w v Hw Hv]; [lia|]. assert (P : 10 ^ Z.of_nat w * 10 ^ (9 - Z.of_nat w) = 10 ^ 9) by (rewrite <- Z.pow_add_r by lia; f_equal; lia).
  assert (0 < 10 ^ (9 - Z.of_nat w)) by (apply Z.pow_pos_nonneg; lia). rewrite <- P. split; [nia|apply Z.mul_lt_mono_pos_r; lia].
Qed.
Lemma written_valid s t : written s t -> representable t.
Proof.
  intros [y m d sep h mi x frac nsec z off k P Hy Hs Hh Hmi Hx F W D]. split; [|split].
  - exists (y, m, d), k, (h * 3600 + mi * 60 + x). cbn [t_sec t_off]. repeat split; try assumption; try apply P; try lia.
  - exact (fraction_range _ _ F).
  - cbn [t_off]. destruct W; lia.
Qed.

(** * Formatting *)
Lemma sixty v : 0 <= v -> num 2 (v mod 60) = [Z.to_N (48 + v / 10 mod 6); Z.to_N (48 + v mod 10)] /\ v / 10 / 6 = v / 60.
Proof.
  intros H. rewrite num2. split; [|rewrite Z.div_div by lia; reflexivity].
  assert (E1 : v mod 60 / 10 mod 10 = v / 10 mod 6) by (Z.to_euclidean_division_equations; lia).
  assert (E2 : v mod 60 mod 10 = v mod 10) by (Z.to_euclidean_division_equations; lia). rewrite E1, E2. reflexivity.
Qed.
Definition zone_text (off : Z) : list N :=
  if off =? 0 then [90%N]
  else let v := if off <? 0 then - off else off in
    let q5 := chr (v mod 10) in let v := v / 10 in
    let q4 := chr (v mod 6) in let v := v / 6 in
    let q2 := chr (v mod 10) in let v := v / 10 in
    let q1 := chr (v mod 10) in
    [if (off <? 0)%Z then 45 else 43; q1; q2; 58; q4; q5]%N.
Lemma zone_text_written off : -1440 < off < 1440 -> written_offset (zone_text off) off.
Proof.
  intros H. unfold zone_text. destruct (Z.eqb_spec off 0) as [->|Hne]; [constructor; auto|]. cbv zeta.
  set (v := if off <? 0 then - off else off). assert (Hv : 0 < v < 1440) by (unfold v; destruct (Z.ltb_spec off 0); lia).
  destruct (sixty v) as [E1 E2]; [lia|]. rewrite E2. unfold chr.
  assert (Hh : 0 <= v / 60 <= 23) by (Z.to_euclidean_division_equations; lia). assert (Hm : 0 <= v mod 60 <= 59) by (Z.to_euclidean_division_equations; lia).
  assert (Ev : v / 60 * 60 + v mod 60 = v) by (pose proof (Z.div_mod v 60); lia).
  destruct (Z.ltb_spec off 0) as [L|L].
  - replace off with (- (v / 60 * 60 + v mod 60)) at 1 by (rewrite Ev; unfold v; lia).
    pose proof (behind (v / 60) (v mod 60) Hh Hm) as W. rewrite E1, num2 in W. exact W.
  - replace off with (v / 60 * 60 + v mod 60) at 1 by (rewrite Ev; unfold v; lia).
    pose proof (ahead (v / 60) (v mod 60) Hh Hm) as W. rewrite E1, num2 in W. exact W.
Qed.
Lemma zone_text_length off : List.length (zone_text off) = if (off =? 0)%Z then 1%nat else 6%nat.
Proof. unfold zone_text. destruct (off =? 0); reflexivity. Qed.
Definition frac_text (precision : nat) (nsec : Z) : list N :=
  if Nat.eqb precision 0 then [] else 46%N :: digits precision (nsec / pow10 (9 - precision)).
Lemma frac_text_written p nsec : (p <= 9)%nat -> 0 <= nsec < 10 ^ 9 ->
  written_fraction (frac_text p nsec) (nsec - nsec mod 10 ^ (9 - Z.of_nat p)).
Proof.
  intros Hp Hn. unfold frac_text. destruct p as [|p].
  - cbn [Nat.eqb]. change (9 - Z.of_nat 0) with 9. rewrite Z.mod_small by exact Hn. rewrite Z.sub_diag. constructor.
  - set (w := S p) in *. change (Nat.eqb w 0) with false. cbv iota. rewrite digits_num, pow10_spec by lia. replace (Z.of_nat (9 - w)) with (9 - Z.of_nat w) by lia.
    assert (Q : 0 < 10 ^ (9 - Z.of_nat w)) by (apply Z.pow_pos_nonneg; lia).
    replace (nsec - nsec mod 10 ^ (9 - Z.of_nat w)) with (nsec / 10 ^ (9 - Z.of_nat w) * 10 ^ (9 - Z.of_nat w)) by (pose proof (Z.div_mod nsec (10 ^ (9 - Z.of_nat w))); lia).
    constructor; [unfold w; lia|]. split; [apply Z.div_pos; lia|]. apply Z.div_lt_upper_bound; [exact Q|].
    rewrite <- Z.pow_add_r by lia. replace (9 - Z.of_nat w + Z.of_nat w) with 9 by lia. lia.
Qed.
Lemma frac_text_length p nsec : List.length (frac_text p nsec) = if Nat.eqb p 0 then 0%nat else S p.
Proof. unfold frac_text. destruct (Nat.eqb p 0); [reflexivity|]. cbn [List.length]. rewrite digits_num, num_length. reflexivity. Qed.

Definition head_text (y m d v : Z) : list N :=
  [chr (y / 10 / 10 / 10 mod 10); chr (y / 10 / 10 mod 10); chr (y / 10 mod 10); chr (y mod 10); 45;
   chr (m / 10 mod 10); chr (m mod 10); 45; chr (d / 10 mod 10); chr (d mod 10); 84;
   chr (v / 10 / 6 / 10 / 6 / 10 mod 10); chr (v / 10 / 6 / 10 / 6 mod 10); 58;
   chr (v / 10 / 6 / 10 mod 6); chr (v / 10 / 6 mod 10); 58; chr (v / 10 mod 6); chr (v mod 10)]%N.
Lemma format_shape len t p : format_internal len t p =
  let sec := t_sec t + t_off t * 60 + 62135683200 in
  if Nat.leb len (20 + (if (t_off t =? 0)%Z then 0 else 5) + (if Nat.eqb p 0 then 0 else 1 + p))%nat then None else
  let '(y, m, d) := rdn_to_ymd (u32 (Z.quot sec 86400)) in
  Some (head_text y m d (u32 (Z.rem sec 86400)) ++ frac_text p (t_nsec t) ++ zone_text (t_off t)).
Proof. unfold format_internal. cbv zeta. destruct (Nat.leb len _); [reflexivity|]. destruct (rdn_to_ymd _) as [[y m] d]. reflexivity. Qed.
Lemma head_text_num y m d v : 0 <= v -> head_text y m d v =
  num 4 y ++ 45%N :: num 2 m ++ 45%N :: num 2 d ++ 84%N :: num 2 (v / 3600) ++ 58%N :: num 2 (v / 60 mod 60) ++ 58%N :: num 2 (v mod 60).
Proof.
  intros Hv. assert (H60 : 0 <= v / 60) by (apply Z.div_pos; lia). destruct (sixty v Hv) as [E1 E2]. destruct (sixty (v / 60) H60) as [E3 E4].
  rewrite E1, E3, num4, !num2. unfold head_text. rewrite E2, E4, (Z.div_div v 60 60) by lia. change (60 * 60) with 3600. reflexivity.
Qed.

Lemma format_written t p : timestamp_valid t = true -> (p <= 9)%nat ->
  exists text, written text (cut (Z.of_nat p) t) /\ forall len, format_internal len t p = if Nat.ltb (List.length text) len then Some text else None.
Proof.
  intros H Hp. destruct (valid_day t H) as (Hn & Hs & Ho). cbv zeta in Hn. set (sec := t_sec t + t_off t * 60) in *.
  set (n := sec / 86400 + 719163) in *. set (s := sec mod 86400).
  assert (E : sec + 62135683200 = n * 86400 + s) by (unfold n, s; pose proof (Z.div_mod sec 86400); lia).
  assert (Hs2 : 0 <= s < 86400) by (apply Z.mod_pos_bound; lia).
  destruct (ymd_proper n ltac:(lia)) as [P R]. destruct (ymd n) as [[y m] d] eqn:Ey.
  exists (head_text y m d s ++ frac_text p (t_nsec t) ++ zone_text (t_off t)). split.
  - rewrite head_text_num by lia. rewrite <- !app_assoc. cbn [app]. rewrite <- !app_assoc. cbn [app].
    assert (F : four_digits (y, m, d)) by (apply year_bound; [exact P|lia]). unfold four_digits in F. cbn [fst] in F.
    assert (D : day_count (y, m, d) (n - 719163)) by (apply day_count_rdn; [exact P|lia]).
    assert (H24 : 0 <= s / 3600 <= 23) by (Z.to_euclidean_division_equations; lia).
    pose proof (Z.mod_pos_bound (s / 60) 60). pose proof (Z.mod_pos_bound s 60).
    pose proof (w_text y m d 84%N (s / 3600) (s / 60 mod 60) (s mod 60) (frac_text p (t_nsec t)) (t_nsec t - t_nsec t mod 10 ^ (9 - Z.of_nat p)) (zone_text (t_off t)) (t_off t)
      (n - 719163) P F ltac:(cbn; auto) H24 ltac:(lia) ltac:(lia) (frac_text_written p _ Hp Hs) (zone_text_written _ Ho) D) as W.
    unfold cut. replace (t_sec t) with ((n - 719163) * 86400 + s / 3600 * 3600 + s / 60 mod 60 * 60 + s mod 60 - t_off t * 60); [exact W|].
    assert (s / 3600 * 3600 + s / 60 mod 60 * 60 + s mod 60 = s) by (Z.to_euclidean_division_equations; lia). unfold sec in E. lia.
  - intros len. rewrite format_shape. cbv zeta. fold sec. rewrite E.
    assert (L : List.length (head_text y m d s ++ frac_text p (t_nsec t) ++ zone_text (t_off t)) = (20 + (if (t_off t =? 0)%Z then 0 else 5) + (if Nat.eqb p 0 then 0 else 1 + p))%nat).
    { rewrite !app_length, frac_text_length, zone_text_length. change (List.length (head_text y m d s)) with 19%nat. destruct (t_off t =? 0); destruct (Nat.eqb p 0); lia. }
    rewrite L. assert (Q : Z.quot (n * 86400 + s) 86400 = n /\ Z.rem (n * 86400 + s) 86400 = s).
    { split; [rewrite Z.quot_div_nonneg by lia|rewrite Z.rem_mod_nonneg by lia]; rewrite Z.add_comm; [rewrite Z.div_add, Z.div_small by lia; lia|rewrite Z.mod_add, Z.mod_small by lia; lia]. }
    destruct Q as [-> ->]. rewrite (u32_small n), (u32_small s) by lia. rewrite ymd_u32 by lia. rewrite Ey.
    set (dl := (20 + _ + _)%nat). destruct (Nat.leb_spec len dl); destruct (Nat.ltb_spec dl len); try lia; reflexivity.
Qed.

Lemma cut_same p t : t_nsec t mod 10 ^ (9 - p) = 0 -> cut p t = t.
Proof. intros H. unfold cut. rewrite H, Z.sub_0_r. destruct t; reflexivity. Qed.
Lemma format_best t : timestamp_valid t = true ->
  exists text, written text t /\ forall len, timestamp_format len t = if Nat.ltb (List.length text) len then Some text else None.
Proof.
  intros H. unfold timestamp_format. rewrite H. cbn [negb].
  set (p := if t_nsec t =? 0 then 0%nat else if t_nsec t mod 1000000 =? 0 then 3%nat else if t_nsec t mod 1000 =? 0 then 6%nat else 9%nat).
  assert (Hp : (p <= 9)%nat) by (unfold p; destruct (t_nsec t =? 0); [lia|]; destruct (t_nsec t mod 1000000 =? 0); [lia|]; destruct (t_nsec t mod 1000 =? 0); lia).
  destruct (format_written t p H Hp) as (text & W & F). exists text. split; [|exact F]. rewrite cut_same in W; [exact W|].
  unfold p. destruct (Z.eqb_spec (t_nsec t) 0) as [->|_]; [reflexivity|].
  destruct (Z.eqb_spec (t_nsec t mod 1000000) 0) as [E|_]; [exact E|]. destruct (Z.eqb_spec (t_nsec t mod 1000) 0) as [E|_]; [exact E|]. apply Z.mod_1_r.
Qed.

(** * Comparison *)
Lemma compare_instant a b : 0 <= t_nsec a < 10 ^ 9 -> 0 <= t_nsec b < 10 ^ 9 ->
  timestamp_compare a b = match instant a ?= instant b with Lt => -1 | Eq => 0 | Gt => 1 end.
Proof.
  intros Ha Hb. unfold timestamp_compare, instant. change (10 ^ 9) with 1000000000 in *.
  destruct (Z.ltb_spec (t_sec a) (t_sec b)); [destruct (Z.compare_spec (t_sec a * 1000000000 + t_nsec a) (t_sec b * 1000000000 + t_nsec b)); lia|].
  destruct (Z.ltb_spec (t_sec b) (t_sec a)); [destruct (Z.compare_spec (t_sec a * 1000000000 + t_nsec a) (t_sec b * 1000000000 + t_nsec b)); lia|].
  destruct (Z.ltb_spec (t_nsec a) (t_nsec b)); [destruct (Z.compare_spec (t_sec a * 1000000000 + t_nsec a) (t_sec b * 1000000000 + t_nsec b)); lia|].
  destruct (Z.ltb_spec (t_nsec b) (t_nsec a)); destruct (Z.compare_spec (t_sec a * 1000000000 + t_nsec a) (t_sec b * 1000000000 + t_nsec b)); lia.
Qed.

(** * The clock *)
Lemma clock_floor hz t : 0 < hz -> 0 <= t_nsec t -> t_sec t * hz + t_nsec t * hz / 1000000000 = instant t * hz / 10 ^ 9.
Proof.
  intros Hh Hn. unfold instant. change (10 ^ 9) with 1000000000. replace ((t_sec t * 1000000000 + t_nsec t) * hz) with (t_nsec t * hz + t_sec t * hz * 1000000000) by ring.
  rewrite Z.div_add by lia. lia.
Qed.
Lemma clock_parse_written hz s t : 0 < hz -> written s t -> clock_parse hz s = Some (instant t * hz / 10 ^ 9 mod 2 ^ 64).
Proof.
  intros Hh W. unfold clock_parse, clock_from_timespec. rewrite (written_parse s t W). f_equal. f_equal. apply clock_floor; [exact Hh|].
  destruct (written_valid s t W) as (_ & Hn & _). lia.
Qed.
Lemma clock_roundtrip hz time : 0 < hz -> (hz | 10 ^ 9) -> 0 <= time < 2 ^ 64 -> time / hz <= 253402300799 ->
  exists text t, written text t /\ instant t * hz = time * 10 ^ 9 /\ t_off t = 0 /\
    (forall len, clock_encode hz time len = if Nat.ltb (List.length text) len then Some text else None) /\ clock_parse hz text = Some time.
Proof.
  intros Hh [q Hq] Ht Hmax. set (t := mk_ts (time / hz) (time mod hz * 1000000000 / hz) 0).
  assert (M : 0 <= time mod hz < hz) by (apply Z.mod_pos_bound; lia). assert (0 <= time / hz) by (apply Z.div_pos; lia).
  assert (N1 : time mod hz * 1000000000 / hz = time mod hz * q).
  { change 1000000000 with (10 ^ 9). rewrite Hq, Z.mul_assoc, Z.div_mul by lia. reflexivity. }
  change (10 ^ 9) with 1000000000 in Hq.
  assert (V : timestamp_valid t = true).
  { unfold timestamp_valid, t. cbn [t_sec t_nsec t_off]. rewrite N1. cbv zeta. assert (0 < q) by nia. assert (0 <= time mod hz * q) by nia. assert (time mod hz * q < hz * q) by nia.
    destruct (Z.ltb_spec (time / hz + 0 * 60) (-62135596800)); [lia|]. destruct (Z.ltb_spec 253402300799 (time / hz + 0 * 60)); [lia|].
    destruct (Z.ltb_spec (time mod hz * q) 0); [lia|]. destruct (Z.ltb_spec 999999999 (time mod hz * q)); [lia|]. reflexivity. }
  destruct (format_best t V) as (text & W & F).
  assert (I : instant t * hz = time * 10 ^ 9).
  { unfold instant, t. cbn [t_sec t_nsec]. rewrite N1. change (10 ^ 9) with 1000000000. rewrite Hq. pose proof (Z.div_mod time hz). nia. }
  exists text, t. split; [exact W|]. split; [exact I|]. split; [reflexivity|]. split; [exact F|]. rewrite (clock_parse_written hz text t Hh W), I, Z.div_mul by lia.
  rewrite Z.mod_small by exact Ht. reflexivity.
Qed.
