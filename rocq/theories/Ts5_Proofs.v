From Verif Require Import Common Ts_Model Ts_Spec Ts_Proofs Ts2_Proofs Ts3_Proofs Ts4_Proofs.
From Coq Require Import ZArith Lia.
Local Open Scope Z_scope.

(** * struct tm *)
Definition tm_of (n sod : Z) : tm :=
  let z := n + 306 in
  let h := u32 (100 * z - 25) in
  let a := h / 3652425 in
  let b := a - Z.shiftr a 2 in
  let y := (100 * b + h) / 36525 in
  let c := b + z - Z.shiftr (1461 * y) 2 in
  let m := Z.shiftr (535 * c + 48950) 14 in
  let '(y, m, d) := if 12 <? m then (y + 1, m - 12, c - 306)
                    else (y, m, c + 59 + (if leap_year y then 1 else 0)) in
  mk_tm (sod mod 60) (sod / 60 mod 60) (sod / 60 / 60) (c - day_offset m) (m - 1) (y - 1900) (n mod 7) (d - 1).
Lemma to_tm_shape t local : timestamp_to_tm t local =
  if negb (timestamp_valid t) then None else
  let sec := t_sec t + 62135683200 + (if local then t_off t * 60 else 0) in Some (tm_of (u32 (sec / 86400)) (sec mod 86400)).
Proof.
  unfold timestamp_to_tm, tm_of. destruct (negb (timestamp_valid t)); [reflexivity|]. cbv zeta.
  match goal with |- context [12 <? ?c] => destruct (12 <? c); reflexivity end.
Qed.

Lemma later_front a n b : later (tomorrow a) n b -> later a (n + 1) b.
Proof.
  intros H. remember (tomorrow a) as a' eqn:E. induction H as [|a' n b H IH]; subst.
  - constructor. constructor.
  - constructor. apply IH. reflexivity.
Qed.
Lemma later_iter a k : later a (Z.of_nat k) (Nat.iter k tomorrow a).
Proof. induction k as [|k IH]; [constructor|]. rewrite Nat2Z.inj_succ. cbn [Nat.iter nat_rect]. constructor. exact IH. Qed.
Lemma before_first : day_count (0, 12, 31) (-719163).
Proof.
  right. assert (D : day_count (1, 1, 1) (-719162)) by (apply day_count_rdn; [vm_compute; repeat split; discriminate|reflexivity]).
  destruct D as [D|D].
  - apply later_rdn in D; [|apply proper_epoch]. lia.
  - change (- -719163) with (719162 + 1). apply later_front. exact D.
Qed.
Lemma later_of_rdn a b : proper a -> proper b -> rdn_date a <= rdn_date b -> later a (rdn_date b - rdn_date a) b.
Proof.
  intros Pa Pb H. destruct (later_total a (rdn_date b - rdn_date a)) as [c L]; [lia|].
  pose proof (later_proper _ _ _ L Pa) as Pc. destruct (later_rdn _ _ _ L (proj2 Pa)) as (_ & E & _).
  replace b with c at 2; [exact L|]. apply rdn_inj; [exact Pc|exact Pb|lia].
Qed.

(** the date, the day of the week and the day of the year of day [n] *)
Definition good_day (n : Z) (r : tm) : Prop :=
  let x := (tm_year r + 1900, tm_mon r + 1, tm_mday r) in
  real x /\ day_count x (n - 719163) /\ tm_wday r = (n - 719163 + 4) mod 7 /\ later (tm_year r + 1900, 1, 1) (tm_yday r) x.
Lemma tm_of_day n sod : 0 <= n <= 42949366 -> good_day n (tm_of n sod).
Proof.
  intros Hn. unfold good_day. cbv zeta. assert (n = 0 \/ 1 <= n) as [->|H1] by lia.
  - split; [vm_compute; repeat split; discriminate|]. split; [exact before_first|]. split; [reflexivity|].
    change (tm_year (tm_of 0 sod) + 1900, tm_mon (tm_of 0 sod) + 1, tm_mday (tm_of 0 sod)) with (Nat.iter 365 tomorrow (0, 1, 1)).
    change (tm_year (tm_of 0 sod) + 1900) with 0. change (tm_yday (tm_of 0 sod)) with (Z.of_nat 365). apply later_iter.
  - destruct (ymd_proper n H1) as [P R]. rewrite <- ymd_u32 in P, R by lia.
    revert P R. unfold rdn_to_ymd, tm_of. cbv zeta. set (h := u32 (100 * (n + 306) - 25)). set (a := h / 3652425). set (b := a - Z.shiftr a 2).
    set (y0 := (100 * b + h) / 36525). set (c := b + (n + 306) - Z.shiftr (1461 * y0) 2). set (m0 := Z.shiftr (535 * c + 48950) 14).
    assert (Em : m0 = (535 * c + 48950) / 16384) by (unfold m0; rewrite Z.shiftr_div_pow2 by lia; reflexivity).
    clearbody m0. clearbody c. clearbody y0. clear b a h. intros P R.
    assert (W : n mod 7 = (n - 719163 + 4) mod 7) by (replace n with (n - 719163 + 4 + 102737 * 7) at 1 by lia; apply Z.mod_add; lia).
    destruct (Z.ltb_spec 12 m0) as [L|L]; cbn [tm_year tm_mon tm_mday tm_wday tm_yday].
    + replace (y0 + 1 - 1900 + 1900) with (y0 + 1) by lia. replace (m0 - 12 - 1 + 1) with (m0 - 12) by lia.
      split; [exact (proj2 P)|]. split; [apply day_count_rdn; [exact P|lia]|]. split; [exact W|].
      pose proof P as [Py [Pm Pd]]. cbn [fst] in Py. pose proof (day_offset_range (m0 - 12) Pm). pose proof (last_day_range (y0 + 1) (m0 - 12)).
      assert (B : m0 - 12 < 3).
      { destruct (Z.lt_ge_cases (m0 - 12) 3) as [X|X]; [exact X|exfalso].
        assert (O : day_offset (m0 - 12) <= 275) by (destruct (months (m0 - 12) Pm) as [E|D]; [lia|]; repeat (destruct D as [E|D]; [first [lia|rewrite E; vm_compute; discriminate]|]); rewrite D; vm_compute; discriminate).
        Z.to_euclidean_division_equations. lia. }
      assert (P1 : proper (y0 + 1, 1, 1)) by (split; [exact Py|split; [lia|split; [lia|pose proof (last_day_range (y0 + 1) 1); lia]]]).
      assert (E : rdn_date (y0 + 1, m0 - 12, c - day_offset (m0 - 12)) - rdn_date (y0 + 1, 1, 1) = c - 306 - 1).
      { unfold rdn_date. cbn [fst snd]. rewrite !rdn_yearly. change (1 <? 3) with true. change (day_offset 1) with 306. destruct (Z.ltb_spec (m0 - 12) 3); [|lia]. cbv iota. lia. }
      rewrite <- E. apply later_of_rdn; [exact P1|exact P|]. assert (306 <= day_offset (m0 - 12)) by (assert (m0 - 12 = 1 \/ m0 - 12 = 2) as [->| ->] by lia; vm_compute; discriminate). lia.
    + replace (y0 - 1900 + 1900) with y0 by lia. replace (m0 - 1 + 1) with m0 by lia.
      split; [exact (proj2 P)|]. split; [apply day_count_rdn; [exact P|lia]|]. split; [exact W|].
      pose proof P as [Py [Pm Pd]]. cbn [fst] in Py. pose proof (day_offset_range m0 Pm).
      assert (B : 3 <= m0).
      { destruct (Z.lt_ge_cases m0 3) as [X|X]; [exfalso|exact X].
        assert (O : 306 <= day_offset m0) by (assert (m0 = 1 \/ m0 = 2) as [->| ->] by lia; vm_compute; discriminate).
        Z.to_euclidean_division_equations. lia. }
      assert (P1 : proper (y0, 1, 1)) by (split; [exact Py|split; [lia|split; [lia|pose proof (last_day_range y0 1); lia]]]).
      assert (E : rdn_date (y0, m0, c - day_offset m0) - rdn_date (y0, 1, 1) = c + 59 + (if leap_year y0 then 1 else 0) - 1).
      { unfold rdn_date. cbn [fst snd]. rewrite !rdn_yearly. change (1 <? 3) with true. change (day_offset 1) with 306. destruct (Z.ltb_spec m0 3); [lia|]. cbv iota.
        pose proof (yearly_step (y0 - 1)) as Y. replace (y0 - 1 + 1) with y0 in Y by lia. rewrite leap_year_eq by lia. rewrite Y. lia. }
      rewrite <- E. apply later_of_rdn; [exact P1|exact P|]. destruct (leap_year y0); lia.
Qed.
Lemma tm_time n sod : 0 <= sod < 86400 ->
  let r := tm_of n sod in sod = tm_hour r * 3600 + tm_min r * 60 + tm_sec r /\ 0 <= tm_hour r <= 23 /\ 0 <= tm_min r <= 59 /\ 0 <= tm_sec r <= 59.
Proof.
  intros H. cbv zeta. assert (E : tm_hour (tm_of n sod) = sod / 60 / 60 /\ tm_min (tm_of n sod) = sod / 60 mod 60 /\ tm_sec (tm_of n sod) = sod mod 60).
  { unfold tm_of. cbv zeta. match goal with |- context [12 <? ?c] => destruct (12 <? c); auto end. }
  destruct E as (-> & -> & ->). Z.to_euclidean_division_equations. lia.
Qed.
Lemma to_tm t local : timestamp_valid t = true -> exists r k,
  timestamp_to_tm t local = Some r /\ good_day (719163 + k) r /\
  t_sec t + (if local then t_off t * 60 else 0) = k * 86400 + tm_hour r * 3600 + tm_min r * 60 + tm_sec r /\
  0 <= tm_hour r <= 23 /\ 0 <= tm_min r <= 59 /\ 0 <= tm_sec r <= 59.
Proof.
  intros H. destruct (valid_day t H) as (Hn & _ & Ho). cbv zeta in Hn. rewrite to_tm_shape, H. cbn [negb]. cbv zeta.
  set (sec := t_sec t + 62135683200 + (if local then t_off t * 60 else 0)).
  assert (B : 0 <= sec / 86400 <= 3652060) by (unfold sec; destruct local; Z.to_euclidean_division_equations; lia).
  rewrite u32_small by lia. assert (S1 : 0 <= sec mod 86400 < 86400) by (apply Z.mod_pos_bound; lia).
  exists (tm_of (sec / 86400) (sec mod 86400)), (sec / 86400 - 719163). split; [reflexivity|].
  split; [replace (719163 + (sec / 86400 - 719163)) with (sec / 86400) by lia; apply tm_of_day; lia|].
  destruct (tm_time (sec / 86400) (sec mod 86400) S1) as (E & R). split; [|exact R].
  replace (t_sec t + (if local then t_off t * 60 else 0)) with (sec - 719163 * 86400) by (unfold sec; lia).
  pose proof (Z.div_mod sec 86400). lia.
Qed.
