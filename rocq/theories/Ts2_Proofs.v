From Verif Require Import Common Ts_Model Ts_Spec Ts_Proofs.
From Coq Require Import ZArith Lia.
Local Open Scope Z_scope.

(** * Digits *)
Lemma digit_chr v : 0 <= v <= 9 -> digit (Z.to_N (48 + v)) = Some v.
Proof.
  intros H. assert (v = 0 \/ v = 1 \/ v = 2 \/ v = 3 \/ v = 4 \/ v = 5 \/ v = 6 \/ v = 7 \/ v = 8 \/ v = 9) by lia.
  repeat (destruct H0 as [->|H0]; [reflexivity|]). subst v. reflexivity.
Qed.
Lemma digit_inv c v : is_byte c -> digit c = Some v -> 0 <= v <= 9 /\ c = Z.to_N (48 + v).
Proof.
  intros Hc. unfold digit. destruct (N.leb_spec ((c + 208) mod 256) 9) as [H|H]; [|discriminate]. intros E. injection E as <-.
  unfold is_byte in Hc. assert (H48 : (48 <= c < 58)%N).
  { destruct (N.lt_ge_cases c 48) as [X|X].
    - rewrite N.mod_small in H by lia. lia.
    - replace (c + 208)%N with (c - 48 + 1 * 256)%N in H by lia. rewrite N.mod_add, N.mod_small in H by lia. lia. }
  replace (c + 208)%N with (c - 48 + 1 * 256)%N by lia. rewrite N.mod_add, N.mod_small by lia. split; lia.
Qed.
Lemma digit_not c : (c < 48 \/ 57 < c)%N -> is_byte c -> digit c = None.
Proof.
  intros H Hc. unfold digit. unfold is_byte in Hc. destruct (N.leb_spec ((c + 208) mod 256) 9) as [X|X]; [|reflexivity]. exfalso.
  destruct H as [H|H].
  - rewrite N.mod_small in X by lia. lia.
  - replace (c + 208)%N with (c - 48 + 1 * 256)%N in X by lia. rewrite N.mod_add, N.mod_small in X by lia. lia.
Qed.

Definition two (a b : N) : option Z := match digit a, digit b with Some x, Some y => Some (x * 10 + y) | _, _ => None end.
Definition four (a b c d : N) : option Z :=
  match digit a, digit b, digit c, digit d with
  | Some w, Some x, Some y, Some z => Some (w * 1000 + x * 100 + y * 10 + z)
  | _, _, _, _ => None
  end.
Lemma num2 v : num 2 v = [Z.to_N (48 + v / 10 mod 10); Z.to_N (48 + v mod 10)].
Proof. reflexivity. Qed.
Lemma num4 v : num 4 v = [Z.to_N (48 + v / 10 / 10 / 10 mod 10); Z.to_N (48 + v / 10 / 10 mod 10); Z.to_N (48 + v / 10 mod 10); Z.to_N (48 + v mod 10)].
Proof. reflexivity. Qed.
Lemma mod10 v : 0 <= v mod 10 <= 9.
Proof. pose proof (Z.mod_pos_bound v 10). lia. Qed.

Lemma two_num v : 0 <= v <= 99 -> two (Z.to_N (48 + v / 10 mod 10)) (Z.to_N (48 + v mod 10)) = Some v.
Proof.
  intros H. unfold two. rewrite !digit_chr by apply mod10. f_equal. rewrite (Z.mod_small (v / 10)).
  - pose proof (Z.div_mod v 10). lia.
  - split; [apply Z.div_pos; lia|apply Z.div_lt_upper_bound; lia].
Qed.
Lemma two_inv a b v : is_byte a -> is_byte b -> two a b = Some v -> 0 <= v <= 99 /\ [a; b] = num 2 v.
Proof.
  intros Ha Hb. unfold two. destruct (digit a) as [x|] eqn:Ea; [|discriminate]. destruct (digit b) as [y|] eqn:Eb; [|discriminate].
  intros E; injection E as <-. apply digit_inv in Ea as [Hx ->]; [|exact Ha]. apply digit_inv in Eb as [Hy ->]; [|exact Hb].
  split; [lia|]. rewrite num2. replace (x * 10 + y) with (y + x * 10) by lia. rewrite Z.div_add, Z.mod_add by lia.
  rewrite (Z.div_small y), (Z.mod_small y), Z.add_0_l, (Z.mod_small x) by lia. reflexivity.
Qed.
Lemma four_num v : 0 <= v <= 9999 -> four (Z.to_N (48 + v / 10 / 10 / 10 mod 10)) (Z.to_N (48 + v / 10 / 10 mod 10)) (Z.to_N (48 + v / 10 mod 10)) (Z.to_N (48 + v mod 10)) = Some v.
Proof.
  intros H. unfold four. rewrite !digit_chr by apply mod10. f_equal. Z.to_euclidean_division_equations. lia.
Qed.
Lemma four_inv a b c d v : is_byte a -> is_byte b -> is_byte c -> is_byte d -> four a b c d = Some v -> 0 <= v <= 9999 /\ [a; b; c; d] = num 4 v.
Proof.
  intros Ha Hb Hc Hd. unfold four. destruct (digit a) as [w|] eqn:Ea; [|discriminate]. destruct (digit b) as [x|] eqn:Eb; [|discriminate].
  destruct (digit c) as [y|] eqn:Ec; [|discriminate]. destruct (digit d) as [z|] eqn:Ed; [|discriminate].
  intros E; injection E as <-. apply digit_inv in Ea as [Hw ->]; [|exact Ha]. apply digit_inv in Eb as [Hx ->]; [|exact Hb].
  apply digit_inv in Ec as [Hy ->]; [|exact Hc]. apply digit_inv in Ed as [Hz ->]; [|exact Hd]. split; [lia|]. rewrite num4.
  assert (D : forall n r, 0 <= r <= 9 -> (n * 10 + r) / 10 = n /\ (n * 10 + r) mod 10 = r).
  { intros n r Hr. replace (n * 10 + r) with (r + n * 10) by lia. rewrite Z.div_add, Z.mod_add, Z.div_small, Z.mod_small by lia. lia. }
  replace (w * 1000 + x * 100 + y * 10 + z) with (((w * 10 + x) * 10 + y) * 10 + z) by lia.
  destruct (D ((w * 10 + x) * 10 + y) z Hz) as [-> ->]. destruct (D (w * 10 + x) y Hy) as [-> ->]. destruct (D w x Hx) as [-> ->].
  rewrite (Z.mod_small w) by lia. reflexivity.
Qed.

(** * Numbers of any width *)
Lemma num_length w : forall v, List.length (num w v) = w.
Proof. induction w as [|w IH]; intros v; [reflexivity|]. cbn [num]. rewrite app_length, IH. cbn [List.length]. lia. Qed.
Lemma pow10_S w : 10 ^ Z.of_nat (S w) = 10 * 10 ^ Z.of_nat w.
Proof. rewrite Nat2Z.inj_succ, Z.pow_succ_r by lia. reflexivity. Qed.
Lemma pow10_pos w : 0 < 10 ^ Z.of_nat w.
Proof. apply Z.pow_pos_nonneg; lia. Qed.
Lemma num_cons w : forall d v, 0 <= d <= 9 -> 0 <= v < 10 ^ Z.of_nat w -> num (S w) (d * 10 ^ Z.of_nat w + v) = Z.to_N (48 + d) :: num w v.
Proof.
  induction w as [|w IH]; intros d v Hd Hv.
  - change (10 ^ Z.of_nat 0) with 1 in *. assert (v = 0) by lia. subst v. cbn [num app]. rewrite Z.mod_small by lia. f_equal. f_equal. lia.
  - change (num (S (S w)) (d * 10 ^ Z.of_nat (S w) + v)) with
      (num (S w) ((d * 10 ^ Z.of_nat (S w) + v) / 10) ++ [Z.to_N (48 + (d * 10 ^ Z.of_nat (S w) + v) mod 10)]).
    rewrite pow10_S in *. replace (d * (10 * 10 ^ Z.of_nat w) + v) with (v + d * 10 ^ Z.of_nat w * 10) by ring.
    rewrite Z.div_add, Z.mod_add by lia. replace (v / 10 + d * 10 ^ Z.of_nat w) with (d * 10 ^ Z.of_nat w + v / 10) by ring.
    rewrite IH; [reflexivity|exact Hd|]. split; [apply Z.div_pos; lia|apply Z.div_lt_upper_bound; lia].
Qed.
Lemma num_split w v : 0 <= v < 10 ^ Z.of_nat (S w) -> exists d x, 0 <= d <= 9 /\ 0 <= x < 10 ^ Z.of_nat w /\ v = d * 10 ^ Z.of_nat w + x.
Proof.
  intros H. rewrite pow10_S in H. pose proof (pow10_pos w). exists (v / 10 ^ Z.of_nat w), (v mod 10 ^ Z.of_nat w).
  pose proof (Z.mod_pos_bound v (10 ^ Z.of_nat w)). pose proof (Z.div_mod v (10 ^ Z.of_nat w)).
  assert (0 <= v / 10 ^ Z.of_nat w) by (apply Z.div_pos; lia). assert (v / 10 ^ Z.of_nat w < 10) by (apply Z.div_lt_upper_bound; lia). lia.
Qed.
Lemma digits_num k : forall v, digits k v = num k v.
Proof. induction k as [|k IH]; intros v; [reflexivity|]. cbn [digits num]. rewrite IH. reflexivity. Qed.

(** * The fraction *)
Lemma u32_u32 x d : u32 (u32 x * 10 + d) = u32 (x * 10 + d).
Proof. unfold u32. rewrite <- (Z.add_mod_idemp_l (x mod 2 ^ 32 * 10)), <- (Z.add_mod_idemp_l (x * 10)) by lia. rewrite Z.mul_mod_idemp_l by lia. reflexivity. Qed.
Lemma u32_mul_add x p d : u32 (u32 x * p + d) = u32 (x * p + d).
Proof. unfold u32. rewrite <- (Z.add_mod_idemp_l (x mod 2 ^ 32 * p)), <- (Z.add_mod_idemp_l (x * p)) by lia. rewrite Z.mul_mod_idemp_l by lia. reflexivity. Qed.
Lemma u32_small x : 0 <= x < 4294967296 -> u32 x = x.
Proof. intros H. unfold u32. apply Z.mod_small. exact H. Qed.

Definition ended (rest : list N) : Prop := match rest with [] => True | c :: _ => digit c = None end.
Lemma fraction_num w : forall v acc k rest, 0 <= v < 10 ^ Z.of_nat w -> ended rest -> acc = u32 acc ->
  fraction (num w v ++ rest) acc k = (u32 (acc * 10 ^ Z.of_nat w + v), (k + w)%nat, rest).
Proof.
  induction w as [|w IH]; intros v acc k rest Hv Hr Ha.
  - change (10 ^ Z.of_nat 0) with 1 in *. assert (v = 0) by lia. subst v. cbn [num app]. rewrite Z.mul_1_r, Z.add_0_r, <- Ha, Nat.add_0_r.
    destruct rest as [|c r]; [reflexivity|]. cbn [fraction]. cbn [ended] in Hr. rewrite Hr. reflexivity.
  - destruct (num_split w v Hv) as (d & x & Hd & Hx & ->). rewrite num_cons by assumption. cbn [app fraction]. rewrite digit_chr by exact Hd.
    rewrite IH; [|exact Hx|exact Hr|].
    + rewrite u32_mul_add, pow10_S. replace (S k + w)%nat with (k + S w)%nat by lia.
      replace ((acc * 10 + d) * 10 ^ Z.of_nat w + x) with (acc * (10 * 10 ^ Z.of_nat w) + (d * 10 ^ Z.of_nat w + x)) by ring. reflexivity.
    + unfold u32. rewrite Z.mod_mod by lia. reflexivity.
Qed.
Lemma fraction_inv l : forall acc k v n rest, bytes_ok l -> acc = u32 acc -> fraction l acc k = (v, n, rest) ->
  exists w x, n = (k + w)%nat /\ 0 <= x < 10 ^ Z.of_nat w /\ l = num w x ++ rest /\ v = u32 (acc * 10 ^ Z.of_nat w + x).
Proof.
  induction l as [|c l IH]; intros acc k v n rest Hl Ha H.
  - cbn [fraction] in H. injection H as <- <- <-. exists 0%nat, 0. change (10 ^ Z.of_nat 0) with 1. repeat split; try lia. rewrite Z.mul_1_r, Z.add_0_r. exact Ha.
  - cbn [fraction] in H. apply Forall_cons_iff in Hl as [Hc Hl]. destruct (digit c) as [d|] eqn:Ed.
    + apply digit_inv in Ed as [Hd ->]; [|exact Hc]. apply IH in H; [|exact Hl|unfold u32; rewrite Z.mod_mod by lia; reflexivity].
      destruct H as (w & x & -> & Hx & -> & ->). exists (S w), (d * 10 ^ Z.of_nat w + x). split; [lia|]. split; [rewrite pow10_S; nia|].
      rewrite num_cons by assumption. split; [reflexivity|]. rewrite u32_mul_add, pow10_S. f_equal. ring.
    + injection H as <- <- <-. exists 0%nat, 0. change (10 ^ Z.of_nat 0) with 1. repeat split; try lia. rewrite Z.mul_1_r, Z.add_0_r. exact Ha.
Qed.

Lemma pow10_spec k : (k <= 9)%nat -> pow10 k = 10 ^ Z.of_nat k.
Proof. intros H. do 10 (destruct k as [|k]; [reflexivity|]). lia. Qed.

(** * The zone *)
Lemma cons_parts (a b : N) l m : a :: l = b :: m -> b = a /\ m = l.
Proof. intros E. split; congruence. Qed.
Lemma zone_spec ch cur rdn sod nsec t : bytes_ok (ch :: cur) ->
  (zone ch cur rdn sod nsec = Some t <->
   exists off, written_offset (ch :: cur) off /\ t = mk_ts ((rdn - 719163) * 86400 + sod - off * 60) nsec off).
Proof.
  intros Hb. apply Forall_cons_iff in Hb as [Hc Hcur]. split.
  - unfold zone. destruct ((ch =? 90) || (ch =? 122))%N eqn:Ez.
    + destruct cur; [|discriminate]. intros E; injection E as <-. exists 0. split; [|reflexivity]. constructor.
      apply orb_true_iff in Ez as [E|E]; apply N.eqb_eq in E; auto.
    + destruct (Nat.ltb (List.length cur) 5) eqn:El; [discriminate|]. cbn [orb]. destruct ((ch =? 43) || (ch =? 45))%N eqn:Es; [|discriminate]. cbn [negb].
      destruct (parse_offset cur (ch =? 45)%N) as [off|] eqn:Eo; [|discriminate].
      destruct (Nat.eqb (List.length cur) 5) eqn:E5; [|discriminate]. intros E; injection E as <-. exists off. split; [|reflexivity].
      apply Nat.eqb_eq in E5. destruct cur as [|a [|b [|c [|d [|e [|f cur]]]]]]; try discriminate E5. clear E5 El.
      unfold parse_offset in Eo. cbn [nth] in Eo. destruct (N.eqb_spec c 58) as [->|]; [|discriminate]. cbn [negb] in Eo.
      change (parse_2d [a; b; 58%N; d; e] 0) with (two a b) in Eo. change (parse_2d [a; b; 58%N; d; e] 3) with (two d e) in Eo.
      unfold bytes_ok in Hcur. rewrite !Forall_cons_iff in Hcur. destruct Hcur as (Ha & Hb & _ & Hd & He & _).
      destruct (two a b) as [h|] eqn:Eh; [|discriminate]. apply two_inv in Eh as [Hh Eh]; [|assumption|assumption].
      destruct (Z.ltb_spec 23 h); [discriminate|]. destruct (two d e) as [m|] eqn:Em; [|discriminate].
      apply two_inv in Em as [Hm Em]; [|assumption|assumption]. destruct (Z.ltb_spec 59 m); [discriminate|]. injection Eo as <-.
      apply orb_true_iff in Es as [Es|Es]; apply N.eqb_eq in Es; subst ch.
      * change (43 =? 45)%N with false. cbv iota. pose proof (ahead h m ltac:(lia) ltac:(lia)) as W. rewrite <- Eh, <- Em in W. exact W.
      * change (45 =? 45)%N with true. cbv iota. pose proof (behind h m ltac:(lia) ltac:(lia)) as W. rewrite <- Eh, <- Em in W. exact W.
  - intros (off & W & ->). remember (ch :: cur) as l eqn:El. destruct W as [c Hz|h m Hh Hm|h m Hh Hm]; apply cons_parts in El as [-> ->].
    + unfold zone. destruct Hz as [->| ->]; reflexivity.
    + unfold zone. change ((43 =? 90) || (43 =? 122))%N with false. cbv iota. rewrite !num2. cbn [app List.length].
      change (Nat.ltb 5 5 || negb ((43 =? 43) || (43 =? 45))%N) with false. cbv iota. change (43 =? 45)%N with false. unfold parse_offset. cbn [nth].
      change (58 =? 58)%N with true. cbn [negb].
      match goal with |- context [parse_2d ?l 0] => change (parse_2d l 0) with (two (nth 0 l 0%N) (nth 1 l 0%N)); change (parse_2d l 3) with (two (nth 3 l 0%N) (nth 4 l 0%N)) end.
      cbn [nth]. rewrite !two_num by lia. destruct (Z.ltb_spec 23 h); [lia|]. destruct (Z.ltb_spec 59 m); [lia|]. reflexivity.
    + unfold zone. change ((45 =? 90) || (45 =? 122))%N with false. cbv iota. rewrite !num2. cbn [app List.length].
      change (Nat.ltb 5 5 || negb ((45 =? 43) || (45 =? 45))%N) with false. cbv iota. change (45 =? 45)%N with true. unfold parse_offset. cbn [nth].
      change (58 =? 58)%N with true. cbn [negb].
      match goal with |- context [parse_2d ?l 0] => change (parse_2d l 0) with (two (nth 0 l 0%N) (nth 1 l 0%N)); change (parse_2d l 3) with (two (nth 3 l 0%N) (nth 4 l 0%N)) end.
      cbn [nth]. rewrite !two_num by lia. destruct (Z.ltb_spec 23 h); [lia|]. destruct (Z.ltb_spec 59 m); [lia|]. reflexivity.
Qed.
