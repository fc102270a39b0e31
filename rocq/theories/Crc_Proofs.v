(** Proofs for the checksum. *)
From Verif Require Import Common Crc_Model Crc_Spec.
Local Open Scope N_scope.
Local Arguments N.pow : simpl never.

Notation W64 := (2 ^ 64) (only parsing).

Lemma poly_lt : poly < 2 ^ 64. Proof. vm_compute. reflexivity. Qed.
Lemma poly_top : N.testbit poly 63 = true. Proof. vm_compute. reflexivity. Qed.

Lemma lt_pow_bits a n : a < 2 ^ n <-> forall i, n <= i -> N.testbit a i = false.
Proof.
  split.
  - intros H i Hi. destruct (N.eq_dec a 0) as [->|Hz]; [apply N.bits_0|]. apply N.bits_above_log2. apply N.log2_lt_pow2 in H; lia.
  - intros H. destruct (N.eq_dec a 0) as [->|Hz]; [apply N.neq_0_lt_0, N.pow_nonzero; lia|]. apply N.log2_lt_pow2; [lia|].
    destruct (N.lt_ge_cases (N.log2 a) n) as [L|L]; [exact L|]. pose proof (N.bit_log2 a Hz) as B. specialize (H _ L). congruence.
Qed.

Lemma lxor_lt a b n : a < 2 ^ n -> b < 2 ^ n -> N.lxor a b < 2 ^ n.
Proof. rewrite !lt_pow_bits. intros Ha Hb i Hi. rewrite N.lxor_spec, Ha, Hb by exact Hi. reflexivity. Qed.

Lemma bit_lt a : a < 2 ^ 64 -> crc_bit a < 2 ^ 64.
Proof.
  intros H. assert (Hs : N.shiftr a 1 < 2 ^ 64).
  { rewrite lt_pow_bits in *. intros i Hi. rewrite N.shiftr_spec'. apply H. lia. }
  unfold crc_bit. destruct (N.testbit a 0); [apply lxor_lt; [exact Hs|exact poly_lt]|exact Hs].
Qed.

Lemma bit_lxor a b : crc_bit (N.lxor a b) = N.lxor (crc_bit a) (crc_bit b).
Proof.
  unfold crc_bit. rewrite N.lxor_spec, N.shiftr_lxor.
  destruct (N.testbit a 0); destruct (N.testbit b 0); cbn [xorb]; apply N.bits_inj; intros i; rewrite ?N.lxor_spec;
    destruct (N.testbit (N.shiftr a 1) i); destruct (N.testbit (N.shiftr b 1) i); destruct (N.testbit poly i); reflexivity.
Qed.

Lemma bit_double y : crc_bit (2 * y) = y.
Proof. unfold crc_bit. rewrite N.testbit_even_0. rewrite N.shiftr_div_pow2. change (2 ^ 1) with 2. rewrite N.mul_comm. apply N.div_mul. lia. Qed.

Lemma bit_0 : crc_bit 0 = 0. Proof. reflexivity. Qed.

Lemma bit_zero a : a < 2 ^ 64 -> crc_bit a = 0 -> a = 0.
Proof.
  intros H E. unfold crc_bit in E. destruct (N.testbit a 0) eqn:E0.
  - exfalso. apply N.lxor_eq in E. assert (K : N.testbit (N.shiftr a 1) 63 = true) by (rewrite E; exact poly_top).
    rewrite N.shiftr_spec' in K. rewrite (proj1 (lt_pow_bits a 64) H) in K; [discriminate|lia].
  - apply N.bits_inj. intros i. rewrite N.bits_0. destruct (N.eq_dec i 0) as [->|Hi]; [exact E0|].
    assert (K : N.testbit (N.shiftr a 1) (i - 1) = false) by (rewrite E; apply N.bits_0). rewrite N.shiftr_spec' in K. replace (i - 1 + 1) with i in K by lia. exact K.
Qed.

Lemma bits_lt n : forall a, a < 2 ^ 64 -> crc_bits n a < 2 ^ 64.
Proof. induction n as [|n IH]; intros a H; cbn [crc_bits]; [exact H|]. apply IH, bit_lt, H. Qed.
Lemma bits_lxor n : forall a b, crc_bits n (N.lxor a b) = N.lxor (crc_bits n a) (crc_bits n b).
Proof. induction n as [|n IH]; intros a b; cbn [crc_bits]; [reflexivity|]. rewrite bit_lxor. apply IH. Qed.
Lemma bits_zero n : forall a, a < 2 ^ 64 -> crc_bits n a = 0 -> a = 0.
Proof. induction n as [|n IH]; intros a H E; cbn [crc_bits] in E; [exact E|]. apply bit_zero; [exact H|]. apply IH; [apply bit_lt, H|exact E]. Qed.
Lemma bits_add n m a : crc_bits (n + m) a = crc_bits m (crc_bits n a).
Proof. revert a. induction n as [|n IH]; intros a; cbn [Nat.add crc_bits]; [reflexivity|apply IH]. Qed.
Lemma bits_shift n : forall y, crc_bits n (2 ^ N.of_nat n * y) = y.
Proof.
  induction n as [|n IH]; intros y; cbn [crc_bits]; [change (2 ^ N.of_nat 0) with 1; lia|].
  rewrite Nnat.Nat2N.inj_succ, N.pow_succ_r', <- N.mul_assoc, bit_double. apply IH.
Qed.

Lemma byte_xor_high b y : b < 256 -> b + 256 * y = N.lxor b (256 * y).
Proof.
  intros H.  
  rewrite <- N.add_nocarry_lxor; [reflexivity|]. apply N.bits_inj. intros i. rewrite N.land_spec, N.bits_0.
  destruct (N.lt_ge_cases i 8) as [L|L].
  - change 256 with (2 ^ 8). rewrite (N.mul_comm (2 ^ 8)), N.mul_pow2_bits_low by exact L. apply andb_false_r.
  - rewrite (proj1 (lt_pow_bits b 8) H i L). reflexivity.
Qed.

(** The whole checksum is 8n shifts of the register xored with the message read as one number. *)
Lemma crc_le m : bytes_ok m -> forall c, crc64 c m = crc_bits (8 * List.length m) (N.lxor c (le m)).
Proof.
  induction m as [|b r IH]; intros Hb c; cbn [crc64 le List.length].
  - rewrite N.lxor_0_r. reflexivity.
  - inversion Hb as [|? ? H1 H2]; subst. rewrite (IH H2). unfold crc_update.
    replace (8 * S (List.length r))%nat with (8 + 8 * List.length r)%nat by lia. rewrite bits_add. f_equal.
    unfold is_byte in H1. rewrite (byte_xor_high b (le r) H1), <- N.lxor_assoc, (bits_lxor 8 (N.lxor c b)). f_equal.
    change 256 with (2 ^ N.of_nat 8). rewrite bits_shift. reflexivity.
Qed.

Lemma le_lt m : bytes_ok m -> le m < 2 ^ (8 * N.of_nat (List.length m)).
Proof.
  induction m as [|b r IH]; intros Hb; cbn [le List.length]; [vm_compute; reflexivity|]. inversion Hb as [|? ? H1 H2]; subst. specialize (IH H2). unfold is_byte in H1.
  replace (8 * N.of_nat (S (List.length r))) with (8 + 8 * N.of_nat (List.length r)) by lia. rewrite N.pow_add_r. change (2 ^ 8) with 256. nia.
Qed.

Lemma crc_app a : forall c b, crc64 c (a ++ b) = crc64 (crc64 c a) b.
Proof. induction a as [|x r IH]; intros c b; cbn [app crc64]; [reflexivity|apply IH]. Qed.

Lemma crc_lt m : bytes_ok m -> forall c, c < 2 ^ 64 -> crc64 c m < 2 ^ 64.
Proof.
  induction m as [|b r IH]; intros Hb c Hc; cbn [crc64]; [exact Hc|]. inversion Hb as [|? ? H1 H2]; subst. apply (IH H2). unfold crc_update. apply bits_lt, lxor_lt; [exact Hc|].
  unfold is_byte in H1. eapply N.lt_trans; [exact H1|vm_compute; reflexivity].
Qed.

Lemma burst c m1 m2 k d : bytes_ok m1 -> bytes_ok m2 -> List.length m1 = List.length m2 -> N.lxor (le m1) (le m2) = 2 ^ k * d -> 0 < d -> d < 2 ^ 64 ->
  crc64 c m1 <> crc64 c m2.
Proof.
  intros H1 H2 Hl Hd Hp Hlt E. rewrite (crc_le m1 H1), (crc_le m2 H2), <- Hl in E.
  assert (E2 : crc_bits (8 * List.length m1) (2 ^ k * d) = 0).
  { rewrite <- Hd, bits_lxor. rewrite (bits_lxor _ c (le m1)), (bits_lxor _ c (le m2)) in E.
    assert (K : crc_bits (8 * List.length m1) (le m1) = crc_bits (8 * List.length m1) (le m2)).
    { apply N.lxor_eq. apply (f_equal (N.lxor (crc_bits (8 * List.length m1) c))) in E. rewrite <- !N.lxor_assoc, !N.lxor_nilpotent, !N.lxor_0_l in E. rewrite E. apply N.lxor_nilpotent. }
    rewrite K. apply N.lxor_nilpotent. }
  assert (Hk : k < 8 * N.of_nat (List.length m1)).
  { assert (L : N.lxor (le m1) (le m2) < 2 ^ (8 * N.of_nat (List.length m1))) by (apply lxor_lt; [apply le_lt, H1|rewrite Hl; apply le_lt, H2]).
    rewrite Hd in L. apply (N.pow_lt_mono_r_iff 2); [lia|]. nia. }
  replace (8 * List.length m1)%nat with (N.to_nat k + (8 * List.length m1 - N.to_nat k))%nat in E2 by lia. rewrite bits_add in E2.
  replace (2 ^ k) with (2 ^ N.of_nat (N.to_nat k)) in E2 by (rewrite Nnat.N2Nat.id; reflexivity). rewrite bits_shift in E2.
  apply bits_zero in E2; [lia|exact Hlt].
Qed.

Lemma state_inj m c1 c2 : bytes_ok m -> c1 < 2 ^ 64 -> c2 < 2 ^ 64 -> crc64 c1 m = crc64 c2 m -> c1 = c2.
Proof.
  intros H H1 H2 E. rewrite !(crc_le m H), (bits_lxor _ c1), (bits_lxor _ c2) in E. apply N.lxor_eq. apply (bits_zero (8 * List.length m)); [apply lxor_lt; assumption|].
  rewrite bits_lxor. apply (f_equal (fun z => N.lxor z (crc_bits (8 * List.length m) (le m)))) in E. rewrite !N.lxor_assoc, !N.lxor_nilpotent, !N.lxor_0_r in E. rewrite E. apply N.lxor_nilpotent.
Qed.

(** Different words of at most eight bytes at one place. *)
Lemma le_inj m1 : forall m2, bytes_ok m1 -> bytes_ok m2 -> List.length m1 = List.length m2 -> le m1 = le m2 -> m1 = m2.
Proof.
  induction m1 as [|a r IH]; intros [|b t] H1 H2 Hl E; try discriminate; [reflexivity|].
  inversion H1 as [|? ? A1 A2]; inversion H2 as [|? ? B1 B2]; subst. unfold is_byte in *. cbn [le List.length] in *.
  assert (a = b) by lia. subst b. f_equal. apply IH; try assumption; lia.
Qed.

Lemma word_change c p w1 w2 q : bytes_ok p -> bytes_ok w1 -> bytes_ok w2 -> bytes_ok q -> c < 2 ^ 64 ->
  List.length w1 = List.length w2 -> (List.length w1 <= 8)%nat -> w1 <> w2 -> crc64 c (p ++ w1 ++ q) <> crc64 c (p ++ w2 ++ q).
Proof.
  intros Hp H1 H2 Hq Hc Hl H8 Hne E. rewrite !crc_app in E.
  pose proof (crc_lt p Hp c Hc) as Hs. apply state_inj in E; [|exact Hq|apply crc_lt; assumption|apply crc_lt; assumption].
  revert E. apply (burst _ w1 w2 0 (N.lxor (le w1) (le w2))); try assumption.
  - rewrite N.pow_0_r. lia.
  - destruct (N.eq_dec (N.lxor (le w1) (le w2)) 0) as [Z|Z]; [|lia]. exfalso. apply Hne, le_inj; try assumption. apply N.lxor_eq, Z.
  - eapply N.lt_le_trans; [apply lxor_lt; [apply le_lt, H1|rewrite Hl; apply le_lt, H2]|]. apply N.pow_le_mono_r; lia.
Qed.

(** * The polynomial remainder *)
Lemma of_bits_spec f k i : N.testbit (of_bits f k) i = (i <? N.of_nat k) && f i.
Proof.
  induction k as [|k IH]; cbn [of_bits]; [rewrite N.bits_0; destruct (i <? N.of_nat 0) eqn:E; [lia|reflexivity]|].
  destruct (N.eq_dec i (N.of_nat k)) as [->|Hi].
  - assert (E : (N.of_nat k <? N.of_nat (S k)) = true) by lia. rewrite E. cbn [andb].
    destruct (f (N.of_nat k)) eqn:F; [apply N.setbit_eq|]. rewrite IH. destruct (N.of_nat k <? N.of_nat k) eqn:E2; [lia|reflexivity].
  - assert (E : (i <? N.of_nat (S k)) = (i <? N.of_nat k)) by lia. rewrite E, <- IH. destruct (f (N.of_nat k)); [|reflexivity]. apply N.setbit_neq. lia.
Qed.

Lemma reflect_spec c i : N.testbit (reflect c) i = (i <? 64) && N.testbit c (63 - i).
Proof. unfold reflect. rewrite of_bits_spec. reflexivity. Qed.

Lemma reflect_lt c : reflect c < 2 ^ 64.
Proof. apply lt_pow_bits. intros i Hi. rewrite reflect_spec. destruct (i <? 64) eqn:E; [lia|reflexivity]. Qed.

Lemma reflect_lxor a b : reflect (N.lxor a b) = N.lxor (reflect a) (reflect b).
Proof. apply N.bits_inj. intros i. rewrite N.lxor_spec, !reflect_spec, N.lxor_spec. destruct (i <? 64); reflexivity. Qed.

Lemma generator_split : generator = N.lxor (2 ^ 64) (reflect poly).
Proof. vm_compute. reflexivity. Qed.

(** One shift of the register is multiplication by x, reduced by the generator when x^64 appears. *)
Lemma reflect_bit c : c < 2 ^ 64 -> reflect (crc_bit c) = N.lxor (2 * reflect c) (if N.testbit c 0 then generator else 0).
Proof.
  intros H. assert (Hs : reflect (N.shiftr c 1) = N.lxor (2 * reflect c) (if N.testbit c 0 then 2 ^ 64 else 0)).
  { apply N.bits_inj. intros i. rewrite N.lxor_spec, reflect_spec, N.shiftr_spec'. destruct (N.eq_dec i 0) as [->|Hi].
    - rewrite N.testbit_even_0. change (0 <? 64) with true. cbn [andb]. change (63 - 0 + 1) with 64. rewrite (proj1 (lt_pow_bits c 64) H) by lia.
      destruct (N.testbit c 0); [rewrite N.pow2_bits_false by lia|rewrite N.bits_0]; reflexivity.
    - replace (N.testbit (2 * reflect c) i) with (N.testbit (reflect c) (i - 1)).
      2: { replace i with (N.succ (i - 1)) at 2 by lia. symmetry. apply N.testbit_even_succ. lia. }
      rewrite reflect_spec. destruct (N.lt_trichotomy i 64) as [L|[->|L]].
      + assert (E1 : (i <? 64) = true) by lia. assert (E2 : (i - 1 <? 64) = true) by lia. rewrite E1, E2. cbn [andb].
        replace (63 - (i - 1)) with (63 - i + 1) by lia.
        destruct (N.testbit c 0); [rewrite N.pow2_bits_false by lia|rewrite N.bits_0]; rewrite xorb_false_r; reflexivity.
      + change (64 <? 64) with false. change (64 - 1 <? 64) with true. change (63 - (64 - 1)) with 0. cbn [andb]. destruct (N.testbit c 0); [rewrite N.pow2_bits_true|rewrite N.bits_0]; reflexivity.
      + assert (E1 : (i <? 64) = false) by lia. assert (E2 : (i - 1 <? 64) = false) by lia. rewrite E1, E2. cbn [andb].
        destruct (N.testbit c 0); [rewrite N.pow2_bits_false by lia|rewrite N.bits_0]; reflexivity. }
  unfold crc_bit. destruct (N.testbit c 0); [|exact Hs]. rewrite reflect_lxor, Hs, generator_split, N.lxor_assoc. reflexivity.
Qed.

Lemma pmul_shift q t p : pmul (2 * q + (if t : bool then 1 else 0)) p = N.lxor (2 * pmul q p) (if t then p else 0).
Proof.
  destruct q as [|q].
  - cbn [pmul]. destruct t; [|reflexivity]. cbn. rewrite ?N.lxor_0_l. reflexivity.
  - destruct t.
    + change (2 * N.pos q + 1) with (N.pos (xI q)). cbn [pmul pmul_pos]. rewrite N.lxor_comm. reflexivity.
    + rewrite N.add_0_r. change (2 * N.pos q) with (N.pos (xO q)). cbn [pmul pmul_pos]. rewrite N.lxor_0_r. reflexivity.
Qed.

Lemma double_lxor a b : 2 * N.lxor a b = N.lxor (2 * a) (2 * b).
Proof. rewrite <- !N.double_spec. change (N.double (N.lxor a b)) with (N.double (N.lxor a b)). rewrite !N.double_spec. rewrite !(N.mul_comm 2). change 2 with (2 ^ 1). rewrite <- !N.shiftl_mul_pow2. apply N.shiftl_lxor. Qed.

(** Feeding one bit. *)
Definition feed (c : N) (b : bool) : N := crc_bit (N.lxor c (if b then 1 else 0)).
Definition feeds (c : N) (l : list bool) : N := fold_left feed l c.

Lemma feed_ok a c (b : bool) q : c < 2 ^ 64 -> N.lxor a (reflect c) = pmul q generator ->
  N.lxor (N.lxor (2 * a) (if b then 2 ^ 64 else 0)) (reflect (feed c b)) = pmul (2 * q + (if N.testbit (N.lxor c (if b then 1 else 0)) 0 then 1 else 0)) generator.
Proof.
  intros H E. unfold feed. set (c' := N.lxor c (if b then 1 else 0)).
  assert (Hc' : c' < 2 ^ 64) by (apply lxor_lt; [exact H|destruct b; vm_compute; reflexivity]).
  rewrite (reflect_bit c' Hc'), pmul_shift, <- E, double_lxor.
  assert (Er : 2 * reflect c' = N.lxor (2 * reflect c) (if b then 2 ^ 64 else 0)).
  { unfold c'. rewrite reflect_lxor, double_lxor. f_equal. destruct b; vm_compute; reflexivity. }
  rewrite Er. destruct (N.testbit c' 0); generalize (2 * a) (2 * reflect c) (if b then 2 ^ 64 else 0) generator; intros u v w g;
    apply N.bits_inj; intros i; rewrite ?N.lxor_spec, ?N.bits_0; destruct (N.testbit u i); destruct (N.testbit v i); destruct (N.testbit w i); destruct (N.testbit g i); reflexivity.
Qed.

Lemma feed_lt c b : c < 2 ^ 64 -> feed c b < 2 ^ 64.
Proof. intros H. apply bit_lt, lxor_lt; [exact H|destruct b; vm_compute; reflexivity]. Qed.

Lemma horner_bits l : forall acc, horner acc l = 2 ^ N.of_nat (List.length l) * acc + horner 0 l.
Proof.
  induction l as [|b r IH]; intros acc; cbn [horner List.length]; [change (2 ^ N.of_nat 0) with 1; lia|].
  rewrite (IH (2 * acc + (if b then 1 else 0))), (IH (2 * 0 + (if b then 1 else 0))). rewrite Nnat.Nat2N.inj_succ, N.pow_succ_r'. nia.
Qed.

(** The value divided so far: initial register moved up, plus 64 zero bits behind the message. *)
Definition dividend (c acc : N) (l : list bool) : N := N.lxor (2 ^ N.of_nat (List.length l) * reflect c) (2 ^ 64 * horner acc l).

Lemma feeds_ok l : forall a c q, c < 2 ^ 64 -> N.lxor a (reflect c) = pmul q generator ->
  exists q', N.lxor (fold_left (fun x (b : bool) => N.lxor (2 * x) (if b then 2 ^ 64 else 0)) l a) (reflect (feeds c l)) = pmul q' generator /\ feeds c l < 2 ^ 64.
Proof.
  induction l as [|b r IH]; intros a c q H E; cbn [fold_left]; [exists q; split; assumption|].
  unfold feeds. cbn [fold_left]. fold (feeds (feed c b) r). eapply IH; [apply feed_lt, H|]. apply feed_ok; eassumption.
Qed.

Lemma fold_dividend l : forall a, fold_left (fun x (b : bool) => N.lxor (2 * x) (if b then 2 ^ 64 else 0)) l a = N.lxor (2 ^ N.of_nat (List.length l) * a) (2 ^ 64 * horner 0 l).
Proof.
  induction l as [|b r IH]; intros a; cbn [fold_left].
  - cbn [List.length horner]. change (2 ^ N.of_nat 0) with 1. rewrite N.mul_0_r, N.lxor_0_r, N.mul_1_l. reflexivity.
  - rewrite IH. cbn [List.length horner]. rewrite (horner_bits r (2 * 0 + (if b then 1 else 0))). rewrite Nnat.Nat2N.inj_succ, N.pow_succ_r'.
    assert (Hh : forall l, horner 0 l < 2 ^ N.of_nat (List.length l)).
    { clear. induction l as [|b r IH]; cbn [horner List.length]; [vm_compute; reflexivity|]. rewrite horner_bits. rewrite Nnat.Nat2N.inj_succ, N.pow_succ_r'. destruct b; nia. }
    specialize (Hh r). set (n := N.of_nat (List.length r)) in *.
    assert (E1 : 2 ^ n * N.lxor (2 * a) (if b then 2 ^ 64 else 0) = N.lxor (2 * 2 ^ n * a) (if b then 2 ^ 64 * 2 ^ n else 0)).
    { rewrite !(N.mul_comm (2 ^ n)), <- N.shiftl_mul_pow2, N.shiftl_lxor, !N.shiftl_mul_pow2. f_equal; [lia|destruct b; lia]. }
    rewrite E1, N.lxor_assoc. f_equal.
    assert (E2 : 2 ^ n * (2 * 0 + (if b then 1 else 0)) + horner 0 r = N.lxor (if b then 2 ^ n else 0) (horner 0 r)).
    { destruct b; [|rewrite N.lxor_0_l; lia]. rewrite N.add_nocarry_lxor; [f_equal; lia|].
      apply N.bits_inj. intros i. rewrite N.land_spec, N.bits_0. destruct (N.eq_dec i n) as [->|Hi].
      - rewrite (proj1 (lt_pow_bits _ n) Hh) by lia. apply andb_false_r.
      - replace (2 ^ n * (2 * 0 + 1)) with (2 ^ n) by lia. rewrite N.pow2_bits_false by lia. reflexivity. }
    rewrite E2. rewrite !(N.mul_comm (2 ^ 64)), <- !N.shiftl_mul_pow2, N.shiftl_lxor. f_equal. destruct b; [rewrite !N.shiftl_mul_pow2; lia|reflexivity].
Qed.

Lemma update_feeds c b : b < 256 -> crc_update c b = feeds c (map (N.testbit b) [0; 1; 2; 3; 4; 5; 6; 7]).
Proof.
  intros H. unfold crc_update, feeds.
  assert (G : forall n k c b, b < 2 ^ N.of_nat n ->
     crc_bits n (N.lxor c b) = fold_left feed (map (fun i => N.testbit b (N.of_nat i)) (seq 0 n)) c /\ k = 0%nat \/ k <> 0%nat).
  { intros n k. destruct (Nat.eq_dec k 0) as [->|Hk]; [|right; exact Hk]. clear. induction n as [|n IH]; intros c b H.
    - left. split; [|reflexivity]. cbn in *. replace b with 0 by lia. apply N.lxor_0_r.
    - left. split; [|reflexivity]. cbn [crc_bits seq map fold_left]. change (N.of_nat 0) with 0.
      assert (Eb : b = N.lxor (if N.testbit b 0 then 1 else 0) (2 * N.div2 b)).
      { rewrite (N.div2_odd b) at 1. rewrite <- N.bit0_odd. destruct (N.testbit b 0); cbn [N.b2n].
        - rewrite N.add_comm. rewrite N.lxor_comm. destruct (N.div2 b); reflexivity.
        - rewrite N.add_0_r, N.lxor_0_l. reflexivity. }
      rewrite Eb at 1. rewrite <- N.lxor_assoc, bit_lxor, bit_double. fold (feed c (N.testbit b 0)).
      destruct (IH (feed c (N.testbit b 0)) (N.div2 b)) as [[E _]|K]; [|rewrite E|congruence].
      + rewrite N.div2_div. rewrite Nnat.Nat2N.inj_succ, N.pow_succ_r' in H. apply N.div_lt_upper_bound; lia.
      + f_equal. rewrite <- seq_shift, map_map. apply map_ext. intros i. rewrite N.div2_spec, N.shiftr_spec'. f_equal. lia. }
  destruct (G 8%nat 0%nat c b H) as [[E _]|K]; [exact E|congruence].
Qed.

Lemma crc_feeds m : bytes_ok m -> forall c, crc64 c m = feeds c (message_bits m).
Proof.
  induction m as [|b r IH]; intros Hb c; cbn [crc64]; [reflexivity|]. inversion Hb as [|? ? H1 H2]; subst. unfold message_bits. cbn [flat_map]. unfold feeds. rewrite fold_left_app.
  rewrite (IH H2), (update_feeds c b H1). reflexivity.
Qed.

Lemma crc_remainder c m : bytes_ok m -> c < 2 ^ 64 ->
  remainder (N.lxor (2 ^ (8 * N.of_nat (List.length m)) * reflect c) (2 ^ 64 * message_poly m)) (reflect (crc64 c m)).
Proof.
  intros Hm Hc. split; [apply reflect_lt|]. rewrite (crc_feeds m Hm).
  destruct (feeds_ok (message_bits m) (reflect c) c 0 Hc) as (q & E & _); [rewrite N.lxor_nilpotent; reflexivity|].
  rewrite fold_dividend in E. exists q. rewrite <- E. unfold message_poly. do 3 f_equal. 
  f_equal. unfold message_bits. clear. induction m as [|b r IH]; [reflexivity|]. cbn [flat_map]. rewrite app_length, map_length. cbn [List.length] in *. lia.
Qed.

Lemma pmul_top q : q <> 0 -> 2 ^ 64 <= pmul q generator.
Proof.
  destruct q as [|q]; [congruence|]. intros _. cbn [pmul].
  assert (G : N.log2 (pmul_pos q generator) = N.log2 (N.pos q) + 64 /\ pmul_pos q generator <> 0).
  { induction q as [q IH|q IH|]; cbn [pmul_pos].
    - destruct IH as [IH Hz]. set (z := pmul_pos q generator) in *. rewrite N.double_spec.
      assert (L2 : N.log2 (2 * z) = N.log2 (N.pos q) + 65) by (rewrite N.log2_double; lia).
      assert (Lg : N.log2 generator = 64) by (vm_compute; reflexivity).
      assert (Lx : N.log2 (N.lxor generator (2 * z)) = N.log2 (2 * z)).
      { apply N.log2_bits_unique.
        - rewrite N.lxor_spec, N.bit_log2 by lia. rewrite N.bits_above_log2; [reflexivity|]. rewrite L2, Lg. lia.
        - intros i Hi. rewrite N.lxor_spec, !N.bits_above_log2; [reflexivity|exact Hi|rewrite Lg; lia]. }
      split.
      + rewrite Lx, L2. change (N.pos q~1) with (N.succ_double (N.pos q)). rewrite N.succ_double_spec, N.log2_succ_double by lia. lia.
      + intros K. rewrite K in Lx. rewrite L2 in Lx. change (N.log2 0) with 0 in Lx. lia.
    - destruct IH as [IH Hz]. rewrite N.double_spec. split; [|lia]. rewrite N.log2_double by lia. change (N.pos q~0) with (2 * N.pos q). rewrite N.log2_double by lia. lia.
    - split; [vm_compute; reflexivity|vm_compute; discriminate]. }
  destruct G as [G Hz]. apply N.log2_le_pow2; lia.
Qed.

Lemma pmul_lxor a : forall b, exists c, N.lxor (pmul a generator) (pmul b generator) = pmul c generator.
Proof.
  assert (G : forall n a b, a < 2 ^ N.of_nat n -> b < 2 ^ N.of_nat n -> exists c, N.lxor (pmul a generator) (pmul b generator) = pmul c generator).
  { induction n as [|n IH]; intros x y Hx Hy.
    - exists 0. cbn in *. replace x with 0 by lia. replace y with 0 by lia. reflexivity.
    - rewrite Nnat.Nat2N.inj_succ, N.pow_succ_r' in Hx, Hy.
      assert (Sp : forall z, z = 2 * (z / 2) + (if N.testbit z 0 then 1 else 0)) by (intros z; rewrite N.bit0_odd; pose proof (N.div2_odd z) as D; rewrite N.div2_div in D; destruct (N.odd z); cbn [N.b2n] in D; lia).
      destruct (IH (x / 2) (y / 2)) as [c E]; [apply N.div_lt_upper_bound; lia|apply N.div_lt_upper_bound; lia|].
      exists (2 * c + (if xorb (N.testbit x 0) (N.testbit y 0) then 1 else 0)). rewrite (Sp x) at 1. rewrite (Sp y) at 1. rewrite !pmul_shift, <- E, double_lxor.
      generalize (2 * pmul (x / 2) generator); intros u. generalize (2 * pmul (y / 2) generator); intros v. generalize generator; intros g.
      destruct (N.testbit x 0); destruct (N.testbit y 0); cbn [xorb]; apply N.bits_inj; intros i; rewrite ?N.lxor_spec, ?N.bits_0; destruct (N.testbit u i); destruct (N.testbit v i); destruct (N.testbit g i); reflexivity. }
  intros b. apply (G (N.to_nat (N.max (N.size a) (N.size b)))); rewrite Nnat.N2Nat.id.
  - eapply N.lt_le_trans; [apply N.size_gt|apply N.pow_le_mono_r; lia].
  - eapply N.lt_le_trans; [apply N.size_gt|apply N.pow_le_mono_r; lia].
Qed.

Lemma remainder_unique a r1 r2 : remainder a r1 -> remainder a r2 -> r1 = r2.
Proof.
  intros [L1 [q1 E1]] [L2 [q2 E2]]. destruct (pmul_lxor q1 q2) as [c E]. rewrite <- E1, <- E2 in E.
  replace (N.lxor (N.lxor a r1) (N.lxor a r2)) with (N.lxor r1 r2) in E.
  2: { apply N.bits_inj. intros i. rewrite !N.lxor_spec. destruct (N.testbit a i); destruct (N.testbit r1 i); destruct (N.testbit r2 i); reflexivity. }
  apply N.lxor_eq. destruct (N.eq_dec c 0) as [->|Hc]; [rewrite E; reflexivity|]. pose proof (pmul_top c Hc). pose proof (lxor_lt r1 r2 64 L1 L2). rewrite E in *. lia.
Qed.
