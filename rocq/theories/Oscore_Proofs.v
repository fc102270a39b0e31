From Verif Require Import Common Oscore_Model Oscore_Spec.
Local Open Scope N_scope.

(** ** bytes of a 64-bit word *)
Lemma byte_at_div (v i : N) : byte_at v i = (v / 2 ^ (8 * i)) mod 256.
Proof.
  unfold byte_at. rewrite N.shiftr_div_pow2. change 255 with (N.ones 8).
  rewrite N.land_ones. reflexivity.
Qed.

Lemma testbit_byte_at (v i k : N) : N.testbit (byte_at v i) k = N.testbit v (k + 8 * i) && (k <? 8).
Proof.
  unfold byte_at. rewrite N.land_spec, N.shiftr_spec'. f_equal.
  change 255 with (N.ones 8). destruct (N.ltb_spec k 8) as [H|H].
  - apply N.ones_spec_low; exact H.
  - apply N.ones_spec_high; exact H.
Qed.

Lemma testbit_bswap (x : N) (j k : N) : j < 8 -> k < 8 ->
  N.testbit (bswap64 x) (k + 8 * j) = N.testbit x (k + 8 * (7 - j)).
Proof.
  intros Hj Hk.
  assert (Hs : forall P : N -> Prop, P 0 -> P 1 -> P 2 -> P 3 -> P 4 -> P 5 -> P 6 -> P 7 -> forall n, n < 8 -> P n).
  { intros P ? ? ? ? ? ? ? ? n Hn.
    assert (Hc : n = 0 \/ n = 1 \/ n = 2 \/ n = 3 \/ n = 4 \/ n = 5 \/ n = 6 \/ n = 7) by lia.
    repeat (destruct Hc as [->|Hc]; [assumption|]). subst; assumption. }
  assert (HL : forall a b n, N.testbit (N.shiftl a b) n = if n <? b then false else N.testbit a (n - b)).
  { intros a b n. destruct (N.ltb_spec n b) as [H|H].
    - apply N.shiftl_spec_low; exact H.
    - apply N.shiftl_spec_high'; exact H. }
  unfold bswap64; cbv zeta.
  repeat (rewrite ?N.lor_spec, ?N.land_spec, ?N.shiftr_spec', ?HL).
  generalize (N.testbit x) as f; intros f.
  revert k Hk. pattern j. apply Hs; try exact Hj; cbv beta;
  (intros k Hk; pattern k; apply Hs; try exact Hk; cbv beta);
  vm_compute; repeat match goal with |- context [f ?m] => destruct (f m); cbv iota end; reflexivity.
Qed.

Lemma byte_at_bswap (x j : N) : j < 8 -> byte_at (bswap64 x) j = byte_at x (7 - j).
Proof.
  intros Hj. apply N.bits_inj. intros k. rewrite !testbit_byte_at.
  destruct (N.ltb_spec k 8) as [Hk|Hk]; [|rewrite !andb_false_r; reflexivity].
  rewrite testbit_bswap by assumption. reflexivity.
Qed.

Lemma byte_at_lt (x i : N) : byte_at x i < 256.
Proof. rewrite byte_at_div. apply N.mod_lt. lia. Qed.

Lemma mem64_bswap (x : N) : mem64 (bswap64 x) = map (byte_at x) [7;6;5;4;3;2;1;0].
Proof. unfold mem64. cbn [map]. rewrite !byte_at_bswap by lia. reflexivity. Qed.

Lemma bswap_bound (x : N) : bswap64 x < 2 ^ 64.
Proof.
  unfold bswap64; cbv zeta.
  match goal with |- N.lor (N.shiftl (N.land ?y _) _) _ < _ => set (z := y) end.
  change (0x00000000ffffffff) with (N.ones 32). rewrite N.land_ones.
  rewrite N.shiftl_mul_pow2, N.shiftr_div_pow2.
  assert (Hz : N.land z 0xffffffff00000000 < 2 ^ 64).
  { destruct (N.eq_dec (N.land z 0xffffffff00000000) 0) as [->|Hn]; [vm_compute; reflexivity|].
    apply N.log2_lt_pow2; [lia|].
    eapply N.le_lt_trans; [apply N.log2_land|]. change (N.log2 0xffffffff00000000) with 63.
    apply N.min_lt_iff. right. vm_compute; reflexivity. }
  assert (Ha : z mod 2 ^ 32 * 2 ^ 32 < 2 ^ 64).
  { change (2 ^ 64) with (2 ^ 32 * 2 ^ 32). apply N.mul_lt_mono_pos_r; [reflexivity|].
    apply N.mod_lt. discriminate. }
  assert (Hb : N.land z 0xffffffff00000000 / 2 ^ 32 < 2 ^ 32).
  { apply N.div_lt_upper_bound; [discriminate|]. exact Hz. }
  destruct (N.eq_dec (N.lor (z mod 2 ^ 32 * 2 ^ 32) (N.land z 18446744069414584320 / 2 ^ 32)) 0) as [->|Hn];
    [vm_compute; reflexivity|].
  apply N.log2_lt_pow2; [lia|]. rewrite N.log2_lor. apply N.max_lub_lt.
  - destruct (N.eq_dec (z mod 2 ^ 32 * 2 ^ 32) 0) as [->|H0]; [vm_compute; reflexivity|].
    apply N.log2_lt_pow2; [lia|exact Ha].
  - destruct (N.eq_dec (N.land z 18446744069414584320 / 2 ^ 32) 0) as [->|H0]; [vm_compute; reflexivity|].
    apply N.log2_lt_pow2; [lia|]. eapply N.lt_trans; [exact Hb|vm_compute; reflexivity].
Qed.

Lemma word_of_bytes5 (x : N) :
  (((byte_at x 4 * 256 + byte_at x 3) * 256 + byte_at x 2) * 256 + byte_at x 1) * 256 + byte_at x 0
  = x mod 2 ^ 40.
Proof.
  rewrite !byte_at_div.
  change (8 * 0) with 0. change (8 * 1) with 8. change (8 * 2) with 16. change (8 * 3) with 24. change (8 * 4) with 32.
  change (2 ^ 0) with 1. change (2 ^ 8) with 256. change (2 ^ 16) with (256 * 256).
  change (2 ^ 24) with (256 * (256 * 256)). change (2 ^ 32) with (256 * (256 * (256 * 256))).
  change (2 ^ 40) with (256 * (256 * (256 * (256 * 256)))).
  rewrite N.div_1_r. rewrite <- ?N.div_div by discriminate.
  rewrite !N.mod_mul_r by discriminate.
  rewrite <- ?N.div_div by discriminate. ring.
Qed.

Lemma be_val_acc_zeros (l : list N) : be_val_acc 0 (skip_zeros l) = be_val_acc 0 l.
Proof.
  induction l as [|b r IH]; [reflexivity|]. cbn [skip_zeros be_val_acc].
  destruct (N.eqb_spec b 0) as [->|Hb]; [exact IH|reflexivity].
Qed.

Lemma store_piv_value (n : N) : be_val (store_piv n) = n mod 2 ^ 40.
Proof.
  unfold store_piv. destruct (N.eqb_spec n 0) as [->|Hn]; [reflexivity|].
  change (8 - PIV_LEN)%nat with 3%nat. rewrite mem64_bswap. cbn [map skipn].
  unfold be_val. rewrite be_val_acc_zeros. cbn [be_val_acc].
  rewrite N.mul_0_l, N.add_0_l. apply word_of_bytes5.
Qed.

Lemma skip_zeros_sub (l : list N) : (List.length (skip_zeros l) <= List.length l)%nat /\
  (bytes_ok l -> bytes_ok (skip_zeros l)) /\
  (skip_zeros l = [] \/ exists b r, skip_zeros l = b :: r /\ b <> 0).
Proof.
  induction l as [|b r (IH1 & IH2 & IH3)]; cbn [skip_zeros].
  - split; [lia|]. split; [auto|left; reflexivity].
  - destruct (N.eqb_spec b 0) as [->|Hb].
    + split; [cbn [List.length]; lia|]. split; [|exact IH3].
      intros H. apply IH2. apply bytes_ok_cons in H. tauto.
    + split; [lia|]. split; [auto|]. right. eauto.
Qed.

Lemma store_piv_shape (n : N) :
  (List.length (store_piv n) <= 5)%nat /\ bytes_ok (store_piv n) /\
  (n mod 2 ^ 40 <> 0 \/ n = 0 -> minimal (store_piv n) /\ (1 <= List.length (store_piv n))%nat).
Proof.
  pose proof (store_piv_value n) as Hv. revert Hv.
  unfold store_piv. destruct (N.eqb_spec n 0) as [->|Hn].
  - intros _. split; [cbn [List.length]; lia|]. split.
    + constructor; [reflexivity|constructor].
    + intros _. split; [left; reflexivity|cbn [List.length]; lia].
  - change (8 - PIV_LEN)%nat with 3%nat. rewrite mem64_bswap. cbn [map skipn].
    set (l := [_; _; _; _; _]). intros Hv.
    destruct (skip_zeros_sub l) as (H1 & H2 & H3).
    split; [exact H1|]. split.
    + apply H2. repeat constructor; apply byte_at_lt.
    + intros Hnz. destruct H3 as [H3|(b & r & H3 & Hb)].
      * exfalso. rewrite H3 in Hv. cbn in Hv. lia.
      * split; [right; eauto|rewrite H3; cbn [List.length]; lia].
Qed.

Lemma lor_shift_add (b r : N) : b < 256 -> N.lor b (N.shiftl r 8) = b + 256 * r.
Proof.
  intros Hb. rewrite N.shiftl_mul_pow2. change (2 ^ 8) with 256.
  apply N.bits_inj. intros k.
  rewrite N.lor_spec. 
  destruct (N.ltb_spec k 8) as [Hk|Hk].
  - replace (r * 256) with (N.shiftl r 8) by (rewrite N.shiftl_mul_pow2; reflexivity).
    rewrite N.shiftl_spec_low by exact Hk. rewrite orb_false_r.
    rewrite <- (N.mod_pow2_bits_low (b + 256 * r) 8 k) by exact Hk.
    replace ((b + 256 * r) mod 2 ^ 8) with b; [reflexivity|].
    change (2 ^ 8) with 256. lia.
  - replace k with ((k - 8) + 8) by lia.
    rewrite <- !N.div_pow2_bits. change (2 ^ 8) with 256.
    replace (b / 256) with 0 by lia. rewrite N.bits_0.
    replace (r * 256 / 256) with r by lia. replace ((b + 256 * r) / 256) with r by lia. reflexivity.
Qed.

Fixpoint le_val (l : list N) : N := match l with [] => 0 | b :: r => b + 256 * le_val r end.
Lemma of_mem_le (l : list N) : bytes_ok l -> of_mem l = le_val l.
Proof.
  induction l as [|b r IH]; intros H; [reflexivity|]. apply bytes_ok_cons in H as [Hb Hr].
  cbn [of_mem le_val]. rewrite lor_shift_add by exact Hb. rewrite IH by exact Hr. reflexivity.
Qed.

Lemma byte_le_0 (b r : N) : b < 256 -> byte_at (b + 256 * r) 0 = b.
Proof. intros H. rewrite byte_at_div. change (2 ^ (8 * 0)) with 1. lia. Qed.
Lemma byte_le_S (b r i : N) : b < 256 -> byte_at (b + 256 * r) (i + 1) = byte_at r i.
Proof.
  intros H. rewrite !byte_at_div. f_equal.
  replace (2 ^ (8 * (i + 1))) with (256 * 2 ^ (8 * i)).
  - rewrite <- N.div_div by (try discriminate; apply N.pow_nonzero; discriminate). f_equal. lia.
  - replace (8 * (i + 1)) with (8 + 8 * i) by lia. rewrite N.pow_add_r. reflexivity.
Qed.

Lemma word_of_bytes8 (x : N) : x < 2 ^ 64 ->
  x = le_val (map (byte_at x) [0;1;2;3;4;5;6;7]).
Proof.
  intros Hx. cbn [map le_val]. rewrite N.mul_0_r, N.add_0_r.
  rewrite <- (N.mod_small x (2 ^ 64)) at 1 by exact Hx.
  rewrite !byte_at_div.
  change (8 * 0) with 0. change (8 * 1) with 8. change (8 * 2) with 16. change (8 * 3) with 24.
  change (8 * 4) with 32. change (8 * 5) with 40. change (8 * 6) with 48. change (8 * 7) with 56.
  change (2 ^ 0) with 1. change (2 ^ 8) with 256. change (2 ^ 16) with (256 * 256).
  change (2 ^ 24) with (256 * (256 * 256)). change (2 ^ 32) with (256 * (256 * (256 * 256))).
  change (2 ^ 40) with (256 * (256 * (256 * (256 * 256)))).
  change (2 ^ 48) with (256 * (256 * (256 * (256 * (256 * 256))))).
  change (2 ^ 56) with (256 * (256 * (256 * (256 * (256 * (256 * 256)))))).
  change (2 ^ 64) with (256 * (256 * (256 * (256 * (256 * (256 * (256 * 256))))))).
  rewrite N.div_1_r. rewrite <- ?N.div_div by discriminate.
  rewrite !N.mod_mul_r by discriminate.
  rewrite <- ?N.div_div by discriminate. ring.
Qed.

Lemma be_val_acc_app (l m : list N) (a : N) : be_val_acc a (l ++ m) = be_val_acc (be_val_acc a l) m.
Proof. revert a. induction l as [|b r IH]; intros a; [reflexivity|]. cbn [app be_val_acc]. apply IH. Qed.

Lemma be_val_repeat0 (k : nat) (m : list N) : be_val (repeat 0 k ++ m) = be_val m.
Proof. unfold be_val. induction k as [|k IH]; [reflexivity|]. cbn [repeat app be_val_acc]. exact IH. Qed.

Lemma read_piv_value (piv : list N) : bytes_ok piv -> (List.length piv <= 8)%nat ->
  read_piv piv = be_val piv.
Proof.
  intros Hp Hl. unfold read_piv.
  rewrite <- (be_val_repeat0 (8 - List.length piv) piv).
  set (m := repeat 0 (8 - List.length piv) ++ piv).
  assert (Hm : bytes_ok m).
  { apply bytes_ok_app. split; [|exact Hp]. apply Forall_forall. intros y Hy.
    apply repeat_spec in Hy. subst y. reflexivity. }
  assert (Hlen : List.length m = 8%nat).
  { unfold m. rewrite app_length, repeat_length. lia. }
  clearbody m. clear Hp Hl piv. rewrite of_mem_le by exact Hm.
  destruct m as [|b0 [|b1 [|b2 [|b3 [|b4 [|b5 [|b6 [|b7 [|b8 m]]]]]]]]]; try discriminate Hlen.
  unfold bytes_ok, is_byte in Hm. inversion_clear Hm as [|? ? H0 Hr0]. inversion_clear Hr0 as [|? ? H1 Hr1].
  inversion_clear Hr1 as [|? ? H2 Hr2]. inversion_clear Hr2 as [|? ? H3 Hr3]. inversion_clear Hr3 as [|? ? H4 Hr4].
  inversion_clear Hr4 as [|? ? H5 Hr5]. inversion_clear Hr5 as [|? ? H6 Hr6]. inversion_clear Hr6 as [|? ? H7 _].
  rewrite (word_of_bytes8 (bswap64 _)) by apply bswap_bound.
  fold (mem64 (bswap64 (le_val [b0; b1; b2; b3; b4; b5; b6; b7]))). rewrite mem64_bswap.
  change 1 with (0 + 1) at 1.
  assert (HB : forall x, map (byte_at x) [7;6;5;4;3;2;1;0] =
     [byte_at x (0+1+1+1+1+1+1+1); byte_at x (0+1+1+1+1+1+1); byte_at x (0+1+1+1+1+1); byte_at x (0+1+1+1+1);
      byte_at x (0+1+1+1); byte_at x (0+1+1); byte_at x (0+1); byte_at x 0]) by reflexivity.
  rewrite HB. cbn [le_val]. rewrite !byte_le_S, !byte_le_0 by assumption.
  unfold be_val. cbn [be_val_acc]. ring.
Qed.

Lemma piv_roundtrip (n : N) : n < 2 ^ 40 -> read_piv (store_piv n) = n.
Proof.
  intros Hn. destruct (store_piv_shape n) as (H1 & H2 & _).
  rewrite read_piv_value by (try exact H2; lia). rewrite store_piv_value. apply N.mod_small. exact Hn.
Qed.

(** ** AEAD nonce *)
Definition nonce_plain (id piv : list N) : list N :=
  [N.of_nat (List.length id)] ++ (repeat 0 (7 - List.length id) ++ id) ++
  (repeat 0 (5 - List.length piv) ++ piv).

Lemma nonce_layout (id piv civ : list N) :
  (List.length id <= 7)%nat -> (List.length piv <= 5)%nat ->
  aead_nonce id piv civ = xor_lists (nonce_plain id piv) civ.
Proof.
  intros Hi Hp. unfold aead_nonce, nonce_plain.
  do 8 (destruct id as [|? id];
        [do 6 (destruct piv as [|? piv]; [reflexivity|]); cbn [List.length] in Hp; lia|]).
  cbn [List.length] in Hi; lia.
Qed.

Lemma xor_lists_inj (c a b : list N) :
  List.length a = List.length c -> List.length b = List.length c ->
  xor_lists a c = xor_lists b c -> a = b.
Proof.
  revert a b. induction c as [|z c IH]; intros a b Ha Hb H.
  - destruct a; [|discriminate]. destruct b; [reflexivity|discriminate].
  - destruct a as [|x a]; [discriminate|]. destruct b as [|y b]; [discriminate|].
    cbn [xor_lists] in H. injection H as H1 H2. f_equal.
    + rewrite <- (N.lxor_0_r x), <- (N.lxor_nilpotent z), <- N.lxor_assoc, H1,
        N.lxor_assoc, N.lxor_nilpotent, N.lxor_0_r. reflexivity.
    + apply IH; [injection Ha; auto|injection Hb; auto|exact H2].
Qed.

Lemma be_val_inj_len (a b : list N) (x y : N) :
  List.length a = List.length b -> bytes_ok a -> bytes_ok b ->
  be_val_acc x a = be_val_acc y b -> x = y /\ a = b.
Proof.
  revert b x y. induction a as [|p a IH]; intros b x y Hl Ha Hb H.
  - destruct b; [|discriminate]. cbn in H. auto.
  - destruct b as [|q b]; [discriminate|]. cbn [be_val_acc] in H.
    apply bytes_ok_cons in Ha as [Hp Ha]. apply bytes_ok_cons in Hb as [Hq Hb].
    injection Hl as Hl. destruct (IH b _ _ Hl Ha Hb H) as [H1 ->].
    unfold is_byte in *. assert (x = y /\ p = q) as [-> ->] by lia. auto.
Qed.

Lemma nonce_plain_length (id piv : list N) :
  (List.length id <= 7)%nat -> (List.length piv <= 5)%nat -> List.length (nonce_plain id piv) = 13%nat.
Proof.
  intros Hi Hp. unfold nonce_plain. rewrite !app_length, !repeat_length. cbn [List.length]. lia.
Qed.

Lemma repeat0_bytes (k : nat) : bytes_ok (repeat 0 k).
Proof. apply Forall_forall. intros y Hy. apply repeat_spec in Hy. subst y. reflexivity. Qed.

Lemma nonce_injective (id1 id2 piv1 piv2 civ : list N) :
  (List.length id1 <= 7)%nat -> (List.length id2 <= 7)%nat ->
  (List.length piv1 <= 5)%nat -> (List.length piv2 <= 5)%nat ->
  bytes_ok piv1 -> bytes_ok piv2 -> List.length civ = 13%nat ->
  (aead_nonce id1 piv1 civ = aead_nonce id2 piv2 civ <-> id1 = id2 /\ be_val piv1 = be_val piv2).
Proof.
  intros Hi1 Hi2 Hp1 Hp2 Hb1 Hb2 Hc. rewrite !nonce_layout by assumption.
  assert (Hpad : forall p, (List.length p <= 5)%nat -> List.length (repeat 0 (5 - List.length p) ++ p) = 5%nat).
  { intros p Hp. rewrite app_length, repeat_length. lia. }
  assert (Hipad : forall p, (List.length p <= 7)%nat -> List.length (repeat 0 (7 - List.length p) ++ p) = 7%nat).
  { intros p Hp. rewrite app_length, repeat_length. lia. }
  assert (Happ : forall A (a b c d : list A), List.length a = List.length b -> a ++ c = b ++ d -> a = b /\ c = d).
  { clear. intros A a. induction a as [|x a IH]; intros b c d Hl H; destruct b as [|y b]; try discriminate; [auto|].
    cbn [app] in H. injection H as -> H. injection Hl as Hl. destruct (IH _ _ _ Hl H) as [-> ->]. auto. }
  split.
  - intros H. apply xor_lists_inj in H; [|rewrite nonce_plain_length by assumption; auto..].
    unfold nonce_plain in H. apply (Happ _ [_] [_]) in H as [Hl H]; [|reflexivity].
    apply (f_equal (hd 0)) in Hl. cbn [hd] in Hl.
    apply Happ in H as [H1 H2]; [|rewrite !Hipad by assumption; reflexivity].
    assert (Hl' : List.length id1 = List.length id2) by lia.
    rewrite Hl' in H1. apply Happ in H1 as [_ H1]; [|reflexivity].
    split; [exact H1|].
    rewrite <- (be_val_repeat0 (5 - List.length piv1) piv1), H2. apply be_val_repeat0.
  - intros [-> H]. f_equal. unfold nonce_plain. do 2 f_equal.
    rewrite <- (be_val_repeat0 (5 - List.length piv1) piv1), <- (be_val_repeat0 (5 - List.length piv2) piv2) in H.
    eapply be_val_inj_len; [| | |exact H].
    + rewrite !Hpad by assumption. reflexivity.
    + apply bytes_ok_app. split; [apply repeat0_bytes|exact Hb1].
    + apply bytes_ok_app. split; [apply repeat0_bytes|exact Hb2].
Qed.

Lemma nonce_ssn_distinct (id1 id2 civ : list N) (n1 n2 : N) :
  (List.length id1 <= 7)%nat -> (List.length id2 <= 7)%nat -> List.length civ = 13%nat ->
  n1 < 2 ^ 40 -> n2 < 2 ^ 40 -> (id1, n1) <> (id2, n2) ->
  aead_nonce id1 (store_piv n1) civ <> aead_nonce id2 (store_piv n2) civ.
Proof.
  intros Hi1 Hi2 Hc H1 H2 Hne H.
  destruct (store_piv_shape n1) as (A1 & B1 & _). destruct (store_piv_shape n2) as (A2 & B2 & _).
  apply nonce_injective in H; try assumption. destruct H as [-> H].
  rewrite !store_piv_value, !N.mod_small in H by assumption. subst. congruence.
Qed.

(** ** OSCORE option *)
Lemma to_nat_land7 (f : N) : (N.to_nat (N.land f 7) <= 7)%nat.
Proof. change 7 with (N.ones 3). rewrite N.land_ones. change (2 ^ 3) with 8. lia. Qed.

Lemma firstn_mid (a b c : list N) : firstn (List.length b) (skipn (List.length a) (a ++ b ++ c)) = b.
Proof.
  rewrite skipn_app, skipn_all, Nat.sub_diag. cbn [app skipn].
  rewrite firstn_app, firstn_all, Nat.sub_diag, firstn_O, app_nil_r. reflexivity.
Qed.

Lemma copy_field_mid (a b c : list N) (cap : nat) : (List.length b <= cap)%nat ->
  copy_field (a ++ b ++ c) (List.length a) (List.length b) cap = inr b.
Proof.
  intros H. unfold copy_field. rewrite !app_length.
  destruct (Nat.ltb_spec cap (List.length b)); [lia|].
  destruct (Nat.ltb_spec (List.length a + (List.length b + List.length c)) (List.length a + List.length b)); [lia|].
  rewrite firstn_mid. reflexivity.
Qed.

Lemma flags_fields (n h k : N) : n <= 5 -> h <= 1 -> k <= 1 ->
  N.land (16 * h + 8 * k + n) 7 = n /\
  (N.land (16 * h + 8 * k + n) 0x10 =? 0) = (h =? 0) /\
  (N.land (16 * h + 8 * k + n) 8 =? 0) = (k =? 0).
Proof.
  intros Hn Hh Hk.
  assert (Hc1 : h = 0 \/ h = 1) by lia. assert (Hc2 : k = 0 \/ k = 1) by lia.
  assert (Hc3 : n = 0 \/ n = 1 \/ n = 2 \/ n = 3 \/ n = 4 \/ n = 5) by lia.
  destruct Hc1 as [->| ->], Hc2 as [->| ->];
    repeat (destruct Hc3 as [->|Hc3]; [vm_compute; auto|]); subst; vm_compute; auto.
Qed.

Lemma parse_wellformed (opt piv ctx kid : list N) (n h k : N) :
  rfc8613_option opt n h k piv ctx kid ->
  parse_oscore_option opt = O_ok (Some (mkF (16 * h + 8 * k + n) piv ctx kid)).
Proof.
  intros (Hn & Hn5 & Hh & Hk & ->).
  assert (Hh1 : h <= 1) by lia. assert (Hk1 : k <= 1) by lia.
  destruct (flags_fields n h k Hn5 Hh1 Hk1) as (F1 & F2 & F3).
  unfold parse_oscore_option. rewrite F1, F2, F3.
  set (fl := 16 * h + 8 * k + n) in *.
  set (tl := piv ++ _).
  assert (Hpl : N.to_nat n = List.length piv) by lia. rewrite Hpl.
  assert (E1 : (if Nat.ltb 0 (List.length piv) then copy_field (fl :: tl) 1 (List.length piv) PIV_LEN else inr []) = inr piv).
  { destruct (Nat.ltb_spec 0 (List.length piv)) as [Hp|Hp].
    - exact (copy_field_mid [fl] piv _ PIV_LEN ltac:(unfold PIV_LEN; lia)).
    - destruct piv; [reflexivity|cbn [List.length] in Hp; lia]. }
  rewrite E1. clear E1.
  assert (Hlen : (Z.of_nat (List.length (fl :: tl)) - 1)%Z = Z.of_nat (List.length tl)).
  { cbn [List.length]. lia. }
  rewrite Hlen.
  destruct Hh as [[-> ->]|[-> Hcl]].
  - cbn [N.eqb]. change (0 =? 0) with true. cbv iota.
    subst tl. change (0 =? 1) with false in *. cbv iota in *. cbn [app] in *.
    destruct Hk as [[-> ->]|[-> Hkl]].
    + reflexivity.
    + change (1 =? 0) with false. cbv iota.
      assert (E : ((Z.of_nat (List.length (piv ++ kid)) - Z.of_nat (List.length piv)) mod W64)%Z = Z.of_nat (List.length kid)).
      { rewrite app_length. unfold W64. rewrite Z.mod_small; lia. }
      rewrite E. destruct (Z.ltb_spec (Z.of_nat CTXID_LEN) (Z.of_nat (List.length kid))); [unfold CTXID_LEN in *; lia|].
      rewrite Nat2Z.id.
      replace (fl :: piv ++ kid) with ((fl :: piv) ++ kid ++ []) by (rewrite app_nil_r; reflexivity).
      replace (1 + List.length piv)%nat with (List.length (fl :: piv)) by reflexivity.
      rewrite copy_field_mid by exact Hkl. reflexivity.
  - change (1 =? 0) with false. cbv iota.
    subst tl. change (1 =? 1) with true in *. cbv iota in *.
    set (s := N.of_nat (List.length ctx)) in *.
    assert (E0 : nth_error (fl :: piv ++ (s :: ctx) ++ kid) (1 + List.length piv) = Some s).
    { change (1 + List.length piv)%nat with (S (List.length piv)). cbn [nth_error].
      rewrite nth_error_app2 by lia. rewrite Nat.sub_diag. reflexivity. }
    rewrite E0. assert (Es : N.to_nat s = List.length ctx) by (unfold s; lia). rewrite Es.
    destruct (Nat.ltb_spec IDCTX_LEN (List.length ctx)); [unfold IDCTX_LEN in *; lia|].
    assert (E1 : copy_field (fl :: piv ++ (s :: ctx) ++ kid) (1 + List.length piv + 1) (List.length ctx) IDCTX_LEN = inr ctx).
    { replace (fl :: piv ++ (s :: ctx) ++ kid) with ((fl :: piv ++ [s]) ++ ctx ++ kid)
        by (cbn [app]; rewrite <- !app_assoc; reflexivity).
      replace (1 + List.length piv + 1)%nat with (List.length (fl :: piv ++ [s]))
        by (cbn [List.length]; rewrite app_length; cbn [List.length]; lia).
      apply copy_field_mid. exact Hcl. }
    rewrite E1. clear E1.
    destruct Hk as [[-> ->]|[-> Hkl]].
    + reflexivity.
    + change (1 =? 0) with false. cbv iota.
      assert (E : ((((Z.of_nat (List.length (piv ++ (s :: ctx) ++ kid)) - Z.of_nat (List.length piv)) mod W64 - 1) mod W64
                    - Z.of_N s) mod W64)%Z = Z.of_nat (List.length kid)).
      { rewrite !app_length. cbn [List.length]. unfold s, W64. rewrite nat_N_Z. 
        rewrite (Z.mod_small (Z.of_nat (List.length piv + (S (List.length ctx) + List.length kid)) - Z.of_nat (List.length piv)))%Z by lia.
        rewrite (Z.mod_small (_ - 1))%Z by lia. rewrite Z.mod_small; lia. }
      rewrite E. destruct (Z.ltb_spec (Z.of_nat CTXID_LEN) (Z.of_nat (List.length kid))); [unfold CTXID_LEN in *; lia|].
      rewrite Nat2Z.id.
      replace (fl :: piv ++ (s :: ctx) ++ kid) with ((fl :: piv ++ (s :: ctx)) ++ kid ++ [])
        by (rewrite app_nil_r; cbn [app]; rewrite <- !app_assoc; reflexivity).
      replace (1 + List.length piv + 1 + List.length ctx)%nat with (List.length (fl :: piv ++ (s :: ctx)))
        by (cbn [List.length]; rewrite app_length; cbn [List.length]; lia).
      rewrite copy_field_mid by exact Hkl. reflexivity.
Qed.

Lemma flag_bits (fl : N) : is_byte fl ->
  N.land fl 7 = fl mod 8 /\
  (N.land fl 0x10 =? 0) = ((fl / 16) mod 2 =? 0) /\ (N.land fl 8 =? 0) = ((fl / 8) mod 2 =? 0).
Proof.
  intros H.
  assert (S : forallb (fun f => (N.land f 7 =? f mod 8) && Bool.eqb (N.land f 0x10 =? 0) ((f / 16) mod 2 =? 0)
      && Bool.eqb (N.land f 8 =? 0) ((f / 8) mod 2 =? 0)) all_bytes = true) by (vm_compute; reflexivity).
  pose proof (sweep1 _ S fl H) as H1. cbv beta in H1.
  apply andb_prop in H1 as [H1 H3]. apply andb_prop in H1 as [H1 H2].
  apply N.eqb_eq in H1. apply Bool.eqb_prop in H2. apply Bool.eqb_prop in H3. auto.
Qed.

Definition mem_error (o : opt_outcome) : Prop := o = O_read_past_end \/ o = O_write_past_field.

Lemma copy_field_err (opt : list N) (pos len cap : nat) (e : opt_outcome) :
  copy_field opt pos len cap = inl e -> mem_error e /\ ((cap < len)%nat \/ (List.length opt < pos + len)%nat).
Proof.
  unfold copy_field, mem_error.
  destruct (Nat.ltb_spec cap len); [intros H0; injection H0 as <-; auto|].
  destruct (Nat.ltb_spec (List.length opt) (pos + len)); [intros HX; injection HX as <-; auto|]. discriminate.
Qed.
Lemma copy_field_ok (opt : list N) (pos len cap : nat) (l : list N) :
  copy_field opt pos len cap = inr l ->
  (len <= cap)%nat /\ (pos + len <= List.length opt)%nat /\ l = firstn len (skipn pos opt) /\ List.length l = len.
Proof.
  unfold copy_field.
  destruct (Nat.ltb_spec cap len); [discriminate|].
  destruct (Nat.ltb_spec (List.length opt) (pos + len)); [discriminate|].
  intros E; injection E as <-. repeat split; try lia. rewrite firstn_length, skipn_length. lia.
Qed.

(** Everything about the decoder in one case analysis. *)
Lemma parse_cases (opt : list N) : bytes_ok opt -> (Z.of_nat (List.length opt) < W64)%Z ->
  (mem_error (parse_oscore_option opt) <-> overrunning_option opt) /\
  (forall f, parse_oscore_option opt = O_ok (Some f) ->
     exists fl rest, f_flags f = fl /\
       opt = fl :: f_piv f ++ (if (fl / 16) mod 2 =? 1 then N.of_nat (List.length (f_kidctx f)) :: f_kidctx f else []) ++ f_kid f ++ rest /\
       List.length (f_piv f) = N.to_nat (fl mod 8) /\
       (List.length (f_piv f) <= 5)%nat /\ (List.length (f_kidctx f) <= 16)%nat /\ (List.length (f_kid f) <= 7)%nat /\
       ((fl / 8) mod 2 = 1 -> rest = []) /\ ((fl / 8) mod 2 = 0 -> f_kid f = []) /\
       ((fl / 16) mod 2 = 0 -> f_kidctx f = [])).
Proof.
  intros Hb Hlen. destruct opt as [|fl r].
  { cbn. split; [|discriminate]. split; [intros [H|H]; discriminate|tauto]. }
  assert (Hfl : is_byte fl) by (apply bytes_ok_cons in Hb; tauto).
  destruct (flag_bits fl Hfl) as (F1 & F2 & F3).
  unfold parse_oscore_option. rewrite F1, F2, F3. unfold overrunning_option.
  set (n := N.to_nat (fl mod 8)).
  assert (Hn7 : (n <= 7)%nat) by (unfold n; lia).
  set (opt := fl :: r) in *.
  assert (Hl1 : (1 <= List.length opt)%nat) by (unfold opt; cbn [List.length]; lia).
  destruct (if Nat.ltb 0 n then copy_field opt 1 n PIV_LEN else inr []) as [e|piv] eqn:E1.
  { destruct (Nat.ltb_spec 0 n) as [Hp|Hp]; [|discriminate].
    apply copy_field_err in E1 as [He Hc]. unfold PIV_LEN in Hc.
    split; [split; [intros _; lia|intros _; exact He]|].
    intros f ->. destruct He; discriminate. }
  assert (P1 : (n <= 5)%nat /\ (1 + n <= List.length opt)%nat /\ List.length piv = n /\
               exists r1, opt = fl :: piv ++ r1).
  { destruct (Nat.ltb_spec 0 n) as [Hp|Hp].
    - apply copy_field_ok in E1 as (A & B & C & D). unfold PIV_LEN in A. repeat split; try lia.
      exists (skipn n r). unfold opt. f_equal. rewrite C. unfold opt. cbn [skipn]. symmetry. apply firstn_skipn.
    - injection E1 as <-. cbn [List.length]. repeat split; try lia. exists r. reflexivity. }
  clear E1. destruct P1 as (Pn & Pl & Plen & r1 & Er1).
  assert (Hr1 : List.length opt = (1 + n + List.length r1)%nat).
  { rewrite Er1. cbn [List.length]. rewrite app_length. lia. }
  assert (Hnth : forall i, nth_error opt (1 + n + i) = nth_error r1 i).
  { intros i. rewrite Er1. change (1 + n + i)%nat with (S (n + i)). cbn [nth_error].
    rewrite nth_error_app2 by lia. f_equal. lia. }
  assert (L2 : ((Z.of_nat (List.length opt) - 1 - Z.of_nat n) mod W64)%Z = Z.of_nat (List.length r1)).
  { rewrite Z.mod_small; [|unfold W64 in *]; lia. }
  rewrite L2. clear L2.
  destruct (N.eqb_spec ((fl / 16) mod 2) 0) as [Hh0|Hh0].
  - (* no kid context *)
    assert (Hno : (fl / 16) mod 2 =? 1 = false) by lia.
    split.
    + split; [|intros [?|[?|[? _]]]; lia].
      destruct (N.eqb_spec ((fl / 8) mod 2) 0); [intros [H|H]; discriminate|].
      destruct (Z.ltb_spec (Z.of_nat CTXID_LEN) (Z.of_nat (List.length r1))); [intros [H'|H']; discriminate|].
      rewrite Nat2Z.id. destruct (copy_field opt (1 + n) (List.length r1) CTXID_LEN) as [e|kid] eqn:E2.
      * apply copy_field_err in E2 as [_ [Hc|Hc]]; unfold CTXID_LEN in *; lia.
      * intros [H'|H']; discriminate.
    + intros f Hf. destruct (N.eqb_spec ((fl / 8) mod 2) 0) as [Hk0|Hk0].
      * injection Hf as <-. cbn [f_flags f_piv f_kidctx f_kid]. exists fl, r1.
        rewrite Hno. cbn [app List.length]. repeat split; try lia; auto.
      * destruct (Z.ltb_spec (Z.of_nat CTXID_LEN) (Z.of_nat (List.length r1))); [discriminate|].
        rewrite Nat2Z.id in Hf. destruct (copy_field opt (1 + n) (List.length r1) CTXID_LEN) as [e|kid] eqn:E2.
        { apply copy_field_err in E2 as [_ [Hc|Hc]]; unfold CTXID_LEN in *; lia. }
        injection Hf as <-. cbn [f_flags f_piv f_kidctx f_kid]. exists fl, [].
        apply copy_field_ok in E2 as (A & B & C & D). unfold CTXID_LEN in *.
        assert (Ek : kid = r1).
        { rewrite C, Er1. change (1 + n)%nat with (S n). cbn [skipn]. rewrite <- Plen at 1.
          rewrite skipn_app, skipn_all, Nat.sub_diag. cbn [skipn app]. apply firstn_all. }
        rewrite Hno. rewrite Ek in *. cbn [app List.length]. rewrite app_nil_r. repeat split; try lia; auto.
  - (* kid context *)
    assert (Hh1 : (fl / 16) mod 2 = 1) by lia. assert (Hyes : (fl / 16) mod 2 =? 1 = true) by lia.
    replace (nth_error opt (1 + n)) with (nth_error r1 0) by (rewrite <- Hnth; f_equal; lia).
    destruct r1 as [|s r2]; cbn [nth_error].
    { split; [|discriminate]. split; [intros _; right; right; auto|intros _; left; reflexivity]. }
    cbn [List.length] in *.
    assert (Hs : is_byte s).
    { rewrite Er1 in Hb. apply bytes_ok_cons in Hb as [_ Hb]. apply bytes_ok_app in Hb as [_ Hb].
      apply bytes_ok_cons in Hb. tauto. }
    destruct (Nat.ltb_spec IDCTX_LEN (N.to_nat s)) as [Hs16|Hs16]; unfold IDCTX_LEN in Hs16.
    { split; [|discriminate]. split; [intros [H|H]; discriminate|].
      intros [?|[?|[_ [?|(s' & Es & Hs' & _)]]]]; try lia; try discriminate. injection Es as <-. lia. }
    destruct (copy_field opt (1 + n + 1) (N.to_nat s) IDCTX_LEN) as [e|ctx] eqn:E2.
    { apply copy_field_err in E2 as [He Hc]. unfold IDCTX_LEN in Hc.
      split; [|intros f ->; destruct He; discriminate].
      split; [|intros _; exact He]. intros _. right; right. split; [exact Hh1|]. right. exists s.
      split; [reflexivity|]. lia. }
    apply copy_field_ok in E2 as (A & B & C & D). unfold IDCTX_LEN in A.
    assert (Ec : r2 = ctx ++ skipn (N.to_nat s) r2).
    { rewrite C, Er1. replace (1 + n + 1)%nat with (S (n + 1)) by lia. cbn [skipn].
      rewrite skipn_app. replace (n + 1 - List.length piv)%nat with 1%nat by lia.
      rewrite skipn_all2 by lia. cbn [skipn app]. symmetry. apply firstn_skipn. }
    set (r3 := skipn (N.to_nat s) r2) in *.
    assert (Hr3 : List.length r2 = (N.to_nat s + List.length r3)%nat).
    { rewrite Ec, app_length. lia. }
    assert (L3 : (((Z.of_nat (S (List.length r2)) - 1) mod W64 - Z.of_N s) mod W64)%Z = Z.of_nat (List.length r3)).
    { unfold W64 in *. rewrite (Z.mod_small (Z.of_nat (S (List.length r2)) - 1)) by lia. rewrite Z.mod_small; lia. }
    rewrite L3. clear L3.
    assert (Hsn : N.of_nat (List.length ctx) = s) by lia.
    split.
    + split; [|intros [?|[?|[_ [?|(s' & Es & _ & Hs')]]]]; try lia; try discriminate; injection Es as <-; lia].
      destruct (N.eqb_spec ((fl / 8) mod 2) 0); [intros [H|H]; discriminate|].
      destruct (Z.ltb_spec (Z.of_nat CTXID_LEN) (Z.of_nat (List.length r3))); [intros [H'|H']; discriminate|].
      rewrite Nat2Z.id. destruct (copy_field opt (1 + n + 1 + N.to_nat s) (List.length r3) CTXID_LEN) as [e|kid] eqn:E3.
      * apply copy_field_err in E3 as [_ [Hc|Hc]]; unfold CTXID_LEN in *; lia.
      * intros [H'|H']; discriminate.
    + intros f Hf. destruct (N.eqb_spec ((fl / 8) mod 2) 0) as [Hk0|Hk0].
      * injection Hf as <-. cbn [f_flags f_piv f_kidctx f_kid]. exists fl, r3.
        rewrite Hyes, Hsn. cbn [app List.length]. rewrite <- Ec. repeat split; try lia; auto; try (intros; exfalso; lia).
      * destruct (Z.ltb_spec (Z.of_nat CTXID_LEN) (Z.of_nat (List.length r3))); [discriminate|].
        rewrite Nat2Z.id in Hf. destruct (copy_field opt (1 + n + 1 + N.to_nat s) (List.length r3) CTXID_LEN) as [e|kid] eqn:E3.
        { apply copy_field_err in E3 as [_ [Hc|Hc]]; unfold CTXID_LEN in *; lia. }
        injection Hf as <-. cbn [f_flags f_piv f_kidctx f_kid]. exists fl, [].
        apply copy_field_ok in E3 as (A' & B' & C' & D'). unfold CTXID_LEN in *.
        assert (Ek : kid = r3).
        { rewrite C', Er1. replace (1 + n + 1 + N.to_nat s)%nat with (S (n + S (N.to_nat s))) by lia. cbn [skipn].
          rewrite skipn_app. replace (n + S (N.to_nat s) - List.length piv)%nat with (S (N.to_nat s)) by lia.
          rewrite skipn_all2 by lia. cbn [skipn app]. fold r3. apply firstn_all. }
        rewrite Hyes, Hsn. rewrite Ek in *. cbn [app]. rewrite app_nil_r, <- Ec. repeat split; try lia; auto; try (intros; exfalso; lia).
Qed.

(** Writing then reading the option gives the same fields back. *)
Lemma set_header_flags (code : N) (piv kid ctx : list N) : (List.length piv <= 5)%nat ->
  f_flags (set_header_oscore code piv kid ctx) =
  16 * (match ctx with [] => 0 | _ => 1 end) + 8 * (if code <=? 5 then 1 else 0) + N.of_nat (List.length piv).
Proof.
  intros Hp. unfold set_header_oscore. cbn [f_flags].
  assert (Hc : N.of_nat (List.length piv) = 0 \/ N.of_nat (List.length piv) = 1 \/ N.of_nat (List.length piv) = 2
    \/ N.of_nat (List.length piv) = 3 \/ N.of_nat (List.length piv) = 4 \/ N.of_nat (List.length piv) = 5) by lia.
  destruct (code <=? 5), ctx;
  (repeat (destruct Hc as [->|Hc]; [reflexivity|]); rewrite Hc; reflexivity).
Qed.

Lemma option_roundtrip (code : N) (piv kid ctx : list N) :
  (List.length piv <= 5)%nat -> (List.length ctx <= 16)%nat -> (List.length kid <= 7)%nat ->
  (code > 5 -> kid = []) ->
  let f := set_header_oscore code piv kid ctx in
  (f_flags f = 0 -> parse_oscore_option (serialize_oscore_value f) = O_ok None /\ piv = [] /\ kid = [] /\ ctx = []) /\
  (f_flags f <> 0 -> parse_oscore_option (serialize_oscore_value f) = O_ok (Some f)) /\
  List.length (serialize_oscore_value f) = oscore_value_length f.
Proof.
  intros Hp Hc Hk Hcode f.
  pose proof (set_header_flags code piv kid ctx Hp) as Hf. fold f in Hf.
  assert (Ff : f_piv f = piv /\ f_kidctx f = ctx /\ f_kid f = kid) by (repeat split).
  destruct Ff as (F1 & F2 & F3).
  split; [|split].
  - intros H0. unfold serialize_oscore_value. rewrite H0. cbn. split; [reflexivity|].
    rewrite H0 in Hf. destruct ctx; [|lia]. destruct (N.leb_spec code 5); [lia|].
    repeat split; [|apply Hcode; lia]. destruct piv; [reflexivity|cbn [List.length] in Hf; lia].
  - intros H0. unfold serialize_oscore_value. destruct (N.eqb_spec (f_flags f) 0); [contradiction|].
    rewrite F1, F2, F3.
    rewrite (parse_wellformed _ piv ctx kid (N.of_nat (List.length piv)) (match ctx with [] => 0 | _ => 1 end)
              (if code <=? 5 then 1 else 0)).
    + rewrite <- Hf. reflexivity.
    + unfold rfc8613_option. rewrite <- Hf. repeat split; try lia.
      * destruct ctx; [left; auto|right; auto].
      * destruct (N.leb_spec code 5); [right; auto|left; split; [reflexivity|apply Hcode; lia]].
      * destruct ctx; reflexivity.
  - unfold serialize_oscore_value, oscore_value_length. rewrite F1, F2, F3.
    destruct (N.eqb_spec (f_flags f) 0) as [H0|H0].
    + rewrite H0 in Hf. destruct ctx; [|lia]. destruct (N.leb_spec code 5); [lia|].
      rewrite Hcode by lia. cbn [List.length]. destruct piv; [reflexivity|cbn [List.length] in Hf; lia].
    + cbn [List.length]. rewrite !app_length. destruct ctx; cbn [List.length]; lia.
Qed.

(** ** Replay window *)
Lemma set_nth_length (i : nat) (v : N) (l : list N) : List.length (set_nth i v l) = List.length l.
Proof. revert i. induction l as [|x l IH]; intros [|i]; cbn [set_nth List.length]; auto. Qed.
Lemma nth_set_nth (i j : nat) (v d : N) (l : list N) : (i < List.length l)%nat ->
  nth j (set_nth i v l) d = if Nat.eqb i j then v else nth j l d.
Proof.
  revert i j. induction l as [|x l IH]; intros i j H; cbn [List.length] in H; [lia|].
  destruct i as [|i], j as [|j]; cbn [set_nth nth Nat.eqb]; try reflexivity. apply IH. lia.
Qed.

Definition win_ok (w : window) : Prop := List.length (w_vals w) = 32%nat /\ (w_idx w < 32)%nat.
Definition held (p : N) (n : nat) (w : window) : Prop :=
  exists j, (j < 32)%nat /\ nth j (w_vals w) 0 = p /\ Nat.modulo (j + n) 32 = w_idx w.

Lemma check_fresh (w w' : window) (p : N) : win_ok w -> check_replayed w p = (false, w') ->
  win_ok w' /\ held p 0 w' /\ (forall q n, (n < 31)%nat -> held q n w -> held q (S n) w').
Proof.
  intros [Hl Hi] H.
  assert (Hw : w' = mkW (set_nth (Nat.modulo (w_idx w + 1) 32) p (w_vals w)) (Nat.modulo (w_idx w + 1) 32)).
  { unfold check_replayed, RWIN_SIZE in H. cbv zeta in H. destruct (_ && _ && _); [congruence|].
    destruct (existsb _ _); congruence. }
  subst w'. set (i := Nat.modulo (w_idx w + 1) 32) in *.
  assert (Hi' : (i < 32)%nat) by (unfold i; lia).
  split; [|split].
  - split; cbn [w_vals w_idx]; [rewrite set_nth_length; exact Hl|exact Hi'].
  - exists i. cbn [w_vals w_idx]. split; [exact Hi'|]. split.
    + rewrite nth_set_nth by lia. rewrite Nat.eqb_refl. reflexivity.
    + lia.
  - intros q n Hn (j & Hj & Hq & Hm). exists j. cbn [w_vals w_idx]. split; [exact Hj|]. split; [|unfold i; lia].
    rewrite nth_set_nth by lia. destruct (Nat.eqb_spec i j) as [E|E]; [|exact Hq].
    exfalso. unfold i in E. lia.
Qed.

Lemma check_replay_same (w w' : window) (p : N) : check_replayed w p = (true, w') -> w' = w.
Proof.
  unfold check_replayed. cbv zeta. destruct (_ && _ && _); [discriminate|]. destruct (existsb _ _); congruence.
Qed.

Lemma held_replayed (w : window) (p : N) (n : nat) : win_ok w -> p <> 0 -> held p n w ->
  check_replayed w p = (true, w).
Proof.
  intros [Hl _] Hp (j & Hj & Hq & _). unfold check_replayed. cbv zeta.
  destruct (N.eqb_spec p 0); [contradiction|]. cbn [andb].
  assert (E : existsb (N.eqb p) (w_vals w) = true).
  { apply existsb_exists. exists p. split; [|apply N.eqb_refl]. rewrite <- Hq. apply nth_In. lia. }
  rewrite E. reflexivity.
Qed.

Lemma held_rest (p : N) : p <> 0 -> forall rs w n, win_ok w -> held p n w ->
  forall j, (n + List.length (filter not_refused (firstn j (recv_all w rs))) <= 31)%nat ->
  forall a, nth_error rs j = Some (p, a) -> nth_error (recv_all w rs) j = Some R_replayed.
Proof.
  intros Hp rs. induction rs as [|[q b] rs IH]; intros w n Hw Hh j Hj a Hn; [destruct j; discriminate|].
  cbn [recv_all]. unfold recv_request.
  destruct (check_replayed w q) as [rep w'] eqn:E.
  destruct j as [|j].
  - cbn [nth_error] in *. injection Hn as -> ->. rewrite (held_replayed w p n Hw Hp Hh) in E. injection E as <- <-.
    reflexivity.
  - cbn [nth_error] in *.
    assert (Hj' : (n + List.length (filter not_refused (firstn (S j) (recv_all w ((q, b) :: rs)))) <= 31)%nat) by exact Hj.
    cbn [recv_all] in Hj'. unfold recv_request in Hj'. rewrite E in Hj'. cbn [firstn filter] in Hj'.
    destruct rep.
    + apply check_replay_same in E. subst w'. cbn [not_refused] in Hj'. eapply IH; eassumption.
    + destruct (check_fresh w w' q Hw E) as (Hw' & _ & Hk).
      assert (Hj2 : (S n + List.length (filter not_refused (firstn j (recv_all w' rs))) <= 31)%nat).
      { destruct b; cbn [not_refused List.length] in Hj'; lia. }
      apply (IH w' (S n) Hw') with (a := a); try assumption. apply Hk; [lia|exact Hh].
Qed.

Lemma no_early_replay : forall rs w i j p, win_ok w -> p <> 0 -> (i < j)%nat ->
  delivered_at rs (recv_all w rs) i p -> delivered_at rs (recv_all w rs) j p ->
  (32 <= passed_between (recv_all w rs) i j)%nat.
Proof.
  induction rs as [|[q b] rs IH]; intros w i j p Hw Hp Hij [[a Ha] Hi] [[a' Ha'] Hj].
  { destruct i; discriminate. }
  cbn [recv_all] in *. unfold recv_request in *.
  destruct (check_replayed w q) as [rep w'] eqn:E.
  destruct i as [|i].
  - cbn [nth_error] in Ha, Hi. injection Ha as -> ->.
    destruct rep; [discriminate|]. destruct (check_fresh w w' p Hw E) as (Hw' & Hh & _).
    destruct j as [|j]; [lia|]. cbn [nth_error] in *.
    destruct (Nat.le_gt_cases 32 (passed_between ((if a then R_delivered else R_not_authentic) :: recv_all w' rs) 0 (S j))) as [Hok|Hlt];
      [exact Hok|exfalso].
    unfold passed_between in Hlt. change (skipn (0 + 1) (?x :: ?l)) with l in Hlt.
    replace (S j - 0 - 1)%nat with j in Hlt by lia.
    assert (Hr : nth_error (recv_all w' rs) j = Some R_replayed).
    { eapply (held_rest p Hp rs w' 0%nat Hw' Hh); [|exact Ha']. cbn [skipn Nat.add] in Hlt. lia. }
    rewrite Hr in Hj. discriminate.
  - destruct j as [|j]; [lia|]. cbn [nth_error] in *.
    assert (Hw' : win_ok w').
    { destruct rep; [apply check_replay_same in E; subst; exact Hw|]. apply (check_fresh w w' q Hw E). }
    assert (H32 : (32 <= passed_between (recv_all w' rs) i j)%nat).
    { apply (IH w' i j p Hw' Hp); [lia| |]; split; eauto. }
    unfold passed_between in *. replace (S j - S i - 1)%nat with (j - i - 1)%nat by lia.
    change (S i + 1)%nat with (S (i + 1)). cbn [skipn]. exact H32.
Qed.

Lemma window_init_ok : win_ok window_init.
Proof. split; [reflexivity|cbn; lia]. Qed.

Lemma set_nth_In (i : nat) (v x : N) (l : list N) : In x (set_nth i v l) -> x = v \/ In x l.
Proof.
  revert i. induction l as [|y l IH]; intros i H; cbn [set_nth] in H; [destruct i; contradiction|].
  destruct i as [|i]; destruct H as [H|H]; cbn [In]; auto. destruct (IH _ H); auto.
Qed.

Lemma fresh_accepted : forall rs w p a, p <> 0 -> ~ In p (w_vals w) -> ~ In p (map fst rs) ->
  nth_error (recv_all w (rs ++ [(p, a)])) (List.length rs) =
  Some (if a then R_delivered else R_not_authentic).
Proof.
  induction rs as [|[q b] rs IH]; intros w p a Hp Hw Hr.
  - cbn [app recv_all List.length]. unfold recv_request, check_replayed. cbv zeta.
    destruct (N.eqb_spec p 0); [contradiction|]. cbn [andb].
    destruct (existsb (N.eqb p) (w_vals w)) eqn:E; [|reflexivity].
    apply existsb_exists in E as (x & Hx & He). apply N.eqb_eq in He. subst. contradiction.
  - cbn [app recv_all List.length]. unfold recv_request at 1.
    destruct (check_replayed w q) as [rep w'] eqn:E. cbn [nth_error]. apply IH; [exact Hp| |].
    + unfold check_replayed in E. cbv zeta in E.
      assert (Hset : ~ In p (set_nth (Nat.modulo (w_idx w + 1) RWIN_SIZE) q (w_vals w))).
      { intros Hin. apply set_nth_In in Hin as [->|Hin]; [apply Hr; left; reflexivity|contradiction]. }
      destruct (_ && _ && _).
      * injection E as _ <-. exact Hset.
      * destruct (existsb _ _); injection E as _ <-; [exact Hw|exact Hset].
    + intros Hin. apply Hr. right. exact Hin.
Qed.

(** ** Sender sequence number *)
(** Invariant: numbers used so far lie below the current one; stored is behind by at most the budget. *)
Definition used_below (b : N) (us : list (list N)) : Prop :=
  NoDup us /\ forall u, In u us -> exists n, u = store_piv n /\ n < b.

Definition inv (budget : option nat) (s : sender) : Prop :=
  s_ssn s < 2 ^ 40 /\
  match budget with
  | Some b => used_below (s_ssn s) (s_used s) /\ s_ssn s + N.of_nat b = s_stored s + 160 /\ (b <= 160)%nat
  | None => used_below (s_ssn s) (s_used s) /\ s_ssn s = s_stored s + 160
  end.

Lemma store_piv_inj (a b : N) : a < 2 ^ 40 -> b < 2 ^ 40 -> store_piv a = store_piv b -> a = b.
Proof.
  intros Ha Hb H. apply (f_equal read_piv) in H. rewrite !piv_roundtrip in H by assumption. exact H.
Qed.

Lemma used_below_mono (a b : N) us : a <= b -> used_below a us -> used_below b us.
Proof.
  intros Hab [H1 H2]. split; [exact H1|]. intros u Hu. destruct (H2 u Hu) as (n & -> & Hn).
  exists n. split; [reflexivity|lia].
Qed.

Lemma used_below_cons (a : N) us : a < 2 ^ 40 -> used_below a us -> used_below (a + 1) (store_piv a :: us).
Proof.
  intros Ha [H1 H2]. split.
  - constructor; [|exact H1]. intros Hin. destruct (H2 _ Hin) as (n & He & Hn).
    apply store_piv_inj in He; [lia|lia|lia].
  - intros u [<-|Hu]; [exists a; split; [reflexivity|lia]|].
    destruct (H2 u Hu) as (n & -> & Hn). exists n. split; [reflexivity|lia].
Qed.

(** Greatest sequence number reached in a history. *)
Fixpoint max_ssn (s : sender) (es : list sevent) : N :=
  match es with [] => s_ssn s | e :: r => N.max (s_ssn s) (max_ssn (sstep s e) r) end.

Lemma max_ssn_here s es : s_ssn s <= max_ssn s es.
Proof. destruct es; cbn [max_ssn]; lia. Qed.

Lemma no_reuse : forall es budget s,
  inv budget s -> timely budget es -> max_ssn s es < 2 ^ 40 -> NoDup (s_used (srun s es)).
Proof.
  induction es as [|e es IH]; intros budget s Hi Ht Hm.
  - destruct Hi as [_ Hi]. destruct budget; apply Hi.
  - cbn [max_ssn] in Hm. pose proof (max_ssn_here (sstep s e) es) as Hh.
    change (srun s (e :: es)) with (srun (sstep s e) es).
    destruct Hi as [Hs Hi].
    assert (Hnext : (s_ssn s + 1) mod W64N = s_ssn s + 1).
    { apply N.mod_small. unfold W64N. change (2 ^ 40) with 1099511627776 in *. lia. }
    assert (Hsend : forall st pd us, (us = s_used s \/ us = store_piv (s_ssn s) :: s_used s) ->
        st = s_stored s -> sstep s e = mkS (s_ssn s + 1) st pd us ->
        (match budget with Some (S b) => timely (Some b) es | _ => False end) -> NoDup (s_used (srun (sstep s e) es))).
    { intros st pd us Hu -> Hst Ht'. destruct budget as [[|b]|]; try contradiction.
      destruct Hi as (Hub & Heq & Hb).
      apply (IH (Some b)); [|exact Ht'|lia].
      rewrite Hst in *. unfold inv. cbn [s_ssn s_stored s_used] in *.
      split; [lia|]. split; [|lia].
      destruct Hu as [->| ->]; [eapply used_below_mono; [|exact Hub]; lia|apply used_below_cons; [exact Hs|exact Hub]]. }
    destruct e; cbn [timely] in Ht.
    + eapply Hsend; [right; reflexivity|reflexivity| |exact Ht]. cbn [sstep]. rewrite Hnext. reflexivity.
    + eapply Hsend; [left; reflexivity|reflexivity| |exact Ht]. cbn [sstep]. rewrite Hnext. reflexivity.
    + eapply Hsend; [right; reflexivity|reflexivity| |exact Ht]. cbn [sstep]. rewrite Hnext. reflexivity.
    + apply (IH (Some 160%nat)); [|exact Ht|lia]. cbn [sstep]. unfold inv. cbn [s_ssn s_stored s_used].
      split; [exact Hs|]. split; [|lia]. destruct budget; apply Hi.
    + apply (IH None); [|exact Ht|lia]. cbn [sstep] in *. unfold inv. cbn [s_ssn s_stored s_used] in *.
      unfold SSN_PAD_F, SSN_WRITE_FREQ_K in *.
      assert (Hsm : (s_stored s + (32 + 32 * 4)) mod W64N = s_stored s + 160).
      { rewrite N.mod_small; [lia|]. unfold W64N. change (2 ^ 40) with 1099511627776 in *.
        destruct budget; lia. }
      rewrite Hsm in *. split; [lia|]. split; [|reflexivity].
      destruct budget; destruct Hi as (Hub & Hi); (eapply used_below_mono; [|exact Hub]); lia.
Qed.

Lemma max_ssn_bound : forall es s M, s_ssn s <= M -> s_stored s <= M ->
  max_ssn s es <= M + 160 * N.of_nat (List.length es).
Proof.
  assert (Hmod : forall a, a mod W64N <= a) by (intros; apply N.mod_le; discriminate).
  induction es as [|e es IH]; intros s M H1 H2; cbn [max_ssn List.length]; [lia|].
  apply N.max_lub; [lia|].
  pose proof (Hmod (s_ssn s + 1)). pose proof (Hmod (s_stored s + (SSN_WRITE_FREQ_K + SSN_PAD_F))) as H3.
  unfold SSN_PAD_F, SSN_WRITE_FREQ_K in *.
  assert (IH' : max_ssn (sstep s e) es <= (M + 160) + 160 * N.of_nat (List.length es)).
  { apply IH; destruct e; cbn [sstep s_ssn s_stored]; unfold SSN_PAD_F, SSN_WRITE_FREQ_K; lia. }
  lia.
Qed.

Lemma no_reuse_init (es : list sevent) :
  timely (Some 160%nat) es -> 160 * N.of_nat (List.length es) < 2 ^ 40 -> NoDup (s_used (srun sender_init es)).
Proof.
  intros Ht Hl. eapply no_reuse; [|exact Ht|].
  - split; [vm_compute; reflexivity|]. split; [|cbn; lia]. split; [constructor|intros u []].
  - eapply N.le_lt_trans; [apply (max_ssn_bound es sender_init 0); reflexivity|lia].
Qed.

(** Progress of persist requests in histories of successful unicast sends and persists. *)
Lemma dump_requested : forall es s acc,
  Forall (fun e => e = SUnicast \/ e = SPersist) es ->
  s_ssn s + N.of_nat (List.length es) < W64N ->
  (s_pending s = false -> (acc < 32)%nat /\ N.of_nat acc <= s_ssn s mod 32) ->
  s_pending (srun s es) = false -> (sends_since_persist es acc < 32)%nat.
Proof.
  induction es as [|e es IH]; intros s acc Hf Hw Hi Hp.
  - cbn. apply Hi. exact Hp.
  - inversion_clear Hf as [|? ? He Hf']. change (srun s (e :: es)) with (srun (sstep s e) es) in Hp.
    cbn [List.length] in Hw.
    assert (Hnext : (s_ssn s + 1) mod W64N = s_ssn s + 1) by (apply N.mod_small; lia).
    destruct He as [->| ->]; cbn [sends_since_persist is_send].
    + apply (IH (sstep s SUnicast)); try assumption; cbn [sstep s_ssn s_pending]; rewrite Hnext; [lia|].
      unfold SSN_WRITE_FREQ_K. intros Hpp. apply orb_false_elim in Hpp as [Hp1 Hp2].
      destruct (Hi Hp1) as [Ha Hb]. lia.
    + apply (IH (sstep s SPersist)); try assumption; cbn [sstep s_ssn s_pending]; [lia|].
      intros _. lia.
Qed.
