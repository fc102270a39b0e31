From Verif Require Import Common Hex_Model Hex_Spec.
Local Open Scope N_scope.

Lemma hexchar_digit v : v < 16 -> hexchar v = nth (N.to_nat v) hexdigits 0.
Proof.
  intros H. apply N.eqb_eq.
  exact (sweep_below 16 (fun v => hexchar v =? nth (N.to_nat v) hexdigits 0)
           ltac:(vm_compute; reflexivity) v H).
Qed.

Lemma reads_as_hexchar v : v < 16 -> reads_as (hexchar v) v.
Proof. intros H. split; [exact H|]. left. apply hexchar_digit; exact H. Qed.

Lemma reads_as_unhex c v : reads_as c v -> unhexchar c = Some v.
Proof.
  intros [Hv [->| ->]].
  - assert (H : match unhexchar (nth (N.to_nat v) hexdigits 0) with Some w => w =? v | None => false end = true).
    { exact (sweep_below 16 (fun v => match unhexchar (nth (N.to_nat v) hexdigits 0) with
             Some w => w =? v | None => false end) ltac:(vm_compute; reflexivity) v Hv). }
    destruct (unhexchar _); [apply N.eqb_eq in H; congruence|discriminate].
  - assert (H : match unhexchar (nth (N.to_nat v) HEXDIGITS 0) with Some w => w =? v | None => false end = true).
    { exact (sweep_below 16 (fun v => match unhexchar (nth (N.to_nat v) HEXDIGITS 0) with
             Some w => w =? v | None => false end) ltac:(vm_compute; reflexivity) v Hv). }
    destruct (unhexchar _); [apply N.eqb_eq in H; congruence|discriminate].
Qed.

Lemma reads_as_bits c v : reads_as c v -> char_bits c = v /\ c <> 45 /\ c <> 42.
Proof.
  intros [Hv [->| ->]].
  - assert (H : (let c := nth (N.to_nat v) hexdigits 0 in
                 (char_bits c =? v) && negb (c =? 45) && negb (c =? 42)) = true).
    { exact (sweep_below 16 (fun v => let c := nth (N.to_nat v) hexdigits 0 in
                 (char_bits c =? v) && negb (c =? 45) && negb (c =? 42)) ltac:(vm_compute; reflexivity) v Hv). }
    cbv zeta in H. lia.
  - assert (H : (let c := nth (N.to_nat v) HEXDIGITS 0 in
                 (char_bits c =? v) && negb (c =? 45) && negb (c =? 42)) = true).
    { exact (sweep_below 16 (fun v => let c := nth (N.to_nat v) HEXDIGITS 0 in
                 (char_bits c =? v) && negb (c =? 45) && negb (c =? 42)) ltac:(vm_compute; reflexivity) v Hv). }
    cbv zeta in H. lia.
Qed.

Lemma hex2_text b : is_byte b -> forall s l, hex_text s l -> hex_text (hex2 b ++ s) (b :: l).
Proof.
  intros Hb s l H. unfold is_byte in Hb. cbn [hex2 app].
  replace b with (b / 16 * 16 + b mod 16) at 3 by lia.
  constructor; [apply reads_as_hexchar; lia | apply reads_as_hexchar; lia | exact H].
Qed.

Lemma flat_hex_text l : bytes_ok l -> hex_text (flat_map hex2 l) l.
Proof.
  induction l as [|b l IH]; intros H; [constructor|].
  apply bytes_ok_cons in H as [Hb Hl]. cbn [flat_map]. apply hex2_text; auto.
Qed.

Lemma hex_text_len s l : hex_text s l -> length s = (2 * length l)%nat.
Proof. induction 1; cbn [length]; lia. Qed.

Lemma hex_text_bytes s l : hex_text s l -> bytes_ok l.
Proof.
  induction 1 as [|c d hi lo s l [Hc _] [Hd _] _ IH]; [constructor|].
  constructor; [unfold is_byte; lia|exact IH].
Qed.

Lemma hex_pairs_text s l : hex_text s l -> hex_pairs s = Some l.
Proof.
  induction 1 as [|c d hi lo s l Hc Hd _ IH]; [reflexivity|].
  cbn [hex_pairs]. rewrite (reads_as_unhex _ _ Hc), (reads_as_unhex _ _ Hd), IH. reflexivity.
Qed.

Lemma bytes_to_hex_spec l n : bytes_ok l ->
  match bytes_to_hex l n with
  | Some s => hex_text s l /\ no_uppercase s /\ (length s < n)%nat
  | None => (n <= 2 * length l)%nat
  end.
Proof.
  intros Hl. unfold bytes_to_hex.
  destruct (Nat.ltb_spec n (length l * 2 + 1)); [lia|].
  pose proof (flat_hex_text l Hl) as Ht.
  split; [exact Ht|]. split; [|apply hex_text_len in Ht; lia].
  clear -Hl. induction l as [|b l IH]; [constructor|].
  apply bytes_ok_cons in Hl as [Hb Hl]. cbn [flat_map]. apply Forall_app. split; [|exact (IH Hl)].
  unfold is_byte in Hb.
  constructor; [|constructor; [|constructor]]; unfold hexchar.
  - destruct (N.ltb_spec (b / 16) 10); lia.
  - destruct (N.ltb_spec (b mod 16) 10); lia.
Qed.

Lemma hex_to_bytes_text s l n : hex_text s l -> s <> [] -> (length l <= n)%nat ->
  hex_to_bytes s n = HexOk l.
Proof.
  intros Ht Hne Hn. pose proof (hex_text_len _ _ Ht) as Hlen.
  unfold hex_to_bytes.
  destruct (Nat.ltb_spec (length s) 1) as [H1|_]; [destruct s; [congruence|cbn [length] in H1; lia]|].
  destruct (Nat.eqb_spec (length s mod 2) 0) as [He|He]; [|lia].
  destruct (Nat.ltb_spec n (length s / 2 + 0)); [lia|].
  rewrite (hex_pairs_text _ _ Ht). reflexivity.
Qed.

Lemma hex_roundtrip l n m s : bytes_ok l -> l <> [] ->
  bytes_to_hex l n = Some s -> (length l <= m)%nat -> hex_to_bytes s m = HexOk l.
Proof.
  intros Hl Hne Hs Hm. pose proof (bytes_to_hex_spec l n Hl) as H. rewrite Hs in H.
  destruct H as (Ht & _ & _). apply hex_to_bytes_text; [exact Ht| |exact Hm].
  intros ->. apply hex_text_len in Ht. destruct l; [congruence|cbn [length] in Ht; lia].
Qed.

(* ------------------------------------------------------------- UUID *)
Lemma uuid_loop_text : forall s l out r,
  hex_text s l -> (length out + length l <= 16)%nat ->
  uuid_loop out None (s ++ r) = uuid_loop (out ++ l) None r.
Proof.
  intros s l out r H. revert out. induction H as [|c d hi lo s l Hc Hd _ IH]; intros out Hlen.
  - rewrite app_nil_r. reflexivity.
  - cbn [app uuid_loop]. cbn [length] in Hlen.
    destruct (reads_as_bits _ _ Hc) as (Hb & Hc1 & _). destruct (reads_as_bits _ _ Hd) as (Hb' & Hd1 & _).
    destruct (N.eqb_spec c 45); [congruence|]. destruct (N.eqb_spec d 45); [congruence|].
    unfold UUID_ID_SIZE. destruct (Nat.eqb_spec (length out) 16); [lia|].
    rewrite Hb, Hb'.
    replace (N.lor ((hi * 16) mod 256) lo) with (hi * 16 + lo).
    + rewrite IH; [rewrite <- app_assoc; reflexivity | rewrite app_length; cbn [length]; lia].
    + destruct Hc as [Hhi _], Hd as [Hlo _]. symmetry. apply N.eqb_eq.
      pose proof (sweep_below 16 (fun h => forallb (fun l => N.lor ((h * 16) mod 256) l =? h * 16 + l) (below 16))
                    ltac:(vm_compute; reflexivity) hi Hhi) as H1.
      exact (sweep_below 16 _ H1 lo Hlo).
Qed.

Lemma uuid_loop_dash out half r : uuid_loop out half (45 :: r) = uuid_loop out half r.
Proof. reflexivity. Qed.

Lemma str_to_uuid_text s u : uuid_text s u -> str_to_uuid_v1 s = (16%Z, Some u).
Proof.
  intros (s1 & s2 & s3 & s4 & s5 & u1 & u2 & u3 & u4 & u5 & -> & -> & H1 & H2 & H3 & H4 & H5 &
          L1 & L2 & L3 & L4 & L5).
  pose proof (hex_text_len _ _ H1) as N1. pose proof (hex_text_len _ _ H2) as N2.
  pose proof (hex_text_len _ _ H3) as N3. pose proof (hex_text_len _ _ H4) as N4.
  pose proof (hex_text_len _ _ H5) as N5.
  assert (Hloop : uuid_loop [] None (s1 ++ [45] ++ s2 ++ [45] ++ s3 ++ [45] ++ s4 ++ [45] ++ s5)
                  = Some (u1 ++ u2 ++ u3 ++ u4 ++ u5)).
  { rewrite (uuid_loop_text s1 u1) by (assumption || (cbn [length]; lia)). cbn [app]. rewrite uuid_loop_dash.
    rewrite (uuid_loop_text s2 u2) by (assumption || (rewrite ?app_length; cbn [length]; lia)). rewrite uuid_loop_dash.
    rewrite (uuid_loop_text s3 u3) by (assumption || (rewrite ?app_length; cbn [length]; lia)). rewrite uuid_loop_dash.
    rewrite (uuid_loop_text s4 u4) by (assumption || (rewrite ?app_length; cbn [length]; lia)). rewrite uuid_loop_dash.
    rewrite <- (app_nil_r s5).
    rewrite (uuid_loop_text s5 u5) by (assumption || (rewrite ?app_length; cbn [length]; lia)).
    cbn [uuid_loop]. f_equal. rewrite <- !app_assoc. reflexivity. }
  set (s := (s1 ++ [45] ++ s2 ++ [45] ++ s3 ++ [45] ++ s4 ++ [45] ++ s5)%list) in *.
  assert (Hs : length s = 36%nat) by (unfold s; rewrite !app_length; cbn [length]; lia).
  assert (Hu : length (u1 ++ u2 ++ u3 ++ u4 ++ u5) = 16%nat) by (rewrite !app_length; lia).
  unfold str_to_uuid_v1, str_to_uuid.
  assert (Hf : firstn (UUID_LEN - 1) s = s) by (apply firstn_all2; unfold UUID_LEN; lia).
  destruct s as [|c [|d r]] eqn:Es; [cbn [length] in Hs; lia | cbn [length] in Hs; lia|].
  rewrite Hf, Hloop, Hu.
  destruct (list_eqb (c :: d :: r) [42]) eqn:Ew.
  - apply list_eqb_spec in Ew. congruence.
  - cbn. rewrite app_nil_r. reflexivity.
Qed.

Lemma list16 {A} (u : list A) : length u = 16%nat ->
  exists a0 a1 a2 a3 a4 a5 a6 a7 a8 a9 b0 b1 b2 b3 b4 b5,
    u = [a0;a1;a2;a3;a4;a5;a6;a7;a8;a9;b0;b1;b2;b3;b4;b5].
Proof.
  intros H. do 16 (destruct u as [|? u]; [discriminate H|]). destruct u; [|discriminate H].
  repeat eexists.
Qed.

Lemma uuid_print_text u : bytes_ok u -> length u = 16%nat ->
  exists s, uuid_print 0 u 37 = Some s /\ uuid_text s u /\ no_uppercase s.
Proof.
  intros Hb Hl. destruct (list16 u Hl) as (a0&a1&a2&a3&a4&a5&a6&a7&a8&a9&b0&b1&b2&b3&b4&b5&->).
  repeat (match goal with H : bytes_ok (_ :: _) |- _ =>
    apply bytes_ok_cons in H; destruct H end).
  eexists. split; [reflexivity|]. split.
  - exists (flat_map hex2 [a0;a1;a2;a3]), (flat_map hex2 [a4;a5]), (flat_map hex2 [a6;a7]),
      (flat_map hex2 [a8;a9]), (flat_map hex2 [b0;b1;b2;b3;b4;b5]),
      [a0;a1;a2;a3], [a4;a5], [a6;a7], [a8;a9], [b0;b1;b2;b3;b4;b5].
    repeat split; try reflexivity; apply flat_hex_text; repeat (constructor; [assumption|]); constructor.
  - cbn [app hex2].
    assert (Hh : forall b, is_byte b -> ~ (65 <= hexchar (b / 16) <= 90) /\ ~ (65 <= hexchar (b mod 16) <= 90)).
    { intros b Hb'. unfold is_byte in Hb'. unfold hexchar.
      destruct (N.ltb_spec (b / 16) 10), (N.ltb_spec (b mod 16) 10); lia. }
    unfold no_uppercase.
    repeat (constructor; [first [lia | match goal with H : is_byte ?b |- ~ (_ <= hexchar (?b / 16) <= _) => apply (Hh b H) end
       | match goal with H : is_byte ?b |- ~ (_ <= hexchar (?b mod 16) <= _) => apply (Hh b H) end]|]).
    constructor.
Qed.

Lemma uuid_print_mono : forall u i n m s, uuid_print i u n = Some s -> (n <= m)%nat -> uuid_print i u m = Some s.
Proof.
  induction u as [|b r IH]; intros i n m s H Hle; cbn [uuid_print] in *; [exact H|].
  destruct (Nat.eqb i 4 || Nat.eqb i 6 || Nat.eqb i 8 || Nat.eqb i 10)%bool.
  - destruct (Nat.leb_spec n 1); [discriminate|]. destruct (Nat.leb_spec (n - 1) 2); [discriminate|].
    destruct (Nat.leb_spec m 1); [lia|]. destruct (Nat.leb_spec (m - 1) 2); [lia|].
    destruct (uuid_print (S i) r (n - 1 - 2)) eqn:E; [|discriminate].
    rewrite (IH _ _ (m - 1 - 2)%nat _ E ltac:(lia)). exact H.
  - destruct (Nat.leb_spec n 2); [discriminate|]. destruct (Nat.leb_spec m 2); [lia|].
    destruct (uuid_print (S i) r (n - 2)) eqn:E; [|discriminate].
    rewrite (IH _ _ (m - 2)%nat _ E ltac:(lia)). exact H.
Qed.

Lemma uuid_print_fits : forall u i n s, uuid_print i u n = Some s -> (u = [] \/ length s < n)%nat.
Proof.
  induction u as [|b r IH]; intros i n s H; cbn [uuid_print] in H; [left; reflexivity|].
  right.
  destruct (Nat.eqb i 4 || Nat.eqb i 6 || Nat.eqb i 8 || Nat.eqb i 10)%bool.
  - destruct (Nat.leb_spec n 1); [discriminate|]. destruct (Nat.leb_spec (n - 1) 2); [discriminate|].
    destruct (uuid_print (S i) r (n - 1 - 2)) eqn:E; [|discriminate]. injection H as <-.
    cbn [hex2 app length]. destruct (IH _ _ _ E) as [->|Hlt].
    + cbn in E. injection E as <-. cbn. lia.
    + lia.
  - destruct (Nat.leb_spec n 2); [discriminate|].
    destruct (uuid_print (S i) r (n - 2)) eqn:E; [|discriminate]. injection H as <-.
    cbn [hex2 app length]. destruct (IH _ _ _ E) as [->|Hlt].
    + cbn in E. injection E as <-. cbn. lia.
    + lia.
Qed.

Lemma uuid_to_str_spec u n : bytes_ok u -> length u = 16%nat -> u <> wildcard -> (37 <= n)%nat ->
  exists s, uuid_to_str u n = Some s /\ uuid_text s u /\ no_uppercase s.
Proof.
  intros Hb Hl Hw Hn. unfold uuid_to_str.
  destruct (list_eqb u wildcard) eqn:E; [apply list_eqb_spec in E; congruence|].
  destruct (uuid_print_text u Hb Hl) as (s & Hs & Ht & Hu).
  exists s. split; [eapply uuid_print_mono; eassumption|]. auto.
Qed.

Lemma uuid_small_buffer u n : bytes_ok u -> length u = 16%nat -> u <> wildcard -> (n < 37)%nat ->
  uuid_to_str u n = None.
Proof.
  intros Hb Hl Hw Hn. unfold uuid_to_str.
  destruct (list_eqb u wildcard) eqn:E; [apply list_eqb_spec in E; congruence|].
  destruct (uuid_print 0 u n) as [s|] eqn:Ep; [|reflexivity]. exfalso.
  pose proof (uuid_print_mono _ _ _ 37%nat _ Ep ltac:(lia)) as Hm.
  destruct (uuid_print_text u Hb Hl) as (s' & Hs & Ht & _).
  assert (s = s') by congruence. subst s'.
  destruct (uuid_print_fits _ _ _ _ Ep) as [->|Hlt]; [discriminate|].
  destruct Ht as (s1 & s2 & s3 & s4 & s5 & u1 & u2 & u3 & u4 & u5 & -> & _ & H1 & H2 & H3 & H4 & H5 &
          L1 & L2 & L3 & L4 & L5).
  apply hex_text_len in H1, H2, H3, H4, H5. rewrite !app_length in Hlt. cbn [length] in Hlt. lia.
Qed.

Lemma uuid_roundtrip u n s : bytes_ok u -> length u = 16%nat -> uuid_to_str u n = Some s ->
  snd (str_to_uuid_v1 s) = Some u /\ (fst (str_to_uuid_v1 s) > 0)%Z.
Proof.
  intros Hb Hl Hs.
  destruct (list_eqb u wildcard) eqn:E.
  - unfold uuid_to_str in Hs. rewrite E in Hs. apply list_eqb_spec in E. subst u.
    destruct (Nat.ltb n 2); [discriminate|]. injection Hs as <-. split; reflexivity.
  - assert (Hw : u <> wildcard) by (intros ->; rewrite list_eqb_refl in E; discriminate).
    destruct (le_lt_dec 37 n) as [Hn|Hn].
    + destruct (uuid_to_str_spec u n Hb Hl Hw Hn) as (s' & Hs' & Ht & _).
      assert (s = s') by congruence. subst s'. rewrite (str_to_uuid_text _ _ Ht). split; [reflexivity|reflexivity].
    + rewrite uuid_small_buffer in Hs by assumption. discriminate.
Qed.

Lemma gen_uuid_bits r : bytes_ok r -> length r = 16%nat ->
  length (gen_uuid r) = 16%nat /\ bytes_ok (gen_uuid r) /\
  uuid_version (gen_uuid r) = 4 /\ rfc4122_variant (gen_uuid r) = false /\
  gen_uuid r <> wildcard /\ gen_uuid r <> repeat 0 16.
Proof.
  intros Hb Hl. destruct (list16 r Hl) as (a0&a1&a2&a3&a4&a5&a6&a7&a8&a9&b0&b1&b2&b3&b4&b5&->).
  repeat (match goal with H : bytes_ok (_ :: _) |- _ =>
    apply bytes_ok_cons in H; destruct H end).
  unfold gen_uuid, set_nth. cbn [nth firstn skipn app].
  set (x := N.lor (N.land a8 63) 64). set (y := N.lor (N.land a6 15) 64).
  assert (Hx : (is_byteb x && negb (N.testbit x 7) && N.testbit x 6) = true).
  { unfold x. exact (sweep1 (fun a => is_byteb (N.lor (N.land a 63) 64) && negb (N.testbit (N.lor (N.land a 63) 64) 7)
       && N.testbit (N.lor (N.land a 63) 64) 6) ltac:(vm_compute; reflexivity) a8 ltac:(assumption)). }
  assert (Hy : (is_byteb y && (y / 16 =? 4)) = true).
  { unfold y. exact (sweep1 (fun a => is_byteb (N.lor (N.land a 15) 64) && (N.lor (N.land a 15) 64 / 16 =? 4))
       ltac:(vm_compute; reflexivity) a6 ltac:(assumption)). }
  apply andb_true_iff in Hx as [Hx Hx6]. apply andb_true_iff in Hx as [Hx0 Hx7].
  apply andb_true_iff in Hy as [Hy0 Hy4].
  unfold is_byteb in *.
  assert (Hy1 : y <> 0) by lia.
  split; [reflexivity|]. split.
  { repeat (constructor; [first [assumption | unfold is_byte; lia]|]). constructor. }
  split; [cbn [uuid_version nth]; unfold uuid_version; cbn [nth]; lia|].
  split; [unfold rfc4122_variant; cbn [nth]; apply negb_true_iff in Hx7; rewrite Hx7; reflexivity|].
  split; unfold wildcard; cbn [repeat]; congruence.
Qed.
