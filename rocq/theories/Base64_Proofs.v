From Verif Require Import Common Base64_Model Base64_Spec.
Local Open Scope N_scope.

Definition digits (e : encoding) : list N := match e with STD => digits_std | URL => digits_url end.

Lemma alpha_digit e v : alpha e v = digit (digits e) v.
Proof. destruct e; reflexivity. Qed.

Lemma sweep64 (P : N -> N -> bool) :
  forallb (fun x => forallb (P x) (below 64)) (below 64) = true ->
  forall x y, x < 64 -> y < 64 -> P x y = true.
Proof.
  intros H x y Hx Hy.
  pose proof (sweep_below 64 _ H x Hx) as H1. exact (sweep_below 64 _ H1 y Hy).
Qed.

(* --- encoder bit fields as arithmetic --- *)
Lemma f_first a : N.shiftr a 2 = a / 4.
Proof. rewrite N.shiftr_div_pow2. reflexivity. Qed.

Lemma f_second a b : is_byte a -> is_byte b ->
  N.lor (N.land (N.shiftl a 4 mod 256) 0x30) (N.shiftr b 4) = (a mod 4) * 16 + b / 16.
Proof.
  intros Ha Hb. apply N.eqb_eq.
  exact (sweep2 (fun a b => N.lor (N.land (N.shiftl a 4 mod 256) 0x30) (N.shiftr b 4)
                             =? (a mod 4) * 16 + b / 16) ltac:(vm_compute; reflexivity) a b Ha Hb).
Qed.

Lemma f_second_end a : is_byte a ->
  N.land (N.shiftl a 4 mod 256) 0x30 = (a mod 4) * 16.
Proof.
  intros Ha. apply N.eqb_eq.
  exact (sweep1 (fun a => N.land (N.shiftl a 4 mod 256) 0x30
                             =? (a mod 4) * 16) ltac:(vm_compute; reflexivity) a Ha).
Qed.

Lemma f_third b c : is_byte b -> is_byte c ->
  N.lor (N.land (N.shiftl b 2 mod 256) 0x3D) (N.shiftr c 6) = (b mod 16) * 4 + c / 64.
Proof.
  intros Ha Hb. apply N.eqb_eq.
  exact (sweep2 (fun b c => N.lor (N.land (N.shiftl b 2 mod 256) 0x3D) (N.shiftr c 6)
                             =? (b mod 16) * 4 + c / 64) ltac:(vm_compute; reflexivity) b c Ha Hb).
Qed.

Lemma f_third_end b : is_byte b ->
  N.land (N.shiftl b 2 mod 256) 0x3D = (b mod 16) * 4.
Proof.
  intros Ha. apply N.eqb_eq.
  exact (sweep1 (fun b => N.land (N.shiftl b 2 mod 256) 0x3D
                             =? (b mod 16) * 4) ltac:(vm_compute; reflexivity) b Ha).
Qed.

Lemma f_fourth c : is_byte c -> N.land c 0x3F = c mod 64.
Proof.
  intros Ha. apply N.eqb_eq.
  exact (sweep1 (fun c => N.land c 0x3F =? c mod 64) ltac:(vm_compute; reflexivity) c Ha).
Qed.

Lemma mod3_S i : (i mod 3 = 0 -> S i mod 3 = 1 /\ S (S i) mod 3 = 2 /\ S (S (S i)) mod 3 = 0)%nat.
Proof. lia. Qed.

Lemma enc_three e i v a b c r :
  (i mod 3 = 0)%nat -> is_byte a -> is_byte b -> is_byte c ->
  enc_loop e i v (a :: b :: c :: r) =
  alpha e (a / 4) :: alpha e ((a mod 4) * 16 + b / 16) :: alpha e ((b mod 16) * 4 + c / 64)
   :: alpha e (c mod 64) :: enc_loop e (S (S (S i))) (c mod 64) r.
Proof.
  intros Hi Ha Hb Hc. destruct (mod3_S i Hi) as (H1 & H2 & H3).
  cbn [enc_loop]. rewrite Hi, H1, H2. cbn [Nat.eqb].
  rewrite f_first, f_second, f_third, f_fourth by assumption. reflexivity.
Qed.

Lemma enc_loop_spec e : forall l i v,
  bytes_ok l -> (i mod 3 = 0)%nat ->
  enc_loop e i v l = rfc_encode (digits e) [] l.
Proof.
  intros l. induction l as [l IH] using list_len_ind. intros i v Hl Hi.
  destruct l as [|a [|b [|c r]]].
  - cbn [enc_loop]. rewrite Hi. reflexivity.
  - apply bytes_ok_cons in Hl as [Ha _]. unfold is_byte in Ha.
    destruct (mod3_S i Hi) as (H1 & H2 & H3).
    cbn [enc_loop]. rewrite Hi, H1. cbn [Nat.eqb rfc_encode app].
    rewrite f_first, f_second_end by assumption. rewrite !alpha_digit.
    replace (a * 65536 / 262144) with (a / 4) by lia.
    replace (a * 65536 / 4096 mod 64) with (a mod 4 * 16) by lia. reflexivity.
  - apply bytes_ok_cons in Hl as [Ha Hl]. apply bytes_ok_cons in Hl as [Hb _].
    unfold is_byte in Ha, Hb.
    destruct (mod3_S i Hi) as (H1 & H2 & H3).
    cbn [enc_loop]. rewrite Hi, H1, H2. cbn [Nat.eqb rfc_encode app].
    rewrite f_first, f_second, f_third_end by assumption. rewrite !alpha_digit.
    replace ((a * 65536 + b * 256) / 262144) with (a / 4) by lia.
    replace ((a * 65536 + b * 256) / 4096 mod 64) with (a mod 4 * 16 + b / 16) by lia.
    replace ((a * 65536 + b * 256) / 64 mod 64) with (b mod 16 * 4) by lia. reflexivity.
  - apply bytes_ok_cons in Hl as [Ha Hl]. apply bytes_ok_cons in Hl as [Hb Hl].
    apply bytes_ok_cons in Hl as [Hc Hl].
    rewrite enc_three by assumption. cbn [rfc_encode]. unfold is_byte in Ha, Hb, Hc.
    rewrite !alpha_digit.
    replace ((a * 65536 + b * 256 + c) / 262144) with (a / 4) by lia.
    replace ((a * 65536 + b * 256 + c) / 4096 mod 64) with (a mod 4 * 16 + b / 16) by lia.
    replace ((a * 65536 + b * 256 + c) / 64 mod 64) with (b mod 16 * 4 + c / 64) by lia.
    replace ((a * 65536 + b * 256 + c) mod 64) with (c mod 64) by lia.
    rewrite IH; [reflexivity| cbn [length]; lia | assumption | apply (mod3_S i Hi)].
Qed.

(* --- lengths --- *)
Lemma rfc_encode_len ds pad l :
  (length (rfc_encode ds pad l) =
   length l / 3 * 4 + (match (length l mod 3)%nat with
                       | 0 => 0 | 1 => 2 + 2 * length pad | _ => 3 + length pad end))%nat.
Proof.
  induction l as [l IH] using list_len_ind.
  destruct l as [|a [|b [|c r]]].
  - reflexivity.
  - cbn [rfc_encode length]. rewrite app_length. change (1 / 3)%nat with 0%nat. change (1 mod 3)%nat with 1%nat. cbv iota. lia.
  - cbn [rfc_encode length]. change (2 / 3)%nat with 0%nat. change (2 mod 3)%nat with 2%nat. cbv iota. lia.
  - cbn [rfc_encode length]. rewrite IH by (cbn [length]; lia).
    replace (S (S (S (length r))) mod 3)%nat with (length r mod 3)%nat by lia.
    replace (S (S (S (length r))) / 3)%nat with (S (length r / 3))%nat by lia.
    lia.
Qed.

Lemma mod3_cases n : (n mod 3 = 0 \/ n mod 3 = 1 \/ n mod 3 = 2)%nat.
Proof. lia. Qed.

Lemma rfc_encode_pad ds l :
  rfc_encode ds [61] l =
  (rfc_encode ds [] l ++ repeat 61 (match (length l mod 3)%nat with 0 => 0 | 1 => 2 | _ => 1 end)%nat)%list.
Proof.
  induction l as [l IH] using list_len_ind.
  destruct l as [|a [|b [|c r]]]; try reflexivity.
  cbn [rfc_encode length]. rewrite IH by (cbn [length]; lia).
  replace (S (S (S (length r))) mod 3)%nat with (length r mod 3)%nat by lia.
  reflexivity.
Qed.

Definition padl (padding : bool) : list N := if padding then [61] else [].

Lemma encoded_size_spec e padding l :
  length (rfc_encode (digits e) (padl padding) l) = encoded_size (length l) padding.
Proof.
  rewrite rfc_encode_len. unfold encoded_size, padl.
  destruct padding; cbn [length];
    destruct (mod3_cases (length l)) as [H|[H|H]]; rewrite H; cbn [Nat.eqb]; try lia.
Qed.

Lemma encode_spec e padding l bufsize :
  bytes_ok l -> (encoded_size (length l) padding <= bufsize)%nat ->
  encode e padding l bufsize = Some (rfc_encode (digits e) (padl padding) l).
Proof.
  intros Hl Hsz. unfold encode. destruct l as [|a r]; [reflexivity|].
  set (l := a :: r) in *.
  destruct (Nat.ltb_spec bufsize (encoded_size (length l) padding)) as [Hlt|_]; [lia|].
  rewrite enc_loop_spec by (assumption || reflexivity). f_equal.
  destruct padding; cbn [padl]; [|reflexivity].
  rewrite rfc_encode_pad. f_equal. f_equal.
  unfold encoded_size. rewrite rfc_encode_len. cbn [length].
  destruct (mod3_cases (length l)) as [H|[H|H]]; cbn [length l] in H |- *; rewrite H; cbn [Nat.eqb]; lia.
Qed.

Lemma encode_refuses e padding l bufsize :
  l <> [] -> (bufsize < encoded_size (length l) padding)%nat ->
  encode e padding l bufsize = None.
Proof.
  intros Hne Hlt. unfold encode. destruct l as [|a r]; [congruence|].
  destruct (Nat.ltb_spec bufsize (encoded_size (length (a :: r)) padding)) as [_|Hge]; [reflexivity|lia].
Qed.

(* --- decoder --- *)
Lemma decode_digit e v : v < 64 -> decode_char e (digit (digits e) v) = Some v.
Proof.
  intros Hv.
  assert (H : match decode_char e (digit (digits e) v) with Some w => w =? v | None => false end = true).
  { destruct e.
    - exact (sweep_below 64 (fun v => match decode_char STD (digit digits_std v) with
                                       | Some w => w =? v | None => false end)
               ltac:(vm_compute; reflexivity) v Hv).
    - exact (sweep_below 64 (fun v => match decode_char URL (digit digits_url v) with
                                       | Some w => w =? v | None => false end)
               ltac:(vm_compute; reflexivity) v Hv). }
  destruct (decode_char e (digit (digits e) v)) as [w|]; [|discriminate].
  apply N.eqb_eq in H. congruence.
Qed.

Lemma digit_not_pad e v : v < 64 -> (digit (digits e) v =? 61) = false.
Proof.
  intros Hv. apply negb_true_iff. destruct e.
  - exact (sweep_below 64 (fun v => negb (digit digits_std v =? 61)) ltac:(vm_compute; reflexivity) v Hv).
  - exact (sweep_below 64 (fun v => negb (digit digits_url v =? 61)) ltac:(vm_compute; reflexivity) v Hv).
Qed.

Lemma g_first v0 v1 : v0 < 64 -> v1 < 64 ->
  N.lor (N.land (N.shiftl v0 2 mod 256) 0xFD) (N.shiftr v1 4) = v0 * 4 + v1 / 16.
Proof.
  intros Ha Hb. apply N.eqb_eq.
  exact (sweep64 (fun v0 v1 => N.lor (N.land (N.shiftl v0 2 mod 256) 0xFD) (N.shiftr v1 4)
                               =? v0 * 4 + v1 / 16) ltac:(vm_compute; reflexivity) v0 v1 Ha Hb).
Qed.
Lemma g_second v1 v2 : v1 < 64 -> v2 < 64 ->
  N.lor (N.land (N.shiftl v1 4 mod 256) 0xF0) (N.shiftr v2 2) = (v1 mod 16) * 16 + v2 / 4.
Proof.
  intros Ha Hb. apply N.eqb_eq.
  exact (sweep64 (fun v1 v2 => N.lor (N.land (N.shiftl v1 4 mod 256) 0xF0) (N.shiftr v2 2)
                               =? (v1 mod 16) * 16 + v2 / 4) ltac:(vm_compute; reflexivity) v1 v2 Ha Hb).
Qed.
Lemma g_third v2 v3 : v2 < 64 -> v3 < 64 ->
  N.lor (N.land (N.shiftl v2 6 mod 256) 0xD0) v3 = (v2 mod 4) * 64 + v3.
Proof.
  intros Ha Hb. apply N.eqb_eq.
  exact (sweep64 (fun v2 v3 => N.lor (N.land (N.shiftl v2 6 mod 256) 0xD0) v3
                               =? (v2 mod 4) * 64 + v3) ltac:(vm_compute; reflexivity) v2 v3 Ha Hb).
Qed.

Lemma mod4_S i : (i mod 4 = 0 -> S i mod 4 = 1 /\ S (S i) mod 4 = 2 /\ S (S (S i)) mod 4 = 3
                                 /\ S (S (S (S i))) mod 4 = 0)%nat.
Proof. lia. Qed.

Ltac dstep Hv :=
  rewrite digit_not_pad by exact Hv; rewrite andb_false_r; rewrite decode_digit by exact Hv.

Lemma dec_two e p n i v v0 v1 r :
  (i mod 4 = 0)%nat -> v0 < 64 -> v1 < 64 ->
  dec_loop e p n i v (digit (digits e) v0 :: digit (digits e) v1 :: r) =
  let (o, ok) := dec_loop e p n (S (S i)) (N.land (N.shiftl v1 4 mod 256) 0xF0) r in
  (v0 * 4 + v1 / 16 :: o, ok).
Proof.
  intros Hi H0 H1. destruct (mod4_S i Hi) as (I1 & I2 & I3 & I4).
  cbn [dec_loop].
  dstep H0. rewrite Hi. cbn [Nat.eqb].
  dstep H1. rewrite I1. cbn [Nat.eqb]. rewrite g_first by assumption. reflexivity.
Qed.

Lemma dec_third e p n i v1 v2 r :
  (i mod 4 = 2)%nat -> v1 < 64 -> v2 < 64 ->
  dec_loop e p n i (N.land (N.shiftl v1 4 mod 256) 0xF0) (digit (digits e) v2 :: r) =
  let (o, ok) := dec_loop e p n (S i) (N.land (N.shiftl v2 6 mod 256) 0xD0) r in
  ((v1 mod 16) * 16 + v2 / 4 :: o, ok).
Proof.
  intros Hi H1 H2. cbn [dec_loop]. dstep H2. rewrite Hi. cbn [Nat.eqb].
  rewrite g_second by assumption. reflexivity.
Qed.

Lemma dec_fourth e p n i v2 v3 r :
  (i mod 4 = 3)%nat -> v2 < 64 -> v3 < 64 ->
  dec_loop e p n i (N.land (N.shiftl v2 6 mod 256) 0xD0) (digit (digits e) v3 :: r) =
  let (o, ok) := dec_loop e p n (S i) ((v2 mod 4) * 64 + v3) r in
  ((v2 mod 4) * 64 + v3 :: o, ok).
Proof.
  intros Hi H1 H2. cbn [dec_loop]. dstep H2. rewrite Hi. cbn [Nat.eqb].
  rewrite g_third by assumption. reflexivity.
Qed.

Lemma dec_loop_rfc e p : forall l i v n,
  bytes_ok l -> (i mod 4 = 0)%nat ->
  (n = i + length (rfc_encode (digits e) (padl p) l))%nat ->
  dec_loop e p n i v (rfc_encode (digits e) (padl p) l) = (l, true).
Proof.
  intros l. induction l as [l IH] using list_len_ind. intros i v n Hl Hi Hn.
  destruct (mod4_S i Hi) as (I1 & I2 & I3 & I4).
  destruct l as [|a [|b [|c r]]].
  - reflexivity.
  - apply bytes_ok_cons in Hl as [Ha _]. unfold is_byte in Ha.
    cbn [rfc_encode] in *.
    rewrite dec_two by (assumption || lia).
    destruct p; cbn [padl app length] in *.
    + cbn [dec_loop]. change (61 =? 61) with true. cbn [andb].
      destruct (Nat.ltb_spec (S (S i)) (n - 2)) as [Hx|_]; [lia|].
      rewrite andb_false_r. f_equal. f_equal. lia.
    + cbn [dec_loop]. f_equal. f_equal. lia.
  - apply bytes_ok_cons in Hl as [Ha Hl]. apply bytes_ok_cons in Hl as [Hb _].
    unfold is_byte in Ha, Hb. cbn [rfc_encode] in *.
    rewrite dec_two by (assumption || lia).
    rewrite dec_third by (assumption || lia).
    destruct p; cbn [padl length] in *.
    + cbn [dec_loop]. change (61 =? 61) with true. cbn [andb].
      destruct (Nat.ltb_spec (S (S (S i))) (n - 2)) as [Hx|_]; [lia|].
      destruct (Nat.eqb_spec (S (S (S i))) (n - 2)) as [Hx|_]; [lia|].
      cbn [andb]. f_equal. f_equal; [lia|]. f_equal. lia.
    + cbn [dec_loop]. f_equal. f_equal; [lia|]. f_equal. lia.
  - apply bytes_ok_cons in Hl as [Ha Hl]. apply bytes_ok_cons in Hl as [Hb Hl].
    apply bytes_ok_cons in Hl as [Hc Hl]. unfold is_byte in Ha, Hb, Hc.
    cbn [rfc_encode] in *. cbn [length] in Hn.
    rewrite dec_two by (assumption || lia).
    rewrite dec_third by (assumption || lia).
    rewrite dec_fourth by (assumption || lia).
    rewrite IH; [| cbn [length]; lia | assumption | assumption | lia].
    f_equal. f_equal; [lia|]. f_equal; [lia|]. f_equal. lia.
Qed.

Lemma rfc_encode_pad_count e l : bytes_ok l ->
  rfc_encode (digits e) [61] l <> [] ->
  pad_count (rfc_encode (digits e) [61] l) =
  (match (length l mod 3)%nat with 0 => 0 | 1 => 2 | _ => 1 end)%nat.
Proof.
  induction l as [l IH] using list_len_ind. intros Hl Hne.
  destruct l as [|a [|b [|c r]]].
  - cbn in Hne. congruence.
  - reflexivity.
  - apply bytes_ok_cons in Hl as [Ha Hl]. apply bytes_ok_cons in Hl as [Hb _].
    unfold is_byte in Ha, Hb.
    unfold pad_count. cbn [rfc_encode length Nat.sub skipn filter].
    rewrite digit_not_pad by lia. reflexivity.
  - apply bytes_ok_cons in Hl as [Ha Hl]. apply bytes_ok_cons in Hl as [Hb Hl].
    apply bytes_ok_cons in Hl as [Hc Hl]. unfold is_byte in Ha, Hb, Hc.
    destruct r as [|d r].
    + unfold pad_count. cbn [rfc_encode length Nat.sub skipn filter].
      rewrite !digit_not_pad by lia. reflexivity.
    + remember (d :: r) as r' eqn:Er.
      assert (Hne' : rfc_encode (digits e) [61] r' <> []).
      { intros Heq. apply (f_equal (@length N)) in Heq. rewrite rfc_encode_len in Heq.
        subst r'. cbn [length] in Heq.
        destruct (mod3_cases (S (length r))) as [H|[H|H]]; rewrite H in Heq; lia. }
      replace (length (a :: b :: c :: r') mod 3)%nat with (length r' mod 3)%nat by (cbn [length]; lia).
      rewrite <- IH; [| cbn [length]; lia | assumption | assumption].
      cbn [rfc_encode]. unfold pad_count.
      set (s := rfc_encode (digits e) [61] r') in *.
      assert (Hs : (length s >= 4)%nat).
      { unfold s. rewrite rfc_encode_len. subst r'. cbn [length].
        destruct (mod3_cases (S (length r))) as [H|[H|H]]; rewrite H; lia. }
      cbn [length].
      replace (S (S (S (S (length s)))) - 2)%nat with (S (S (S (S (length s - 2)))))%nat by lia.
      reflexivity.
Qed.

Lemma decoded_size_rfc e p l : bytes_ok l ->
  decoded_size (rfc_encode (digits e) (padl p) l) p = Some (length l).
Proof.
  intros Hl. destruct l as [|a r]; [destruct p; reflexivity|].
  remember (a :: r) as l eqn:El.
  assert (Hpos : (length l >= 1)%nat) by (subst l; cbn [length]; lia).
  unfold decoded_size.
  assert (Hne : rfc_encode (digits e) [61] l <> []).
  { intros Heq. apply (f_equal (@length N)) in Heq. rewrite rfc_encode_len in Heq. cbn [length] in Heq.
    destruct (mod3_cases (length l)) as [H|[H|H]]; rewrite H in Heq; lia. }
  pose proof (rfc_encode_len (digits e) (padl p) l) as Hlen.
  destruct p; cbn [padl length] in *.
  - rewrite (rfc_encode_pad_count e l Hl Hne).
    rewrite Hlen.
    destruct (mod3_cases (length l)) as [H|[H|H]]; rewrite H;
      match goal with |- (if Nat.eqb ?x 0 then _ else _) = _ => destruct (Nat.eqb_spec x 0) as [Hz|_]; [lia|] end;
      match goal with |- (if Nat.eqb ?x 0 then _ else _) = _ => destruct (Nat.eqb_spec x 0) as [_|Hz]; [|lia] end;
      f_equal; lia.
  - rewrite Hlen.
    destruct (mod3_cases (length l)) as [H|[H|H]]; rewrite H;
      match goal with |- (if Nat.eqb ?x 0 then _ else _) = _ => destruct (Nat.eqb_spec x 0) as [Hz|_]; [lia|] end;
      match goal with |- (if Nat.eqb ?x 1 then _ else _) = _ => destruct (Nat.eqb_spec x 1) as [Hz|_]; [lia|] end;
      match goal with |- context [Nat.eqb ?x 0] => destruct (Nat.eqb_spec x 0) as [Hz|Hz] end;
      f_equal; lia.
Qed.

Lemma decode_rfc e p l bufsize : bytes_ok l -> (length l <= bufsize)%nat ->
  decode e p (rfc_encode (digits e) (padl p) l) bufsize = Some l.
Proof.
  intros Hl Hb. unfold decode, decode_run. rewrite decoded_size_rfc by assumption.
  destruct (Nat.ltb_spec bufsize (length l)) as [Hx|_]; [lia|].
  rewrite dec_loop_rfc by (assumption || reflexivity). reflexivity.
Qed.

Lemma roundtrip e p l b1 b2 s : bytes_ok l -> encode e p l b1 = Some s -> (length l <= b2)%nat ->
  decode e p s b2 = Some l.
Proof.
  intros Hl He Hb.
  destruct (Nat.ltb b1 (encoded_size (length l) p)) eqn:Hlt.
  - destruct l as [|a r]; [cbn in He; injection He as <-; destruct p; reflexivity|].
    unfold encode in He. rewrite Hlt in He. discriminate.
  - apply Nat.ltb_ge in Hlt. rewrite encode_spec in He by assumption. injection He as <-.
    apply decode_rfc; assumption.
Qed.

(* --- the decoder stays inside the declared size, for every input --- *)
(** bytes written by the loop from index i over the rest, bounded by characters before the first pad *)
Fixpoint nwrites (i : nat) (k : nat) : nat :=
  match k with
  | O => 0
  | S k' => (if Nat.eqb (i mod 4) 0 then 0 else 1) + nwrites (S i) k'
  end.

Lemma dec_loop_writes e p n : forall rest i v,
  (length (fst (dec_loop e p n i v rest)) <= nwrites i (length rest))%nat.
Proof.
  induction rest as [|c rest IH]; intros i v; cbn [dec_loop nwrites length]; [cbn; lia|].
  destruct (p && (c =? 61)).
  - destruct (Nat.ltb i (n - 2)); [cbn; lia|].
    destruct (Nat.eqb i (n - 2) && _); cbn; lia.
  - destruct (decode_char e c) as [vs|]; [|cbn; lia].
    destruct (Nat.eqb (i mod 4) 0); [specialize (IH (S i) (N.land (N.shiftl vs 2 mod 256) 253)); lia|].
    destruct (Nat.eqb (i mod 4) 1).
    { specialize (IH (S i) (N.land (N.shiftl vs 4 mod 256) 240)).
      destruct (dec_loop e p n (S i) _ rest); cbn [fst length] in *; lia. }
    destruct (Nat.eqb (i mod 4) 2).
    { specialize (IH (S i) (N.land (N.shiftl vs 6 mod 256) 208)).
      destruct (dec_loop e p n (S i) _ rest); cbn [fst length] in *; lia. }
    { specialize (IH (S i) (N.lor v vs)).
      destruct (dec_loop e p n (S i) _ rest); cbn [fst length] in *; lia. }
Qed.

Lemma nwrites_val : forall k i, (nwrites i k = (i + k) - (i + k + 3) / 4 - (i - (i + 3) / 4))%nat.
Proof.
  induction k as [|k IH]; intros i; cbn [nwrites]; [lia|].
  rewrite IH. destruct (Nat.eqb_spec (i mod 4) 0); lia.
Qed.

(* cut at the first pad: the loop writes as if the input ended there *)
Lemma dec_loop_cut e n : forall pre post i v,
  (length (fst (dec_loop e true n i v (pre ++ 61%N :: post))) <= nwrites i (length pre))%nat.
Proof.
  induction pre as [|c pre IH]; intros post i v; cbn [app dec_loop nwrites length].
  - change (61 =? 61) with true. cbn [andb].
    destruct (Nat.ltb i (n - 2)); [cbn; lia|].
    match goal with |- context [if ?x then _ else _] => destruct x end; cbn; lia.
  - destruct (true && (c =? 61)).
    + destruct (Nat.ltb i (n - 2)); [cbn; lia|].
      match goal with |- context [if ?x then _ else _] => destruct x end; cbn; lia.
    + destruct (decode_char e c) as [vs|]; [|cbn; lia].
      destruct (Nat.eqb (i mod 4) 0); [specialize (IH post (S i) (N.land (N.shiftl vs 2 mod 256) 253)); lia|].
      destruct (Nat.eqb (i mod 4) 1).
      { specialize (IH post (S i) (N.land (N.shiftl vs 4 mod 256) 240)).
        destruct (dec_loop e true n (S i) _ (pre ++ 61 :: post)); cbn [fst length] in *; lia. }
      destruct (Nat.eqb (i mod 4) 2).
      { specialize (IH post (S i) (N.land (N.shiftl vs 6 mod 256) 208)).
        destruct (dec_loop e true n (S i) _ (pre ++ 61 :: post)); cbn [fst length] in *; lia. }
      { specialize (IH post (S i) (N.lor v vs)).
        destruct (dec_loop e true n (S i) _ (pre ++ 61 :: post)); cbn [fst length] in *; lia. }
Qed.

Lemma split_last2 (l : list N) : (length l >= 2)%nat -> exists pre x y, l = pre ++ [x; y].
Proof.
  intros H. exists (firstn (length l - 2) l).
  pose proof (firstn_skipn (length l - 2) l) as Hs.
  pose proof (skipn_length (length l - 2) l) as Hk.
  destruct (skipn (length l - 2) l) as [|x [|y [|z r]]] eqn:E; cbn [length] in Hk; try lia.
  exists x, y. congruence.
Qed.

Lemma pad_count_last2 pre x y :
  pad_count (pre ++ [x; y]) = ((if (x =? 61)%N then 1 else 0) + (if (y =? 61)%N then 1 else 0))%nat.
Proof.
  unfold pad_count. rewrite app_length. cbn [length].
  replace (length pre + 2 - 2)%nat with (length pre) by lia.
  rewrite skipn_app, skipn_all, Nat.sub_diag. cbn [skipn app filter].
  destruct (x =? 61), (y =? 61); reflexivity.
Qed.

Lemma decode_bounds e p input bufsize :
  (length (fst (decode_run e p input bufsize)) <= bufsize)%nat.
Proof.
  unfold decode_run. destruct (decoded_size input p) as [sz|] eqn:Hsz; [|cbn; lia].
  destruct (Nat.ltb_spec bufsize sz) as [_|Hge]; [cbn; lia|].
  etransitivity; [|exact Hge]. clear bufsize Hge.
  unfold decoded_size in Hsz.
  destruct (Nat.eqb_spec (length input) 0) as [H0|H0].
  { destruct input; [|cbn in H0; lia]. cbn. lia. }
  destruct p.
  - destruct (Nat.eqb_spec (length input mod 4) 0) as [H4|]; [|discriminate].
    injection Hsz as <-.
    destruct (split_last2 input) as (pre & x & y & ->); [lia|].
    rewrite pad_count_last2. rewrite app_length in *. cbn [length] in *.
    destruct (N.eqb_spec x 61) as [->|Hx].
    + change (pre ++ [61; y])%list with (pre ++ 61 :: [y])%list.
      destruct (N.eqb_spec y 61) as [->|Hy].
      * pose proof (dec_loop_cut e (length pre + 2) pre [61] 0 0) as Hc.
        rewrite nwrites_val in Hc. lia.
      * pose proof (dec_loop_cut e (length pre + 2) pre [y] 0 0) as Hc.
        rewrite nwrites_val in Hc. lia.
    + destruct (N.eqb_spec y 61) as [->|Hy].
      * pose proof (dec_loop_cut e (length pre + 2) (pre ++ [x]) [] 0 0) as Hc.
        rewrite <- app_assoc in Hc. cbn [app] in Hc. rewrite app_length in Hc. cbn [length] in Hc.
        rewrite nwrites_val in Hc. lia.
      * pose proof (dec_loop_writes e true (length pre + 2) (pre ++ [x; y]) 0 0) as Hc.
        rewrite nwrites_val, app_length in Hc. cbn [length] in Hc. lia.
  - destruct (Nat.eqb_spec (length input mod 4) 1) as [|H1]; [discriminate|].
    injection Hsz as <-.
    pose proof (dec_loop_writes e false (length input) input 0 0) as Hc.
    rewrite nwrites_val in Hc. cbn [Nat.add] in Hc.
    etransitivity; [exact Hc|]. clear Hc.
    remember (length input) as n eqn:En. clear En.
    assert (Hn : (n = 4 * (n / 4) + n mod 4 /\ n mod 4 < 4)%nat) by lia.
    remember (n / 4)%nat as q eqn:Eq. remember (n mod 4)%nat as r eqn:Er. clear Eq Er.
    destruct Hn as [-> Hr].
    destruct r as [|[|[|[|r]]]]; try lia; cbn [Nat.eqb]; lia.
Qed.

(* --- accepted strings are base64 text --- *)
Lemma decode_char_In e c v : decode_char e c = Some v -> In c (digits e).
Proof.
  intros H.
  assert (Hc : c < 128).
  { unfold decode_char in H.
    destruct ((65 <=? c) && (c <=? 90)) eqn:E1; [lia|].
    destruct ((97 <=? c) && (c <=? 122)) eqn:E2; [lia|].
    destruct ((48 <=? c) && (c <=? 57)) eqn:E3; [lia|].
    destruct e.
    - destruct (N.eqb_spec c 43); [lia|]. destruct (N.eqb_spec c 47); [lia|]. discriminate.
    - destruct (N.eqb_spec c 45); [lia|]. destruct (N.eqb_spec c 95); [lia|]. discriminate. }
  assert (Hs : (match decode_char e c with
                | Some _ => existsb (N.eqb c) (digits e) | None => true end) = true).
  { destruct e.
    - exact (sweep_below 128 (fun c => match decode_char STD c with
               | Some _ => existsb (N.eqb c) digits_std | None => true end)
               ltac:(vm_compute; reflexivity) c Hc).
    - exact (sweep_below 128 (fun c => match decode_char URL c with
               | Some _ => existsb (N.eqb c) digits_url | None => true end)
               ltac:(vm_compute; reflexivity) c Hc). }
  rewrite H in Hs. apply existsb_exists in Hs as (d & Hd & He). apply N.eqb_eq in He. congruence.
Qed.

Lemma dec_loop_accepts e p n : forall rest i v o,
  dec_loop e p n i v rest = (o, true) -> (n = i + length rest)%nat ->
  exists body k, rest = (body ++ repeat 61 k)%list /\ Forall (fun c => In c (digits e)) body /\
     (k <= 2)%nat /\ (p = false -> k = 0%nat).
Proof.
  induction rest as [|c rest IH]; intros i v o H Hn.
  - exists [], 0%nat. repeat split; [constructor|lia].
  - cbn [dec_loop] in H. cbn [length] in Hn.
    destruct (p && (c =? 61)) eqn:Ep.
    + apply andb_true_iff in Ep as [-> Hc]. apply N.eqb_eq in Hc as ->.
      destruct (Nat.ltb_spec i (n - 2)) as [|Hge]; [discriminate|].
      destruct rest as [|d rest'].
      * exists [], 1%nat. repeat split; [constructor|lia|discriminate].
      * cbn [length] in Hn.
        destruct (Nat.eqb_spec i (n - 2)) as [Hi|Hi]; [|lia].
        cbn [andb] in H. destruct (N.eqb_spec d 61) as [->|]; [|discriminate].
        destruct rest'; [|cbn [length] in Hn; lia].
        exists [], 2%nat. repeat split; [constructor|lia|discriminate].
    + destruct (decode_char e c) as [vs|] eqn:Ec; [|discriminate].
      assert (Hrec : exists v' o', dec_loop e p n (S i) v' rest = (o', true)).
      { destruct (Nat.eqb (i mod 4) 0); [eauto|].
        destruct (Nat.eqb (i mod 4) 1).
        { destruct (dec_loop e p n (S i) _ rest) as [o' ok] eqn:El. injection H as _ ->. eauto. }
        destruct (Nat.eqb (i mod 4) 2).
        { destruct (dec_loop e p n (S i) _ rest) as [o' ok] eqn:El. injection H as _ ->. eauto. }
        destruct (dec_loop e p n (S i) _ rest) as [o' ok] eqn:El. injection H as _ ->. eauto. }
      destruct Hrec as (v' & o' & Hrec).
      destruct (IH _ _ _ Hrec) as (body & k & -> & Hb & Hk & Hp); [lia|].
      exists (c :: body), k. repeat split; auto.
      constructor; [eapply decode_char_In; eassumption|exact Hb].
Qed.

Lemma decode_accepts_text e p input bufsize o :
  decode e p input bufsize = Some o -> rfc_text (digits e) p input.
Proof.
  unfold decode, decode_run. intros H.
  destruct (decoded_size input p) as [sz|] eqn:Hsz; [|discriminate].
  destruct (Nat.ltb bufsize sz); [discriminate|].
  destruct (dec_loop e p (length input) 0 0 input) as [o' ok] eqn:El.
  destruct ok; [|discriminate].
  destruct (dec_loop_accepts _ _ _ _ _ _ _ El) as (body & k & Hin & Hb & Hk & Hp); [lia|].
  exists body, k. split; [exact Hin|]. split; [exact Hb|].
  unfold decoded_size in Hsz.
  destruct (Nat.eqb_spec (length input) 0) as [H0|H0].
  { rewrite H0. destruct p; [split; [lia|reflexivity]|]. split; [auto|discriminate]. }
  destruct p.
  - destruct (Nat.eqb_spec (length input mod 4) 0) as [H4|]; [|discriminate]. split; assumption.
  - destruct (Nat.eqb_spec (length input mod 4) 1) as [|H4]; [discriminate|]. split; [auto|assumption].
Qed.

(* --- in-place decoding --- *)
Lemma store_len buf j v : (j < length buf)%nat -> length (store buf j v) = length buf.
Proof.
  intros H. unfold store. rewrite app_length, firstn_length. cbn [length]. rewrite skipn_length. lia.
Qed.

Lemma store_skip buf j v k : (j < k)%nat -> (j < length buf)%nat -> skipn k (store buf j v) = skipn k buf.
Proof.
  intros Hjk Hj. unfold store. rewrite skipn_app, firstn_length.
  rewrite (skipn_all2 (firstn j buf)) by (rewrite firstn_length; lia).
  replace (Nat.min j (length buf)) with j by lia. cbn [app].
  destruct (k - j)%nat as [|m] eqn:E; [lia|].
  change (skipn (S m) (v :: skipn (S j) buf)) with (skipn m (skipn (S j) buf)).
  rewrite skipn_skipn. f_equal. lia.
Qed.

Lemma store_firstn buf j v : (j < length buf)%nat -> firstn (S j) (store buf j v) = firstn j buf ++ [v].
Proof.
  intros Hj. unfold store. rewrite firstn_app, firstn_length.
  replace (Nat.min j (length buf)) with j by lia.
  rewrite firstn_all2 by (rewrite firstn_length; lia).
  replace (S j - j)%nat with 1%nat by lia. reflexivity.
Qed.

Lemma nth_skipn_hd (l : list N) i c r : skipn i l = c :: r -> nth i l 0 = c.
Proof.
  revert i. induction l as [|x l IH]; intros [|i] H; cbn in *; try congruence. eauto.
Qed.

Lemma skipn_S (l : list N) i c r : skipn i l = c :: r -> skipn (S i) l = r.
Proof.
  revert i. induction l as [|x l IH]; intros [|i] H; cbn in *; try congruence. eauto.
Qed.

Lemma inplace_spec : forall rest buf i j v,
  skipn i buf = rest -> (i + length rest = length buf)%nat -> (j <= i)%nat ->
  let (o, ok) := dec_loop STD true (length buf) i v rest in
  let (buf', r) := dec_inplace (length rest) buf i j v in
  length buf' = length buf /\
  if ok then r = Some (j + length o)%nat /\ firstn (j + length o) buf' = firstn j buf ++ o
  else r = None.
Proof.
  induction rest as [|c rest IH]; intros buf i j v Hs Hn Hj.
  - cbn. split; [reflexivity|]. rewrite Nat.add_0_r, app_nil_r. split; reflexivity.
  - cbn [length dec_loop dec_inplace]. cbn [length] in Hn.
    rewrite (nth_skipn_hd buf i c rest Hs).
    cbn [andb].
    assert (Hs' : skipn (S i) buf = rest) by (eapply skipn_S; exact Hs).
    destruct (c =? 61).
    + destruct (Nat.ltb i (length buf - 2)); [split; reflexivity|].
      destruct (Nat.eqb_spec i (length buf - 2)) as [Hi|Hi]; cbn [andb].
      * destruct rest as [|d rest'].
        { assert (length buf = S i) by (cbn [length] in Hn; lia).
          rewrite nth_overflow by lia. cbn. split; reflexivity. }
        rewrite (nth_skipn_hd buf (S i) d rest' Hs').
        destruct (d =? 61); cbn; [|split; reflexivity].
        split; [reflexivity|]. rewrite Nat.add_0_r, app_nil_r. split; reflexivity.
      * cbn. split; [reflexivity|]. rewrite Nat.add_0_r, app_nil_r. split; reflexivity.
    + destruct (decode_char STD c) as [vs|]; [|split; reflexivity].
      destruct (Nat.eqb_spec (i mod 4) 0) as [H0|H0].
      { apply IH; [exact Hs'|lia|lia]. }
      assert (Hgen : forall w v',
        let (o, ok) := (let (o0, ok0) := dec_loop STD true (length buf) (S i) v' rest in (w :: o0, ok0)) in
        let (buf', r) := dec_inplace (length rest) (store buf j w) (S i) (S j) v' in
        length buf' = length buf /\
        (if ok then r = Some (j + length o)%nat /\ firstn (j + length o) buf' = firstn j buf ++ o
         else r = None)).
      { intros w v'.
        assert (Hjl : (j < length buf)%nat) by lia.
        specialize (IH (store buf j w) (S i) (S j) v').
        rewrite store_skip, store_len in IH by lia.
        specialize (IH Hs' ltac:(lia) ltac:(lia)).
        destruct (dec_loop STD true (length buf) (S i) v' rest) as [o ok].
        destruct (dec_inplace (length rest) (store buf j w) (S i) (S j) v') as [buf' r].
        destruct IH as [IH1 IH2]. split; [exact IH1|].
        destruct ok; [|exact IH2]. destruct IH2 as [IH2 IH3]. cbn [length].
        replace (j + S (length o))%nat with (S j + length o)%nat by lia.
        split; [exact IH2|]. rewrite IH3, store_firstn by lia. rewrite <- app_assoc. reflexivity. }
      destruct (Nat.eqb (i mod 4) 1); [apply Hgen|].
      destruct (Nat.eqb (i mod 4) 2); apply Hgen.
Qed.

Lemma decode_in_place_spec buf :
  match decode STD true buf (length buf) with
  | Some o => decode_in_place buf = (o ++ repeat 0 (length buf - length o), Some (length o))
  | None => snd (decode_in_place buf) = None
  end.
Proof.
  unfold decode, decode_run, decode_in_place.
  destruct (decoded_size buf true) as [sz|]; [|reflexivity].
  destruct (Nat.ltb (length buf) sz); [reflexivity|].
  pose proof (inplace_spec buf buf 0 0 0 eq_refl eq_refl (Nat.le_refl 0)) as H.
  destruct (dec_loop STD true (length buf) 0 0 buf) as [o ok].
  destruct (dec_inplace (length buf) buf 0 0 0) as [buf' r].
  destruct H as [Hl H]. destruct ok.
  - destruct H as [-> Hf]. cbn [Nat.add firstn app] in Hf. cbn [Nat.add]. rewrite Hf, Hl. reflexivity.
  - subst r. reflexivity.
Qed.

Lemma encoded_size_full e padding input bufsize text :
    bytes_ok input -> encode e padding input bufsize = Some text ->
    length text = encoded_size (length input) padding /\
    (length text <= bufsize)%nat /\
    (padding = true -> length text = 4 * ((length input + 2) / 3))%nat.
Proof.
  intros Hin He.
  destruct input as [|a r].
  { cbn in He. injection He as <-. destruct padding; cbn; repeat split; lia. }
  destruct (Nat.ltb bufsize (encoded_size (length (a :: r)) padding)) eqn:Hlt.
  { rewrite encode_refuses in He; [discriminate|discriminate|apply Nat.ltb_lt; exact Hlt]. }
  apply Nat.ltb_ge in Hlt. rewrite encode_spec in He by assumption. assert (Ht : text = rfc_encode (digits e) (padl padding) (a :: r)) by congruence.
  rewrite Ht. clear He Ht.
  rewrite encoded_size_spec. repeat split; [exact Hlt|].
  intros ->. unfold encoded_size. destruct (Nat.eqb_spec (length (a :: r) mod 3) 0); lia.
Qed.
