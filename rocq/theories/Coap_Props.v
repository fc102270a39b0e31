(** C01-C06, C46: the CoAP codec. *)
From Verif Require Import Common Oscore_Model Oscore_Spec Coap_Model Coap_Spec Coap_Proofs Coap_Bounds.
From Coq Require Import String.
Local Open Scope string_scope.
Local Open Scope list_scope.
Local Open Scope N_scope.

(** A build with every option, and a request using most of the fields. *)
Definition full_cfg : cfg := mkCfg true true true true true 300.
Definition sample_env : env := mkE [0] [0].
Definition sample_request (tcp : bool) : packet :=
  mkP tcp 1 2 (if tcp then 0 else 0x1234) [1; 2; 3; 4] (Some (str "host")) (Some [9; 8; 7]) (Some 70000) (Some 5683) None
      (Some (str "oic/sec/acl2")) (Some 10000) (Some 60) (Some (str "if=oic.if.baseline&rt=x")) (Some 10000)
      (Some (mkB 5 1 1024 5120)) (Some (mkB 1048575 0 16 16777200)) (Some 100000) (Some (str "coap://proxy")) (Some 4096)
      None false false None None None [0xFF; 0; 65].

Lemma sample_wf (tcp : bool) : wf_message full_cfg (sample_request tcp).
Proof.
  unfold wf_message. split; [reflexivity|]. split; [destruct tcp; vm_compute; reflexivity|]. split; [vm_compute; lia|]. left.
  unfold wf_request, signal_code, no_signal, trimmed, wf_block, known_accept, known_format, versioned, opt_all.
  destruct tcp; cbn;
  repeat match goal with
  | |- _ /\ _ => split
  | |- ~ _ => intros H; lia
  | |- exists szx, _ => first [exists 6; split; [lia|reflexivity]|exists 0; split; [lia|reflexivity]]
  end; try discriminate; try reflexivity; try lia; auto.
Qed.

(** C01: what a peer parses is the message that was serialised. *)
Theorem C01_udp_roundtrip :
  forall c e p buf bytes after,
    cfg_ok c -> wf_message c p -> p_tcp p = false ->
    coap_serialize_message c e p buf = S_ok bytes -> nlen bytes <= 65535 ->
    udp_parse c false bytes after = P_ok p.
Proof. exact udp_roundtrip. Qed.
Print Assumptions C01_udp_roundtrip.

Example C01_case :
  cfg_ok full_cfg /\ wf_message full_cfg (sample_request false) /\
  exists bytes, coap_serialize_message full_cfg sample_env (sample_request false) 1024 = S_ok bytes /\
                List.length bytes = 109%nat /\ firstn 9 bytes = [0x54; 2; 0x12; 0x34; 1; 2; 3; 4; 0x34].
Proof.
  split; [discriminate|]. split; [apply sample_wf|].
  eexists. split; [vm_compute; reflexivity|]. split; reflexivity.
Qed.

(** C01: the bytes are the RFC 7252 layout of the message, with the options in ascending order. *)
Theorem C01_udp_layout :
  forall c e p buf bytes,
    cfg_ok c -> wf_message c p -> p_tcp p = false -> coap_serialize_message c e p buf = S_ok bytes ->
    exists opts, rfc_udp (p_type p) (p_code p) (p_mid p) (p_token p) opts (p_payload p) bytes.
Proof.
  intros c e p buf bytes H1 H2 H3 H4. destruct (udp_rfc c e p buf bytes H1 H2 H3 H4) as (opts & H & _). exists opts. exact H.
Qed.
Print Assumptions C01_udp_layout.

(** C01 without the clause on versioned formats: false.  With Accept of an unversioned format and an
    OCF Content-Format the delta of the version option is taken from an option that was not written
    (coap.c:590-602), and the peer rejects the message. *)
Theorem C01_version_delta_refuted :
  exists c e p buf bytes s,
    cfg_ok c /\ p_tcp p = false /\ p_accept p = Some 50 /\ p_cf p = Some 10000 /\ c_json c = true /\
    coap_serialize_message c e p buf = S_ok bytes /\ udp_parse c false bytes [] = P_err s.
Proof.
  exists full_cfg, sample_env, (set_accept (set_cf (set_code blank 2) (Some 10000)) (Some 50)), 128.
  eexists. exists 130. split; [discriminate|]. do 4 (split; [reflexivity|]). split; [vm_compute; reflexivity|vm_compute; reflexivity].
Qed.
Print Assumptions C01_version_delta_refuted.

(** C01 for code 0 with a token: false.  The token length is announced, the token is not sent
    (coap.c:1369-1372), and the parser takes the bytes behind the datagram as the token. *)
Theorem C01_empty_with_token_refuted :
  exists c e p buf bytes after q,
    cfg_ok c /\ p_tcp p = false /\ p_code p = 0 /\ p_token p = [1; 2] /\
    coap_serialize_message c e p buf = S_ok bytes /\ udp_parse c false bytes after = P_ok q /\ p_token q = [77; 78].
Proof.
  exists full_cfg, sample_env, (set_token blank [1; 2]), 128. eexists. exists [77; 78]. eexists.
  split; [discriminate|]. do 3 (split; [reflexivity|]). split; [vm_compute; reflexivity|]. split; [vm_compute; reflexivity|reflexivity].
Qed.
Print Assumptions C01_empty_with_token_refuted.

(** C02: the receiver finds the frame length from any five bytes (or more) of the stream, and the
    frame parses to the message that was sent. *)
Theorem C02_tcp_roundtrip :
  forall c e p buf bytes rest after,
    cfg_ok c -> c_tcp c = true -> wf_message c p -> p_tcp p = true -> p_type p = 1 -> p_mid p = 0 ->
    nlen bytes <= 0xFFFFFFFF -> nlen (p_payload p) < 2 ^ 32 - 65805 ->
    coap_serialize_message c e p buf = S_ok bytes ->
    (forall k, (5 <= k)%nat -> tcp_packet_size (firstn k (bytes ++ rest)) = Some (nlen bytes)) /\
    tcp_parse c false bytes after = P_ok p.
Proof. exact tcp_roundtrip. Qed.
Print Assumptions C02_tcp_roundtrip.

(** C02: the bytes are the RFC 8323 layout. *)
Theorem C02_tcp_layout :
  forall c e p buf bytes,
    cfg_ok c -> c_tcp c = true -> wf_message c p -> p_tcp p = true -> nlen (p_payload p) < 2 ^ 32 - 65805 ->
    coap_serialize_message c e p buf = S_ok bytes ->
    exists opts, rfc_tcp (p_code p) (p_token p) opts (p_payload p) bytes.
Proof.
  intros c e p buf bytes H1 H2 H3 H4 H5 H6. destruct (tcp_rfc c e p buf bytes H1 H2 H3 H4 H5 H6) as (opts & H & _). exists opts. exact H.
Qed.
Print Assumptions C02_tcp_layout.

(** C02: any RFC 8323 frame, also one written by another implementation, is delimited exactly,
    whatever follows it in the stream. *)
Theorem C02_frame_delimited :
  forall code token opts payload msg rest k,
    (List.length token <= 8)%nat -> rfc_tcp code token opts payload msg -> (5 <= k)%nat ->
    tcp_packet_size (firstn k (msg ++ rest)) = Some (nlen msg).
Proof. intros. eapply tcp_size_rfc; eassumption. Qed.
Print Assumptions C02_frame_delimited.

(** C02: from the start of a frame, however short, its length is found exactly or not yet; a wrong length never. *)
Theorem C02_frame_start_never_misread :
  forall code token opts payload msg rest k,
    (List.length token <= 8)%nat -> rfc_tcp code token opts payload msg -> (1 <= k)%nat ->
    tcp_packet_size (firstn k (msg ++ rest)) = Some (nlen msg) \/ tcp_packet_size (firstn k (msg ++ rest)) = None.
Proof.
  intros code token opts payload msg rest k Ht H Hk. destruct (Nat.leb_spec 5 k) as [H5|H5]; [left; eapply tcp_size_rfc; eassumption|].
  destruct H as (ob & pb & nib & ext & Ho & Hp & Hl & ->). destruct (rfc_tcp_len_ext _ _ _ Hl) as [He Hn].
  cbn [app]. destruct k as [|k]; [lia|]. cbn [firstn]. rewrite <- app_assoc, firstn_app.
  destruct (Nat.leb_spec (List.length ext) k) as [HE|HE].
  - left. rewrite (firstn_all2 ext) by lia.
    destruct (rfc_tcp_read _ nib (N.of_nat (List.length token)) ext
                (firstn (k - List.length ext) ((code :: token ++ ob ++ pb) ++ rest)) Hl Hn ltac:(lia)) as [E1 E2].
    unfold tcp_packet_size. rewrite E1. cbn [hd]. rewrite E2. f_equal. unfold nlen. cbn [List.length]. rewrite !app_length. cbn [List.length].
    rewrite !app_length. lia.
  - right. replace (k - List.length ext)%nat with 0%nat by lia. rewrite firstn_O, app_nil_r. unfold tcp_packet_size, tcp_parse_length.
    assert (Hc : forallb (fun a => forallb (fun b => (N.shiftr (N.land 0xF0 (16 * a + b)) 4 =? a)) (below 9)) (below 16) = true) by (vm_compute; reflexivity).
    pose proof (sweep_below 16 _ Hc nib Hn) as H1. cbv beta in H1.
    pose proof (sweep_below 9 _ H1 (N.of_nat (List.length token)) ltac:(lia)) as H2. cbv beta in H2. apply N.eqb_eq in H2. rewrite H2.
    assert (HX : nib <? 13 = false /\ N.to_nat (N.shiftl 1 (nib - 13)) = List.length ext).
    { inversion Hl; subst; cbn [List.length] in *; try lia; split; reflexivity. }
    destruct HX as [-> ->].
    match goal with |- context [(?a <? ?b)%nat] => replace (a <? b)%nat with true by (cbn [List.length]; rewrite firstn_length; lia) end. reflexivity.
Qed.
Print Assumptions C02_frame_start_never_misread.

Example C02_case :
  wf_message full_cfg (sample_request true) /\
  exists bytes, coap_serialize_message full_cfg sample_env (sample_request true) 1024 = S_ok bytes /\
    firstn 7 bytes = [0xD4; 88; 2; 1; 2; 3; 4] /\ List.length bytes = 108%nat /\
    tcp_packet_size (firstn 2 bytes) = Some 108 /\ tcp_packet_size (firstn 1 bytes) = None.
Proof.
  split; [apply sample_wf|].
  eexists. split; [vm_compute; reflexivity|]. vm_compute. auto.
Qed.
Example C02_boundaries :
  map (fun n => fst (tcp_message_length n)) [12; 13; 268; 269; 65804; 65805] =
  [(0%nat, 12); (1%nat, 13); (1%nat, 13); (2%nat, 14); (2%nat, 14); (4%nat, 15)].
Proof. vm_compute; reflexivity. Qed.

(** C02 for code 0 with a token: false.  The frame is shorter than its header says, so the receiver
    takes bytes of the next message for it. *)
Theorem C02_empty_with_token_refuted :
  exists c e p buf bytes n,
    cfg_ok c /\ c_tcp c = true /\ p_tcp p = true /\ p_code p = 0 /\ p_token p = [1; 2] /\
    coap_serialize_message c e p buf = S_ok bytes /\ tcp_packet_size bytes = Some n /\ nlen bytes < n.
Proof.
  exists full_cfg, sample_env, (set_token (set_tcp blank true) [1; 2]), 128. eexists. eexists.
  split; [discriminate|]. do 4 (split; [reflexivity|]). split; [vm_compute; reflexivity|]. split; [vm_compute; reflexivity|reflexivity].
Qed.
Print Assumptions C02_empty_with_token_refuted.

(** C03: false.  A datagram of three bytes, a datagram whose token is missing, an option header cut
    off after its first byte, and a TCP message without code byte are all read past their end. *)
Theorem C03_short_datagram_refuted : exists c data, (List.length data = 3)%nat /\ udp_parse c false data [] = P_oob.
Proof. exists full_cfg, [0x40; 1; 0]. split; reflexivity. Qed.
Print Assumptions C03_short_datagram_refuted.
Theorem C03_missing_token_refuted : exists c data, (List.length data = 4)%nat /\ udp_parse c false data [] = P_oob.
Proof. exists full_cfg, [0x48; 1; 0; 0]. split; reflexivity. Qed.
Print Assumptions C03_missing_token_refuted.
Theorem C03_cut_option_refuted : exists c data, (List.length data = 5)%nat /\ udp_parse c false data [] = P_oob.
Proof. exists full_cfg, [0x40; 1; 0; 0; 0xD0]. split; reflexivity. Qed.
Print Assumptions C03_cut_option_refuted.
Theorem C03_tcp_code_refuted : exists c data, (List.length data = 1)%nat /\ tcp_parse c false data [] = P_oob.
Proof. exists full_cfg, [0x00]. split; reflexivity. Qed.
Print Assumptions C03_tcp_code_refuted.
(** The bytes read past the end reach the application: the token of the accepted request is whatever
    the receive buffer held before. *)
Theorem C03_stale_token_refuted :
  exists c data a b p q, udp_parse c false data a = P_ok p /\ udp_parse c false data b = P_ok q /\ p_token p <> p_token q.
Proof.
  exists full_cfg, [0x42; 1; 0; 0], [1; 2], [3; 4]. do 2 eexists.
  split; [vm_compute; reflexivity|]. split; [vm_compute; reflexivity|discriminate].
Qed.
Print Assumptions C03_stale_token_refuted.

(** C03, the part that holds: if the datagram has its header and token, at most the four bytes behind
    it are read, and they do not influence the result.  Missing: reads of these bytes, and datagrams
    shorter than header and token (refuted above). *)
Theorem C03_udp_guarded_partial :
  forall c validate data,
    4 + N.land 0x0F (hd 0 data) <= nlen data ->
    exists r, r <> P_oob /\ forall after, (4 <= List.length after)%nat -> udp_parse c validate data after = r.
Proof. exact udp_guarded. Qed.
Print Assumptions C03_udp_guarded_partial.

(** C03, for every datagram: the reads stay below max(12, length + 4), so inside a receive buffer
    with that room. *)
Theorem C03_udp_reach_partial :
  forall c validate data after,
    (12 <= List.length (data ++ after))%nat -> (4 <= List.length after)%nat -> udp_parse c validate data after <> P_oob.
Proof. exact udp_reach. Qed.
Print Assumptions C03_udp_reach_partial.

(** C03: the same for a TCP frame that is complete according to its length field. *)
Theorem C03_tcp_guarded_partial :
  forall c validate data n,
    tcp_packet_size data = Some n -> n <= nlen data ->
    exists r, r <> P_oob /\ forall after, (4 <= List.length after)%nat -> tcp_parse c validate data after = r.
Proof. exact tcp_guarded. Qed.
Print Assumptions C03_tcp_guarded_partial.

(** C03: an RFC 7252 message is read without any byte behind it: the result does not need [after]. *)
Theorem C03_conformant_in_bounds_partial :
  forall c validate type code mid token opts payload msg after,
    type < 4 -> mid < 2 ^ 16 -> (List.length token <= 8)%nat -> Forall (fun o => fst o < 2 ^ 32) opts ->
    nlen msg <= 65535 -> rfc_udp type code mid token opts payload msg ->
    udp_parse c validate msg [] = udp_parse c validate msg after.
Proof.
  intros. rewrite (udp_parse_rfc c validate type code mid token opts payload msg []) by assumption.
  rewrite (udp_parse_rfc c validate type code mid token opts payload msg after) by assumption. reflexivity.
Qed.
Print Assumptions C03_conformant_in_bounds_partial.

(** C03: the validity check on the receive path (api/oc_udp.c:97, api/oc_tcp.c:187) accepts exactly
    the messages the parser accepts, and sees the same header and options. *)
Theorem C03_validation_agrees :
  forall c data after,
    match udp_parse c false data after, udp_parse c true data after with
    | P_ok p, P_ok q => strings_cleared p = strings_cleared q
    | P_ok _, _ | _, P_ok _ => False
    | _, _ => True
    end.
Proof. exact validate_agrees. Qed.
Print Assumptions C03_validation_agrees.

Example C03_case :
  udp_parse full_cfg false [0x40; 1; 0; 0; 0xD0] [0; 0; 0; 0] = P_err 128 /\
  udp_parse full_cfg true [0x40; 1; 0; 7; 0xB1; 97; 0x01; 98] [] = udp_parse full_cfg true [0x40; 1; 0; 7; 0xB1; 97; 1; 98] [1; 2; 3; 4] /\
  udp_parse full_cfg false [0x40; 1; 0; 7; 0xB1; 97; 0x01; 98] [] = P_ok (set_path (set_mid (set_code blank 1) 7) (Some (str "a/b"))) /\
  tcp_packet_size [0x00; 1] = Some 2.
Proof. vm_compute. auto. Qed.

(** C04: the header of an option followed by its value is the RFC 7252 encoding, it is decoded to
    the same delta and length whatever follows, and its size is the one predicted. *)
Theorem C04_header_layout :
  forall delta v, delta < 65805 -> nlen v < 65805 -> rfc_option delta v (set_option_header delta (nlen v) ++ v).
Proof. exact header_rfc. Qed.
Print Assumptions C04_header_layout.
Theorem C04_header_roundtrip :
  forall delta len rest, delta < 65805 -> len < 65805 ->
    exists b r m, set_option_header delta len = b :: r /\ N.land b 0xF0 <> 0xF0 /\
      read_ext (N.shiftr b 4) (r ++ rest) = Some (delta, m) /\ read_ext (N.land b 0x0F) m = Some (len, rest).
Proof.
  intros delta len rest Hd Hl. unfold set_option_header.
  destruct (nibbles (option_nibble delta) (option_nibble len) (nibble_lt _) (nibble_lt _)) as (-> & H2 & H3 & H1).
  do 2 eexists. exists (ext_bytes len ++ rest). split; [reflexivity|]. split; [apply N.eqb_neq, H1|].
  rewrite H2, H3, <- app_assoc. split; apply read_ext_spec, nibble_ext; assumption.
Qed.
Print Assumptions C04_header_roundtrip.
Theorem C04_header_size : forall delta len, option_header_size delta len = nlen (set_option_header delta len).
Proof. exact header_size. Qed.
Print Assumptions C04_header_size.
(** C04 for a message: the size computed with a NULL buffer is the number of bytes then written, for
    every packet, so the assert of coap.c:1398 never fails. *)
Theorem C04_size_assert_holds : forall c e p buf, coap_serialize_message c e p buf <> S_abort.
Proof. exact ser_no_abort. Qed.
Print Assumptions C04_size_assert_holds.
(** C04: integer options are written as minimal big-endian integers and read back. *)
Theorem C04_int_roundtrip : forall v, v < 2 ^ 32 -> rfc_uint v (int_bytes v) /\ parse_int (int_bytes v) = Some v.
Proof. intros v Hv. split; [apply int_bytes_rfc, Hv|apply int_roundtrip, Hv]. Qed.
Print Assumptions C04_int_roundtrip.
Example C04_case :
  set_option_header 11 4 = [0xB4] /\ set_option_header 12 300 = [0xCE; 0; 31] /\
  set_option_header 2049 2 = [0xE2; 0x06; 0xF4] /\ set_option_header 269 268 = [0xED; 0; 0; 255] /\
  set_option_header 65804 65804 = [0xEE; 255; 255; 255; 255] /\ option_header_size 13 13 = 3 /\
  int_bytes 0 = [] /\ int_bytes 65536 = [1; 0; 0].
Proof. vm_compute. repeat split. Qed.

(** C05: number, flag and size given to the setters are what the peer decodes, and the offset is
    number times size. *)
Theorem C05_block2_roundtrip :
  forall p num more szx,
    num < 2 ^ 20 -> szx <= 7 ->
    exists p' b v, set_block2_checked p num more (2 ^ (szx + 4)) (num * 2 ^ (szx + 4)) = Some p' /\ p_block2 p' = Some b /\
      block_encode b = v /\ parse_int (int_bytes v) = Some v /\
      block_decode v = mkB num (if more =? 0 then 0 else 1) (2 ^ (szx + 4)) (num * 2 ^ (szx + 4)).
Proof.
  intros p num more szx Hn Hz. unfold set_block2_checked.
  assert (Hs : 16 <= 2 ^ (szx + 4) <= 2048)
    by (change 16 with (2 ^ 4); change 2048 with (2 ^ 11); split; apply N.pow_le_mono_r; lia).
  replace (0xFFFFF <? num) with false by (change (2 ^ 20) with 1048576 in Hn; lia).
  replace (2 ^ (szx + 4) <? 16) with false by lia. replace (2048 <? 2 ^ (szx + 4)) with false by lia. cbn [orb].
  set (b := mkB num (if more =? 0 then 0 else 1) (2 ^ (szx + 4)) (num * 2 ^ (szx + 4))).
  assert (Hw : wf_block b).
  { split; [exact Hn|]. split; [unfold b; cbn [b_more]; destruct (more =? 0); lia|]. split; [exists szx; auto|reflexivity]. }
  destruct (block_roundtrip b Hw) as [H1 H2].
  exists (set_block2 p (Some b)), b, (block_encode b). repeat split; [|exact H2]. apply int_roundtrip, H1.
Qed.
Print Assumptions C05_block2_roundtrip.
Theorem C05_block1_roundtrip :
  forall p num more szx,
    num < 2 ^ 20 -> szx <= 7 -> more <= 1 ->
    exists p' b v, set_block1_checked p num more (2 ^ (szx + 4)) (num * 2 ^ (szx + 4)) = Some p' /\ p_block1 p' = Some b /\
      block_encode b = v /\ parse_int (int_bytes v) = Some v /\
      block_decode v = mkB num more (2 ^ (szx + 4)) (num * 2 ^ (szx + 4)).
Proof.
  intros p num more szx Hn Hz Hm. unfold set_block1_checked.
  assert (Hs : 16 <= 2 ^ (szx + 4) <= 2048)
    by (change 16 with (2 ^ 4); change 2048 with (2 ^ 11); split; apply N.pow_le_mono_r; lia).
  replace (0xFFFFF <? num) with false by (change (2 ^ 20) with 1048576 in Hn; lia).
  replace (2 ^ (szx + 4) <? 16) with false by lia. replace (2048 <? 2 ^ (szx + 4)) with false by lia. cbn [orb].
  set (b := mkB num more (2 ^ (szx + 4)) (num * 2 ^ (szx + 4))).
  assert (Hw : wf_block b) by (split; [exact Hn|]; split; [exact Hm|]; split; [exists szx; auto|reflexivity]).
  destruct (block_roundtrip b Hw) as [H1 H2].
  exists (set_block1 p (Some b)), b, (block_encode b). repeat split; [|exact H2]. apply int_roundtrip, H1.
Qed.
Print Assumptions C05_block1_roundtrip.
(** C05: every option value of up to three bytes (RFC 7959) is decoded as the RFC says. *)
Theorem C05_block_decode :
  forall v, v < 2 ^ 24 ->
    block_decode v = mkB (v / 16) (v / 8 mod 2) (2 ^ (v mod 8 + 4)) (v / 16 * 2 ^ (v mod 8 + 4)).
Proof. exact block_decode_val. Qed.
Print Assumptions C05_block_decode.
(** C05 for four-byte values, which the parser lets pass: the offset is not number times size. *)
Theorem C05_four_byte_value_refuted :
  exists v b, v < 2 ^ 32 /\ block_decode v = b /\ b_offset b <> b_num b * b_size b.
Proof. exists 0x1000000. eexists. split; [reflexivity|]. split; [vm_compute; reflexivity|discriminate]. Qed.
Print Assumptions C05_four_byte_value_refuted.
(** C05 for block sizes that are no power of two: the setters accept them, the peer sees another size. *)
Theorem C05_odd_size_refuted :
  exists p' b, set_block2_checked blank 1 0 100 100 = Some p' /\ p_block2 p' = Some b /\
    block_decode (block_encode b) = mkB 1 0 64 64.
Proof. do 2 eexists. split; [reflexivity|]. split; [reflexivity|vm_compute; reflexivity]. Qed.
Print Assumptions C05_odd_size_refuted.
Example C05_case :
  block_encode (mkB 5 1 1024 5120) = 0x5E /\ block_decode 0x5E = mkB 5 1 1024 5120 /\
  set_block2_checked blank 0x100000 0 16 0 = None /\ set_block1_checked blank 0 0 8 0 = None.
Proof. vm_compute. auto. Qed.

(** C06: a string without separator at its ends arrives unchanged: the options written for it merge
    to it again. *)
Theorem C06_path_roundtrip :
  forall p s after,
    after <> [] -> hd_error (rev (strip_leading 47 s)) <> Some 47 ->
    exists t parts, p_path (set_uri_path p s) = Some t /\ t = strip_leading 47 s /\ split_parts 47 t after = Some parts /\
      fold_left (fun o v => Some (merge_multi 47 o v)) parts None = Some t.
Proof.
  intros p s after Ha Hl. exists (strip_leading 47 s).
  destruct (split_merge 47 (strip_leading 47 s) after Ha) as (parts & H1 & H2).
  { split; [|exact Hl]. clear. induction s as [|x r IH]; [discriminate|]. cbn [strip_leading].
    destruct (N.eqb_spec x 47); [exact IH|cbn [hd_error]; congruence]. }
  exists parts. auto.
Qed.
Print Assumptions C06_path_roundtrip.
Theorem C06_query_roundtrip :
  forall p s after,
    after <> [] -> trimmed 38 (strip_leading 63 s) ->
    exists t parts, p_query (set_uri_query p s) = Some t /\ t = strip_leading 63 s /\ split_parts 38 t after = Some parts /\
      fold_left (fun o v => Some (merge_multi 38 o v)) parts None = Some t.
Proof.
  intros p s after Ha Hl. exists (strip_leading 63 s).
  destruct (split_merge 38 (strip_leading 63 s) after Ha Hl) as (parts & H1 & H2). exists parts. auto.
Qed.
Print Assumptions C06_query_roundtrip.
(** C06 on the wire, for other implementations: one option per segment (RFC 7252, 6.4), if no segment
    is empty. *)
Theorem C06_wire_segments :
  forall sep s after,
    after <> [] -> hd_error (rev s) <> Some sep -> (forall a b, s <> a ++ sep :: sep :: b) ->
    split_parts sep s after = Some (segments sep s).
Proof.
  intros sep s after Ha Hl Hd. rewrite split_parts_scan.
  apply (scan_segments sep after Ha s [] Hl Hd). intros [].
Qed.
Print Assumptions C06_wire_segments.
Example C06_case :
  split_parts 47 (str "oic/sec/acl2") [0] = Some [str "oic"; str "sec"; str "acl2"] /\
  p_path (set_uri_path blank (str "//a/b")) = Some (str "a/b") /\
  p_query (set_uri_query blank (str "?if=x&rt=y")) = Some (str "if=x&rt=y").
Proof. vm_compute. auto. Qed.
(** C06 for a trailing separator, a leading ampersand, and an empty segment: false. *)
Theorem C06_trailing_slash_refuted :
  exists s parts, split_parts 47 s [0; 0] = Some parts /\
    fold_left (fun o v => Some (merge_multi 47 o v)) parts None <> Some s /\ p_path (set_uri_path blank s) = Some s.
Proof. exists (str "a/"). eexists. split; [vm_compute; reflexivity|]. split; [discriminate|reflexivity]. Qed.
Print Assumptions C06_trailing_slash_refuted.
Theorem C06_leading_ampersand_refuted :
  exists s parts, split_parts 38 s [0; 0] = Some parts /\
    fold_left (fun o v => Some (merge_multi 38 o v)) parts None <> Some s /\ p_query (set_uri_query blank s) = Some s.
Proof. exists (str "&a"). eexists. split; [vm_compute; reflexivity|]. split; [discriminate|reflexivity]. Qed.
Print Assumptions C06_leading_ampersand_refuted.
Theorem C06_empty_segment_refuted :
  exists s parts, split_parts 47 s [0; 0] = Some parts /\ parts <> segments 47 s /\ parts = [str "a"; str "/b"].
Proof. exists (str "a//b"). eexists. split; [vm_compute; reflexivity|]. split; [discriminate|reflexivity]. Qed.
Print Assumptions C06_empty_segment_refuted.
(** C06: a string that ends with the separator is read two bytes past its end. *)
Theorem C06_overread_refuted : exists s, split_parts 47 s [0] = None.
Proof. exists (str "a/"). vm_compute. reflexivity. Qed.
Print Assumptions C06_overread_refuted.

(** C46: the bytes written never exceed a non-zero buffer size, and serialising succeeds exactly when
    the message fits. *)
Theorem C46_within_buffer :
  forall c e p buf bytes, 0 < buf < 2 ^ 64 -> coap_serialize_message c e p buf = S_ok bytes -> nlen bytes <= buf.
Proof. exact ser_within. Qed.
Print Assumptions C46_within_buffer.
Theorem C46_fits_exactly :
  forall c e p buf buf' bytes,
    p_code p <> 0 -> 0 < buf < 2 ^ 64 -> coap_serialize_message c e p buf = S_ok bytes -> 0 < buf' < 2 ^ 64 ->
    coap_serialize_message c e p buf' = if nlen bytes <=? buf' then S_ok bytes else S_fail.
Proof. exact ser_exact_room. Qed.
Print Assumptions C46_fits_exactly.
Example C46_case :
  coap_serialize_message full_cfg sample_env (sample_request false) 108 = S_fail /\
  coap_serialize_message full_cfg sample_env (sample_request false) 109 =
  coap_serialize_message full_cfg sample_env (sample_request false) 60000.
Proof. vm_compute. auto. Qed.
(** C46 with buffer size 0, which the size check takes as unlimited (coap.c:1289): refuted. *)
Theorem C46_zero_buffer_refuted :
  exists c e p bytes, coap_serialize_message c e p 0 = S_ok bytes /\ bytes <> [].
Proof. exists full_cfg, sample_env, (sample_request false). eexists. split; [vm_compute; reflexivity|discriminate]. Qed.
Print Assumptions C46_zero_buffer_refuted.
