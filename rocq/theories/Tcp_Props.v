(** C52: messages from a TCP stream.  C53: messages from decrypted TLS data.  C54: recognising OSCORE
    messages. *)
From Coq Require Import NArith List Bool Lia.
From Verif Require Import Common Oscore_Model Oscore_Spec Coap_Model Coap_Spec Coap_Proofs Tcp_Model Tcp_Spec Tcp_Proofs Tcp2_Proofs Tcp3_Proofs Tcp4_Proofs.
Import ListNotations.
Local Open Scope N_scope.

Definition tcp_cfg : cfg := mkCfg true true true true true 300.
(** GET /abc and GET /a with a two byte token. *)
Definition get_abc : list N := [0x42; 1; 7; 8; 0xB3; 97; 98; 99].
Definition get_a : list N := [0x22; 1; 7; 8; 0xB1; 97].
Definition buf40 : list N := repeat 0 40.
Definition rec_of (b : list N) : list N := [23; 3; 3; 0; nlen b] ++ b.

Lemma abc_rfc : rfc_tcp 1 [7; 8] [(11, [97; 98; 99])] [] get_abc.
Proof.
  exists [0xB3; 97; 98; 99], [], 4, []. split; [|split; [left; auto|split; [constructor; reflexivity|reflexivity]]].
  change [0xB3; 97; 98; 99] with ([0xB3; 97; 98; 99] ++ []). constructor; [discriminate| |constructor].
  change [0xB3; 97; 98; 99] with ((16 * 11 + 3) :: [] ++ [] ++ [97; 98; 99]). constructor; constructor; reflexivity.
Qed.
Lemma a_rfc : rfc_tcp 1 [7; 8] [(11, [97])] [] get_a.
Proof.
  exists [0xB1; 97], [], 2, []. split; [|split; [left; auto|split; [constructor; reflexivity|reflexivity]]].
  change [0xB1; 97] with ([0xB1; 97] ++ []). constructor; [discriminate| |constructor].
  change [0xB1; 97] with ((16 * 11 + 1) :: [] ++ [] ++ [97]). constructor; constructor; reflexivity.
Qed.
Lemma abc_frame : coap_frame [(11, [97; 98; 99])] get_abc.
Proof. exists 1, [7; 8], []. split; [cbn; lia|]. split; [repeat constructor|]. split; [discriminate|exact abc_rfc]. Qed.
Lemma a_frame : coap_frame [(11, [97])] get_a.
Proof. exists 1, [7; 8], []. split; [cbn; lia|]. split; [repeat constructor|]. split; [discriminate|exact a_rfc]. Qed.

(** C52: a stream of acceptable frames, each of at least six bytes and fitting the buffer, is cut into
    exactly these frames in order, however the network cuts it, as long as the first reading of each
    message brings six bytes: what is delivered is the first frames, what is left the others; the
    receiver never closes the connection. *)
Theorem C52_frames_in_order :
  forall c osc tls buf scheds frames,
    Forall (fun f => good_frame c osc tls f /\ 6 <= nlen f <= nlen buf) frames -> Forall calm scheds ->
    exists more, frames = fst (session c osc tls buf scheds (List.concat frames)) ++ more /\
      let fin := snd (session c osc tls buf scheds (List.concat frames)) in
      (fin = S_open (List.concat more) \/ fin = S_end R_wait \/ more = [] /\ fin = S_end R_none).
Proof. intros. apply session_safe; assumption. Qed.
Print Assumptions C52_frames_in_order.

(** C52: and every frame is delivered once enough readings bring bytes, whatever follows. *)
Theorem C52_frames_delivered :
  forall c osc tls buf frames scheds tail,
    Forall (fun f => good_frame c osc tls f /\ 6 <= nlen f <= nlen buf) frames ->
    Forall2 (fun f evs => calm evs /\ (List.length f <= reads evs)%nat) frames scheds ->
    session c osc tls buf scheds (List.concat frames ++ tail) = (frames, S_open tail).
Proof. intros. apply session_live; assumption. Qed.
Print Assumptions C52_frames_delivered.

Example C52_case :
  good_frame tcp_cfg true false get_abc /\ good_frame tcp_cfg true false get_a /\ good_frame tcp_cfg true true (rec_of get_a) /\
  session tcp_cfg true false buf40 [[Got 6; Intr; Got 1; Got 9]; [Got 6]; [Got 7]] (get_abc ++ get_a ++ get_abc) =
    ([get_abc; get_a], S_end R_wait) /\
  session tcp_cfg true true buf40 [[Got 6; Got 2; Intr; Got 3]; [Got 100; Got 100]] (rec_of get_a ++ rec_of get_abc ++ [1]) =
    ([rec_of get_a; rec_of get_abc], S_open [1]).
Proof.
  split; [exists [(11, [97; 98; 99])]; split; [exact abc_frame|right; eexists; vm_compute; reflexivity]|].
  split; [exists [(11, [97])]; split; [exact a_frame|right; eexists; vm_compute; reflexivity]|].
  split; [exists 23, 3, get_a; split; [cbn; auto|split; [lia|split; reflexivity]]|].
  vm_compute. auto.
Qed.

(** C52: whatever bytes arrive and however they are cut: nothing is written behind the buffer, the
    messages delivered are consecutive pieces of the stream, each fits the buffer and is one frame
    according to its own header, or has at most six bytes. *)
Theorem C52_any_stream :
  forall c osc tls buf scheds stream,
    6 <= nlen buf -> nlen buf < 2 ^ 64 ->
    exists rest, stream = List.concat (fst (session c osc tls buf scheds stream)) ++ rest /\
      snd (session c osc tls buf scheds stream) <> S_end R_over /\
      (forall r, snd (session c osc tls buf scheds stream) = S_open r -> r = rest) /\
      Forall (fun m => nlen m <= nlen buf /\ (nlen m <= 6 \/ total_length tls m = Some (nlen m)))
        (fst (session c osc tls buf scheds stream)).
Proof. exact session_any. Qed.
Print Assumptions C52_any_stream.
Example C52_any_case :
  session tcp_cfg false false buf40 [[Got 3; Got 3; Got 9]; [Got 6]] (get_abc ++ [0xF0; 1; 2; 3; 4; 5; 6]) = ([get_abc], S_end R_error) /\
  total_length false get_abc = Some (nlen get_abc).
Proof. vm_compute. auto. Qed.

(** C52: a reading that fails before the message is complete closes the connection; the end of the
    stream is reported only when nothing, or only a part of a frame, is left of it. *)
Theorem C52_failing_reading :
  forall c osc tls buf pre post stream,
    receive c osc tls buf pre stream = R_wait -> receive c osc tls buf (pre ++ Fail :: post) stream = R_error.
Proof. intros. apply loop_fail. assumption. Qed.
Print Assumptions C52_failing_reading.
Theorem C52_end_of_stream :
  forall c osc tls buf evs stream, 6 <= nlen buf -> nlen buf < 2 ^ 64 ->
    receive c osc tls buf evs stream = R_none ->
    stream = [] \/ exists t, total_length tls stream = Some t /\ nlen stream < t.
Proof. exact receive_none. Qed.
Print Assumptions C52_end_of_stream.
Example C52_end_case :
  receive tcp_cfg true false buf40 [Got 6] get_abc = R_wait /\ receive tcp_cfg true false buf40 [Got 6; Fail] get_abc = R_error /\
  receive tcp_cfg true false buf40 [Got 6; Got 1; Got 9] (firstn 7 get_abc) = R_none /\ receive tcp_cfg true false buf40 [Got 1] [] = R_none.
Proof. vm_compute. auto. Qed.

(** C52: messages this stack writes are such frames. *)
Theorem C52_own_messages :
  forall c e osc p buf bytes,
    cfg_ok c -> c_tcp c = true -> wf_message c p -> p_tcp p = true -> p_type p = 1 -> p_mid p = 0 ->
    nlen bytes <= 0xFFFFFFFF -> nlen (p_payload p) < 2 ^ 32 - 65805 ->
    coap_serialize_message c e p buf = S_ok bytes -> good_frame c osc false bytes.
Proof.
  intros c e osc p buf bytes H1 H2 H3 H4 H5 H6 H7 H8 H9.
  destruct (tcp_rfc c e p buf bytes H1 H2 H3 H4 H8 H9) as (opts & Hr & Hf & _).
  destruct (tcp_roundtrip c e p buf bytes [] [] H1 H2 H3 H4 H5 H6 H7 H8 H9) as [_ Hp].
  exists opts. split.
  - exists (p_code p), (p_token p), (p_payload p). split; [apply H3|]. split; [exact Hf|]. split; [exact H7|exact Hr].
  - right. exists p. exact Hp.
Qed.
Print Assumptions C52_own_messages.
Example C52_own_case :
  exists p bytes, p_path p = Some [97; 98; 99] /\
    coap_serialize_message tcp_cfg (mkE [0; 0] [0; 0]) p 100 = S_ok bytes /\ 6 <= nlen bytes.
Proof.
  exists (set_path (set_token (set_code (set_type (set_tcp blank true) 1) 1) [7; 8]) (Some [97; 98; 99])). eexists.
  split; [reflexivity|]. split; [vm_compute; reflexivity|]. vm_compute. discriminate.
Qed.

(** C52: sending puts a prefix of the message on the stream; it is the whole message unless a call of
    send fails; -1 means that nothing was sent, any other value is the number of bytes sent. *)
Theorem C52_send_prefix :
  forall evs m w ret, send_message evs m = Some (w, ret) ->
    exists more, m = w ++ more /\ (ret = S_minus1 /\ w = [] \/ ret = S_bytes (nlen w)) /\ (more <> [] -> In SFail evs).
Proof. intros evs m w ret H. exact (send_spec evs [] m w ret H). Qed.
Print Assumptions C52_send_prefix.
Example C52_send_case :
  send_message [Put 3; SIntr; Put 2; Put 9] get_abc = Some (get_abc, S_bytes 8) /\
  send_message [Put 3; SFail] get_abc = Some (firstn 3 get_abc, S_bytes 3) /\ send_message [SFail] get_abc = Some ([], S_minus1).
Proof. vm_compute. auto. Qed.

(** C52 fails when the first reading brings fewer bytes than the length field needs: the connection is
    closed although the stream is one valid frame. *)
Theorem C52_short_first_reading_refuted :
  exists f, good_frame tcp_cfg true false f /\ 6 <= nlen f <= 40 /\
    session tcp_cfg true false buf40 [[Got 1; Got 100]] f = ([], S_end R_error).
Proof.
  exists ([0xD2; 2; 1; 7; 8; 0xBD; 0] ++ repeat 97 13). split; [|split; [vm_compute; split; discriminate|vm_compute; reflexivity]].
  exists [(11, repeat 97 13)]. split; [|right; eexists; vm_compute; reflexivity].
  exists 1, [7; 8], []. split; [cbn; lia|]. split; [repeat constructor|]. split; [discriminate|].
  exists (0xBD :: 0 :: repeat 97 13), [], 13, [2]. split; [|split; [left; auto|split; [|reflexivity]]].
  - change (0xBD :: 0 :: repeat 97 13) with ((0xBD :: 0 :: repeat 97 13) ++ []). constructor; [discriminate| |constructor].
    change (0xBD :: 0 :: repeat 97 13) with ((16 * 11 + 13) :: [] ++ [13 - 13] ++ repeat 97 13). constructor; constructor; [reflexivity|].
    cbn [List.length repeat]. split; [discriminate|reflexivity].
  - change (N.of_nat _) with 15. change 2 with (15 - 13). constructor. split; [discriminate|reflexivity].
Qed.
Print Assumptions C52_short_first_reading_refuted.
(** C52 fails for frames of fewer than six bytes: bytes of the next frame become options of the
    first message, which is then a message nobody sent. *)
Theorem C52_short_frames_merged_refuted :
  exists f g p q m rest, tcp_parse tcp_cfg false f [] = P_ok p /\ tcp_parse tcp_cfg false g [] = P_ok q /\
    total_length false f = Some (nlen f) /\ total_length false g = Some (nlen g) /\
    receive tcp_cfg true false buf40 [Got 100] (f ++ g) = R_msg m rest /\ m <> f /\
    p_observe p = None /\ exists p', tcp_parse tcp_cfg false m [] = P_ok p' /\ p_observe p' = Some 177.
Proof.
  exists [0x01; 2; 7], [0x60; 1; 0xB1; 97; 0x03; 98; 99; 100]. do 4 eexists.
  split; [vm_compute; reflexivity|]. split; [vm_compute; reflexivity|]. split; [vm_compute; reflexivity|].
  split; [vm_compute; reflexivity|]. split; [vm_compute; reflexivity|]. split; [discriminate|]. split; [reflexivity|].
  eexists. split; [vm_compute; reflexivity|reflexivity].
Qed.
Print Assumptions C52_short_frames_merged_refuted.
(** C52 fails when the first recv is interrupted: the loop ends with an empty message, which runs into
    an assertion, or on a secured connection is delivered. *)
Theorem C52_interrupted_refuted :
  exists stream, receive tcp_cfg true false buf40 [Intr; Got 100] stream = R_abort /\
    receive tcp_cfg true true buf40 [Intr; Got 100] stream = R_msg [] stream.
Proof. exists get_abc. vm_compute. auto. Qed.
Print Assumptions C52_interrupted_refuted.
(** C52: a send that fails half way is reported as success, with part of a frame on the stream. *)
Theorem C52_partial_send_refuted :
  exists evs m w, send_message evs m = Some (w, S_bytes (nlen w)) /\ w <> [] /\ w <> m.
Proof. exists [Put 3; SFail], get_abc, [0x42; 1; 7]. split; [reflexivity|]. split; discriminate. Qed.
Print Assumptions C52_partial_send_refuted.

(** C53: frames of at least seven bytes arriving in TLS records cut in any way: the messages posted
    are the first frames, in order, the bytes not yet posted are kept, the peer stays connected and
    nothing is written behind the buffer. *)
Theorem C53_frames_in_order :
  forall dyn pdu frames records tail,
    pdu < 2 ^ 64 -> Forall (fun f => (exists opts, coap_frame opts f) /\ 7 <= nlen f <= pdu) frames ->
    List.concat records ++ tail = List.concat frames ->
    exists s ms more, tls_run dyn pdu fresh_peer records = (T_up s, ms) /\ frames = ms ++ more /\
      match p_part s with Some p => t_data p | None => [] end ++ List.concat (p_recs s) ++ tail = List.concat more.
Proof.
  intros dyn pdu frames records tail H64 Hf He.
  assert (Hf' : Forall (frame_ok pdu) frames).
  { eapply Forall_impl; [|exact Hf]. cbn beta. intros f [[opts Ho] Hl]. split; [eapply coap_sized, Ho|exact Hl]. }
  destruct (run_safe dyn pdu H64 records fresh_peer frames tail Hf' (waits_fresh pdu H64 [] frames Hf') He) as (s & ms & more & E & E2 & _ & E3).
  exists s, ms, more. split; [exact E|]. split; [exact E2|]. rewrite <- E3. unfold pending, part_of.
  destruct (p_part s); cbn [t_data]; rewrite <- ?app_assoc; reflexivity.
Qed.
Print Assumptions C53_frames_in_order.
(** C53: and all are posted when no record holds bytes of two frames. *)
Theorem C53_frames_delivered :
  forall dyn pdu frames groups,
    pdu < 2 ^ 64 -> Forall (fun f => (exists opts, coap_frame opts f) /\ 7 <= nlen f <= pdu) frames ->
    Forall2 (fun f g => List.concat g = f) frames groups ->
    exists s, tls_run dyn pdu fresh_peer (List.concat groups) = (T_up s, frames).
Proof.
  intros dyn pdu frames groups H64 Hf H2.
  assert (Hf' : Forall (frame_ok pdu) frames).
  { eapply Forall_impl; [|exact Hf]. cbn beta. intros f [[opts Ho] Hl]. split; [eapply coap_sized, Ho|exact Hl]. }
  destruct (run_live dyn pdu H64 frames fresh_peer groups Hf' (waits_fresh pdu H64 [] frames Hf') eq_refl H2) as (s & E & _).
  exists s. exact E.
Qed.
Print Assumptions C53_frames_delivered.
Example C53_case :
  coap_frame [(11, [97; 98; 99])] get_abc /\
  snd (tls_run true 40 fresh_peer [[0x42]; [1; 7]; [8; 0xB3; 97; 98]; [99]; get_abc]) = [get_abc; get_abc] /\
  snd (tls_run false 40 fresh_peer [get_abc ++ [0x42; 1]; skipn 2 get_abc]) = [get_abc; get_abc].
Proof. split; [exact abc_frame|]. vm_compute. auto. Qed.

(** C53: a frame that is larger than the buffer closes the connection as soon as six bytes of it are
    there; nothing is posted. *)
Theorem C53_too_large_closes :
  forall dyn pdu opts f more records tail,
    coap_frame opts f -> 6 <= pdu -> pdu < nlen f ->
    List.concat records ++ tail = f ++ more -> (6 <= List.length (List.concat records))%nat ->
    tls_run dyn pdu fresh_peer records = (T_down, []).
Proof.
  intros dyn pdu opts f more records tail Hf H6 Hl He L.
  apply (large_run dyn pdu f (coap_sized opts f Hf) Hl H6 records [] [] tail more); try reflexivity; try assumption.
  - cbn [List.length]. lia.
  - right. auto.
Qed.
Print Assumptions C53_too_large_closes.
Example C53_too_large_case :
  coap_frame [(11, [97; 98; 99])] get_abc /\ tls_run true 7 fresh_peer [[0x42; 1; 7]; [8]; [0xB3; 97; 98]] = (T_down, []) /\
  tls_run true 7 fresh_peer [[0x42; 1; 7]; [8; 0xB3]] <> (T_down, []).
Proof. split; [exact abc_frame|]. vm_compute. split; [reflexivity|discriminate]. Qed.

(** C53 fails for a frame of exactly six bytes: it is never posted, nor is anything after it. *)
Theorem C53_six_bytes_stuck_refuted :
  exists f opts, coap_frame opts f /\ nlen f = 6 /\
    forall dyn pdu records, 6 <= pdu -> pdu < 2 ^ 64 -> snd (tls_run dyn pdu fresh_peer (f :: records)) = [].
Proof.
  exists get_a, [(11, [97])]. split; [exact a_frame|]. split; [reflexivity|]. intros dyn pdu records H6 H64.
  assert (Hs : sized get_a) by (eapply coap_sized, a_frame).
  cbn [tls_run]. unfold tls_recv, tls_read. cbn [p_part p_recs fresh_peer app List.concat].
  cbn [tls_loop t_data t_cap].
  change (nlen (@nil N) <? FIRST_READ) with true. cbv iota. change (FIRST_READ - nlen (@nil N)) with 6.
  change (ssl_read 6 [get_a]) with (Some (get_a, [@nil N])). cbn [app].
  change (get_a ++ []) with get_a. unfold get_a at 1. cbv iota. fold get_a.
  change (nlen get_a) with 6. replace (pdu <? 6) with false by lia. change (0 =? 0) with true. cbn [negb andb List.length get_a tls_loop t_data t_cap]. fold get_a.
  change (nlen get_a <? FIRST_READ) with false. cbv iota. change (tcp_packet_size get_a) with (Some 6). cbv iota.
  replace (pdu <? 6) with false by lia. change (ssl_read (sub64 6 (nlen get_a)) [@nil N]) with (@None (list N * list (list N))).
  cbv iota.
  match goal with |- context [tls_run dyn pdu ?s records] => destruct (six_stuck dyn pdu get_a Hs eq_refl H6 H64 records s) as (s' & ->) end;
    [|reflexivity].
  cbn [part_of p_part]. destruct dyn; [|auto]. unfold shrink. cbn [t_cap t_data]. destruct (N.eqb_spec 6 pdu) as [<-|]; [auto|]. left. reflexivity.
Qed.
Print Assumptions C53_six_bytes_stuck_refuted.
(** C53 fails for shorter frames: a ping of two bytes waits for four more bytes, and then the bytes of
    the next frame are written behind the buffer that was shrunk to two bytes. *)
Theorem C53_short_frame_overflow_refuted :
  exists ping next, tcp_packet_size ping = Some (nlen ping) /\ (exists opts, coap_frame opts next) /\
    snd (tls_run true 40 fresh_peer [ping]) = [] /\ fst (tls_run true 40 fresh_peer [ping; next]) = T_broken.
Proof.
  exists [0x00; 0xE2], get_abc. split; [reflexivity|]. split; [exists [(11, [97; 98; 99])]; exact abc_frame|].
  vm_compute. auto.
Qed.
Print Assumptions C53_short_frame_overflow_refuted.
(** C53: with buffers of fixed size, a record longer than the buffer overflows it then; *)
Theorem C53_fixed_buffer_overflow_refuted :
  exists records, fst (tls_run false 40 fresh_peer records) = T_broken.
Proof. exists [[0x00; 0xE2]; repeat 0 45]. vm_compute. reflexivity. Qed.
Print Assumptions C53_fixed_buffer_overflow_refuted.
(** C53: of two frames in one record only the first is posted; the second waits for another record. *)
Theorem C53_second_frame_waits_refuted :
  exists f opts, coap_frame opts f /\ 7 <= nlen f /\
    snd (tls_run true 40 fresh_peer [f ++ f]) = [f] /\ snd (tls_run true 40 fresh_peer [f ++ f; []]) = [f; f].
Proof. exists get_abc, [(11, [97; 98; 99])]. split; [exact abc_frame|]. split; [discriminate|]. vm_compute. auto. Qed.
Print Assumptions C53_second_frame_waits_refuted.

(** C54: a well-formed message is taken for an OSCORE message exactly when it carries option 9; no
    byte behind the message matters. *)
Theorem C54_oscore_recognised_tcp :
  forall opts msg after, coap_frame opts msg ->
    is_oscore true msg after = O_yes /\ In 9 (map fst opts) \/ is_oscore true msg after = O_no /\ ~ In 9 (map fst opts).
Proof.
  intros opts msg after (code & token & payload & Ht & Hf & _ & Hr).
  rewrite (is_oscore_tcp code token opts payload msg after Ht Hf Hr), <- existsb_nine.
  destruct (existsb _ opts); [left; auto|right; split; [reflexivity|discriminate]].
Qed.
Print Assumptions C54_oscore_recognised_tcp.
Theorem C54_oscore_recognised_udp :
  forall type code mid token opts payload msg after,
    type < 4 -> (List.length token <= 8)%nat -> Forall (fun o => fst o < 2 ^ 32) opts ->
    rfc_udp type code mid token opts payload msg ->
    is_oscore false msg after = O_yes /\ In 9 (map fst opts) \/ is_oscore false msg after = O_no /\ ~ In 9 (map fst opts).
Proof.
  intros type code mid token opts payload msg after H1 H2 H3 H4.
  rewrite (is_oscore_udp type code mid token opts payload msg after H1 H2 H3 H4), <- existsb_nine.
  destruct (existsb _ opts); [left; auto|right; split; [reflexivity|discriminate]].
Qed.
Print Assumptions C54_oscore_recognised_udp.
Example C54_case :
  is_oscore false [0x42; 2; 0; 1; 7; 8; 0x92; 9; 20; 0xFF; 1; 2] [] = O_yes /\
  is_oscore false [0x42; 2; 0; 1; 7; 8; 0x61; 3; 0x30; 0xFF; 9] [] = O_yes /\
  is_oscore false [0x40; 1; 0; 1; 0xB1; 97] [] = O_no /\
  is_oscore true get_abc [] = O_no /\ is_oscore true [0x32; 2; 7; 8; 0x92; 9; 20] [] = O_yes.
Proof. vm_compute. auto. Qed.
(** C54: for any non-empty message the check comes to an answer and reads at most four bytes behind
    the message. *)
Theorem C54_four_bytes :
  forall tcp data after, bytes_ok (data ++ after) -> data <> [] -> (4 <= List.length after)%nat ->
    is_oscore tcp data after = O_yes \/ is_oscore tcp data after = O_no.
Proof. exact is_oscore_total. Qed.
Print Assumptions C54_four_bytes.
(** C54: a malformed message makes the check read behind the buffer. *)
Theorem C54_overread_refuted :
  exists msg, is_oscore false msg [] = O_oob /\ is_oscore false msg [0; 0; 0; 0] <> O_oob.
Proof. exists [0x40; 1; 0; 0; 0xD0]. vm_compute. split; [reflexivity|discriminate]. Qed.
Print Assumptions C54_overread_refuted.
