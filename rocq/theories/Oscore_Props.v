(** C11-C15: OSCORE partial IV, nonce, replay window, sequence numbers, option. *)
From Verif Require Import Common Oscore_Model Oscore_Spec Oscore_Proofs.
Local Open Scope N_scope.

(** C11: the peer recovers every sequence number below 2^40 from the partial IV. *)
Theorem C11_piv_roundtrip : forall n, n < 2 ^ 40 -> read_piv (store_piv n) = n.
Proof. exact piv_roundtrip. Qed.
Print Assumptions C11_piv_roundtrip.

(** C11: different sequence numbers give different partial IVs. *)
Theorem C11_piv_injective :
  forall a b, a < 2 ^ 40 -> b < 2 ^ 40 -> store_piv a = store_piv b -> a = b.
Proof. exact store_piv_inj. Qed.
Print Assumptions C11_piv_injective.

(** C11: the partial IV is the big-endian sequence number, 1 to 5 bytes, without leading zero
    (RFC 8613, 6.1). *)
Theorem C11_piv_form :
  forall n, n < 2 ^ 40 ->
    be_val (store_piv n) = n /\ minimal (store_piv n) /\ bytes_ok (store_piv n) /\
    (1 <= List.length (store_piv n) <= 5)%nat.
Proof.
  intros n Hn. destruct (store_piv_shape n) as (H1 & H2 & H3).
  assert (Hm : n mod 2 ^ 40 = n) by (apply N.mod_small; exact Hn).
  destruct H3 as [H3 H4]; [destruct (N.eq_dec n 0); [right|left; rewrite Hm]; assumption|].
  split; [rewrite store_piv_value; exact Hm|]. repeat split; assumption.
Qed.
Print Assumptions C11_piv_form.

(** C11: whatever partial IV (up to 7 bytes can be announced) is received, it is read big-endian. *)
Theorem C11_piv_read :
  forall piv, bytes_ok piv -> (List.length piv <= 8)%nat -> read_piv piv = be_val piv.
Proof. exact read_piv_value. Qed.
Print Assumptions C11_piv_read.

Example C11_case :
  store_piv 0 = [0] /\ store_piv 256 = [1; 0] /\ store_piv (2 ^ 40 - 1) = [255; 255; 255; 255; 255] /\
  read_piv [0x12; 0x34; 0x56] = 0x123456.
Proof. vm_compute; auto. Qed.

(** C12: nonces of different (sender id, sequence number) pairs differ. *)
Theorem C12_nonce_distinct :
  forall id1 id2 civ n1 n2,
    (List.length id1 <= 7)%nat -> (List.length id2 <= 7)%nat -> List.length civ = 13%nat ->
    n1 < 2 ^ 40 -> n2 < 2 ^ 40 -> (id1, n1) <> (id2, n2) ->
    aead_nonce id1 (store_piv n1) civ <> aead_nonce id2 (store_piv n2) civ.
Proof. exact nonce_ssn_distinct. Qed.
Print Assumptions C12_nonce_distinct.

(** C12: for arbitrary received partial IVs, the nonce is determined by exactly the id and the
    number the partial IV denotes. *)
Theorem C12_nonce_injective :
  forall id1 id2 piv1 piv2 civ,
    (List.length id1 <= 7)%nat -> (List.length id2 <= 7)%nat ->
    (List.length piv1 <= 5)%nat -> (List.length piv2 <= 5)%nat ->
    bytes_ok piv1 -> bytes_ok piv2 -> List.length civ = 13%nat ->
    (aead_nonce id1 piv1 civ = aead_nonce id2 piv2 civ <-> id1 = id2 /\ be_val piv1 = be_val piv2).
Proof. exact nonce_injective. Qed.
Print Assumptions C12_nonce_injective.

Example C12_case :
  aead_nonce [1; 2] (store_piv 300) [0;1;2;3;4;5;6;7;8;9;10;11;12]
  = [2;1;2;3;4;5;7;5;8;9;10;10;32].
Proof. vm_compute; reflexivity. Qed.

(** C12 without the bound on the sequence number: false.  The 64-bit counter is not checked against
    2^40 (oc_oscore_engine.c:626-630), and the partial IV keeps 40 bits. *)
Theorem C12_nonce_distinct_beyond_40_bits_refuted :
  exists id civ n1 n2, n1 < 2 ^ 64 /\ n2 < 2 ^ 64 /\ n1 <> n2 /\
    aead_nonce id (store_piv n1) civ = aead_nonce id (store_piv n2) civ.
Proof.
  exists [1], (repeat 7 13), 1, (2 ^ 40 + 1).
  repeat split; try (vm_compute; reflexivity). discriminate.
Qed.
Print Assumptions C12_nonce_distinct_beyond_40_bits_refuted.

(** C13, the part that holds: two deliveries of the same non-zero partial IV are separated by at
    least 32 requests that passed the replay check.
    Missing: at-most-once without this distance (refuted below), and partial IV 0. *)
Theorem C13_replay_within_window_partial :
  forall rs i j p,
    p <> 0 -> (i < j)%nat ->
    delivered_at rs (recv_all window_init rs) i p ->
    delivered_at rs (recv_all window_init rs) j p ->
    (32 <= passed_between (recv_all window_init rs) i j)%nat.
Proof. intros rs i j p. apply no_early_replay. exact window_init_ok. Qed.
Print Assumptions C13_replay_within_window_partial.

(** C13: an authentic request whose non-zero partial IV was never received before is delivered. *)
Theorem C13_fresh_delivered_partial :
  forall rs p, p <> 0 -> ~ In p (map fst rs) ->
    nth_error (recv_all window_init (rs ++ [(p, true)])) (List.length rs) = Some R_delivered.
Proof.
  intros rs p Hp Hn. apply (fresh_accepted rs window_init p true Hp); [|exact Hn].
  cbn. intros H. repeat (destruct H as [H|H]; [congruence|]). exact H.
Qed.
Print Assumptions C13_fresh_delivered_partial.

(** Nothing forged is ever delivered. *)
Theorem C13_forged_not_delivered :
  forall rs w i p, nth_error rs i = Some (p, false) -> nth_error (recv_all w rs) i <> Some R_delivered.
Proof.
  induction rs as [|[q b] rs IH]; intros w i p H; [destruct i; discriminate|].
  cbn [recv_all]. unfold recv_request at 1. destruct (check_replayed w q) as [rep w'].
  destruct i as [|i]; cbn [nth_error] in *.
  - injection H as -> ->. destruct rep; discriminate.
  - eapply IH. exact H.
Qed.
Print Assumptions C13_forged_not_delivered.

Example C13_case :
  recv_all window_init [(5, true); (6, true); (5, true); (4, false); (6, true); (7, true)]
  = [R_delivered; R_delivered; R_replayed; R_not_authentic; R_replayed; R_delivered].
Proof. vm_compute; reflexivity. Qed.

(** C13: accepted at most once is false: only the last 32 partial IVs are remembered and older
    ones are not refused ... *)
Theorem C13_at_most_once_refuted :
  exists rs i j p, i <> j /\ p <> 0 /\
    delivered_at rs (recv_all window_init rs) i p /\ delivered_at rs (recv_all window_init rs) j p.
Proof.
  exists (map (fun p => (p, true)) (tl (below 34) ++ [1])), 0%nat, 33%nat, 1.
  split; [discriminate|]. split; [discriminate|].
  split; (split; [eexists; vm_compute; reflexivity|vm_compute; reflexivity]).
Qed.
Print Assumptions C13_at_most_once_refuted.

(** ... and the first request of a context (partial IV 0) can be replayed at once. *)
Theorem C13_zero_replay_refuted :
  exists rs, rs = [(0, true); (0, true)] /\ recv_all window_init rs = [R_delivered; R_delivered].
Proof. eexists. split; [reflexivity|vm_compute; reflexivity]. Qed.
Print Assumptions C13_zero_replay_refuted.

(** C13: a fresh authentic request is accepted: false, a forged request with the same partial IV
    arriving first is recorded in the window before its tag is checked
    (oc_oscore_engine.c:194 before :256). *)
Theorem C13_forgery_blocks_authentic_refuted :
  exists p, recv_all window_init [(p, false); (p, true)] = [R_not_authentic; R_replayed].
Proof. exists 9. vm_compute; reflexivity. Qed.
Print Assumptions C13_forgery_blocks_authentic_refuted.

(** ... and a late first message (partial IV 0) can be refused although never seen. *)
Theorem C13_fresh_zero_refuted :
  exists rs, ~ In 0 (map fst rs) /\
    nth_error (recv_all window_init (rs ++ [(0, true)])) (List.length rs) = Some R_replayed.
Proof.
  exists (map (fun p => (p, true)) (tl (below 32))). split; [|vm_compute; reflexivity].
  vm_compute. intros H. repeat (destruct H as [H|H]; [discriminate|]). exact H.
Qed.
Print Assumptions C13_fresh_zero_refuted.

(** C14, the part that holds: if at most 160 messages are sent between persists and, after a power
    loss, the persist scheduled at boot runs before the first message, no partial IV is used twice,
    whatever the number and position of power losses.
    Missing: the stack does not enforce these conditions (refuted below). *)
Theorem C14_no_reuse_partial :
  forall es, timely (Some 160%nat) es -> 160 * N.of_nat (List.length es) < 2 ^ 40 ->
    NoDup (s_used (srun sender_init es)).
Proof. exact no_reuse_init. Qed.
Print Assumptions C14_no_reuse_partial.

(** C14: with unicast messages only, a persist has been requested whenever 32 or more messages were
    sent since the last one; so the 160 of the previous theorem leaves 128 messages for the request
    to be served. *)
Theorem C14_persist_requested_partial :
  forall es, Forall (fun e => e = SUnicast \/ e = SPersist) es ->
    N.of_nat (List.length es) < 2 ^ 64 ->
    (32 <= sends_since_persist es 0)%nat -> s_pending (srun sender_init es) = true.
Proof.
  intros es Hf Hl H32. destruct (s_pending (srun sender_init es)) eqn:E; [reflexivity|exfalso].
  apply (dump_requested es sender_init 0) in E; [lia|exact Hf|exact Hl|].
  intros _. vm_compute. split; [repeat constructor|discriminate].
Qed.
Print Assumptions C14_persist_requested_partial.

Example C14_case :
  let es := repeat SUnicast 100 ++ [SCrash; SPersist] ++ repeat SMulticast 50 ++ [SCrash; SPersist; SUnicast] in
  timely (Some 160%nat) es /\ List.length (s_used (srun sender_init es)) = 151%nat /\
  s_ssn (srun sender_init es) = 321.
Proof. vm_compute. auto. Qed.

(** C14 in full is false: a second power loss before the persist scheduled at boot ... *)
Theorem C14_second_crash_refuted :
  exists es, ~ NoDup (s_used (srun sender_init es)) /\ es = [SCrash; SUnicast; SCrash; SUnicast].
Proof.
  eexists. split; [|reflexivity]. vm_compute. intros H. inversion_clear H as [|? ? Hn _]. apply Hn. left; reflexivity.
Qed.
Print Assumptions C14_second_crash_refuted.

(** ... or multicast messages, for which no persist is ever requested: 161 of them, a power loss, and
    the next message reuses the number although no persist was pending. *)
Theorem C14_multicast_refuted :
  exists es, ~ NoDup (s_used (srun sender_init es)) /\
    es = repeat SMulticast 161 ++ [SCrash; SPersist; SMulticast] /\
    s_pending (srun sender_init (repeat SMulticast 161)) = false.
Proof.
  eexists. split; [|split; [reflexivity|vm_compute; reflexivity]]. vm_compute.
  intros H. inversion_clear H as [|? ? Hn _]. apply Hn. left; reflexivity.
Qed.
Print Assumptions C14_multicast_refuted.

(** C15, the part that holds: an option laid out as RFC 8613 requires is decoded to its fields ... *)
Theorem C15_wellformed_option_partial :
  forall opt piv ctx kid n h k,
    rfc8613_option opt n h k piv ctx kid ->
    parse_oscore_option opt = O_ok (Some (mkF (16 * h + 8 * k + n) piv ctx kid)).
Proof. exact parse_wellformed. Qed.
Print Assumptions C15_wellformed_option_partial.

(** ... and the decoder leaves the bounds of the option or of its destination exactly for the options
    that announce more than there is. *)
Theorem C15_out_of_bounds_iff_partial :
  forall opt, bytes_ok opt -> N.of_nat (List.length opt) <= 65804 ->
    (mem_error (parse_oscore_option opt) <-> overrunning_option opt).
Proof.
  intros opt Hb Hl. apply parse_cases; [exact Hb|].
  unfold W64. lia.
Qed.
Print Assumptions C15_out_of_bounds_iff_partial.

(** The option the stack writes is read back by the same decoder, and its length is the announced one. *)
Theorem C15_option_roundtrip :
  forall code piv kid ctx,
    (List.length piv <= 5)%nat -> (List.length ctx <= 16)%nat -> (List.length kid <= 7)%nat ->
    (code > 5 -> kid = []) ->
    let f := set_header_oscore code piv kid ctx in
    (f_flags f = 0 -> parse_oscore_option (serialize_oscore_value f) = O_ok None /\ piv = [] /\ kid = [] /\ ctx = []) /\
    (f_flags f <> 0 -> parse_oscore_option (serialize_oscore_value f) = O_ok (Some f)) /\
    List.length (serialize_oscore_value f) = oscore_value_length f.
Proof. exact option_roundtrip. Qed.
Print Assumptions C15_option_roundtrip.

Example C15_case :
  serialize_oscore_value (set_header_oscore 2 (store_piv 300) [0xAA; 0xBB] [0x37])
  = [26; 1; 44; 1; 0x37; 0xAA; 0xBB] /\
  parse_oscore_option [26; 1; 44; 1; 0x37; 0xAA; 0xBB] = O_ok (Some (mkF 26 [1; 44] [0x37] [0xAA; 0xBB])) /\
  rfc8613_option [26; 1; 44; 1; 0x37; 0xAA; 0xBB] 2 1 1 [1; 44] [0x37] [0xAA; 0xBB] /\
  ~ overrunning_option [26; 1; 44; 1; 0x37; 0xAA; 0xBB].
Proof.
  repeat split; try (vm_compute; reflexivity).
  - vm_compute; discriminate.
  - right. split; [reflexivity|cbn; lia].
  - right. split; [reflexivity|cbn; lia].
  - cbn. change (26 mod 8) with 2. change (26 / 16) with 1. change (N.to_nat 2) with 2%nat.
    intros [H|[H|[_ [H|(s & H & _ & H')]]]]; try lia; [discriminate|]. injection H as <-. cbn in H'. lia.
Qed.

(** C15 in full is false: the length of the partial IV (up to 7) is not compared with the 5 bytes of
    its destination, nor any announced length with the option. *)
Theorem C15_write_in_bounds_refuted :
  exists opt, bytes_ok opt /\ parse_oscore_option opt = O_write_past_field.
Proof.
  exists [7; 1; 2; 3; 4; 5; 6; 7]. split; [apply bytes_okb_spec|]; vm_compute; reflexivity.
Qed.
Print Assumptions C15_write_in_bounds_refuted.
Theorem C15_read_in_bounds_refuted :
  exists opt, bytes_ok opt /\ parse_oscore_option opt = O_read_past_end.
Proof. exists [5]. split; [apply bytes_okb_spec|]; vm_compute; reflexivity. Qed.
Print Assumptions C15_read_in_bounds_refuted.
