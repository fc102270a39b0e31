(** C36, C37: endpoints. *)
From Verif Require Import Common Ep_Model Ep_Spec Ep_Proofs Ep2_Proofs Ep3_Proofs Ep4_Proofs.
From Coq Require Import String.
Local Open Scope string_scope.
Local Open Scope list_scope.
Local Open Scope N_scope.

(** * Data of the examples *)
Definition a6 (l r : list N) : list N := l ++ repeat 0 (16 - List.length l - List.length r) ++ r.
Definition peer (fl : N) (s : N) : ep := mk_ep fl 0 (a6 [254; 128] [1]) 5683 0 s.
Lemma peer_ok fl s : fl < 256 -> ep_ok (peer fl s).
Proof. intros H. constructor; [exact H|reflexivity| |reflexivity]. apply bytes_okb_spec. vm_compute. reflexivity. Qed.

(** * C36 *)

(** The comparison says exactly whether two endpoints are the same peer. *)
Theorem C36_comparison_decides_same_peer :
  forall a b, ep_ok a -> ep_ok b -> (ep_compare a b = true <-> same_peer a b).
Proof. exact compare_spec. Qed.
Print Assumptions C36_comparison_decides_same_peer.

Example C36_decides_case :
  same_peer (peer 8 0) (peer (8 + 64 + 128) 7) /\ ~ same_peer (peer 8 0) (peer 24 0) /\ ~ same_peer (peer 24 1) (peer 24 2).
Proof.
  repeat split; try (intros H; apply compare_spec in H; [vm_compute in H; discriminate|apply peer_ok; reflexivity|apply peer_ok; reflexivity]);
    apply compare_spec; try (apply peer_ok; reflexivity); vm_compute; reflexivity.
Qed.

Theorem C36_symmetric : forall a b, ep_compare a b = ep_compare b a.
Proof. exact compare_sym. Qed.
Print Assumptions C36_symmetric.

(** Reflexive on endpoints of the Internet protocol. *)
Theorem C36_reflexive_on_ip : forall a, is_v6 a \/ is_v4 a -> ep_compare a a = true.
Proof. intros a H. apply compare_refl. exact H. Qed.
Print Assumptions C36_reflexive_on_ip.
Example C36_reflexive_case : is_v6 (peer 8 3) /\ ep_compare (peer 8 3) (peer 8 3) = true.
Proof. split; vm_compute; reflexivity. Qed.

(** A Bluetooth endpoint is not equal to itself. *)
Theorem C36_reflexive_refuted : exists a, ep_ok a /\ ep_compare a a = false.
Proof. exists (peer GATT 0). split; [apply peer_ok; reflexivity|vm_compute; reflexivity]. Qed.
Print Assumptions C36_reflexive_refuted.

(** Transitive when the endpoint in the middle names its session, or one of the outer ones leaves it open. *)
Theorem C36_transitive_with_sessions :
  forall a b c, ep_ok a -> ep_ok b -> ep_ok c -> e_sess b <> 0 \/ e_sess a = 0 \/ e_sess c = 0 ->
    ep_compare a b = true -> ep_compare b c = true -> ep_compare a c = true.
Proof.
  intros a b c A B C S H1 H2. apply compare_spec in H1; [|assumption|assumption]. apply compare_spec in H2; [|assumption|assumption].
  apply compare_spec; [assumption|assumption|]. destruct S as [S|S]; [exact (same_peer_trans a b c S H1 H2)|exact (same_peer_trans0 a b c S H1 H2)].
Qed.
Print Assumptions C36_transitive_with_sessions.
Example C36_transitive_case : ep_compare (peer 24 0) (peer 24 5) = true /\ ep_compare (peer 24 5) (peer (24 + 128) 5) = true.
Proof. split; vm_compute; reflexivity. Qed.

(** An endpoint with an open session is equal to those of two different sessions. *)
Theorem C36_transitive_refuted :
  exists a b c, ep_ok a /\ ep_ok b /\ ep_ok c /\ ep_compare a b = true /\ ep_compare b c = true /\ ep_compare a c = false.
Proof.
  exists (peer 24 1), (peer 24 0), (peer 24 2). split; [apply peer_ok; reflexivity|]. split; [apply peer_ok; reflexivity|]. split; [apply peer_ok; reflexivity|].
  vm_compute. repeat split.
Qed.
Print Assumptions C36_transitive_refuted.

(** Two hosts with the same link-local address on different links are taken for one peer. *)
Theorem C36_links_are_told_apart_refuted :
  exists a b, ep_ok a /\ ep_ok b /\ firstn 2 (e_addr a) = [254; 128] /\ e_if a <> e_if b /\ ep_compare a b = true.
Proof.
  exists (mk_ep 8 0 (a6 [254; 128] [1]) 5683 1 0), (mk_ep 8 0 (a6 [254; 128] [1]) 5683 2 0).
  assert (O : forall i, ep_ok (mk_ep 8 0 (a6 [254; 128] [1]) 5683 i 0)).
  { intros i. constructor; [reflexivity|reflexivity| |reflexivity]. apply bytes_okb_spec. vm_compute. reflexivity. }
  split; [apply O|]. split; [apply O|]. split; [reflexivity|]. split; [discriminate|]. vm_compute. reflexivity.
Qed.
Print Assumptions C36_links_are_told_apart_refuted.

(** Equal endpoints have the same address. *)
Theorem C36_equal_endpoints_have_one_address : forall a b, ep_compare a b = true -> compare_address a b = true.
Proof. exact compare_addr. Qed.
Print Assumptions C36_equal_endpoints_have_one_address.
Example C36_address_case : ep_compare (peer 8 1) (peer 10 1) = false /\ compare_address (peer 8 1) (peer 10 1) = true.
Proof. split; vm_compute; reflexivity. Qed.

(** * C37 *)

(** Every text of an IPv6 address in the forms 1 and 2 of RFC 4291, with any of the four schemes, with or without a
    port and a path, is read as that address. *)
Theorem C37_ipv6_texts_are_read :
  forall tcp sec sc a t tl p u, scheme tcp sec sc -> v6_text a t -> tail_text sec tl p u ->
    of_string (sc ++ [91] ++ t ++ [93] ++ tl) = PAddress (mk_ep (flags_of tcp sec + 8) 0 a p 0 0) u.
Proof. exact of_string_v6. Qed.
Print Assumptions C37_ipv6_texts_are_read.

Example C37_ipv6_case :
  v6_text (a6 [254; 128] [0; 1; 171; 205]) (str "FE80::1:aBCd") /\ tail_text true (str ":40000/oic/res?x=1:2") 40000 (Some (str "/oic/res?x=1:2")) /\
  of_string (str "coaps://[FE80::1:aBCd]:40000/oic/res?x=1:2") = PAddress (mk_ep 10 0 (a6 [254; 128] [0; 1; 171; 205]) 40000 0 0) (Some (str "/oic/res?x=1:2")).
Proof.
  split; [|split; [|vm_compute; reflexivity]].
  - apply (V6_gap [65152] 5 [1; 43981] [str "FE80"] [str "1"; str "aBCd"]); [reflexivity|lia| |].
    + constructor; [|constructor]. split; [|cbn; lia].
      apply (R_more 16 (str "FE8") 4072 48 0); [|left; lia|lia]. apply (R_more 16 (str "FE") 254 56 8); [|left; lia|lia].
      apply (R_more 16 (str "F") 15 69 14); [|right; lia|lia]. apply (R_one 16 70 15); [right; lia|lia].
    + constructor; [split; [apply (R_one 16 49 1); [left; lia|lia]|cbn; lia]|]. constructor; [|constructor]. split; [|cbn; lia].
      apply (R_more 16 (str "aBC") 2748 100 13); [|right; lia|lia]. apply (R_more 16 (str "aB") 171 67 12); [|right; lia|lia].
      apply (R_more 16 (str "a") 10 66 11); [|right; lia|lia]. apply (R_one 16 97 10); [right; lia|lia].
  - apply (T_both true (str "40000") 40000 (str "oic/res?x=1:2")); [|lia]. exact (dec_ok 40000).
Qed.

(** The same for IPv4 addresses. *)
Theorem C37_ipv4_texts_are_read :
  forall tcp sec sc a t tl p u, scheme tcp sec sc -> v4_text a t -> tail_text sec tl p u ->
    of_string (sc ++ t ++ tl) = PAddress (mk_ep (flags_of tcp sec + 4) 0 (a ++ repeat 0 12) p 0 0) u.
Proof. exact of_string_v4. Qed.
Print Assumptions C37_ipv4_texts_are_read.

Example C37_ipv4_case :
  v4_text [192; 168; 0; 7] (str "192.168.0.7") /\ tail_text false (str "/a") 5683 (Some (str "/a")) /\
  of_string (str "coap+tcp://192.168.0.7/a") = PAddress (mk_ep 20 0 ([192; 168; 0; 7] ++ repeat 0 12) 5683 0 0) (Some (str "/a")).
Proof.
  split; [|split; [|vm_compute; reflexivity]].
  - apply (V4 192 168 0 7 (str "192") (str "168") (str "0") (str "7")); [exact (dec_ok 192)|exact (dec_ok 168)|exact (dec_ok 0)|exact (dec_ok 7)|].
    apply bytes_okb_spec. vm_compute. reflexivity.
  - apply (T_path false (str "a")). intros [H|[]]. discriminate.
Qed.

(** Printing an endpoint never fails for want of room, and what is printed reads as the same scheme, address and
    port; IPv6 addresses printed with an embedded IPv4 address excepted. *)
Theorem C37_round_trip :
  forall e, ep_ok e -> is_v6 e \/ is_v4 e -> is_v4 e \/ ~ dotted (e_addr e) ->
    exists t, to_string e = Some t /\
      of_string t = PAddress (mk_ep (flags_of (N.testbit (e_flags e) 4) (N.testbit (e_flags e) 1) + (if N.testbit (e_flags e) 2 then 4 else 8)) 0
                                (if N.testbit (e_flags e) 2 then firstn 4 (e_addr e) ++ repeat 0 12 else e_addr e) (e_port e) 0 0) None.
Proof. exact round_trip. Qed.
Print Assumptions C37_round_trip.

Example C37_round_trip_case :
  is_v6 (peer (8 + 16 + 2) 3) /\ ~ dotted (e_addr (peer 26 3)) /\ to_string (peer 26 3) = Some (str "coaps+tcp://[fe80::1]:5683") /\
  to_string (mk_ep 8 0 (a6 [0; 0; 0; 0; 0; 1] []) 1 0 0) = Some (str "coap://[0:0:1::]:1").
Proof.
  split; [reflexivity|]. split; [|split; vm_compute; reflexivity].
  intros [[H _]|[H _]]; specialize (H O ltac:(lia)); vm_compute in H; discriminate.
Qed.

(** The text of an endpoint of the Internet protocol always fits in the 64 bytes provided for it. *)
Theorem C37_text_fits : forall e, ep_ok e -> is_v6 e \/ is_v4 e -> exists t, to_string e = Some t /\ (List.length t < 64)%nat.
Proof. intros e O V. destruct (to_string_full e O V) as [A B]. exists (full_text e). split; assumption. Qed.
Print Assumptions C37_text_fits.
Example C37_fits_case :
  to_string (mk_ep 26 0 (repeat 255 16) 65535 0 0) = Some (str "coaps+tcp://[ffff:ffff:ffff:ffff:ffff:ffff:ffff:ffff]:65535").
Proof. vm_compute. reflexivity. Qed.

(** Into a buffer of any size the text is written as a whole with its terminator, or an error is reported. *)
Theorem C37_all_or_nothing :
  forall e n t, ep_ok e -> is_v6 e \/ is_v4 e -> to_cstring e n = Some t -> N.of_nat (List.length t) < n /\ to_string e = Some t.
Proof.
  intros e n t O V H. apply to_cstring_whole in H; [|exact O]. destruct H as [-> L]. split; [exact L|]. exact (proj1 (to_string_full e O V)).
Qed.
Print Assumptions C37_all_or_nothing.
Example C37_all_or_nothing_case : to_cstring (peer 8 0) 20 = None /\ to_cstring (peer 8 0) 22 = Some (str "coap://[fe80::1]:5683") /\ to_cstring (peer 8 0) 21 = None.
Proof. vm_compute. repeat split. Qed.

(** The path of a URI. *)
Theorem C37_paths_are_found :
  forall sch host path query, ~ In 58 sch -> ~ In 47 host -> ~ In 63 path -> query = [] \/ (exists q, query = 63 :: q) ->
    parse_path (sch ++ str "://" ++ host ++ [47] ++ path ++ query) = Some ([47] ++ path).
Proof. exact parse_path_ok. Qed.
Print Assumptions C37_paths_are_found.
Example C37_path_case : parse_path (str "ocf://1b2c/light/1?if=oic.if.a") = Some (str "/light/1").
Proof. vm_compute. reflexivity. Qed.

(** An IPv4-mapped IPv6 address is printed in a form that is not read back. *)
Theorem C37_round_trip_refuted :
  exists e t, ep_ok e /\ is_v6 e /\ to_string e = Some t /\ of_string t = PError.
Proof.
  exists (mk_ep 8 0 (a6 [] [255; 255; 10; 0; 0; 1]) 5683 0 0), (str "coap://[::ffff:10.0.0.1]:5683").
  split; [constructor; [reflexivity|reflexivity|apply bytes_okb_spec; vm_compute; reflexivity|reflexivity]|].
  split; [reflexivity|]. split; vm_compute; reflexivity.
Qed.
Print Assumptions C37_round_trip_refuted.

(** Texts that are no endpoints are read as some endpoint: numbers out of range, a missing port, characters that are
    no digits. *)
Theorem C37_malformed_texts_are_rejected_refuted :
  of_string (str "coap://300.1.1.1:99999") = PAddress (mk_ep 4 0 ([44; 1; 1; 1] ++ repeat 0 12) 34463 0 0) None /\
  of_string (str "coap://[::1]:") = PAddress (mk_ep 4 0 ([0; 0; 0; 1] ++ repeat 0 12) 5683 0 0) None /\
  of_string (str "coap://[zz::1]") = PAddress (mk_ep 8 0 (a6 [0; 250] [1]) 5683 0 0) None.
Proof. vm_compute. repeat split. Qed.
Print Assumptions C37_malformed_texts_are_rejected_refuted.

(** A path with a colon is not accepted unless a port is given. *)
Theorem C37_any_path_is_accepted_refuted :
  exists u, of_string (str "coap://10.0.0.1/" ++ u) = PError /\ of_string (str "coap://10.0.0.1:5683/" ++ u) <> PError.
Proof. exists (str "a:b"). split; [vm_compute; reflexivity|vm_compute; discriminate]. Qed.
Print Assumptions C37_any_path_is_accepted_refuted.
