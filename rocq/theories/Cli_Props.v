(** C38: client requests and their handlers. *)
From Verif Require Import Common Cli_Model Cli_Spec Cli_Proofs Cli2_Proofs Cli3_Proofs Cli4_Proofs Cli5_Proofs Cli6_Proofs Cli7_Proofs Cli8_Proofs.
Local Open Scope N_scope.

(** No freed record is used: whatever happens after a history in which the application keeps the rules, including calls
    from inside handlers and cancellations that call further handlers, is defined. *)
Theorem C38_no_dangling_record oscore tcp s t o :
  history oscore tcp careful s t -> may s o = true -> careful s o = true -> step oscore tcp s o <> None.
Proof. exact (no_dangling oscore tcp s t o). Qed.

Theorem C38_timers_belong_to_live_records oscore tcp s t i tm :
  history oscore tcp careful s t -> In (i, tm) (s_tm s) -> exists c, lookup s i = Some c.
Proof. exact (timers_live oscore tcp s t i tm). Qed.

(** The handler of a one-shot request or of a ping is called at most once in the whole history. *)
Theorem C38_one_shot_at_most_once oscore tcp s t :
  history oscore tcp (fun s o => careful s o && plain s o) s t -> NoDup (map k_id (filter (fun x => once (k_kind x)) t)).
Proof. intros H. exact (proj2 (proj2 (once_history oscore tcp s t H))). Qed.

(** A handler that was told that its request is cancelled or timed out is never called again, whatever the application does. *)
Theorem C38_cancelled_is_final oscore tcp ok s t1 x t2 code :
  history oscore tcp ok s (t1 ++ x :: t2) -> k_why x = Cancelled code -> ~ In (k_id x) (map k_id t2).
Proof. exact (told_last oscore tcp ok s t1 x t2 code). Qed.

(** Every record of a request that was sent, other than an observation or a ping, has its lifetime timer, which
    releases it. *)
Theorem C38_every_request_is_released oscore tcp s t c :
  history oscore tcp careful s t -> In c (s_cbs s) -> c_kind c <> KObserve -> c_kind c <> KPing -> s_pend s <> Some (c_id c) ->
  In (c_id c, TLife) (s_tm s) /\ forall s' t', step oscore tcp s (Fire (c_id c) TLife) = Some (s', t') -> lookup s' (c_id c) = None.
Proof. exact (released oscore tcp s t c). Qed.

(** A request ends only for one of the listed reasons. *)
Theorem C38_ends_for_a_reason oscore tcp ok s t0 o s' t c :
  history oscore tcp ok s t0 -> step oscore tcp s o = Some (s', t) -> In c (s_cbs s) -> lookup s' (c_id c) = None -> ends s o t c.
Proof. exact (ends_for_a_reason oscore tcp ok s t0 o s' t c). Qed.

(** A closed session, whose handlers return at once: exactly the waiting unicast requests concerned are told, each once, in
    order; they and their timers are gone, and nothing else changes. *)
Theorem C38_close_tells_exactly oscore tcp ok s t x code :
  history oscore tcp ok s t ->
  exists s', run oscore tcp s (Cancel x code :: repeat (Return false) (List.length (told x code (s_cbs s)))) = Some (s', told x code (s_cbs s)) /\
    s_cbs s' = rest x (s_cbs s) /\ s_stack s' = s_stack s /\
    forall i tm, In (i, tm) (s_tm s') <-> In (i, tm) (s_tm s) /\ ~ In i (map k_id (told x code (s_cbs s))).
Proof. exact (tells_exactly oscore tcp ok s t x code). Qed.

(** Without OSCORE no record is passed over when the main loop closes a session. *)
Theorem C38_nobody_is_passed_over tcp s t c :
  history false tcp careful s t -> s_stack s = [] -> In c (s_cbs s) -> c_busy c = false.
Proof. exact (nobody_busy false tcp s t c eq_refl). Qed.

(** And whatever the handlers do meanwhile (new requests, nested closing): when the loop ends, no waiting unicast request
    concerned is left. *)
Theorem C38_close_reaches_all oscore tcp s x code s1 t1 l s2 o s3 t3 c :
  step oscore tcp s (Cancel x code) = Some (s1, t1) -> inside oscore tcp (s_stack s) s1 l s2 -> may s2 o = true -> step oscore tcp s2 o = Some (s3, t3) ->
  s_stack s3 = s_stack s -> In c (s_cbs s3) -> unicast (c_kind c) = true -> concerns x c = true -> c_busy c = true.
Proof. exact (cancel_reaches_all oscore tcp s x code s1 t1 l s2 o s3 t3 c). Qed.

(** A response reaches the first request with its token and no other. *)
Theorem C38_response_reaches_its_request oscore tcp s r s' t x :
  step oscore tcp s (Deliver r) = Some (s', t) -> In x t -> k_why x = Answered ->
  exists l1 c l2, s_cbs s = l1 ++ c :: l2 /\ c_id c = k_id x /\ c_tok c = a_tok r /\ forall d, In d l1 -> c_tok d <> a_tok r.
Proof. exact (answer_to_owner oscore tcp s r s' t x). Qed.

(** An observation asked for again with the same token, path and server leaves a single record once the server has
    confirmed it: the handler is called once for the answer. *)
Theorem C38_repeated_observation_is_one oscore tcp ok s t q c r :
  history oscore tcp ok s t -> s_stack s = [] -> q_kind q = KObserve ->
  In c (s_cbs s) -> c_kind c = KObserve -> (forall d, In d (s_cbs s) -> c_tok d = c_tok c -> d = c) ->
  q_tok q = c_tok c -> q_uri q = c_uri c -> q_ep q = a_ep r ->
  a_tok r = c_tok c -> a_obs r = REGISTER -> a_body r = Payload true ->
  exists s', run oscore tcp s [Request q Sent; Deliver r; Return false] = Some (s', [Called (c_id c) (c_kind c) Answered]) /\
    lookup s' (c_id c) <> None /\ lookup s' (s_next s) = None.
Proof. exact (repeated_observe oscore tcp ok s t q c r). Qed.

(* ---------- examples ---------- *)
Definition uri_a : list N := [47; 97].
Definition get (mid : N) (tok : list N) (ep : N) : ask := mk_ask mid tok uri_a ep true KOne false.
Definition ask_of (k : kind) (mid : N) (tok : list N) (ep : N) : ask := mk_ask mid tok uri_a ep true k false.
Definition post (mid : N) (tok : list N) (ep : N) : ask := mk_ask mid tok uri_a ep false KOne false.
Definition ping (mid : N) (tok : list N) (ep : N) : ask := mk_ask mid tok ping_uri ep false KPing false.
Definition answer (tok : list N) (ep : N) : resp := mk_resp tok ep NOT_SET 0 (Payload true).
Definition notification (tok : list N) (ep : N) (seq : Z) (num : N) : resp := mk_resp tok ep seq num (Payload true).

(** A busy life: a GET, an observation and a ping to endpoint 1 and a two-step POST from inside the handler of the GET;
    then the session is closed, and the handler of the observation sends a new request. *)
Definition life_ops : list op :=
  [Request (get 10 [1] 1) Sent; Request (ask_of KObserve 11 [2] 1) Sent; Request (ping 12 [3] 1) Sent;
   Deliver (answer [1] 1); Init (post 13 [4] 2) true; Do true true; Return false;
   Deliver (notification [2] 1 0 0); Return false; Deliver (notification [2] 1 5 0); Return false;
   Cancel (SEp 1) 7; Request (get 14 [5] 1) Sent; Return false; Return false; Return false].
Example life_is_careful : obeys false true (fun s o => careful s o && plain s o) start life_ops = true.
Proof. vm_compute. reflexivity. Qed.
Example life_runs : option_map snd (run false true start life_ops) =
  Some [Called 0 KOne Answered; Called 1 KObserve Answered; Called 1 KObserve Answered; Called 1 KObserve (Cancelled 7); Called 2 KPing (Cancelled 7); Called 4 KOne (Cancelled 7)].
Proof. vm_compute. reflexivity. Qed.
Example life_ends : option_map (fun r => (map c_id (s_cbs (fst r)), s_tm (fst r))) (run false true start life_ops) = Some ([3], [(3, TNotify); (3, TLife)]).
Proof. vm_compute. reflexivity. Qed.
Example told_example : told (SEp 1) 7 [new_cb 0 (get 10 [1] 1); new_cb 1 (ask_of KDiscovery 11 [2] 1); new_cb 2 (ask_of KObserve 12 [3] 1); new_cb 3 (get 10 [4] 2)] =
  [Called 0 KOne (Cancelled 7); Called 2 KObserve (Cancelled 7)].
Proof. vm_compute. reflexivity. Qed.
Example history_of_run : exists s t, history false true (fun s o => careful s o && plain s o) s t /\ List.length t = 2%nat.
Proof.
  eexists. eexists. split.
  - eapply h_step with (o := Cancel (SEp 1) 7); [eapply h_step with (o := Return false); [eapply h_step with (o := Deliver (answer [2] 3));
      [eapply h_step with (o := Request (get 11 [2] 3) Sent); [eapply h_step with (o := Request (get 10 [1] 1) Sent); [apply h_start|..]|..]|..]|..]|..];
      vm_compute; reflexivity.
  - vm_compute. reflexivity.
Qed.

(* ---------- what does not hold ---------- *)

(** A discovery handler that returns OC_STOP_DISCOVERY is called again for the next response: oc_ri_free_client_cbs_by_mid
    passes over discovery records. *)
Theorem C38_stop_discovery_refuted : exists l s t,
  obeys false true careful start l = true /\ run false true start l = Some (s, t) /\
  l = [Request (ask_of KDiscovery 10 [1] 0) Sent; Deliver (answer [1] 5); Return true; Deliver (answer [1] 6); Return true] /\
  t = [Called 0 KDiscovery Answered; Called 0 KDiscovery Answered] /\ lookup s 0 <> None.
Proof. eexists. eexists. eexists. split; [|split; [|split; [reflexivity|]]]; [vm_compute; reflexivity|vm_compute; reflexivity|]. split; [reflexivity|vm_compute; discriminate]. Qed.

(** oc_stop_multicast does not stop anything for the same reason. *)
Theorem C38_stop_multicast_refuted : exists l s t,
  obeys false true careful start l = true /\ run false true start l = Some (s, t) /\
  l = [Request (ask_of KMulticast 10 [1] 0) Sent; Deliver (answer [1] 5); StopMulticast 0; Return false; Deliver (answer [1] 6); Return false] /\
  t = [Called 0 KMulticast Answered; Called 0 KMulticast Answered] /\ lookup s 0 <> None.
Proof. eexists. eexists. eexists. split; [|split; [|split; [reflexivity|]]]; [vm_compute; reflexivity|vm_compute; reflexivity|]. split; [reflexivity|vm_compute; discriminate]. Qed.

(** The handler of a request whose answer cannot be parsed is never called, not even with a timeout. *)
Theorem C38_every_request_answered_refuted : exists l s,
  obeys false true careful start l = true /\ run false true start l = Some (s, []) /\
  l = [Request (mk_ask 10 [1] uri_a 5 true KOne true) Sent; Deliver (mk_resp [1] 5 NOT_SET 0 (Payload false))] /\ s_cbs s = [] /\ s_tm s = [].
Proof. eexists. eexists. split; [|split; [|split; [reflexivity|]]]; [vm_compute; reflexivity|vm_compute; reflexivity|]. split; reflexivity. Qed.

(** A server that puts an Observe option into its answer to a plain GET makes the handler of this GET run again. *)
Theorem C38_one_shot_any_server_refuted : exists l s t,
  obeys false true careful start l = true /\ run false true start l = Some (s, t) /\
  l = [Request (get 10 [1] 5) Sent; Deliver (notification [1] 5 2 0); Return false; Deliver (notification [1] 5 3 0); Return false] /\
  t = [Called 0 KOne Answered; Called 0 KOne Answered].
Proof. eexists. eexists. eexists. split; [|split; [|split; [reflexivity|]]]; vm_compute; reflexivity. Qed.

(** oc_init_post twice: the first record is never sent, has no timer and stays for ever. *)
Theorem C38_init_twice_refuted : exists l s t,
  run false true start l = Some (s, t) /\ l = [Init (post 10 [1] 5) true; Init (post 11 [2] 5) true; Do false true] /\
  s_pend s = None /\ map c_id (s_cbs s) = [0; 1] /\ map fst (s_tm s) = [1].
Proof. eexists. eexists. eexists. split; [|split; [reflexivity|]]; [vm_compute; reflexivity|]. repeat split. Qed.

(** oc_init_post, the session closes, oc_do_post: the freed record is used. *)
Theorem C38_closed_between_init_and_do_refuted :
  run false true start [Init (post 10 [1] 5) true; Cancel (SEp 5) 7; Return false; Do false true] = None /\
  run false true start [Init (post 10 [1] 5) true; Cancel (SEp 5) 7; Return false] <> None.
Proof. split; vm_compute; [reflexivity|discriminate]. Qed.

(** oc_do_post without oc_init_post uses NULL; with a timeout it is refused. *)
Theorem C38_do_without_init_refuted : step false true start (Do false true) = None /\ step false true start (Do true true) = Some (start, []).
Proof. split; reflexivity. Qed.

(** The handler of a lost ping closes the session: it is called a second time, and its record is freed twice. *)
Theorem C38_lost_ping_closes_session_refuted : exists l s t,
  l = [Request (ping 10 [1] 5) Sent; Fire 0 TPing; Cancel (SEp 5) 7; Return false] /\ run false true start l = Some (s, t) /\
  t = [Called 0 KPing PingLost; Called 0 KPing (Cancelled 7)] /\ step false true s (Return false) = None.
Proof. eexists. eexists. eexists. split; [reflexivity|]. split; [vm_compute; reflexivity|]. split; reflexivity. Qed.

(** A handler calls oc_stop_observe for its own observation and the message cannot be made: its record is freed while it
    runs and read afterwards (OC_TCP). *)
Theorem C38_stop_observe_inside_handler_refuted : exists l s t,
  l = [Request (ask_of KObserve 10 [1] 5) Sent; Deliver (notification [1] 5 0 0); StopObserve uri_a 5 11 NoDispatch] /\ run false true start l = Some (s, t) /\
  step false true s (Return false) = None.
Proof. eexists. eexists. eexists. split; [reflexivity|]. split; [vm_compute; reflexivity|]. reflexivity. Qed.

(** With OSCORE an old notification leaves the record marked as in use: the handler is not told that its session closed. *)
Theorem C38_old_notification_refuted : exists l s t,
  obeys true true careful start l = true /\ run true true start l = Some (s, t) /\
  l = [Request (ask_of KObserve 10 [1] 5) Sent; Deliver (notification [1] 5 3 8); Return false; Deliver (notification [1] 5 3 7); Cancel (SEp 5) 7] /\
  t = [Called 0 KObserve Answered] /\ s_stack s = [] /\ lookup s 0 <> None.
Proof. eexists. eexists. eexists. split; [|split; [|split; [reflexivity|]]]; [vm_compute; reflexivity|vm_compute; reflexivity|]. split; [reflexivity|]. split; [reflexivity|vm_compute; discriminate]. Qed.

(** An observation that was stopped has no timer: if the server does not answer, the record stays for ever. *)
Theorem C38_stopped_observation_released_refuted : exists l s t,
  obeys false true careful start l = true /\ run false true start l = Some (s, t) /\
  l = [Request (ask_of KObserve 10 [1] 5) Sent; Deliver (notification [1] 5 0 0); Return false; StopObserve uri_a 5 11 Sent] /\
  lookup s 0 <> None /\ s_tm s = [].
Proof. eexists. eexists. eexists. split; [|split; [|split; [reflexivity|]]]; [vm_compute; reflexivity|vm_compute; reflexivity|]. split; [vm_compute; discriminate|reflexivity]. Qed.

(** A ping answered with an Observe option loses its timer and stays for ever. *)
Theorem C38_ping_released_refuted : exists l s t,
  obeys false true careful start l = true /\ run false true start l = Some (s, t) /\
  l = [Request (ping 10 [1] 5) Sent; Deliver (mk_resp [1] 5 4 0 (Empty false)); Return false] /\ lookup s 0 <> None /\ s_tm s = [].
Proof. eexists. eexists. eexists. split; [|split; [|split; [reflexivity|]]]; [vm_compute; reflexivity|vm_compute; reflexivity|]. split; [vm_compute; discriminate|reflexivity]. Qed.

Example C38_repeated : exists s, run false true start [Request (ask_of KObserve 10 [1] 5) Sent; Request (ask_of KObserve 11 [1] 5) Sent;
    Deliver (notification [1] 5 0 0); Return false] = Some (s, [Called 0 KObserve Answered]) /\ map c_id (s_cbs s) = [0].
Proof. eexists. split; [vm_compute; reflexivity|reflexivity]. Qed.

Print Assumptions C38_no_dangling_record.
Print Assumptions C38_timers_belong_to_live_records.
Print Assumptions C38_one_shot_at_most_once.
Print Assumptions C38_cancelled_is_final.
Print Assumptions C38_every_request_is_released.
Print Assumptions C38_ends_for_a_reason.
Print Assumptions C38_close_tells_exactly.
Print Assumptions C38_nobody_is_passed_over.
Print Assumptions C38_close_reaches_all.
Print Assumptions C38_response_reaches_its_request.
Print Assumptions C38_stop_discovery_refuted.
Print Assumptions C38_stop_multicast_refuted.
Print Assumptions C38_every_request_answered_refuted.
Print Assumptions C38_one_shot_any_server_refuted.
Print Assumptions C38_init_twice_refuted.
Print Assumptions C38_closed_between_init_and_do_refuted.
Print Assumptions C38_do_without_init_refuted.
Print Assumptions C38_lost_ping_closes_session_refuted.
Print Assumptions C38_stop_observe_inside_handler_refuted.
Print Assumptions C38_old_notification_refuted.
Print Assumptions C38_stopped_observation_released_refuted.
Print Assumptions C38_ping_released_refuted.
Print Assumptions C38_repeated_observation_is_one.
