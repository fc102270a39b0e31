(** C59 to C63: which handler a request reaches, what is answered, the registry of URIs, observation and change
    notification by requests, and the type of the response message (api/oc_ri.c, messaging/coap/engine.c). *)
From Verif Require Import Common Query_Model Query_Spec Ri_Model Ri_Spec Ri_Proofs Ri2_Proofs Ri3_Proofs.
From Coq Require Import String.
Local Open Scope string_scope.
Local Open Scope list_scope.
Local Open Scope N_scope.

(** * A small server for the examples *)
Definition light : res :=
  {| r_id := 1; r_uri := str "/light"; r_dev := 0; r_ifs := 2 + 32; r_def := 32; r_get := true; r_post := true;
     r_put := false; r_del := false; r_observable := true; r_periodic := false; r_period := 0 |}.
Definition room : res :=
  {| r_id := 2; r_uri := str "/room"; r_dev := 0; r_ifs := 2 + 4 + 8; r_def := 4; r_get := false; r_post := false;
     r_put := false; r_del := false; r_observable := true; r_periodic := false; r_period := 0 |}.
Definition conf : res :=
  {| r_id := 3; r_uri := str "/conf"; r_dev := 0; r_ifs := 2 + 1024; r_def := 2; r_get := true; r_post := true;
     r_put := true; r_del := true; r_observable := false; r_periodic := false; r_period := 0 |}.
Definition dev_res : res :=
  {| r_id := 9; r_uri := str "/oic/d"; r_dev := 0; r_ifs := 2 + 16; r_def := 16; r_get := true; r_post := false;
     r_put := false; r_del := false; r_observable := false; r_periodic := false; r_period := 0 |}.
Definition cores : list core_res := [ {| c_platform := false; c_strip := false; c_res := dev_res |} ].
Definition server : srv := step (step (step {| s_core := cores; s_apps := []; s_dels := []; s_cols := [] |}
  (AddRes light)) (AddCol room)) (AddRes conf).
Definition uuid : list N := str "11111111-2222-3333-4444-555555555555".
Definition req (path : string) (ps : list pair) (m : N) (mc : bool) : request :=
  {| q_path := str path; q_query := render ps; q_method := m; q_dev := 0; q_multicast := mc; q_di := uuid; q_cf := 60;
     q_payload := []; q_decode := fun _ => DecOk; q_acl := fun _ => true; q_etag := Some (repeat 7 8); q_req_etag := [];
     q_no_batch := false; q_buffer := true; q_observe := None; q_add_ok := true; q_periodic_ok := true; q_links_ok := true |}.
Definition fine : application := fun _ m _ => if m =? GET then Code 69 else Code 68.
Definition cfine : colapp := fun _ _ _ => true.

Lemma cores_ok : core_ok cores.
Proof.
  split.
  - constructor; [|constructor]. split; [|vm_compute; discriminate]. exists (str "oic/d"). split; [reflexivity|vm_compute; discriminate].
  - intros c1 c2 [<-|[]] [<-|[]] _ _. reflexivity.
Qed.
Lemma server_reached : reaches cores server.
Proof.
  assert (Hr : forall u, hd_error u = Some 47 -> rooted u) by (intros [|x t]; [discriminate|]; intros E; injection E as ->; exists t; reflexivity).
  unfold server. apply reaches_step; [apply reaches_step; [apply reaches_step; [apply reaches_start|]|]|].
  - split; [apply Hr; reflexivity|]. split; [intros x []|]. intros c [<-|[]]. vm_compute. discriminate.
  - split; [apply Hr; reflexivity|]. split; [intros x [<-|[]]; vm_compute; discriminate|]. intros c [<-|[]]. vm_compute. discriminate.
  - split; [apply Hr; reflexivity|]. split; [|intros c [<-|[]]; vm_compute; discriminate].
    intros x [<-|[<-|[]]]; vm_compute; discriminate.
Qed.
Lemma req_setting path ps m mc : path_ok (str path) -> Forall wf_pair ps -> method_ok m -> di_valued ps ->
  setting cores server (req path ps m mc) ps.
Proof.
  intros H1 H2 H3 H4. constructor; cbn [req q_path q_query q_method q_di q_multicast]; auto.
  - exact cores_ok.
  - exact server_reached.
Qed.

(** * C59 *)

(** A request calls the handler of [r] with interface [i] exactly if everything is in order, and then once. *)
Theorem C59_handler_called_exactly_if_admitted cs st q ps a ca r i : setting cs st q ps ->
  (In (r, q_method q, i) (o_calls (dispatch st a ca q)) <-> called st q ps r i) /\
  (called st q ps r i -> o_calls (dispatch st a ca q) = [(r, q_method q, i)]).
Proof. exact (fun G => calls_iff cs st q ps a ca G r i). Qed.

(** At most one handler is called, for the request's own method. *)
Theorem C59_at_most_one_call cs st q ps a ca : setting cs st q ps ->
  o_calls (dispatch st a ca q) = [] \/ exists r i, o_calls (dispatch st a ca q) = [(r, q_method q, i)].
Proof. exact (calls_shape cs st q ps a ca). Qed.

(** A multicast request for other devices is not answered and changes nothing. *)
Theorem C59_other_devices_requests_are_dropped cs st q ps a ca : setting cs st q ps -> ~ addressed q ps ->
  dispatch st a ca q = quiet Silent.
Proof. exact (fun G => dispatch_dropped cs st q ps a ca G). Qed.

(** No request of this form runs into undefined behaviour. *)
Theorem C59_well_defined cs st q ps a ca : setting cs st q ps -> o_undef (dispatch st a ca q) = false.
Proof. exact (well_defined cs st q ps a ca). Qed.

Example C59_post_reaches_the_light :
  o_calls (dispatch server fine cfine (req "light" [(str "if", Some (str "oic.if.baseline"))] POST false)) = [(light, POST, 2)] /\
  o_calls (dispatch server fine cfine (req "light" [(str "if", Some (str "oic.if.r"))] GET false)) = [] /\
  o_calls (dispatch server fine cfine (req "light" [] PUT false)) = [] /\
  o_calls (dispatch server fine cfine (req "room" [] GET false)) = [(room, GET, 4)].
Proof. vm_compute. repeat split. Qed.
Example C59_device_filter :
  o_calls (dispatch server fine cfine (req "light" [(str "di", Some uuid)] GET true)) = [(light, GET, 32)] /\
  dispatch server fine cfine (req "light" [(str "di", Some (str "other"))] GET true) = quiet Silent.
Proof. vm_compute. split; reflexivity. Qed.
Example C59_hypotheses : setting cores server (req "light" [(str "di", Some uuid)] GET true) [(str "di", Some uuid)].
Proof.
  apply req_setting.
  - vm_compute. split; discriminate.
  - constructor; [|constructor]. vm_compute. intuition discriminate.
  - left. reflexivity.
  - intros p [<-|[]] _. discriminate.
Qed.

(** A multicast request whose query has a "di" without "=" makes the filter subtract a null pointer. *)
Theorem C59_bare_di_refuted : exists q, q_query q = str "di" /\ q_multicast q = true /\ o_undef (dispatch server fine cfine q) = true.
Proof. exists (req "light" [(str "di", None)] GET true). vm_compute. repeat split. Qed.
(** An interface that nobody knows is not refused: the default interface is used in its place. *)
Theorem C59_unknown_interface_refuted : exists q v, q_query q = str "if=" ++ v /\ ~ known_name v /\
  o_calls (dispatch server fine cfine q) = [(light, GET, r_def light)].
Proof.
  exists (req "light" [(str "if", Some (str "oic.if.nope"))] GET false), (str "oic.if.nope").
  split; [reflexivity|]. split; [|vm_compute; reflexivity].
  intros (b & ms & H). vm_compute in H. repeat destruct H as [H|H]; try discriminate H. exact H.
Qed.

(** * C60 *)

(** Every request is refused with one of five codes, or admitted: never both, and the code is unique. *)
Theorem C60_refused_or_admitted cs st q ps : setting cs st q ps ->
  ((exists c, refusal st q ps c) \/ (exists r i, admitted st q ps r i)) /\
  (forall c r i, refusal st q ps c -> ~ admitted st q ps r i) /\
  (forall c c', refusal st q ps c -> refusal st q ps c' -> c = c').
Proof. exact (refusals cs st q ps). Qed.

(** A refused request gets its code and has no effect; over multicast it gets nothing. *)
Theorem C60_refusal_is_answered cs st q ps a ca c : setting cs st q ps -> addressed q ps -> refusal st q ps c ->
  dispatch st a ca q = quiet (if q_multicast q then Silent else Reply c false None false).
Proof. exact (fun G => dispatch_refused cs st q ps a ca G c). Qed.

(** An admitted request whose payload cannot be read, or for which there is no response buffer, is answered 4.00, or
    4.13 with Size1 when the payload ends early, and has no effect. *)
Theorem C60_unreadable_payload cs st q ps a ca r i : setting cs st q ps -> addressed q ps -> admitted st q ps r i ->
  ~ tag_matches q -> ~ batch_refused q i -> (q_buffer q = false \/ ~ payload_ok q) ->
  let c := if q_buffer q && match q_decode q (q_payload q) with DecEof => true | _ => false end then 141 else 128 in
  dispatch st a ca q = quiet (if q_multicast q then Silent else Reply c false None (c =? 141)).
Proof. exact (fun G => reply_unread cs st q ps a ca G r i). Qed.

(** A GET with the resource's current ETag is answered 2.03 with that ETag, and no handler is called. *)
Theorem C60_current_etag_is_valid cs st q ps a ca r i : setting cs st q ps -> addressed q ps -> admitted st q ps r i ->
  tag_matches q -> ~ batch_refused q i ->
  o_calls (dispatch st a ca q) = [] /\ o_changed (dispatch st a ca q) = [] /\
  exists obs, o_reply (dispatch st a ca q) = Reply 67 obs (Some (q_req_etag q)) false.
Proof.
  intros G H1 H2 H3 H4. rewrite (reply_tag cs st q ps a ca G r i H1 H2 H3 H4). split; [reflexivity|]. split; [reflexivity|].
  exists (snd (observation st r q)). destruct H3 as (_ & _ & ->). reflexivity.
Qed.

(** The code a handler sets is the code sent; 0 resets; OC_IGNORE (194) and errors over multicast are silent. *)
Theorem C60_handler_code_is_sent cs st q ps a ca r i c : setting cs st q ps -> ran st a ca q ps r i (Code c) ->
  (c = 194 \/ (q_multicast q = true /\ 128 <= c) -> o_reply (dispatch st a ca q) = Silent) /\
  (c = 0 -> o_reply (dispatch st a ca q) = Reset_) /\
  (c <> 194 -> c <> 0 -> (q_multicast q = true -> c < 128) ->
   exists obs, o_reply (dispatch st a ca q) =
     Reply c obs (if (q_method q =? GET) && ((c =? 69) || (c =? 67)) then q_etag q else None) (c =? 141)).
Proof. exact (fun G => handler_code cs st q ps a ca G r i c). Qed.

(** A separate response answers nothing now. *)
Theorem C60_separate_answers_later cs st q ps a ca r i : setting cs st q ps -> ran st a ca q ps r i Separate ->
  o_reply (dispatch st a ca q) = Later.
Proof. exact (fun G H => proj1 (reply_separate cs st q ps a ca G r i H)). Qed.

(** A multicast request never draws an error code, whatever the handlers do. *)
Theorem C60_multicast_draws_no_error cs st q ps a ca c : setting cs st q ps ->
  q_multicast q = true -> code_of (dispatch st a ca q) = Some c -> c < 128.
Proof. exact (fun G => multicast_quiet cs st q ps a ca G c). Qed.

(** The twenty status values have CoAP codes, and each code leads back to its status. *)
Theorem C60_status_roundtrip k : k < 20 -> exists c, status_code k = Some c /\ code_status c = Some k.
Proof. intros H. destruct (status_total k H) as [c E]. exists c. split; [exact E|]. exact (status_roundtrip k c H E). Qed.

(** A code that is none of the twenty and not that of a pong has no status. *)
Theorem C60_unknown_code c : (forall k, k < 20 -> status_code k <> Some c) -> c mod 256 <> 227 -> code_status c = None.
Proof. exact (unknown_code c). Qed.
Example C60_unknown_code_hyp : code_status 137 = None /\ ~ In 137 status_codes.
Proof. split; [reflexivity|]. vm_compute. intuition discriminate. Qed.

Example C60_codes :
  dispatch server fine cfine (req "none" [] GET false) = quiet (Reply 132 false None false) /\
  dispatch server fine cfine (req "none" [] GET true) = quiet Silent /\
  dispatch server fine cfine (req "light" [(str "if", Some (str "oic.if.s"))] GET false) = quiet (Reply 131 false None false) /\
  dispatch server fine cfine (req "light" [] DELETE false) = quiet (Reply 133 false None false) /\
  o_reply (dispatch server fine cfine (req "light" [] GET false)) = Reply 69 false (Some (repeat 7 8)) false /\
  o_reply (dispatch server (fun _ _ _ => Code 128) cfine (req "light" [] GET true)) = Silent.
Proof. vm_compute. repeat split. Qed.
Example C60_ignore_code : status_code OC_IGNORE = Some 194 /\ status_code 20 = None /\ code_status 227 = Some 0.
Proof. vm_compute. repeat split. Qed.

(** * C61 *)

(** No two registered resources share a URI on a device; none takes the URI of a core resource. *)
Theorem C61_uris_are_unique cs st r1 r2 : core_ok cs -> reaches cs st -> In r1 (live st) -> In r2 (live st) ->
  plain (r_uri r1) -> r_dev r1 = r_dev r2 -> r_uri r1 = r_uri r2 -> r1 = r2.
Proof. exact (uri_unique cs st r1 r2). Qed.
Theorem C61_core_uris_are_kept cs st r c : core_ok cs -> reaches cs st -> In r (live st) -> plain (r_uri r) ->
  core_of st (r_dev r) c -> r_uri c <> r_uri r.
Proof. exact (uri_not_core cs st r c). Qed.

(** A resource is added exactly if it has a handler, a period if it is periodic, is not registered and its URI is
    free; a refused addition changes nothing. *)
Theorem C61_add_exactly_if_free cs st r : core_ok cs -> reaches cs st -> plain (r_uri r) ->
  (fst (add_resource st r) = true <->
   has_any_handler r /\ (r_periodic r = true -> r_period r <> 0) /\
   (forall x, In x (s_apps st ++ s_dels st) -> r_id x <> r_id r) /\ ~ taken st (r_dev r) (r_uri r)) /\
  (fst (add_resource st r) = true -> s_apps (snd (add_resource st r)) = s_apps st ++ [r] /\
     s_dels (snd (add_resource st r)) = s_dels st /\ s_cols (snd (add_resource st r)) = s_cols st) /\
  (fst (add_resource st r) = false -> snd (add_resource st r) = st).
Proof. exact (add_spec cs st r). Qed.
Theorem C61_add_collection_exactly_if_free cs st r : core_ok cs -> reaches cs st -> plain (r_uri r) ->
  (fst (add_collection st r) = true <->
   (forall x, In x (s_cols st) -> r_id x <> r_id r) /\ ~ taken st (r_dev r) (r_uri r)) /\
  (fst (add_collection st r) = true -> s_cols (snd (add_collection st r)) = s_cols st ++ [r] /\
     s_dels (snd (add_collection st r)) = s_dels st /\ s_apps (snd (add_collection st r)) = s_apps st) /\
  (fst (add_collection st r) = false -> snd (add_collection st r) = st).
Proof. exact (add_col_spec cs st r). Qed.

(** A path finds exactly the resource that serves it on that device. *)
Theorem C61_lookup_finds_what_serves cs st p d r : core_ok cs -> reaches cs st -> path_ok p ->
  (by_uri st p d = Some r <-> serves st p d r).
Proof. exact (lookup_serves cs st p d r). Qed.

(** A resource waiting to be deleted is out of reach at once, its URI stays taken, and no other resource is affected. *)
Theorem C61_delayed_deletion cs st r p d : core_ok cs -> reaches cs st -> In r (s_apps st) -> path_ok p ->
  by_uri (delayed_delete st r) p d <> Some r /\
  (taken (delayed_delete st r) d (47 :: p) <-> taken st d (47 :: p)) /\
  (forall r', r' <> r -> (by_uri (delayed_delete st r) p d = Some r' <-> by_uri st p d = Some r')).
Proof. exact (delay_spec cs st r p d). Qed.
(** Deletion frees the URI. *)
Theorem C61_deletion_frees_the_uri cs st r : core_ok cs -> reaches cs st -> In r (s_apps st ++ s_dels st) -> plain (r_uri r) ->
  ~ taken (delete_resource st (r_id r)) (r_dev r) (r_uri r).
Proof. exact (fun H1 H2 H3 H4 => delete_spec cs st r (r_dev r) H1 H2 H3 H4 eq_refl). Qed.

Definition with_uri (i : N) (u : list N) : res :=
  {| r_id := i; r_uri := u; r_dev := 0; r_ifs := 2; r_def := 2; r_get := true; r_post := false;
     r_put := false; r_del := false; r_observable := false; r_periodic := false; r_period := 0 |}.
Example C61_registry :
  fst (add_resource server (with_uri 7 (str "/light"))) = false /\
  fst (add_resource server (with_uri 7 (str "/oic/d"))) = false /\
  fst (add_resource server (with_uri 7 (str "/room"))) = false /\
  fst (add_resource server (with_uri 7 (str "/lamp"))) = true /\
  fst (add_resource (delayed_delete server light) (with_uri 7 (str "/light"))) = false /\
  fst (add_resource (delete_resource (delayed_delete server light) 1) (with_uri 7 (str "/light"))) = true /\
  by_uri server (str "light") 0 = Some light /\ by_uri server (str "light") 1 = None /\
  by_uri (delayed_delete server light) (str "light") 0 = None.
Proof. vm_compute. repeat split. Qed.
Example C61_hypotheses : core_ok cores /\ reaches cores server /\ In light (s_apps server) /\ path_ok (str "light") /\ plain (r_uri light).
Proof.
  split; [exact cores_ok|]. split; [exact server_reached|]. split; [left; reflexivity|].
  split; [vm_compute; split; discriminate|]. exists (str "light"). split; [reflexivity|vm_compute; discriminate].
Qed.

(** With two leading slashes the same URI can be registered twice. *)
Theorem C61_double_slash_refuted : exists st r1 r2, reaches cores st /\ In r1 (s_apps st) /\ In r2 (s_apps st) /\
  r_uri r1 = r_uri r2 /\ r_dev r1 = r_dev r2 /\ r1 <> r2.
Proof.
  exists (step (step {| s_core := cores; s_apps := []; s_dels := []; s_cols := [] |}
    (AddRes (with_uri 1 (str "//a")))) (AddRes (with_uri 2 (str "//a")))), (with_uri 1 (str "//a")), (with_uri 2 (str "//a")).
  split; [|split; [vm_compute; auto|split; [vm_compute; auto|split; [reflexivity|split; [reflexivity|vm_compute; discriminate]]]]].
  apply reaches_step; [apply reaches_step; [apply reaches_start|]|].
  - split; [exists (str "/a"); reflexivity|]. split; [intros x []|]. intros c [<-|[]]. vm_compute. discriminate.
  - split; [exists (str "/a"); reflexivity|]. split; [intros x [<-|[]]; vm_compute; discriminate|]. intros c [<-|[]]. vm_compute. discriminate.
Qed.
(** A path with empty first segments finds a collection, though not a resource. *)
Theorem C61_extra_slashes_refuted : by_uri server (str "//room") 0 = Some room /\ by_uri server (str "//light") 0 = None.
Proof. vm_compute. split; reflexivity. Qed.

(** * C62 *)

(** A client becomes an observer exactly by a well answered GET with Observe 0 of an observable resource. *)
Theorem C62_observer_added_exactly_if cs st q ps a ca : setting cs st q ps ->
  (o_obs (dispatch st a ca q) = ObsAdded <->
   exists r, retrieved st a ca q ps r /\ observable_now st q r /\ q_add_ok q = true).
Proof. exact (observer_added cs st q ps a ca). Qed.

(** An Observe option in the response answers such a GET. *)
Theorem C62_observe_option_only_if cs st q ps a ca : setting cs st q ps -> has_observe (dispatch st a ca q) = true ->
  exists r, retrieved st a ca q ps r /\ observable_now st q r.
Proof. exact (observe_announced cs st q ps a ca). Qed.

(** Unless memory ran out, a response with the Observe option means that the client is an observer. *)
Theorem C62_observe_option_means_observer cs st q ps a ca : setting cs st q ps -> q_add_ok q = true ->
  has_observe (dispatch st a ca q) = true -> o_obs (dispatch st a ca q) = ObsAdded.
Proof.
  intros G Ha H. apply (observer_added cs st q ps a ca G). destruct (observe_announced cs st q ps a ca G H) as (r & H1 & H2).
  exists r. auto.
Qed.

(** Observers are told of a change exactly after a POST or PUT that the resource's handler answered below 4.00; by the
    startup interfaces the observers get the defaults in its place. *)
Theorem C62_changes_are_notified_exactly_after_success cs st q ps a ca r : setting cs st q ps ->
  (In r (o_changed (dispatch st a ca q)) <->
   (q_method q = PUT \/ q_method q = POST) /\ ~ In r (s_cols st) /\
   exists i c, ran st a ca q ps r i (Code c) /\ c < 128 /\ i <> 1024 /\ i <> 2048) /\
  (forall i, In (r, i) (o_defaults (dispatch st a ca q)) <->
   (q_method q = PUT \/ q_method q = POST) /\ ~ In r (s_cols st) /\ (i = 1024 \/ i = 2048) /\
   exists c, ran st a ca q ps r i (Code c) /\ c < 128).
Proof. exact (fun G => changed_iff cs st q ps a ca G r). Qed.

Definition observing (q : request) (add_ok : bool) : request :=
  {| q_path := q_path q; q_query := q_query q; q_method := q_method q; q_dev := q_dev q; q_multicast := q_multicast q;
     q_di := q_di q; q_cf := q_cf q; q_payload := q_payload q; q_decode := q_decode q; q_acl := q_acl q; q_etag := q_etag q;
     q_req_etag := q_req_etag q; q_no_batch := q_no_batch q; q_buffer := q_buffer q; q_observe := Some 0;
     q_add_ok := add_ok; q_periodic_ok := q_periodic_ok q; q_links_ok := q_links_ok q |}.
Example C62_observed :
  o_obs (dispatch server fine cfine (observing (req "light" [] GET false) true)) = ObsAdded /\
  has_observe (dispatch server fine cfine (observing (req "light" [] GET false) true)) = true /\
  o_obs (dispatch server fine cfine (observing (req "conf" [] GET false) true)) = ObsNone /\
  o_obs (dispatch server (fun _ _ _ => Code 160) cfine (observing (req "light" [] GET false) true)) = ObsNone.
Proof. vm_compute. repeat split. Qed.
Example C62_changed :
  o_changed (dispatch server fine cfine (req "light" [] POST false)) = [light] /\
  o_changed (dispatch server fine cfine (req "conf" [(str "if", Some (str "oic.if.startup"))] POST false)) = [] /\
  o_defaults (dispatch server fine cfine (req "conf" [(str "if", Some (str "oic.if.startup"))] POST false)) = [(conf, 1024)] /\
  o_changed (dispatch server fine cfine (req "light" [] GET false)) = [] /\
  o_changed (dispatch server (fun _ _ _ => Code 128) cfine (req "light" [] POST false)) = [].
Proof. vm_compute. repeat split. Qed.
(** When no observer can be allocated the response carries Observe 0 all the same: the client waits in vain. *)
Theorem C62_observe_without_observer_refuted : exists q,
  has_observe (dispatch server fine cfine q) = true /\ o_obs (dispatch server fine cfine q) = ObsNone.
Proof. exists (observing (req "light" [] GET false) false). vm_compute. split; reflexivity. Qed.

(** * C63 *)

(** A confirmable request is answered in the acknowledgement, with its message id; any other by a message of its own,
    which is non-confirmable except for discovery. *)
Theorem C63_response_type mid fresh path :
  init_response CON mid fresh path = (ACK, mid) /\
  (forall t, t <> CON -> snd (init_response t mid fresh path) = fresh /\
     (fst (init_response t mid fresh path) = CON <-> path = str "oic/res") /\
     (fst (init_response t mid fresh path) = NON <-> path <> str "oic/res")).
Proof.
  split; [reflexivity|]. intros t Ht.
  assert (E : init_response t mid fresh path = (if list_eqb path (str "oic/res") then CON else NON, fresh)) by (destruct t; [congruence| | |]; reflexivity).
  rewrite E. cbn [fst snd]. split; [reflexivity|]. destruct (list_eqb path (str "oic/res")) eqn:El.
  - apply list_eqb_spec in El. split; [tauto|]. split; [discriminate|contradiction].
  - assert (path <> str "oic/res") by (intros X; apply list_eqb_spec in X; congruence). split; [|tauto]. split; [discriminate|contradiction].
Qed.
Example C63_types : init_response CON 5 77 (str "light") = (ACK, 5) /\ init_response NON 5 77 (str "light") = (NON, 77) /\
  init_response NON 5 77 (str "oic/res") = (CON, 77).
Proof. vm_compute. repeat split. Qed.

(** Over TCP, a message without block options is answered from its own context, whatever came before it. *)
Theorem C63_tcp_own_context l ctx k m : nth_error l k = Some (m, false) ->
  nth_error (tcp_run ctx l) k = Some (Some {| ctx_msg := m; ctx_transaction := None |}).
Proof. exact (tcp_own l ctx k m). Qed.
(** A message is answered from the context of the last message without block options, itself included. *)
Theorem C63_tcp_context_used l ctx k m b : nth_error l k = Some (m, b) ->
  nth_error (tcp_run ctx l) k = Some (match last_plain (firstn (S k) l) with Some x => Some {| ctx_msg := x; ctx_transaction := None |} | None => ctx end).
Proof. exact (tcp_run_nth l ctx k m b). Qed.
Example C63_tcp_run : map (option_map ctx_msg) (tcp_run None [(1, true); (2, false); (3, true); (4, false)]) = [None; Some 2; Some 2; Some 4].
Proof. reflexivity. Qed.
(** A message with a block option is answered from the context of an earlier message; if it is the first message
    received, the response is written through a null pointer. *)
Theorem C63_tcp_block_option_refuted :
  (exists msg tr, fst (tcp_ctx None msg true tr) = None) /\
  (exists ctx msg tr c, fst (tcp_ctx (Some ctx) msg true tr) = Some c /\ ctx_msg c <> msg).
Proof.
  split.
  - exists 1, None. reflexivity.
  - exists {| ctx_msg := 1; ctx_transaction := Some 8 |}, 2, None, {| ctx_msg := 1; ctx_transaction := Some 8 |}. split; [reflexivity|discriminate].
Qed.

Print Assumptions C59_handler_called_exactly_if_admitted.
Print Assumptions C59_at_most_one_call.
Print Assumptions C59_other_devices_requests_are_dropped.
Print Assumptions C59_well_defined.
Print Assumptions C59_bare_di_refuted.
Print Assumptions C59_unknown_interface_refuted.
Print Assumptions C60_refused_or_admitted.
Print Assumptions C60_refusal_is_answered.
Print Assumptions C60_unreadable_payload.
Print Assumptions C60_current_etag_is_valid.
Print Assumptions C60_handler_code_is_sent.
Print Assumptions C60_separate_answers_later.
Print Assumptions C60_multicast_draws_no_error.
Print Assumptions C60_status_roundtrip.
Print Assumptions C60_unknown_code.
Print Assumptions C61_uris_are_unique.
Print Assumptions C61_core_uris_are_kept.
Print Assumptions C61_add_exactly_if_free.
Print Assumptions C61_add_collection_exactly_if_free.
Print Assumptions C61_lookup_finds_what_serves.
Print Assumptions C61_delayed_deletion.
Print Assumptions C61_deletion_frees_the_uri.
Print Assumptions C61_double_slash_refuted.
Print Assumptions C61_extra_slashes_refuted.
Print Assumptions C62_observer_added_exactly_if.
Print Assumptions C62_observe_option_only_if.
Print Assumptions C62_observe_option_means_observer.
Print Assumptions C62_changes_are_notified_exactly_after_success.
Print Assumptions C62_observe_without_observer_refuted.
Print Assumptions C63_response_type.
Print Assumptions C63_tcp_own_context.
Print Assumptions C63_tcp_context_used.
Print Assumptions C63_tcp_block_option_refuted.
