(** What request dispatch is to do, in terms of paths, queries and the application's registrations. *)
From Verif Require Import Common Query_Spec Ri_Model.
From Coq Require Import String.
Local Open Scope string_scope.
Local Open Scope list_scope.
Local Open Scope N_scope.

(** * Registration *)

(** a URI beginning with '/' (what oc_store_uri leaves), and one with exactly one leading '/' *)
Definition rooted (u : list N) : Prop := exists t, u = 47 :: t.
Definition plain (u : list N) : Prop := exists t, u = 47 :: t /\ hd_error t <> Some 47.
(** the path of a request: no empty first segment *)
Definition path_ok (p : list N) : Prop := p <> [] /\ hd_error p <> Some 47.

(** every application resource or collection that is registered or waiting to be deleted *)
Definition live (st : srv) : list res := s_apps st ++ s_dels st ++ s_cols st.
(** those that requests can reach *)
Definition open (st : srv) : list res := s_apps st ++ s_cols st.
(** a core resource that answers for device [d] *)
Definition core_of (st : srv) (d : N) (r : res) : Prop :=
  exists c, In c (s_core st) /\ c_res c = r /\ (c_platform c = true \/ r_dev r = d).

Definition has_any_handler (r : res) : Prop := r_get r = true \/ r_post r = true \/ r_put r = true \/ r_del r = true.

(** the URI [u] is taken on device [d] *)
Definition taken (st : srv) (d : N) (u : list N) : Prop :=
  (exists r, In r (live st) /\ r_dev r = d /\ r_uri r = u) \/ (exists r, core_of st d r /\ r_uri r = u).

(** a history of the registry: additions, delayed deletions, deletions *)
Inductive op := AddRes (r : res) | AddCol (r : res) | Delay (r : res) | Delete (r : res) | DeleteCol (r : res).
Definition step (st : srv) (o : op) : srv :=
  match o with
  | AddRes r => snd (add_resource st r)
  | AddCol r => snd (add_collection st r)
  | Delay r => delayed_delete st r
  | Delete r => delete_resource st (r_id r)
  | DeleteCol r => delete_collection st (r_id r)
  end.
(** an added resource has a rooted URI, and its address is not that of a live collection (for a collection: not that
    of a live resource) or of a core resource; only resources that are in the lists are deleted *)
Definition op_ok (st : srv) (o : op) : Prop :=
  match o with
  | AddRes r => rooted (r_uri r) /\ (forall x, In x (live st) -> r_id x = r_id r -> In x (s_apps st ++ s_dels st)) /\
                (forall c, In c (s_core st) -> r_id (c_res c) <> r_id r)
  | AddCol r => rooted (r_uri r) /\ (forall x, In x (live st) -> r_id x = r_id r -> In x (s_cols st)) /\
                (forall c, In c (s_core st) -> r_id (c_res c) <> r_id r)
  | Delay r | Delete r => In r (s_apps st ++ s_dels st)
  | DeleteCol r => In r (s_cols st)
  end.
Inductive reaches (cs : list core_res) : srv -> Prop :=
| reaches_start : reaches cs {| s_core := cs; s_apps := []; s_dels := []; s_cols := [] |}
| reaches_step st o : reaches cs st -> op_ok st o -> reaches cs (step st o).

(** the core resources have distinct plain URIs (per device) *)
Definition core_ok (cs : list core_res) : Prop :=
  Forall (fun c => plain (r_uri (c_res c)) /\ r_uri (c_res c) <> [47]) cs /\
  (forall c1 c2, In c1 cs -> In c2 cs -> r_uri (c_res c1) = r_uri (c_res c2) ->
     (c_platform c1 = true \/ c_platform c2 = true \/ r_dev (c_res c1) = r_dev (c_res c2)) -> c1 = c2).

(** the resource at path [p] of device [d] *)
Definition serves (st : srv) (p : list N) (d : N) (r : res) : Prop :=
  r_uri r = 47 :: p /\ ((In r (open st) /\ r_dev r = d) \/ core_of st d r).

(** * Interfaces (OCF core specification, section 7.5.3): name, position of the bit, methods *)
Definition ifaces : list (list N * N * list N) :=
  [ (str "oic.if.baseline", 1, [GET; POST; PUT; DELETE]);
    (str "oic.if.ll", 2, [GET]);
    (str "oic.if.b", 3, [GET; POST; PUT; DELETE]);
    (str "oic.if.r", 4, [GET]);
    (str "oic.if.rw", 5, [GET; POST; PUT; DELETE]);
    (str "oic.if.a", 6, [GET; POST; PUT; DELETE]);
    (str "oic.if.s", 7, [GET]);
    (str "oic.if.create", 8, [GET; POST; PUT]);
    (str "oic.if.w", 9, [POST; PUT; DELETE]);
    (str "oic.if.startup", 10, [GET; POST; PUT; DELETE]);
    (str "oic.if.startup.revert", 11, [GET; POST; PUT; DELETE]);
    (str "x.plgd.if.etag", 12, [GET]) ].
Definition known_name (v : list N) : Prop := exists b ms, In (v, b, ms) ifaces.

(** The interface a query asks for: the first "if" pair, when it has a value naming an interface. *)
Definition asks_for (ps : list pair) (b : N) : Prop :=
  exists v ms, first_match (str "if") ps (Some (Some v)) /\ In (v, b, ms) ifaces.
(** The interface used: the one asked for, else the resource's default. *)
Definition uses (ps : list pair) (r : res) (i : N) : Prop :=
  (exists b, asks_for ps b /\ i = 2 ^ b) \/ ((forall b, ~ asks_for ps b) /\ i = r_def r).
(** The interface is one of the resource's and permits the method. *)
Definition fits (r : res) (i m : N) : Prop :=
  exists v b ms, In (v, b, ms) ifaces /\ i = 2 ^ b /\ N.testbit (r_ifs r) b = true /\ In m ms.

Definition formats : list N := [65535; 60; 10000; 50; 432].

(** [m] is implemented: collections implement every method themselves *)
Definition implements (st : srv) (r : res) (m : N) : Prop :=
  In r (s_cols st) \/ (m = GET /\ r_get r = true) \/ (m = POST /\ r_post r = true) \/ (m = PUT /\ r_put r = true) \/
  (m = DELETE /\ r_del r = true).

(** * The device filter of multicast requests *)
Definition di_ok (ps : list pair) (di : list N) : Prop :=
  (forall p, In p ps -> ~ same_ignoring_case (str "di") (fst p)) \/
  (exists p, In p ps /\ same_ignoring_case (str "di") (fst p) /\ snd p = Some di).
(** every "di" pair has an "=" *)
Definition di_valued (ps : list pair) : Prop :=
  forall p, In p ps -> same_ignoring_case (str "di") (fst p) -> snd p <> None.

Definition addressed (q : request) (ps : list pair) : Prop := q_multicast q = true -> di_ok ps (q_di q).

(** * When the handler runs *)
Definition payload_ok (q : request) : Prop := q_payload q = [] \/ q_decode q (q_payload q) = DecOk.
(** a GET whose ETag is the resource's current one *)
Definition tag_matches (q : request) : Prop :=
  q_method q = GET /\ List.length (q_req_etag q) = 8%nat /\ q_etag q = Some (q_req_etag q).
Definition batch_refused (q : request) (i : N) : Prop := q_method q = GET /\ i = 8 /\ q_no_batch q = true.

(** everything the header of the request must satisfy *)
Definition admitted (st : srv) (q : request) (ps : list pair) (r : res) (i : N) : Prop :=
  serves st (q_path q) (q_dev q) r /\ uses ps r i /\ fits r i (q_method q) /\ In (q_cf q) formats /\
  implements st r (q_method q) /\ q_acl q r = true.
Definition called (st : srv) (q : request) (ps : list pair) (r : res) (i : N) : Prop :=
  addressed q ps /\ admitted st q ps r i /\ payload_ok q /\ q_buffer q = true /\ ~ tag_matches q /\ ~ batch_refused q i.

(** The code of a request that is turned away before any handler runs, in order of precedence. *)
Inductive refusal (st : srv) (q : request) (ps : list pair) : N -> Prop :=
| ref_forbidden r i : serves st (q_path q) (q_dev q) r -> uses ps r i -> ~ fits r i (q_method q) -> refusal st q ps 131
| ref_unauthorized r i : serves st (q_path q) (q_dev q) r -> uses ps r i -> fits r i (q_method q) ->
    q_acl q r = false -> refusal st q ps 129
| ref_format r i : serves st (q_path q) (q_dev q) r -> uses ps r i -> fits r i (q_method q) -> q_acl q r = true ->
    ~ In (q_cf q) formats -> refusal st q ps 128
| ref_not_found : (forall r, ~ serves st (q_path q) (q_dev q) r) -> refusal st q ps 132
| ref_method r i : serves st (q_path q) (q_dev q) r -> uses ps r i -> fits r i (q_method q) -> q_acl q r = true ->
    In (q_cf q) formats -> ~ implements st r (q_method q) -> refusal st q ps 133.

(** the code the client sees, if any *)
Definition code_of (o : outcome) : option N := match o_reply o with Reply c _ _ _ => Some c | _ => None end.

(** * What is answered and what follows *)

(** the handler of the collection or resource ran to a good end with answer [x] *)
Definition ran (st : srv) (a : application) (ca : colapp) (q : request) (ps : list pair) (r : res) (i : N) (x : answer) : Prop :=
  called st q ps r i /\ a r (q_method q) i = x /\ (In r (s_cols st) -> ca r (q_method q) i = true).

(** a GET that was answered well: unchanged since the client's ETag, or handled with a code below 4.00 or separately *)
Definition retrieved (st : srv) (a : application) (ca : colapp) (q : request) (ps : list pair) (r : res) : Prop :=
  q_method q = GET /\ addressed q ps /\
  exists i, (admitted st q ps r i /\ tag_matches q /\ ~ batch_refused q i) \/
            (exists x, ran st a ca q ps r i x /\ match x with Separate => True | Code c => c < 128 end).

(** the observation can be set up: every allocation succeeds, and for a collection its links may be read *)
Definition observable_now (st : srv) (q : request) (r : res) : Prop :=
  r_observable r = true /\ q_observe q = Some 0 /\
  (r_periodic r = true -> q_add_ok q = true -> q_periodic_ok q = true) /\ (In r (s_cols st) -> q_links_ok q = true).

Definition has_observe (o : outcome) : bool := match o_reply o with Reply _ b _ _ => b | _ => false end.

(** the four methods *)
Definition method_ok (m : N) : Prop := In m [GET; POST; PUT; DELETE].

(** A registry that some history produced, a request with a proper path, method and device id, and the key-value
    pairs of its query; for a multicast request every "di" pair has a value. *)
Record setting (cs : list core_res) (st : srv) (q : request) (ps : list pair) : Prop := {
  g_core : core_ok cs; g_reach : reaches cs st; g_path : path_ok (q_path q); g_wf : Forall wf_pair ps;
  g_query : q_query q = render ps; g_method : method_ok (q_method q); g_di : List.length (q_di q) = 36%nat;
  g_valued : q_multicast q = true -> di_valued ps }.

(** * The receive context over TCP *)

(** the contexts used for a sequence of messages, each given with whether it has a block option *)
Fixpoint tcp_run (ctx : option rctx) (l : list (N * bool)) : list (option rctx) :=
  match l with
  | [] => []
  | (m, b) :: r => let (used, next) := tcp_ctx ctx m b None in used :: tcp_run next r
  end.
(** the last message of [l] without a block option *)
Definition last_plain (l : list (N * bool)) : option N :=
  option_map fst (find (fun e => negb (snd e)) (rev l)).
