(** Model of the request dispatch of api/oc_ri.c, the lookup of resources by URI (api/oc_ri.c, api/oc_resource.c,
    api/oc_core_res.c, api/oc_collection.c) and the choice of the response in messaging/coap/engine.c. *)
From Verif Require Import Common Query_Model.
From Coq Require Import String.
Local Open Scope string_scope.
Local Open Scope list_scope.
Local Open Scope N_scope.

(** * Status codes *)

(** api/oc_ri.c:156-205 with include/oc_ri.h:75-96 and messaging/coap/constants.h:134-162: the CoAP code of each
    oc_status_t, by position. *)
Definition status_codes : list N :=
  [69; 65; 68; 66; 67; 128; 129; 130; 131; 132; 133; 134; 141; 143; 160; 161; 162; 163; 164; 165].
Definition CLEAR : N := 194.
(** positions in oc_status_t: OC_STATUS_OK 0 … OC_STATUS_PROXYING_NOT_SUPPORTED 19; 20 is
    __NUM_OC_STATUS_CODES__ and OC_IGNORE is 21. *)
Definition OC_IGNORE : N := 21.

(** api/oc_ri.c:311-336, oc_status_code; [None] is -1 *)
Definition status_code (k : N) : option N :=
  if k <? 20 then nth_error status_codes (N.to_nat k)
  else if k =? OC_IGNORE then Some CLEAR else None.

Fixpoint index_from (i : N) (l : list N) (c : N) : option N :=
  match l with [] => None | x :: r => if x =? c then Some i else index_from (i + 1) r c end.
(** api/oc_ri.c:338-353, oc_coap_status_to_status; PONG_7_03 (227) counts as OK with OC_TCP *)
Definition code_status (c : N) : option N :=
  match index_from 0 status_codes c with
  | Some i => Some i
  | None => if c mod 256 =? 227 then Some 0 else None
  end.

(** * Resources and their lookup *)

(** the fields of oc_resource_t used here; [r_id] stands for the address *)
Record res := { r_id : N; r_uri : list N; r_dev : N; r_ifs : N; r_def : N;
                r_get : bool; r_post : bool; r_put : bool; r_del : bool;
                r_observable : bool; r_periodic : bool; r_period : N }.

(** a core resource: the platform resources (types below OCF_CON: oic/p and plgd time) answer for every device; the URI is
    compared by oc_resource_match_uri ([c_strip] false) or core_is_resource_uri (true) *)
Record core_res := { c_platform : bool; c_strip : bool; c_res : res }.
(** the lists g_core_resources, g_app_resources, g_app_resources_to_be_deleted and g_collections *)
Record srv := { s_core : list core_res; s_apps : list res; s_dels : list res; s_cols : list res }.

(** api/oc_resource.c:88-100, oc_resource_match_uri *)
Definition match_uri (canonical uri : list N) : bool :=
  match uri with
  | [] => list_eqb uri canonical
  | c :: _ => if c =? 47 then list_eqb uri canonical
              else list_eqb uri (tl canonical)
  end.
(** one leading '/' *)
Definition strip1 (u : list N) : list N := match u with c :: r => if c =? 47 then r else u | [] => [] end.
(** api/oc_core_res.c:670-688, core_is_resource_uri *)
Definition core_is_uri (uri r_uri : list N) : bool := list_eqb (strip1 uri) (strip1 r_uri).

Definition core_match (uri : list N) (dev : N) (c : core_res) : bool :=
  (if c_strip c then core_is_uri uri (r_uri (c_res c)) else match_uri (r_uri (c_res c)) uri) &&
  (c_platform c || (r_dev (c_res c) =? dev)).
(** api/oc_core_res.c:691-801, oc_core_get_resource_by_uri_v1: the URIs are tried one after the other, then the
    entry of the device is taken (none if the device does not exist) *)
Definition core_by_uri (st : srv) (uri : list N) (dev : N) : option res :=
  option_map c_res (find (core_match uri dev) (s_core st)).

(** all leading slashes *)
Fixpoint strip (u : list N) : list N := match u with c :: r => if c =? 47 then strip r else u | [] => [] end.
(** the comparison shared by ri_uri_is_in_list and oc_get_collection_by_uri: [u] has been stripped; the first
    character of the stored URI is skipped *)
Definition stored_eq (dev : N) (u : list N) (r : res) : bool :=
  (r_dev r =? dev) && Nat.eqb (List.length (r_uri r)) (List.length u + 1) && list_eqb (tl (r_uri r)) u.
(** api/oc_ri.c:239-257, ri_uri_is_in_list *)
Definition uri_in_list (l : list res) (uri : list N) (dev : N) : bool := existsb (stored_eq dev (strip uri)) l.
(** api/oc_collection.c:255-274, oc_get_collection_by_uri *)
Definition col_by_uri (st : srv) (uri : list N) (dev : N) : option res := find (stored_eq dev (strip uri)) (s_cols st).
(** api/oc_ri.c:259-281, oc_ri_URI_is_in_use *)
Definition uri_in_use (st : srv) (dev : N) (uri : list N) : bool :=
  match core_by_uri st uri dev with Some _ => true | None => false end ||
  uri_in_list (s_apps st) uri dev || uri_in_list (s_dels st) uri dev ||
  match col_by_uri st uri dev with Some _ => true | None => false end.

(** api/oc_ri.c:456-464: one entry of the application list *)
Definition app_eq (uri : list N) (dev : N) (r : res) : bool :=
  let skip := match uri with c :: _ => if c =? 47 then 0%nat else 1%nat | [] => 0%nat end in
  Nat.eqb (List.length (r_uri r)) (List.length uri + skip) && list_eqb uri (skipn skip (r_uri r)) && (r_dev r =? dev).
(** api/oc_ri.c:449-474, oc_ri_get_app_resource_by_uri *)
Definition app_by_uri (st : srv) (uri : list N) (dev : N) : option res :=
  match uri with
  | [] => None
  | _ => match find (app_eq uri dev) (s_apps st) with
         | Some r => Some r
         | None => col_by_uri st uri dev
         end
  end.
(** api/oc_resource.c:370-387, oc_resource_get_by_uri *)
Definition by_uri (st : srv) (uri : list N) (dev : N) : option res :=
  match core_by_uri st uri dev with Some r => Some r | None => app_by_uri st uri dev end.

(** * Adding and removing resources *)
Definition has_id (i : N) (l : list res) : bool := existsb (fun r => r_id r =? i) l.
Definition drop_id (i : N) (l : list res) : list res := filter (fun r => negb (r_id r =? i)) l.

(** api/oc_core_res.c:463-484, oc_store_uri: a '/' is put in front when the URI has none *)
Definition store_uri (u : list N) : list N := match u with c :: _ => if c =? 47 then u else 47 :: u | [] => [47] end.

(** api/oc_ri.c:633-671, oc_ri_add_resource *)
Definition add_resource (st : srv) (r : res) : bool * srv :=
  if negb (r_get r) && negb (r_put r) && negb (r_post r) && negb (r_del r) then (false, st)
  else if r_periodic r && (r_period r =? 0) then (false, st)
  else if has_id (r_id r) (s_apps st) then (false, st)
  else if has_id (r_id r) (s_dels st) then (false, st)
  else if uri_in_use st (r_dev r) (r_uri r) then (false, st)
  else (true, {| s_core := s_core st; s_apps := s_apps st ++ [r]; s_dels := s_dels st; s_cols := s_cols st |}).
(** api/oc_collection.c:322-338, oc_collection_add *)
Definition add_collection (st : srv) (r : res) : bool * srv :=
  if has_id (r_id r) (s_cols st) then (false, st)
  else if uri_in_use st (r_dev r) (r_uri r) then (false, st)
  else (true, {| s_core := s_core st; s_apps := s_apps st; s_dels := s_dels st; s_cols := s_cols st ++ [r] |}).
(** api/oc_ri.c:283-308, oc_delayed_delete_resource: the resource leaves the application list at once *)
Definition delayed_delete (st : srv) (r : res) : srv :=
  {| s_core := s_core st; s_apps := drop_id (r_id r) (s_apps st);
     s_dels := if has_id (r_id r) (s_dels st) then s_dels st else s_dels st ++ [r]; s_cols := s_cols st |}.
(** api/oc_ri.c:548-631, oc_ri_delete_resource (also run by the delayed callback): the lists only *)
Definition delete_resource (st : srv) (i : N) : srv :=
  {| s_core := s_core st; s_apps := drop_id i (s_apps st); s_dels := drop_id i (s_dels st); s_cols := s_cols st |}.
(** api/oc_collection.c: removing a collection from its list *)
Definition delete_collection (st : srv) (i : N) : srv :=
  {| s_core := s_core st; s_apps := s_apps st; s_dels := s_dels st; s_cols := drop_id i (s_cols st) |}.

(** * Interfaces *)
Definition IF_BASELINE := 2. Definition IF_LL := 4. Definition IF_B := 8. Definition IF_R := 16. Definition IF_RW := 32.
Definition IF_A := 64. Definition IF_S := 128. Definition IF_CREATE := 256. Definition IF_W := 512.
Definition IF_STARTUP := 1024. Definition IF_STARTUP_REVERT := 2048. Definition IF_ETAG := 4096.

(** api/oc_ri.c:703-735, oc_ri_get_interface_mask (all features) *)
Definition iface_table : list (N * list N) :=
  [ (IF_BASELINE, str "oic.if.baseline"); (IF_LL, str "oic.if.ll"); (IF_B, str "oic.if.b"); (IF_R, str "oic.if.r");
    (IF_RW, str "oic.if.rw"); (IF_A, str "oic.if.a"); (IF_S, str "oic.if.s"); (IF_CREATE, str "oic.if.create");
    (IF_W, str "oic.if.w"); (IF_STARTUP, str "oic.if.startup"); (IF_STARTUP_REVERT, str "oic.if.startup.revert");
    (IF_ETAG, str "x.plgd.if.etag") ].
Definition iface_mask (name : list N) : N :=
  match find (fun e => list_eqb name (snd e)) iface_table with Some e => fst e | None => 0 end.

(** methods: include/oc_ri.h:44-50 *)
Definition GET := 1. Definition POST := 2. Definition PUT := 3. Definition DELETE := 4.
(** api/oc_ri.c:737-765, oc_ri_interface_supports_method *)
Definition supports (i m : N) : bool :=
  if (i =? IF_LL) || (i =? IF_S) || (i =? IF_R) || (i =? IF_ETAG) then m =? GET
  else if i =? IF_W then (m =? PUT) || (m =? POST) || (m =? DELETE)
  else if i =? IF_CREATE then (m =? GET) || (m =? PUT) || (m =? POST)
  else (i =? IF_RW) || (i =? IF_B) || (i =? IF_BASELINE) || (i =? IF_A) || (i =? IF_STARTUP) || (i =? IF_STARTUP_REVERT).
(** api/oc_resource.c:53-86, oc_resource_get_method_handler: whether the callback is set *)
Definition has_handler (r : res) (m : N) : bool :=
  if m =? GET then r_get r else if m =? POST then r_post r else if m =? PUT then r_put r
  else if m =? DELETE then r_del r else false.
(** api/oc_ri.c:1493-1505, get_iface_query *)
Definition iface_query (q : list N) : N :=
  match q with
  | [] => 0
  | _ => match get_query_value q (str "if") with Found (Some v) => iface_mask v | _ => 0 end
  end.
(** api/oc_ri.c:1541-1549, get_iface_mask *)
Definition chosen_iface (q : list N) (r : option res) : N :=
  if iface_query q =? 0 then match r with Some r => r_def r | None => 0 end else iface_query q.

(** * The device filter of multicast requests *)

(** the rest of the query after the first value of [k] (oc_ri_get_query_value_v1 returns a pointer to it), as
    lookup_loop of Query_Model *)
Fixpoint lookup_rest (fuel : nat) (s : list N) (k : list N) : found * list N :=
  match s with
  | [] => (NotFound, [])
  | _ =>
    match fuel with
    | O => (OutOfFuel, [])
    | S f =>
      match nth_key_value s 1 with
      | None => (NotFound, [])
      | Some p =>
        if Nat.eqb (List.length (key p)) (List.length k) && ieq k (key p)
        then (Found (value p), skipn (next_pos p - 1) s)
        else lookup_rest f (skipn (next_pos p) s) k
      end
    end
  end.

Inductive filter_result := Pass | Drop | Undefined.
(** api/oc_ri.c:371-396, oc_ri_filter_request_by_device_id; [first] is pos == 0.  A "di" without "=" gives a null
    value whose distance from the query is taken: undefined behaviour. *)
Fixpoint filter_loop (fuel : nat) (first : bool) (q di : list N) : filter_result :=
  match q with
  | [] => if first then Pass else Drop
  | _ =>
    match fuel with
    | O => Undefined
    | S f =>
      match lookup_rest (S (List.length q)) q (str "di") with
      | (NotFound, _) => if first then Pass else Drop
      | (OutOfFuel, _) => Undefined
      | (Found None, _) => Undefined
      | (Found (Some v), rest) =>
        if Nat.eqb (List.length v) 36 && list_eqb v (firstn 36 di) then Pass else filter_loop f false rest di
      end
    end
  end.
Definition filter_by_di (q di : list N) : filter_result := filter_loop (S (List.length q)) true q di.

(** * A request *)
Inductive decoded := DecOk | DecEof | DecBad.
(** what the handler left in the response object: a separate response, or a code (0: none set) *)
Inductive answer := Separate | Code (c : N).

(** [q_acl] is oc_sec_check_acl's decision, [q_decode] the parse of a non-empty payload in its content format,
    [q_etag] the resource's current ETag (None: uninitialised) and [q_req_etag] the request's ETag option,
    [q_no_batch] the refusal of unsecured batch discovery, [q_buffer] whether a response buffer can be allocated,
    [q_add_ok], [q_periodic_ok], [q_links_ok] the results of coap_add_observer, oc_periodic_observe_callback_add and
    ri_add_collection_observation *)
Record request := {
  q_path : list N; q_query : list N; q_method : N; q_dev : N; q_multicast : bool; q_di : list N;
  q_cf : N; q_payload : list N; q_decode : list N -> decoded; q_acl : res -> bool;
  q_etag : option (list N); q_req_etag : list N; q_no_batch : bool; q_buffer : bool;
  q_observe : option N; q_add_ok : bool; q_periodic_ok : bool; q_links_ok : bool }.

(** api/oc_rep_decode.c:576-597: APPLICATION_NOT_DEFINED, APPLICATION_CBOR and APPLICATION_VND_OCF_CBOR; with the
    JSON encoder also APPLICATION_JSON and APPLICATION_TD_JSON *)
Definition CF_NONE : N := 65535.
Definition cf_supported (cf : N) : bool := (cf =? CF_NONE) || (cf =? 60) || (cf =? 10000) || (cf =? 50) || (cf =? 432).

(** api/oc_ri.c:1265-1274, the bits of bitmask_code_t *)
Record bits := { b_not_modified : bool; b_bad : bool; b_large : bool; b_forbidden : bool; b_unauthorized : bool;
                 b_not_found : bool; b_not_allowed : bool }.
Definition no_bits := {| b_not_modified := false; b_bad := false; b_large := false; b_forbidden := false;
                         b_unauthorized := false; b_not_found := false; b_not_allowed := false |}.
(** api/oc_ri.c:1438-1491, bitmask_code_to_status *)
Definition bits_status (b : bits) : N :=
  if b_forbidden b then 131 else if b_unauthorized b then 129 else if b_large b then 141
  else if b_bad b then 128 else if b_not_found b then 132 else if b_not_allowed b then 133
  else if b_not_modified b then 67 else 69.
(** api/oc_ri.c:1507-1512, bitmask_code_to_success *)
Definition bits_success (b : bits) : bool :=
  negb (b_bad b || b_large b || b_forbidden b || b_unauthorized b || b_not_found b || b_not_allowed b).

(** api/oc_collection.c:310-320, oc_check_if_collection *)
Definition is_col (st : srv) (r : res) : bool := has_id (r_id r) (s_cols st).

(** api/oc_ri.c:1550-1625, ri_parse_coap_request_header from the resource lookup on *)
Definition header_bits (st : srv) (q : request) : bits :=
  match by_uri st (q_path q) (q_dev q) with
  | None => {| b_not_modified := false; b_bad := false; b_large := false; b_forbidden := false;
               b_unauthorized := false; b_not_found := true; b_not_allowed := false |}
  | Some r =>
    let i := chosen_iface (q_query q) (Some r) in
    let wrong := negb (N.ldiff i (r_ifs r) =? 0) || negb (supports i (q_method q)) in
    let bad_cf := negb wrong && negb (cf_supported (q_cf q)) in
    let no_handler := negb wrong && negb bad_cf && negb (is_col st r) && negb (has_handler r (q_method q)) in
    {| b_not_modified := false; b_bad := wrong || bad_cf; b_large := false; b_forbidden := wrong;
       b_unauthorized := negb (q_acl q r); b_not_found := false; b_not_allowed := no_handler |}
  end.

(** api/oc_ri.c:1228-1263, ri_invoke_coap_entity_get_payload_rep *)
Definition payload_bits (q : request) : bits :=
  match q_payload q with
  | [] => no_bits
  | p => if negb (cf_supported (q_cf q)) then
           {| b_not_modified := false; b_bad := true; b_large := false; b_forbidden := false; b_unauthorized := false;
              b_not_found := false; b_not_allowed := false |}
         else match q_decode q p with
              | DecOk => no_bits
              | DecEof => {| b_not_modified := false; b_bad := true; b_large := true; b_forbidden := false;
                             b_unauthorized := false; b_not_found := false; b_not_allowed := false |}
              | DecBad => {| b_not_modified := false; b_bad := true; b_large := false; b_forbidden := false;
                             b_unauthorized := false; b_not_found := false; b_not_allowed := false |}
              end
  end.
Definition bad_bits := {| b_not_modified := false; b_bad := true; b_large := false; b_forbidden := false;
                          b_unauthorized := false; b_not_found := false; b_not_allowed := false |}.
Definition not_modified_bits := {| b_not_modified := true; b_bad := false; b_large := false; b_forbidden := false;
                          b_unauthorized := false; b_not_found := false; b_not_allowed := false |}.

(** api/oc_ri.c:1638-1690, ri_invoke_coap_set_etag: the bits and the ETag put in the response buffer *)
Definition etag_bits (st : srv) (r : res) (q : request) (i : N) : bits * option (list N) :=
  if negb (q_method q =? GET) || negb (is_col st r || r_get r) then (no_bits, None)
  else if (i =? IF_B) && q_no_batch q then (bad_bits, None)
  else match q_etag q with
       | None => (no_bits, None)
       | Some t => if Nat.eqb (List.length (q_req_etag q)) 8 && list_eqb (q_req_etag q) t
                   then (not_modified_bits, Some t) else (no_bits, Some t)
       end.

(** the application's behaviour: what a handler answers; for a collection, whether oc_handle_collection_request
    succeeded as well *)
Definition application := res -> N -> N -> answer.
Definition colapp := res -> N -> N -> bool.

(** one invocation: resource, method, interface *)
Definition call := (res * N * N)%type.

(** api/oc_ri.c:1298-1436, ri_invoke_handler, and 808-838, ri_invoke_request_handler: the calls made, the bits and
    what the handler answered *)
Definition invoke (st : srv) (a : application) (ca : colapp) (r : res) (q : request) (i : N) : list call * bits * answer :=
  if negb (q_buffer q) then ([], bad_bits, Code 0)
  else if negb (bits_success (payload_bits q)) then ([], payload_bits q, Code 0)
  else if is_col st r then
    ([(r, q_method q, i)], if ca r (q_method q) i then no_bits else bad_bits, a r (q_method q) i)
  else if has_handler r (q_method q) then ([(r, q_method q, i)], no_bits, a r (q_method q) i)
  else ([], bad_bits, Code 0).

(** what the observation code did: the client was registered, removed, or nothing *)
Inductive obs_act := ObsNone | ObsAdded | ObsRemoved.
(** api/oc_ri.c:895-1030, ri_handle_observation (the request is a GET and the response code, set by the header
    check, below 128): the action, and whether the response gets Observe 0 *)
Definition observation (st : srv) (r : res) (q : request) : obs_act * bool :=
  if negb (r_observable r) then (ObsNone, false)
  else match q_observe q with
       | None => (ObsNone, false)
       | Some o =>
         if o =? 0 then
           let failed := (q_add_ok q && r_periodic r && negb (q_periodic_ok q)) || (is_col st r && negb (q_links_ok q)) in
           if failed then (ObsRemoved, false)
           else (if q_add_ok q then ObsAdded else ObsNone, true)
         else if o =? 1 then (ObsRemoved, false)
         else (ObsNone, false)
       end.

(** what the client is sent: nothing, a reset (5.00 over TCP), the later separate response, or a response with code,
    Observe 0, ETag and Size1 *)
Inductive reply := Silent | Reset_ | Later | Reply (code : N) (observe : bool) (etag : option (list N)) (size1 : bool).
(** [o_undef]: undefined behaviour was reached *)
Record outcome := { o_calls : list call; o_reply : reply; o_obs : obs_act; o_changed : list res; o_defaults : list (res * N);
                    o_undef : bool }.
Definition quiet (r : reply) := {| o_calls := []; o_reply := r; o_obs := ObsNone; o_changed := []; o_defaults := []; o_undef := false |}.
Definition undef := {| o_calls := []; o_reply := Silent; o_obs := ObsNone; o_changed := []; o_defaults := []; o_undef := true |}.

(** api/oc_ri.c:1122-1226, ri_invoke_coap_entity_set_response, and messaging/coap/engine.c:597-604 and 829-836: the
    reply for the final code, ETag and separate flag; whether observers are told of a change *)
Definition final_reply (q : request) (c : N) (obs : bool) (etag : option (list N)) : reply :=
  if c =? CLEAR then Silent
  else if c =? 0 then Reset_
  else Reply c obs (if (q_method q =? GET) && ((c =? 69) || (c =? 67)) then etag else None) (c =? 141).
Definition changes (st : srv) (r : res) (q : request) (c : N) : bool :=
  negb (is_col st r) && ((q_method q =? PUT) || (q_method q =? POST)) && (c <? 128).

(** api/oc_ri.c:1742-1900, ri_invoke_coap_entity_handler *)
Definition entity (st : srv) (a : application) (ca : colapp) (r : res) (q : request) : outcome :=
  let i := chosen_iface (q_query q) (Some r) in
  let (eb, etag) := etag_bits st r q i in
  let '(calls, b, ans) :=
    if bits_success eb && negb (b_not_modified eb) then invoke st a ca r q i else ([], eb, Code 0) in
  let ok := bits_success b in
  let overridden := negb ok || b_not_modified b in
  let code0 := if overridden then bits_status b else match ans with Code c => c | Separate => 0 end in
  let '(act, obs) := if ok && (q_method q =? GET) && (code0 <? 128) then observation st r q else (ObsNone, false) in
  let code := if q_multicast q && (128 <=? code0) then CLEAR else code0 in
  match ans with
  | Separate => {| o_calls := calls; o_reply := Later; o_obs := act; o_changed := []; o_defaults := []; o_undef := false |}
  | Code _ =>
    let ch := negb (code =? CLEAR) && changes st r q code in
    let startup := (i =? IF_STARTUP) || (i =? IF_STARTUP_REVERT) in
    {| o_calls := calls; o_reply := final_reply q code obs etag; o_obs := act;
       o_changed := if ch && negb startup then [r] else [];
       o_defaults := if ch && startup then [(r, i)] else []; o_undef := false |}
  end.

(** api/oc_ri.c:1514-1539 and 1550-1625 with messaging/coap/engine.c:778-838: the whole request *)
Definition dispatch (st : srv) (a : application) (ca : colapp) (q : request) : outcome :=
  let f := if q_multicast q && negb (match q_query q with [] => true | _ => false end)
           then filter_by_di (q_query q) (q_di q) else Pass in
  match f with
  | Undefined => undef
  | Drop => quiet Silent
  | Pass =>
    let b := header_bits st q in
    if negb (bits_success b) then
      if q_multicast q && (128 <=? bits_status b) then quiet Silent
      else quiet (Reply (bits_status b) false None false)
    else match by_uri st (q_path q) (q_dev q) with
         | None => quiet (Reply 132 false None false)
         | Some r => entity st a ca r q
         end
  end.

(** * The response message *)
Inductive mtype := CON | NON | ACK | RST.
(** messaging/coap/engine.c:246-279, coap_receive_init_response over UDP: type and message id; [fresh] is
    coap_get_mid() *)
Definition init_response (t : mtype) (mid fresh : N) (path : list N) : mtype * N :=
  match t with
  | CON => (ACK, mid)
  | _ => (if list_eqb path (str "oic/res") then CON else NON, fresh)
  end.

(** messaging/coap/engine.c:1112-1197, coap_process_inbound_message over TCP: [ctx] is the static receive context,
    [None] before the first message, else the response and transaction pointers of the message that set it.  The
    result is the context used after the label receive_result, [None] for a null response pointer. *)
Record rctx := { ctx_msg : N; ctx_transaction : option N }.
Definition tcp_ctx (ctx : option rctx) (msg : N) (has_block : bool) (transaction : option N) : option rctx * option rctx :=
  if has_block then (ctx, ctx)
  else let c := Some {| ctx_msg := msg; ctx_transaction := transaction |} in (c, c).
