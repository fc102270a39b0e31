(** Requests of the client and their response handlers (api/client/oc_client_cb.c, api/oc_client_api.c, api/oc_ping.c).

    The application code that runs inside a handler may call the interface again, so the C call stack is part of the
    state: a handler that runs is a frame, and its end is the event [Return]. *)
From Verif Require Import Common.
Local Open Scope N_scope.

(** OC_COAP_OPTION_OBSERVE_NOT_SET, ..._REGISTER, ..._UNREGISTER, ..._SEQUENCE_START_VALUE (coap_internal.h:184-189). *)
Definition NOT_SET : Z := -1.
Definition REGISTER : Z := 0.
Definition UNREGISTER : Z := 1.
Definition SEQ_START : Z := 2.

(** The delayed callbacks that carry a client record: oc_client_cb_remove_async, ..._with_notify_timeout_async,
    oc_remove_ping_handler_async. *)
Inductive timer : Type := TLife | TNotify | TPing.
Definition timer_eqb (a b : timer) : bool :=
  match a, b with TLife, TLife | TNotify, TNotify | TPing, TPing => true | _, _ => false end.

(** oc_client_cb_t (include/oc_client_state.h:117-143).  [c_id] is the pointer, never reused here; endpoints are numbers
    (their comparison is C36); [c_kind] is the call that made the record (discovery and multicast are two of them);
    [c_busy] is ref_count; [c_num] is notification_num. *)
Inductive kind : Type := KOne | KObserve | KDiscovery | KMulticast | KPing.
Definition kind_eqb (a b : kind) : bool :=
  match a, b with KOne, KOne | KObserve, KObserve | KDiscovery, KDiscovery | KMulticast, KMulticast | KPing, KPing => true | _, _ => false end.
Record cb : Type := mk_cb { c_id : N; c_mid : N; c_tok : list N; c_uri : list N; c_ep : N; c_get : bool; c_kind : kind;
  c_stop : bool; c_busy : bool; c_obs : Z; c_num : N }.
Definition c_disc (c : cb) : bool := kind_eqb (c_kind c) KDiscovery.
Definition c_multi (c : cb) : bool := kind_eqb (c_kind c) KMulticast.

(** A received response: token, source, Observe option, notification number (OSCORE), and its body: empty (an empty ACK
    or not) or a payload that can be parsed or not. *)
Inductive body : Type := Empty (ack : bool) | Payload (parses : bool).
Record resp : Type := mk_resp { a_tok : list N; a_ep : N; a_obs : Z; a_num : N; a_body : body }.

Inductive select : Type := SMid (mid : N) | SEp (ep : N).
(** A handler that runs: for a response, for a cancelled record (with the rest of the cancelling loop), for a lost ping. *)
Inductive frame : Type := FAnswer (id : N) (disc : bool) (r : resp) | FCancel (rest : option (select * N)) | FPing (id : N).

(** Calls of handlers: of which request, its kind, and what it is told. *)
Inductive reason : Type := Answered | Cancelled (code : N) | PingLost.
Record call : Type := Called { k_id : N; k_kind : kind; k_why : reason }.
Definition tell (c : cb) (w : reason) : call := Called (c_id c) (c_kind c) w.

(** g_client_cbs, the delayed callbacks, the next pointer, g_dispatch.client_cb, and the stack of handlers. *)
Record st : Type := mk_st { s_cbs : list cb; s_tm : list (N * timer); s_next : N; s_pend : option N; s_stack : list frame }.
Definition start : st := mk_st [] [] 0 None [].

Definition set_cbs (s : st) (l : list cb) : st := mk_st l (s_tm s) (s_next s) (s_pend s) (s_stack s).
Definition set_pend (s : st) (p : option N) : st := mk_st (s_cbs s) (s_tm s) (s_next s) p (s_stack s).
Definition push (s : st) (f : frame) : st := mk_st (s_cbs s) (s_tm s) (s_next s) (s_pend s) (f :: s_stack s).

Definition is_id (i : N) (c : cb) : bool := c_id c =? i.
(** oc_ri_is_client_cb_valid (oc_client_cb.c:120-125). *)
Definition live (s : st) (i : N) : bool := existsb (is_id i) (s_cbs s).
(** client_cb_remove_from_lists (187-197): the record leaves the list and its delayed callbacks are removed. *)
Definition remove (i : N) (s : st) : st :=
  mk_st (filter (fun c => negb (is_id i c)) (s_cbs s)) (filter (fun t => negb (fst t =? i)) (s_tm s)) (s_next s) (s_pend s) (s_stack s).
Definition add_timer (i : N) (t : timer) (s : st) : st := mk_st (s_cbs s) ((i, t) :: s_tm s) (s_next s) (s_pend s) (s_stack s).
Definition drop_timer (i : N) (t : timer) (s : st) : st :=
  mk_st (s_cbs s) (filter (fun x => negb ((fst x =? i) && timer_eqb (snd x) t)) (s_tm s)) (s_next s) (s_pend s) (s_stack s).
Definition update (i : N) (f : cb -> cb) (s : st) : st := set_cbs s (map (fun c => if is_id i c then f c else c) (s_cbs s)).
Definition set_busy (b : bool) (c : cb) : cb :=
  mk_cb (c_id c) (c_mid c) (c_tok c) (c_uri c) (c_ep c) (c_get c) (c_kind c) (c_stop c) b (c_obs c) (c_num c).
Definition set_obs (o : Z) (c : cb) : cb :=
  mk_cb (c_id c) (c_mid c) (c_tok c) (c_uri c) (c_ep c) (c_get c) (c_kind c) (c_stop c) (c_busy c) o (c_num c).
Definition set_mid (m : N) (c : cb) : cb :=
  mk_cb (c_id c) m (c_tok c) (c_uri c) (c_ep c) (c_get c) (c_kind c) (c_stop c) (c_busy c) (c_obs c) (c_num c).
Definition set_stop (c : cb) : cb :=
  mk_cb (c_id c) (c_mid c) (c_tok c) (c_uri c) (c_ep c) (c_get c) (c_kind c) true (c_busy c) (c_obs c) (c_num c).
Definition set_num (n : N) (c : cb) : cb :=
  mk_cb (c_id c) (c_mid c) (c_tok c) (c_uri c) (c_ep c) (c_get c) (c_kind c) (c_stop c) (c_busy c) (c_obs c) n.

(** What the application asks for: message id and token drawn for it, path, endpoint, method, kind, ping, and whether a
    timeout was given. *)
Record ask : Type := mk_ask { q_mid : N; q_tok : list N; q_uri : list N; q_ep : N; q_get : bool; q_kind : kind; q_timeout : bool }.

(** oc_ri_alloc_client_cb (66-98) and what its callers set (oc_client_api.c:612, 661, 691, 739, 797). *)
Definition new_cb (i : N) (q : ask) : cb :=
  mk_cb i (q_mid q) (q_tok q) (q_uri q) (q_ep q) (q_get q) (q_kind q) false false
        (if kind_eqb (q_kind q) KObserve then REGISTER else NOT_SET) 0.
Definition alloc (q : ask) (s : st) : st :=
  mk_st (s_cbs s ++ [new_cb (s_next s) q]) (s_tm s) (s_next s + 1) (s_pend s) (s_stack s).

(** What became of sending: no transaction or buffer for it, the message could not be made, or sent. *)
Inductive sent : Type := NoPrepare | NoDispatch | Sent.

(** The delayed callbacks after a successful send (oc_client_api.c:158-166, 463-467; a ping: oc_ping.c:74). *)
Definition arm (i : N) (obs : Z) (timeout : bool) (s : st) : st :=
  let s := if (obs =? NOT_SET)%Z then add_timer i TLife s else s in
  if timeout then add_timer i TNotify s else s.

(** oc_do_request (435-468), oc_do_observe (596-620), the discovery and multicast requests, oc_send_ping
    (oc_ping.c:44-76).  On failure the record is freed again. *)
Definition request (q : ask) (r : sent) (s : st) : st :=
  let i := s_next s in
  let s := alloc q s in
  match q_kind q, r with
  | KPing, Sent => add_timer i TPing s
  | KPing, _ => remove i s
  | _, NoPrepare => remove i s
  | _, NoDispatch => set_pend (remove i s) None
  | k, Sent => arm i (if kind_eqb k KObserve then REGISTER else NOT_SET) (q_timeout q) (set_pend s None)
  end.

(** oc_init_post, oc_init_put (507-535). *)
Definition init_request (q : ask) (ok : bool) (s : st) : st :=
  let i := s_next s in
  let s := alloc q s in
  if ok then set_pend s (Some i) else remove i s.

(** oc_do_post, oc_do_put (572-576, 584-588) and their forms with a timeout (537-555, 578-582, 590-594); [None]: NULL or a freed record is
    used.  The observe value of the record decides about the lifetime timer. *)
Definition do_request (timeout ok : bool) (s : st) : option st :=
  match s_pend s with
  | None => if timeout then Some s else None
  | Some i => match find (is_id i) (s_cbs s) with
              | None => None
              | Some c => if ok then Some (arm i (c_obs c) timeout (set_pend s None))
                          else Some (set_pend (remove i s) None)
              end
  end.

(** oc_ri_get_client_cb (174-185) as used by oc_stop_observe (oc_client_api.c:622-644). *)
Definition same_get (uri : list N) (ep : N) (c : cb) : bool := list_eqb (c_uri c) uri && (c_ep c =? ep) && c_get c.
Definition stop_observe (uri : list N) (ep mid : N) (r : sent) (s : st) : st :=
  match find (same_get uri ep) (s_cbs s) with
  | None => s
  | Some c =>
      let s := update (c_id c) (fun c => set_obs UNREGISTER (set_mid mid c)) s in
      match r with
      | NoPrepare => s
      | NoDispatch => set_pend (remove (c_id c) s) None
      | Sent => set_pend s None
      end
  end.

(** One turn of the loops of oc_ri_free_client_cbs_by_mid_v1 (287-302) and oc_ri_free_client_cbs_by_endpoint_v1 (310-326),
    which start again at the head after each handler, with client_cb_notify_with_code (251-277). *)
Definition cancellable (x : select) (c : cb) : bool :=
  negb (c_multi c) && negb (c_disc c) && negb (c_busy c) && match x with SMid m => c_mid c =? m | SEp e => c_ep c =? e end.
Definition cancel (x : select) (code : N) (s : st) : st * list call :=
  match find (cancellable x) (s_cbs s) with
  | None => (s, [])
  | Some c => (push (remove (c_id c) s) (FCancel (Some (x, code))), [tell c (Cancelled code)])
  end.

(** oc_status_t (include/oc_ri.h): OC_REQUEST_TIMEOUT and OC_CANCELLED; the numbers only tell them apart here. *)
Definition REQUEST_TIMEOUT : N := 1.
Definition CANCELLED : N := 2.

(** ri_client_cb_set_observe_seq (397-421). *)
Definition duplicate (c : cb) (ep : N) (d : cb) : bool :=
  negb (c_id d =? c_id c) && negb (c_obs d =? NOT_SET)%Z && list_eqb (c_tok d) (c_tok c) && list_eqb (c_uri d) (c_uri c) && (c_ep d =? ep).
Definition set_observe (c : cb) (o : Z) (ep : N) (s : st) : st :=
  let s := update (c_id c) (set_obs o) s in
  if (o =? REGISTER)%Z then
    match find (duplicate c ep) (s_cbs s) with None => s | Some d => remove (c_id d) s end
  else s.

Section Build.
(** OC_OSCORE && OC_SECURITY, and OC_TCP *)
Variables oscore tcp : bool.
(** OC_PING_URI *)
Definition ping_uri : list N := [47; 112; 105; 110; 103].

(** The end of oc_client_cb_invoke (473-487, 525-553), after the handler or without one; [stop]: the discovery handler
    returned OC_STOP_DISCOVERY.  The record is read before it is looked up (526 with OC_TCP, 479). *)
Definition finish (i : N) (disc : bool) (r : resp) (stop : bool) (s : st) : option (st * list call) :=
  match find (is_id i) (s_cbs s) with
  | None => if tcp || (disc && stop) then None else Some (s, [])
  | Some c =>
      let payload := match a_body r with Payload _ => true | _ => false end in
      let separate := match a_body r with Empty true => true | _ => false end in
      if c_disc c && payload && stop then Some (cancel (SMid (c_mid c)) CANCELLED (update i (set_busy false) s))
      else
        let s := if tcp && list_eqb (c_uri c) ping_uri then drop_timer i TPing s else s in
        let s := update i (set_busy false) s in
        if (a_obs r =? NOT_SET)%Z && negb separate && negb (c_disc c) then
          if c_multi c then (if c_stop c then Some (cancel (SMid (c_mid c)) CANCELLED s) else Some (s, []))
          else Some (remove i s, [])
        else Some (set_observe c (a_obs r) (a_ep r) s, [])
  end.

(** oc_client_cb_invoke (424-554) up to the handler, if there is one to call. *)
Definition invoke (c : cb) (r : resp) (s : st) : option (st * list call) :=
  let i := c_id c in
  let s := update i (set_busy true) s in
  if oscore && (SEQ_START <=? a_obs r)%Z && (a_num r <? c_num c) then Some (s, [])
  else
    let s := if oscore && (SEQ_START <=? a_obs r)%Z then update i (set_num (a_num r)) s else s in
    let handler := Some (push s (FAnswer i (c_disc c) r), [tell c Answered]) in
    match a_body r with
    | Payload parses => if c_disc c then handler else if parses then handler else finish i (c_disc c) r false s
    | Empty ack => if ack then finish i (c_disc c) r false s else if c_disc c then finish i (c_disc c) r false s else handler
    end.

(** Events.  [Deliver], [Buffered] and [Fire] come from the main loop, the others also from inside handlers.
    [Deliver]: the first record with the token (engine.c:899-901).  [Buffered]: a response that belongs to a block-wise
    buffer of the record (engine.c:913-928, 1018). *)
Inductive op : Type :=
| Request (q : ask) (r : sent)
| Init (q : ask) (ok : bool)
| Do (timeout ok : bool)
| StopObserve (uri : list N) (ep mid : N) (r : sent)
| StopMulticast (i : N)
| Cancel (x : select) (code : N)
| Return (stop : bool)
| Deliver (r : resp)
| Buffered (i : N) (r : resp)
| Fire (i : N) (t : timer).

Definition has_timer (s : st) (i : N) (t : timer) : bool := existsb (fun x => (fst x =? i) && timer_eqb (snd x) t) (s_tm s).

Definition main_loop (s : st) : bool := match s_stack s with [] => true | _ => false end.
(** Whether the event can occur at all. *)
Definition may (s : st) (o : op) : bool :=
  match o with
  | Return _ => negb (main_loop s)
  | Deliver _ => main_loop s
  | Buffered i _ => main_loop s && live s i
  | Fire i t => main_loop s && has_timer s i t
  | _ => true
  end.

(** [None]: undefined behaviour (a freed or missing record is used). *)
Definition step (s : st) (o : op) : option (st * list call) :=
  match o with
  | Request q r => Some (request q r s, [])
  | Init q ok => Some (init_request q ok s, [])
  | Do t ok => option_map (fun s => (s, [])) (do_request t ok s)
  | StopObserve u e m r => Some (stop_observe u e m r s, [])
  | StopMulticast i => Some (update i set_stop s, [])
  | Cancel x code => Some (cancel x code s)
  | Return stop =>
      match s_stack s with
      | [] => Some (s, [])
      | f :: k =>
          let s := mk_st (s_cbs s) (s_tm s) (s_next s) (s_pend s) k in
          match f with
          | FAnswer i disc r => finish i disc r stop s
          | FCancel None => Some (s, [])
          | FCancel (Some (x, code)) => Some (cancel x code s)
          | FPing i => if live s i then Some (remove i s, []) else None
          end
      end
  | Deliver r => match find (fun c => list_eqb (c_tok c) (a_tok r)) (s_cbs s) with None => Some (s, []) | Some c => invoke c r s end
  | Buffered i r => match find (is_id i) (s_cbs s) with None => None | Some c => invoke c r s end
  | Fire i t =>
      match find (is_id i) (s_cbs s) with
      | None => None
      | Some c => match t with
                  | TLife => Some (remove i s, [])
                  | TNotify => Some (push (remove i s) (FCancel None), [tell c (Cancelled REQUEST_TIMEOUT)])
                  | TPing => Some (push (drop_timer i TPing s) (FPing i), [tell c PingLost])
                  end
      end
  end.

Fixpoint run (s : st) (l : list op) : option (st * list call) :=
  match l with
  | [] => Some (s, [])
  | o :: l => if may s o then
                match step s o with
                | None => None
                | Some (s1, t1) => match run s1 l with None => None | Some (s2, t2) => Some (s2, t1 ++ t2) end
                end
              else None
  end.
End Build.
