(* The life cycle of the cloud manager: registration, login, token refresh,
   keep-alive, reconnection, deregistration and reset of one device
   (api/cloud/oc_cloud_manager.c, oc_cloud.c, oc_cloud_apis.c,
   oc_cloud_deregister.c, oc_cloud_context.c).

   Simplifications.  One device.  The tokens are represented by whether they
   are present, with the signed lifetime of the access token; the retry counters,
   the choice of the next server (Cloud_Model), the selected credential, the
   published resources and last_error are left out.  Answers that the code gets from its surroundings (a delay from
   the schedule, success of sending, of an allocation, of parsing the address)
   come from the [env] of the operation.  Delayed callbacks may fire in any
   order; outstanding requests may be answered in any order with any code.  The
   callbacks of the application do nothing.  A request that could not be sent
   leaves the session as it was. *)
From Coq Require Import List Bool Arith ZArith Lia.
Import ListNotations.

(* include/oc_cloud.h:54-61 *)
Inductive cps_t := CUninit | CReady | CRegistering | CRegistered | CFailed
  | CDeregistering.

Definition cps_eqb (a b : cps_t) : bool :=
  match a, b with
  | CUninit, CUninit | CReady, CReady | CRegistering, CRegistering
  | CRegistered, CRegistered | CFailed, CFailed
  | CDeregistering, CDeregistering => true
  | _, _ => false
  end.

(* The oc_cloud_cb_t of a cloud_api_param_t and its user data
   (oc_cloud_apis.c:50-71): a callback of the application, the handlers of a
   reset (oc_cloud_deregister.c:38-72) or a step of a deregistration with the
   parameters of the deregistration as user data
   (oc_cloud_deregister.c:202-265).  The number stands for the address
   of the allocation. *)
Inductive param := Param (id : nat) (c : cont)
with cont :=
  | KUser
  | KReset (sync : bool)
  | KTryLogin (p : param)
  | KTryRefreshed (p : param).

Definition pid (p : param) : nat := let (i, _) := p in i.
Definition pcont (p : param) : cont := let (_, c) := p in c.

(* Outstanding requests, by their response handler. *)
Inductive api := AReg | ALogin | ALogout | ARefresh | ADereg.
Inductive req :=
  | QReg                       (* cloud_manager_register_handler *)
  | QLogin                     (* cloud_manager_login_handler *)
  | QRefresh                   (* cloud_manager_refresh_token_handler *)
  | QPing                      (* cloud_manager_send_ping_handler *)
  | QApi (a : api) (p : param). (* oc_cloud_register_handler, oc_cloud_login_handler,
       cloud_logout_internal, oc_cloud_refresh_token_handler,
       cloud_deregistered_internal *)

(* What is observable from outside. *)
Inductive ev :=
  | ESent (q : req)     (* a request leaves the device *)
  | EStatus             (* the status callback of the application *)
  | EUser (id : nat)    (* the callback of an API call of the application *)
  | ECleared.           (* the cloud configuration has been deleted *)

(* include/oc_cloud.h:43-52; OC_CLOUD_INITIALIZED is the status 0 *)
Record status := mkStatus {
  s_reg : bool;
  s_log : bool;
  s_exp : bool;
  s_rfr : bool;
  s_out : bool;
  s_fail : bool;
  s_dereg : bool }.

(* The credentials in the store (api/cloud/oc_cloud_store_internal.h). *)
Record tokens := mkTokens {
  k_acc : bool;
  k_rfr : bool;
  k_uid : bool;
  k_exp : Z }.

(* Delayed callbacks with the context as data: cloud_manager_register_async,
   cloud_manager_login_async, cloud_manager_send_ping_async,
   cloud_manager_refresh_token_async, cloud_manager_reconnect_async,
   cloud_manager_callback_handler_async, restart_manager, start_manager,
   cloud_deregister_context_clear_async; and with parameters as data:
   cloud_deregister_refreshed_token_async, cloud_deregister_on_reset_async. *)
Record timers := mkTimers {
  t_reg : bool;
  t_login : bool;
  t_ping : bool;
  t_rfr : bool;
  t_reconn : bool;
  t_cb : bool;
  t_restart : bool;
  t_start : bool;
  t_clear : bool;
  t_refd : list param;
  t_rst : list param }.

(* mgr: cloud_manager; subs: cloud_ep_session_event_handler is registered;
   oper: the device is in RFNOP or RFPRO; tcp: the selected server is reached by
   TCP; ep: cloud_ep is not empty; peer: a session with that endpoint exists;
   conn: cloud_ep_state is OC_SESSION_CONNECTED; live: allocated parameters;
   bad: a parameter has been used or freed after it was freed. *)
Record ctx := mkCtx {
  st : status;
  tok : tokens;
  tm : timers;
  cps : cps_t;
  mgr : bool;
  subs : bool;
  oper : bool;
  tcp : bool;
  ep : bool;
  peer : bool;
  conn : bool;
  reqs : list req;
  live : list nat;
  nxt : nat;
  bad : bool;
  out : list ev }.

(* Field updates. *)
Definition w_s_reg (v : bool) (r : status) : status :=
  mkStatus v (s_log r) (s_exp r) (s_rfr r) (s_out r) (s_fail r) (s_dereg r).
Definition w_s_log (v : bool) (r : status) : status :=
  mkStatus (s_reg r) v (s_exp r) (s_rfr r) (s_out r) (s_fail r) (s_dereg r).
Definition w_s_exp (v : bool) (r : status) : status :=
  mkStatus (s_reg r) (s_log r) v (s_rfr r) (s_out r) (s_fail r) (s_dereg r).
Definition w_s_rfr (v : bool) (r : status) : status :=
  mkStatus (s_reg r) (s_log r) (s_exp r) v (s_out r) (s_fail r) (s_dereg r).
Definition w_s_out (v : bool) (r : status) : status :=
  mkStatus (s_reg r) (s_log r) (s_exp r) (s_rfr r) v (s_fail r) (s_dereg r).
Definition w_s_fail (v : bool) (r : status) : status :=
  mkStatus (s_reg r) (s_log r) (s_exp r) (s_rfr r) (s_out r) v (s_dereg r).
Definition w_s_dereg (v : bool) (r : status) : status :=
  mkStatus (s_reg r) (s_log r) (s_exp r) (s_rfr r) (s_out r) (s_fail r) v.
Definition w_k_acc (v : bool) (r : tokens) : tokens :=
  mkTokens v (k_rfr r) (k_uid r) (k_exp r).
Definition w_k_rfr (v : bool) (r : tokens) : tokens :=
  mkTokens (k_acc r) v (k_uid r) (k_exp r).
Definition w_k_uid (v : bool) (r : tokens) : tokens :=
  mkTokens (k_acc r) (k_rfr r) v (k_exp r).
Definition w_k_exp (v : Z) (r : tokens) : tokens :=
  mkTokens (k_acc r) (k_rfr r) (k_uid r) v.
Definition w_t_reg (v : bool) (r : timers) : timers :=
  mkTimers v (t_login r) (t_ping r) (t_rfr r) (t_reconn r) (t_cb r) (t_restart r) (t_start r) (t_clear r) (t_refd r) (t_rst r).
Definition w_t_login (v : bool) (r : timers) : timers :=
  mkTimers (t_reg r) v (t_ping r) (t_rfr r) (t_reconn r) (t_cb r) (t_restart r) (t_start r) (t_clear r) (t_refd r) (t_rst r).
Definition w_t_ping (v : bool) (r : timers) : timers :=
  mkTimers (t_reg r) (t_login r) v (t_rfr r) (t_reconn r) (t_cb r) (t_restart r) (t_start r) (t_clear r) (t_refd r) (t_rst r).
Definition w_t_rfr (v : bool) (r : timers) : timers :=
  mkTimers (t_reg r) (t_login r) (t_ping r) v (t_reconn r) (t_cb r) (t_restart r) (t_start r) (t_clear r) (t_refd r) (t_rst r).
Definition w_t_reconn (v : bool) (r : timers) : timers :=
  mkTimers (t_reg r) (t_login r) (t_ping r) (t_rfr r) v (t_cb r) (t_restart r) (t_start r) (t_clear r) (t_refd r) (t_rst r).
Definition w_t_cb (v : bool) (r : timers) : timers :=
  mkTimers (t_reg r) (t_login r) (t_ping r) (t_rfr r) (t_reconn r) v (t_restart r) (t_start r) (t_clear r) (t_refd r) (t_rst r).
Definition w_t_restart (v : bool) (r : timers) : timers :=
  mkTimers (t_reg r) (t_login r) (t_ping r) (t_rfr r) (t_reconn r) (t_cb r) v (t_start r) (t_clear r) (t_refd r) (t_rst r).
Definition w_t_start (v : bool) (r : timers) : timers :=
  mkTimers (t_reg r) (t_login r) (t_ping r) (t_rfr r) (t_reconn r) (t_cb r) (t_restart r) v (t_clear r) (t_refd r) (t_rst r).
Definition w_t_clear (v : bool) (r : timers) : timers :=
  mkTimers (t_reg r) (t_login r) (t_ping r) (t_rfr r) (t_reconn r) (t_cb r) (t_restart r) (t_start r) v (t_refd r) (t_rst r).
Definition w_t_refd (v : list param) (r : timers) : timers :=
  mkTimers (t_reg r) (t_login r) (t_ping r) (t_rfr r) (t_reconn r) (t_cb r) (t_restart r) (t_start r) (t_clear r) v (t_rst r).
Definition w_t_rst (v : list param) (r : timers) : timers :=
  mkTimers (t_reg r) (t_login r) (t_ping r) (t_rfr r) (t_reconn r) (t_cb r) (t_restart r) (t_start r) (t_clear r) (t_refd r) v.
Definition w_st (v : status) (r : ctx) : ctx :=
  mkCtx v (tok r) (tm r) (cps r) (mgr r) (subs r) (oper r) (tcp r) (ep r) (peer r) (conn r) (reqs r) (live r) (nxt r) (bad r) (out r).
Definition w_tok (v : tokens) (r : ctx) : ctx :=
  mkCtx (st r) v (tm r) (cps r) (mgr r) (subs r) (oper r) (tcp r) (ep r) (peer r) (conn r) (reqs r) (live r) (nxt r) (bad r) (out r).
Definition w_tm (v : timers) (r : ctx) : ctx :=
  mkCtx (st r) (tok r) v (cps r) (mgr r) (subs r) (oper r) (tcp r) (ep r) (peer r) (conn r) (reqs r) (live r) (nxt r) (bad r) (out r).
Definition w_cps (v : cps_t) (r : ctx) : ctx :=
  mkCtx (st r) (tok r) (tm r) v (mgr r) (subs r) (oper r) (tcp r) (ep r) (peer r) (conn r) (reqs r) (live r) (nxt r) (bad r) (out r).
Definition w_mgr (v : bool) (r : ctx) : ctx :=
  mkCtx (st r) (tok r) (tm r) (cps r) v (subs r) (oper r) (tcp r) (ep r) (peer r) (conn r) (reqs r) (live r) (nxt r) (bad r) (out r).
Definition w_subs (v : bool) (r : ctx) : ctx :=
  mkCtx (st r) (tok r) (tm r) (cps r) (mgr r) v (oper r) (tcp r) (ep r) (peer r) (conn r) (reqs r) (live r) (nxt r) (bad r) (out r).
Definition w_oper (v : bool) (r : ctx) : ctx :=
  mkCtx (st r) (tok r) (tm r) (cps r) (mgr r) (subs r) v (tcp r) (ep r) (peer r) (conn r) (reqs r) (live r) (nxt r) (bad r) (out r).
Definition w_tcp (v : bool) (r : ctx) : ctx :=
  mkCtx (st r) (tok r) (tm r) (cps r) (mgr r) (subs r) (oper r) v (ep r) (peer r) (conn r) (reqs r) (live r) (nxt r) (bad r) (out r).
Definition w_ep (v : bool) (r : ctx) : ctx :=
  mkCtx (st r) (tok r) (tm r) (cps r) (mgr r) (subs r) (oper r) (tcp r) v (peer r) (conn r) (reqs r) (live r) (nxt r) (bad r) (out r).
Definition w_peer (v : bool) (r : ctx) : ctx :=
  mkCtx (st r) (tok r) (tm r) (cps r) (mgr r) (subs r) (oper r) (tcp r) (ep r) v (conn r) (reqs r) (live r) (nxt r) (bad r) (out r).
Definition w_conn (v : bool) (r : ctx) : ctx :=
  mkCtx (st r) (tok r) (tm r) (cps r) (mgr r) (subs r) (oper r) (tcp r) (ep r) (peer r) v (reqs r) (live r) (nxt r) (bad r) (out r).
Definition w_reqs (v : list req) (r : ctx) : ctx :=
  mkCtx (st r) (tok r) (tm r) (cps r) (mgr r) (subs r) (oper r) (tcp r) (ep r) (peer r) (conn r) v (live r) (nxt r) (bad r) (out r).
Definition w_live (v : list nat) (r : ctx) : ctx :=
  mkCtx (st r) (tok r) (tm r) (cps r) (mgr r) (subs r) (oper r) (tcp r) (ep r) (peer r) (conn r) (reqs r) v (nxt r) (bad r) (out r).
Definition w_nxt (v : nat) (r : ctx) : ctx :=
  mkCtx (st r) (tok r) (tm r) (cps r) (mgr r) (subs r) (oper r) (tcp r) (ep r) (peer r) (conn r) (reqs r) (live r) v (bad r) (out r).
Definition w_bad (v : bool) (r : ctx) : ctx :=
  mkCtx (st r) (tok r) (tm r) (cps r) (mgr r) (subs r) (oper r) (tcp r) (ep r) (peer r) (conn r) (reqs r) (live r) (nxt r) v (out r).
Definition w_out (v : list ev) (r : ctx) : ctx :=
  mkCtx (st r) (tok r) (tm r) (cps r) (mgr r) (subs r) (oper r) (tcp r) (ep r) (peer r) (conn r) (reqs r) (live r) (nxt r) (bad r) v.

Definition upst (f : status -> status) (s : ctx) : ctx := w_st (f (st s)) s.
Definition uptm (f : timers -> timers) (s : ctx) : ctx := w_tm (f (tm s)) s.
Definition uptok (f : tokens -> tokens) (s : ctx) : ctx := w_tok (f (tok s)) s.
Definition emit (e : ev) (s : ctx) : ctx := w_out (out s ++ [e]) s.

Definition status0 : status := mkStatus false false false false false false false.
Definition tokens0 : tokens := mkTokens false false false 0.
Definition timers0 : timers :=
  mkTimers false false false false false false false false false [] [].

(* store.status == OC_CLOUD_INITIALIZED *)
Definition is_init (s : status) : bool :=
  negb (s_reg s || s_log s || s_exp s || s_rfr s || s_out s || s_fail s
        || s_dereg s).

(* The surroundings during one handler.  en_sched: cloud_schedule_action
   schedules (oc_cloud_schedule.c:147-172); en_next: another server is left to try
   (oc_cloud_manager.c:334-353); en_send: the request can be sent; en_addr: the
   address of the server can be parsed and resolved; en_peer: a session with it
   exists already; en_alloc, en_alloc2: allocations succeed; en_short: the access
   token fits into the query of a deregistration (oc_cloud_deregister.c:152-175);
   en_keep: the keep-alive goes on; en_tls: the handshake of the session is over;
   en_hit: an outstanding request belongs to the session being closed. *)
Record env := mkEnv {
  en_sched : bool; en_next : bool; en_send : bool; en_addr : bool;
  en_peer : bool; en_alloc : bool; en_alloc2 : bool; en_short : bool;
  en_keep : bool; en_tls : bool; en_hit : bool }.

Definition env0 : env :=
  mkEnv true true true true false true true true true true true.

(* A response: success with the parsed payload if it is well formed (lifetime
   of the access token, redirection to another server), a connection error
   (oc_cloud.c:48-54), OC_REQUEST_TIMEOUT, unauthorized, another error. *)
Record payload := mkPay { pl_exp : Z; pl_redirect : bool }.
Inductive resp := ROk (p : option payload) | RConn | RTimeout | RUnauth | RErr.

(* oc_cloud_apis.c:50-71 *)
Definition new_param (c : cont) (s : ctx) : param * ctx :=
  (Param (nxt s) c, w_nxt (S (nxt s)) (w_live (nxt s :: live s) s)).

Definition mem (i : nat) (l : list nat) : bool := existsb (Nat.eqb i) l.

Definition use_param (p : param) (s : ctx) : ctx :=
  if mem (pid p) (live s) then s else w_bad true s.

Definition free_param (p : param) (s : ctx) : ctx :=
  if mem (pid p) (live s)
  then w_live (remove Nat.eq_dec (pid p) (live s)) s
  else w_bad true s.

(* oc_cloud_manager.c:77-87 *)
Definition mgr_stop (s : ctx) : ctx :=
  uptm (fun t => w_t_reconn false (w_t_reg false (w_t_login false
        (w_t_ping false (w_t_rfr false (w_t_cb false t)))))) s.

(* oc_cloud_deregister.c:347-359 *)
Definition dereg_stop (s : ctx) : ctx :=
  let s1 := fold_left (fun a p => free_param p a) (t_refd (tm s)) s in
  let s2 := uptm (fun t => w_t_clear false (w_t_refd [] t)) s1 in
  let s3 := fold_left (fun a p => free_param p a) (t_rst (tm s2)) s2 in
  uptm (w_t_rst []) s3.

(* oc_cloud.c:89-96 *)
Definition cm_restart (s : ctx) : ctx :=
  uptm (w_t_start true) (dereg_stop (mgr_stop s)).

(* oc_cloud_context.c:266-276 *)
Definition permanent (s : ctx) : bool :=
  k_acc (tok s) && (k_exp (tok s) <? 0)%Z.

(* The failure branch common to the manager's callbacks, for instance
   oc_cloud_manager.c:143-146. *)
Definition fail_reconnect (s : ctx) : ctx :=
  uptm (w_t_reconn true) (upst (w_s_fail true) (w_cps CFailed s)).

(* oc_cloud_manager.c:112-149 *)
Definition start_process (e : env) (s : ctx) : ctx :=
  if oper s then
    if s_reg (st s) then
      if permanent s then
        if en_sched e then uptm (w_t_login true) s else fail_reconnect s
      else if k_rfr (tok s) then
        if en_sched e then uptm (w_t_rfr true) s else fail_reconnect s
      else s
    else if is_init (st s) && cps_eqb (cps s) CReady then
      if en_sched e then uptm (w_t_reg true) s else fail_reconnect s
    else s
  else s.

(* oc_cloud.c:74-87 *)
Definition start_manager (e : env) (s : ctx) : ctx :=
  let s1 := upst (w_s_log false) (w_peer false (w_ep false s)) in
  let s2 := w_cps (if s_reg (st s1) then CRegistered else CReady) s1 in
  emit EStatus (start_process e s2).

(* oc_cloud.c:98-106 *)
Definition restart_manager (s : ctx) : ctx :=
  if mgr s then cm_restart s else s.

(* oc_cloud.c:108-129 *)
Definition set_endpoint (e : env) (s : ctx) : bool * ctx :=
  if ep s then (true, s)
  else if en_addr e then (true, w_peer (en_peer e) (w_ep true s))
  else (false, s).

(* oc_cloud_set_access_conf (oc_cloud_apis.c:85-104) and the functions of
   api/cloud/oc_cloud_access.c: the request is sent if the endpoint can be set
   and what must be present is; the session is created if there is none. *)
Definition send_req (e : env) (need : ctx -> bool) (q : req) (s : ctx)
  : bool * ctx :=
  let (ok, s1) := set_endpoint e s in
  if ok && need s1 && en_send e
  then (true, emit (ESent q) (w_peer true (w_reqs (reqs s1 ++ [q]) s1)))
  else (false, s1).

(* oc_cloud_access.c:96-107, 213-224, 273-284; the state of the device, which
   must be RFNOP for a login and a refresh too, is part of [en_send] there *)
Definition need_reg (s : ctx) : bool := k_acc (tok s) && oper s.
Definition need_login (s : ctx) : bool := k_uid (tok s) && k_acc (tok s).
Definition need_refresh (s : ctx) : bool := k_uid (tok s) && k_rfr (tok s).
Definition need_none (s : ctx) : bool := true.

(* oc_cloud.c:331-365: the session with the endpoint ended *)
Definition session_down (s : ctx) : ctx :=
  if subs s && ep s && conn s then
    let s1 := w_conn false s in
    if s_reg (st s1) && mgr s1 then cm_restart s1 else s1
  else s.

(* oc_cloud.c:331-356: the session with the endpoint is set up *)
Definition session_up (s : ctx) : ctx :=
  if ep s && peer s && subs s then w_conn true s else s.

(* oc_cloud.c:162-168; [close] is oc_cloud_close_endpoint *)
Definition reset_endpoint (close : ctx -> ctx) (s : ctx) : ctx :=
  w_conn false (w_peer false (w_ep false (if ep s then close s else s))).

(* oc_cloud_store.c:354-386 *)
Definition reinit_store (s : ctx) : ctx :=
  w_cps CUninit (w_tok tokens0 (w_st status0 s)).

(* oc_cloud_context.c:232-258 *)
Definition ctx_clear (close : ctx -> ctx) (s : ctx) : ctx :=
  emit ECleared (reinit_store (dereg_stop (mgr_stop (reset_endpoint close s)))).

(* ---- responses ---- *)

Inductive rerr := EOk | EConnect | EResponse | EUnauth.

Definition set_exp (z : Z) (s : ctx) : ctx :=
  let s1 := uptok (w_k_exp z) s in
  if (0 <? z)%Z then upst (w_s_exp true) s1 else s1.

(* oc_cloud_manager.c:182-315: _register_handler; the new cps is
   OC_CPS_REGISTERED on success and OC_CPS_FAILED otherwise *)
Definition reg_core (close : ctx -> ctx) (r : resp) (s : ctx) : rerr * ctx :=
  let err x := (x, upst (w_s_fail true) s) in
  match r with
  | RConn | RTimeout => err EConnect
  | RUnauth | RErr => err EResponse
  | ROk pl =>
      if is_init (st s) then
        match pl with
        | None => err EResponse
        | Some d =>
            let s1 := set_exp (pl_exp d)
              (uptok (fun k => w_k_acc true (w_k_rfr true (w_k_uid true k))) s) in
            let s2 := if pl_redirect d then reset_endpoint close s1 else s1 in
            (EOk, upst (w_s_reg true) s2)
        end
      else err EResponse
  end.

Definition conn_or_timeout (r : resp) : bool :=
  match r with RConn | RTimeout => true | _ => false end.

(* oc_cloud_manager.c:355-405 *)
Definition h_register (close : ctx -> ctx) (e : env) (r : resp) (s : ctx) : ctx :=
  let (er, s1) := reg_core close r (uptm (w_t_reg false) s) in
  match er with
  | EOk =>
      if en_sched e
      then w_cps CRegistered (uptm (w_t_cb true) (uptm (w_t_login true) s1))
      else fail_reconnect s1
  | _ =>
      let s2 := uptm (w_t_cb true) s1 in
      if is_init (w_s_fail false (st s2)) && conn_or_timeout r then
        if en_sched e then w_cps CRegistering (uptm (w_t_reg true) s2)
        else if en_next e then w_cps CRegistering (uptm (w_t_reconn true) s2)
        else w_cps CFailed s2
      else w_cps CFailed s2
  end.

(* oc_cloud_manager.c:407-442 *)
Definition f_register (e : env) (s0 : ctx) : ctx :=
  let s := uptm (w_t_reg false) s0 in
  if is_init (st s) then
    let (ok, s1) := send_req e need_reg QReg s in
    if ok then w_cps CRegistering s1
    else if en_sched e then uptm (w_t_reg true) s1 else w_cps CFailed s1
  else s.

(* oc_cloud_manager.c:459-498: _login_handler *)
Definition login_core (r : resp) (s : ctx) : rerr * cps_t * ctx :=
  let ok := if cps_eqb (cps s) CDeregistering then CDeregistering
            else CRegistered in
  match r with
  | RConn | RTimeout => (EConnect, ok, s)
  | RUnauth => (EUnauth, CFailed, s)
  | RErr => (EResponse, CFailed, s)
  | ROk pl =>
      if s_reg (st s) then
        match pl with
        | None => (EResponse, CFailed, s)
        | Some d => (EOk, ok, upst (w_s_log true) (set_exp (pl_exp d) s))
        end
      else (EResponse, CFailed, s)
  end.

(* oc_cloud_manager.c:583-644 *)
Definition h_login (close : ctx -> ctx) (e : env) (r : resp) (s0 : ctx) : ctx :=
  let s := uptm (w_t_login false) s0 in
  if s_reg (st s) then
    let '(er, c, s1) := login_core r s in
    match er with
    | EOk =>
        let s2 := uptm (w_t_ping true) (w_cps c s1) in
        let s3 := if (0 <? k_exp (tok s2))%Z then uptm (w_t_rfr true) s2 else s2 in
        uptm (w_t_cb true) s3
    | EConnect =>
        let s2 := upst (w_s_fail true) s1 in
        if en_sched e
        then uptm (w_t_cb true) (w_cps c (uptm (w_t_login true) s2))
        else uptm (w_t_reconn true) (w_cps CFailed s2)
    | EUnauth =>
        let s2 := w_cps c (upst (w_s_fail true) s1) in
        let s3 := uptok (fun k => w_k_exp 0 (w_k_acc false k)) s2 in
        let s4 := if k_rfr (tok s3) && en_sched e
                  then uptm (w_t_rfr true) s3 else ctx_clear close s3 in
        uptm (w_t_cb true) s4
    | EResponse =>
        uptm (w_t_reconn true) (w_cps c (upst (w_s_fail true) s1))
    end
  else uptm (w_t_cb true) (w_cps CFailed s).

(* oc_cloud_manager.c:646-681 *)
Definition f_login (e : env) (s0 : ctx) : ctx :=
  let s := uptm (w_t_login false) s0 in
  if s_reg (st s) then
    let (ok, s1) := send_req e need_login QLogin s in
    if ok then s1
    else if en_sched e then uptm (w_t_login true) s1 else fail_reconnect s1
  else s.

(* oc_cloud_manager.c:698-781: _refresh_token_handler, without the new cps *)
Definition refresh_core (r : resp) (s : ctx) : rerr * ctx :=
  let f := upst (w_s_fail true) s in
  let bad_ := upst (fun x => w_s_reg false (w_s_log false x)) f in
  match r with
  | RUnauth => (EUnauth, f)
  | RConn | RTimeout => (EConnect, upst (w_s_log false) f)
  | RErr => (EResponse, bad_)
  | ROk pl =>
      if s_reg (st s) then
        match pl with
        | None => (EResponse, bad_)
        | Some d =>
            (EOk, upst (w_s_rfr true)
               (set_exp (pl_exp d)
                  (uptok (fun k => w_k_acc true (w_k_rfr true k)) s)))
        end
      else (EResponse, bad_)
  end.

(* oc_cloud_manager.c:810-863 *)
Definition h_refresh (close : ctx -> ctx) (e : env) (r : resp) (s : ctx) : ctx :=
  let (er, s1) := refresh_core r (uptm (w_t_rfr false) s) in
  match er with
  | EOk =>
      if en_sched e then uptm (w_t_cb true) (uptm (w_t_login true) s1)
      else fail_reconnect s1
  | EUnauth => uptm (w_t_cb true) (ctx_clear close (w_cps CFailed s1))
  | EConnect =>
      if s_reg (st s1) then
        if en_sched e then uptm (w_t_cb true) (uptm (w_t_rfr true) s1)
        else fail_reconnect s1
      else uptm (w_t_cb true) s1
  | EResponse => uptm (w_t_cb true) (w_cps CFailed s1)
  end.

(* oc_cloud_manager.c:865-902 *)
Definition f_refresh (e : env) (s0 : ctx) : ctx :=
  let s := uptm (w_t_rfr false) s0 in
  if s_reg (st s) then
    let s1 := uptm (w_t_ping false) s in
    let (ok, s2) := send_req e need_refresh QRefresh s1 in
    if ok then s2
    else if en_sched e then uptm (w_t_rfr true) s2 else fail_reconnect s2
  else s.

(* oc_cloud_manager.c:904-929 *)
Definition h_ping (e : env) (s : ctx) : ctx :=
  if s_log (st s) then
    if en_keep e then uptm (w_t_ping true) s else uptm (w_t_reconn true) s
  else s.

(* oc_cloud_manager.c:931-947, cloud_send_ping (oc_cloud_apis.c:345-361) *)
Definition f_ping (e : env) (s0 : ctx) : ctx :=
  let s := uptm (w_t_ping false) s0 in
  if s_log (st s) && ep s && peer s && en_tls e && en_send e
  then emit (ESent QPing) (w_reqs (reqs s ++ [QPing]) s)
  else s.

(* oc_cloud_manager.c:59-68 *)
Definition f_callback (s0 : ctx) : ctx :=
  let s := emit EStatus (uptm (w_t_cb false) s0) in
  upst (fun x => w_s_fail false (w_s_out false (w_s_rfr false (w_s_exp false
       (w_s_dereg false x))))) s.

(* oc_cloud_deregister.c:177-200: cloud_deregister_by_request *)
Definition by_request (e : env) (p : param) (s : ctx) : bool * ctx :=
  send_req e need_none (QApi ADereg p) s.

(* The callback of an API call with the current status:
   oc_cloud_deregister.c:38-72, 202-222, 249-265. *)
Definition call_cb (close : ctx -> ctx) (e : env) (id : nat) (c : cont) (s : ctx)
  : ctx :=
  match c with
  | KUser => emit (EUser id) s
  | KReset true => ctx_clear close s
  | KReset false => uptm (w_t_clear true) s
  | KTryLogin p =>
      let s0 := use_param p s in
      if s_log (st s0) then
        let (ok, s1) := by_request e p s0 in
        if ok then s1 else ctx_clear close (free_param p s1)
      else ctx_clear close (free_param p s0)
  | KTryRefreshed p =>
      let s0 := use_param p s in
      if s_rfr (st s0) then uptm (fun t => w_t_refd (t_refd t ++ [p]) t) s0
      else ctx_clear close (free_param p s0)
  end.

(* The common end of the handlers of API calls. *)
Definition finish_api (close : ctx -> ctx) (e : env) (p : param) (s : ctx) : ctx :=
  free_param p (call_cb close e (pid p) (pcont p) s).

(* oc_cloud_manager.c:317-332 *)
Definition h_api_register (close : ctx -> ctx) (e : env) (r : resp) (p : param)
  (s : ctx) : ctx :=
  let (er, s1) := reg_core close r s in
  let s2 := w_cps (match er with EOk => CRegistered | _ => CFailed end) s1 in
  upst (fun x => w_s_fail false (w_s_exp false x)) (finish_api close e p s2).

(* oc_cloud_manager.c:500-519 *)
Definition h_api_login (close : ctx -> ctx) (e : env) (r : resp) (p : param)
  (s : ctx) : ctx :=
  let '(er, c, s1) := login_core r s in
  let s2 := match er with
            | EOk => w_cps c s1
            | _ => w_cps CFailed (upst (w_s_fail true) s1)
            end in
  upst (fun x => w_s_fail false (w_s_exp false x)) (finish_api close e p s2).

(* oc_cloud_apis.c:212-234 *)
Definition h_api_logout (close : ctx -> ctx) (e : env) (r : resp) (p : param)
  (s : ctx) : ctx :=
  let s1 := match r with
            | ROk _ => upst (fun x => w_s_out true (w_s_log false x)) s
            | _ => upst (w_s_fail true) s
            end in
  upst (fun x => w_s_fail false (w_s_out false x)) (finish_api close e p s1).

(* oc_cloud_manager.c:783-808 *)
Definition h_api_refresh (close : ctx -> ctx) (e : env) (r : resp) (p : param)
  (s : ctx) : ctx :=
  let (er, s1) := refresh_core r s in
  let s2 := match er with
            | EOk | EConnect => s1
            | _ => w_cps CFailed s1
            end in
  upst (fun x => w_s_fail false (w_s_exp false (w_s_rfr false x)))
    (finish_api close e p s2).

(* oc_cloud_deregister.c:123-150 *)
Definition h_api_dereg (close : ctx -> ctx) (e : env) (r : resp) (p : param)
  (s : ctx) : ctx :=
  let s1 := match r with
            | ROk _ | RConn => w_st (w_s_dereg true status0) s
            | _ => upst (w_s_fail true) s
            end in
  upst (fun x => w_s_fail false (w_s_dereg false x))
    (finish_api close e p (w_cps CUninit s1)).

(* The response handler of a request. *)
Definition handle (close : ctx -> ctx) (e : env) (r : resp) (q : req) (s : ctx)
  : ctx :=
  match q with
  | QReg => h_register close e r s
  | QLogin => h_login close e r s
  | QRefresh => h_refresh close e r s
  | QPing => h_ping e s
  | QApi a p =>
      let s0 := use_param p s in
      match a with
      | AReg => h_api_register close e r p s0
      | ALogin => h_api_login close e r p s0
      | ALogout => h_api_logout close e r p s0
      | ARefresh => h_api_refresh close e r p s0
      | ADereg => h_api_dereg close e r p s0
      end
  end.

(* ---- closing of the session ---- *)

(* api/client/oc_client_cb.c:310-326 (oc_ri_free_client_cbs_by_endpoint_v1): the requests
   of the session are answered with OC_CONNECTION_CLOSED while the session is
   no longer there; a handler that closes it again finds nothing to close.  The
   loop starts again at the head, so requests sent by a handler are answered
   too: they are the deregistrations of [by_request], whose handler sends
   nothing, hence two passes. *)
Fixpoint pass (rs : list req) (ces : list env) (s : ctx) : ctx :=
  match rs with
  | [] => s
  | q :: rs' =>
      let e := hd env0 ces in
      let s1 := if en_hit e then handle (fun x => x) e RConn q s
                else w_reqs (reqs s ++ [q]) s in
      pass rs' (tl ces) s1
  end.

Definition closed_requests (ces : list env) (s : ctx) : ctx :=
  let s1 := pass (reqs s) ces (w_reqs [] s) in
  pass (reqs s1) (skipn (length (reqs s)) ces) (w_reqs [] s1).

(* oc_client_api.c:961-970, oc_tls.c:604-613, 468-555 (oc_tls_free_peer):
   nothing happens without a session *)
Definition close (ces : list env) (s : ctx) : ctx :=
  if peer s then session_down (closed_requests ces (w_peer false s)) else s.

(* oc_cloud.c:435-453: oc_cloud_manager_restart *)
Definition manager_restart (ces : list env) (s : ctx) : ctx :=
  if mgr s then
    if conn s then
      let t := ep s && tcp s in
      let s1 := if ep s then close ces s else s in
      if t then s1 else uptm (w_t_restart true) s1
    else uptm (w_t_restart true) s
  else s.

(* oc_cloud_manager.c:89-96 *)
Definition f_reconnect (ces : list env) (s0 : ctx) : ctx :=
  manager_restart ces (uptm (w_t_cb true) (uptm (w_t_reconn false) s0)).

(* ---- API calls ---- *)

(* oc_cloud_apis.c:106-143 *)
Definition do_register (e : env) (c : cont) (s : ctx) : bool * ctx :=
  if s_reg (st s) then (true, emit (EUser (nxt s)) s)
  else if is_init (st s) && en_alloc e then
    let (p, s1) := new_param c s in
    let (ok, s2) := send_req e need_reg (QApi AReg p) s1 in
    if ok then (true, w_cps CRegistering s2) else (false, free_param p s2)
  else (false, s).

(* oc_cloud_apis.c:154-189 *)
Definition do_login (close : ctx -> ctx) (e : env) (alloc : bool) (c : cont)
  (s : ctx) : bool * ctx :=
  if s_log (st s) then (true, call_cb close e (nxt s) c s)
  else if s_reg (st s) && alloc then
    let (p, s1) := new_param c s in
    let (ok, s2) := send_req e need_login (QApi ALogin p) s1 in
    if ok then (true, s2) else (false, free_param p s2)
  else (false, s).

(* oc_cloud_apis.c:236-265 *)
Definition do_logout (e : env) (c : cont) (s : ctx) : bool * ctx :=
  if s_log (st s) && en_alloc e then
    let (p, s1) := new_param c s in
    let (ok, s2) := send_req e need_login (QApi ALogout p) s1 in
    if ok then (true, s2) else (false, free_param p s2)
  else (false, s).

(* oc_cloud_apis.c:285-321 *)
Definition do_refresh (e : env) (alloc : bool) (c : cont) (s : ctx) : bool * ctx :=
  if s_reg (st s) && alloc then
    let (p, s1) := new_param c s in
    let (ok, s2) := send_req e need_refresh (QApi ARefresh p) s1 in
    if ok then (true, s2) else (false, free_param p s2)
  else (false, s).

Inductive dres := DStarted | DAlready | DFailed.

(* oc_cloud_deregister.c:267-330 *)
Definition do_deregister (close : ctx -> ctx) (e : env) (sync : bool) (c : cont)
  (s : ctx) : dres * ctx :=
  if s_reg (st s) then
    if cps_eqb (cps s) CDeregistering then (DAlready, s)
    else if en_alloc e then
      let (p, s1) := new_param c s in
      let s2 := w_cps CDeregistering s1 in
      let fin (x : bool * ctx) : dres * ctx :=
        let (ok, s3) := x in
        if ok then (DStarted, s3) else (DFailed, free_param p s3) in
      if en_short e || s_log (st s2) then fin (by_request e p s2)
      else if sync then (DFailed, free_param p s2)
      else if k_rfr (tok s2) && negb (permanent s2)
      then fin (do_refresh e (en_alloc2 e) (KTryRefreshed p) s2)
      else fin (do_login close e (en_alloc2 e) (KTryLogin p) s2)
    else (DFailed, s)
  else (DFailed, s).

(* oc_cloud_deregister.c:224-247: on failure p->ctx is read after p is freed *)
Definition f_refreshed (ces : list env) (e : env) (p : param) (s0 : ctx) : ctx :=
  let s := use_param p s0 in
  let (ok, s1) := if en_short e then by_request e p s
                  else do_login (close ces) e (en_alloc e) (KTryLogin p) s in
  if ok then s1 else ctx_clear (close ces) (use_param p (free_param p s1)).

(* oc_cloud_deregister.c:74-100 *)
Definition f_on_reset (ces : list env) (e : env) (p : param) (s : ctx) : ctx :=
  let s1 := free_param p (use_param p s) in
  let (r, s2) := do_deregister (close ces) e false (KReset false) s1 in
  match r with DFailed => ctx_clear (close ces) s2 | _ => s2 end.

(* oc_cloud.c:170-192, oc_cloud_deregister.c:102-119 *)
Definition cloud_reset (ces : list env) (e : env) (force sync : bool) (s : ctx)
  : ctx :=
  if negb force && ep s && peer s && en_tls e then
    let s1 := mgr_stop s in
    if sync then
      let (r, s2) := do_deregister (close ces) e true (KReset true) s1 in
      match r with DFailed => ctx_clear (close ces) s2 | _ => s2 end
    else if en_alloc e then
      let (p, s2) := new_param KUser s1 in
      uptm (fun t => w_t_rst (t_rst t ++ [p]) t) s2
    else ctx_clear (close ces) s1
  else ctx_clear (close ces) s.

(* oc_cloud.c:461-489 *)
Definition manager_start (e : env) (s : ctx) : ctx :=
  w_subs true (w_mgr true (start_process e s)).

(* oc_cloud.c:498-527; [has] is cloud_has_configuration, whose server is
   always there (oc_cloud_store.c:361-371) *)
Definition manager_stop (ces : list env) (reset : bool) (s : ctx) : ctx :=
  let s1 := uptm (fun t => w_t_start false (w_t_restart false t)) (w_subs false s) in
  let s2 := reset_endpoint (close ces) (mgr_stop s1) in
  let s3 := if reset || negb (k_acc (tok s2)) then reinit_store s2
            else let s4 := upst (w_s_log false) s2 in
                 w_cps (if s_reg (st s4) then CRegistered else CReady) s4 in
  w_mgr false s3.

(* oc_cloud.c:294-328 (from the handler of POST in oc_cloud_resource.c:137-238)
   and oc_cloud.c:224-292: a new configuration with an access token *)
Definition update_conf (ces : list env) (s : ctx) : ctx :=
  let s1 := dereg_stop (mgr_stop (reinit_store (reset_endpoint (close ces) s))) in
  let s2 := w_cps CReady (w_st status0 (uptok (w_k_acc true) s1)) in
  if mgr s2 then manager_restart ces s2 else s2.

(* oc_cloud.c:369-385 *)
Definition interface_up (s : ctx) : ctx :=
  if is_init (st s) && mgr s then cm_restart s else s.

Inductive timer := TReg | TLogin | TPing | TRfr | TReconn | TCb | TRestart
  | TStart | TClear.

Definition pending (t : timer) (x : timers) : bool :=
  match t with
  | TReg => t_reg x | TLogin => t_login x | TPing => t_ping x | TRfr => t_rfr x
  | TReconn => t_reconn x | TCb => t_cb x | TRestart => t_restart x
  | TStart => t_start x | TClear => t_clear x
  end.

Definition fire (t : timer) (e : env) (ces : list env) (s : ctx) : ctx :=
  match t with
  | TReg => f_register e s
  | TLogin => f_login e s
  | TPing => f_ping e s
  | TRfr => f_refresh e s
  | TReconn => f_reconnect ces s
  | TCb => f_callback s
  | TRestart => restart_manager (uptm (w_t_restart false) s)
  | TStart => start_manager e (uptm (w_t_start false) s)
  | TClear => ctx_clear (close ces) (uptm (w_t_clear false) s)
  end.

Inductive op :=
  | OFire (t : timer) (e : env) (ces : list env)
  | ORefd (i : nat) (e : env) (ces : list env)   (* cloud_deregister_refreshed_token_async *)
  | ORst (i : nat) (e : env) (ces : list env)    (* cloud_deregister_on_reset_async *)
  | OResp (i : nat) (r : resp) (e : env) (ces : list env)
  | OUp                                          (* handshake completed *)
  | ODown (ces : list env)                       (* session ended by the peer *)
  | OIfUp                                        (* network interface up *)
  | OStart (e : env)                             (* oc_cloud_manager_start *)
  | OStop (reset : bool) (ces : list env)        (* oc_cloud_manager_stop_v1 *)
  | ORestart (ces : list env)                    (* oc_cloud_manager_restart *)
  | OUpdate (ces : list env)                     (* a new configuration *)
  | OReset (force sync : bool) (e : env) (ces : list env)  (* cloud_reset *)
  | ODereg (e : env) (ces : list env)            (* oc_cloud_deregister *)
  | OReg (e : env)                               (* oc_cloud_register *)
  | OLogin (e : env) (ces : list env)            (* oc_cloud_login *)
  | OLogout (e : env)                            (* oc_cloud_logout *)
  | ORefresh (e : env).                          (* oc_cloud_refresh_token *)

Fixpoint drop {A} (i : nat) (l : list A) : list A :=
  match l, i with
  | [], _ => []
  | _ :: l', O => l'
  | x :: l', S i' => x :: drop i' l'
  end.

Definition step (s : ctx) (o : op) : ctx :=
  match o with
  | OFire t e ces => if pending t (tm s) then fire t e ces s else s
  | ORefd i e ces =>
      match nth_error (t_refd (tm s)) i with
      | Some p => f_refreshed ces e p
                    (uptm (fun t => w_t_refd (drop i (t_refd t)) t) s)
      | None => s
      end
  | ORst i e ces =>
      match nth_error (t_rst (tm s)) i with
      | Some p => f_on_reset ces e p
                    (uptm (fun t => w_t_rst (drop i (t_rst t)) t) s)
      | None => s
      end
  | OResp i r e ces =>
      match nth_error (reqs s) i with
      | Some q => handle (close ces) e r q (w_reqs (drop i (reqs s)) s)
      | None => s
      end
  | OUp => session_up s
  | ODown ces => if ep s then close ces s else s
  | OIfUp => interface_up s
  | OStart e => manager_start e s
  | OStop reset ces => manager_stop ces reset s
  | ORestart ces => manager_restart ces s
  | OUpdate ces => update_conf ces s
  | OReset force sync e ces => cloud_reset ces e force sync s
  | ODereg e ces => snd (do_deregister (close ces) e true KUser s)
  | OReg e => snd (do_register e KUser s)
  | OLogin e ces => snd (do_login (close ces) e (en_alloc e) KUser s)
  | OLogout e => snd (do_logout e KUser s)
  | ORefresh e => snd (do_refresh e (en_alloc e) KUser s)
  end.

Definition run (s : ctx) (l : list op) : ctx := fold_left step l s.

(* cloud_context_init (oc_cloud_context.c:86-114) after the store is loaded: the
   transient flags are masked out; a store left in the middle of a
   deregistration is emptied. *)
Definition boot (op_ tcp_ reg : bool) (c : cps_t) (k : tokens) : ctx :=
  if cps_eqb c CDeregistering
  then mkCtx status0 tokens0 timers0 CUninit false false op_ tcp_ false false false
             [] [] 0 false []
  else mkCtx (w_s_reg reg status0) k timers0 c false false op_ tcp_ false false false
             [] [] 0 false [].
