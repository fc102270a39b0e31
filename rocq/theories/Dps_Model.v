(* The client of the plgd device provisioning service: the manager, the five
   provisioning steps, the start of the cloud, the observer of the cloud, the
   renewal of certificates and the reactions to session and interface events
   (api/plgd/device-provisioning-client/plgd_dps_manager.c,
   plgd_dps_provision.c, plgd_dps_provision_owner.c,
   plgd_dps_provision_cloud.c, plgd_dps_time.c, plgd_dps_cloud.c,
   plgd_dps_pki.c, plgd_dps.c, plgd_dps_context.c).

   Simplifications.  One device, with a cloud context.  What the code asks its
   surroundings (is there an endpoint, was the request sent, are the
   certificates valid, ...) comes from the [env] of the operation.  Delays, the
   retry counter (Dpr_Model), last_error, the status callback, notifications
   and the stored configuration are left out.  Delayed callbacks may fire in any
   order; outstanding requests may be answered in any order with any code.
   Requests of the observer's server list are reduced to the number of other
   servers.  The set-cloud handler does not report a change of the selected
   server to the observer.  Shutdown, DHCP and the change of the endpoint by the
   API outside of an update of the resource are not modelled. *)
From Coq Require Import List Bool Arith Lia.
Import ListNotations.

(* The steps in the order in which they are done: time, owner, cloud
   configuration, credentials, access control lists. *)
Inductive step5 := ST | SO | SL | SC | SA.

Definition step5_eqb (a b : step5) : bool :=
  match a, b with
  | ST, ST | SO, SO | SL, SL | SC, SC | SA, SA => true
  | _, _ => false
  end.

(* One flag of the status for each step. *)
Record fl := mkFl { fT : bool; fO : bool; fL : bool; fC : bool; fA : bool }.

Definition fget (k : step5) (f : fl) : bool :=
  match k with
  | ST => fT f | SO => fO f | SL => fL f | SC => fC f | SA => fA f
  end.

Definition fset (k : step5) (v : bool) (f : fl) : fl :=
  match k with
  | ST => mkFl v (fO f) (fL f) (fC f) (fA f)
  | SO => mkFl (fT f) v (fL f) (fC f) (fA f)
  | SL => mkFl (fT f) (fO f) v (fC f) (fA f)
  | SC => mkFl (fT f) (fO f) (fL f) v (fA f)
  | SA => mkFl (fT f) (fO f) (fL f) (fC f) v
  end.

Definition fnone : fl := mkFl false false false false false.
Definition fall (f : fl) : bool := fT f && fO f && fL f && fC f && fA f.
Definition fl_eqb (f g : fl) : bool :=
  eqb (fT f) (fT g) && eqb (fO f) (fO g) && eqb (fL f) (fL g)
  && eqb (fC f) (fC g) && eqb (fA f) (fA g).

(* The bits of plgd_dps_status_t (include/plgd/plgd_dps.h:123-139). *)
Record status := mkStatus {
  ini : bool;
  gets : fl;
  hass : fl;
  cst : bool;
  ren : bool;
  tra : bool;
  fai : bool }.

Definition u_ini (v : bool) (s : status) : status :=
  mkStatus v (gets s) (hass s) (cst s) (ren s) (tra s) (fai s).
Definition u_gets (v : fl) (s : status) : status :=
  mkStatus (ini s) v (hass s) (cst s) (ren s) (tra s) (fai s).
Definition u_hass (v : fl) (s : status) : status :=
  mkStatus (ini s) (gets s) v (cst s) (ren s) (tra s) (fai s).
Definition u_cst (v : bool) (s : status) : status :=
  mkStatus (ini s) (gets s) (hass s) v (ren s) (tra s) (fai s).
Definition u_ren (v : bool) (s : status) : status :=
  mkStatus (ini s) (gets s) (hass s) (cst s) v (tra s) (fai s).
Definition u_tra (v : bool) (s : status) : status :=
  mkStatus (ini s) (gets s) (hass s) (cst s) (ren s) v (fai s).
Definition u_fai (v : bool) (s : status) : status :=
  mkStatus (ini s) (gets s) (hass s) (cst s) (ren s) (tra s) v.

Definition st0 : status := mkStatus false fnone fnone false false false false.

(* Delayed callbacks of the context: dps_manager_provision_async,
   dps_manager_provision_retry_async, dps_provisioning_start_async,
   dps_provision_next_step_async, dps_manager_reprovision_and_restart_async,
   dps_manager_start_async, dps_cloud_observer_reprovision_server_uuid_change_async,
   dps_cloud_observe_status_async, dps_pki_renew_certificates_async,
   dps_pki_renew_certificates_retry_async, dps_update_manager_restart. *)
Inductive cb := KProv | KRetry | KStart | KNext | KReprov | KMgr | KUuid
  | KObs | KRenew | KRenewR | KRestart.

Definition cb_eqb (a b : cb) : bool :=
  match a, b with
  | KProv, KProv | KRetry, KRetry | KStart, KStart | KNext, KNext
  | KReprov, KReprov | KMgr, KMgr | KUuid, KUuid | KObs, KObs
  | KRenew, KRenew | KRenewR, KRenewR | KRestart, KRestart => true
  | _, _ => false
  end.

(* What happens, as seen from the service, the cloud and the application. *)
Inductive ev :=
  | EReq (k : step5)    (* the request of a step is sent *)
  | EDone (k : step5)   (* an answer has been accepted and applied *)
  | EFail (k : step5)   (* an answer has been refused *)
  | ETrans (k : step5)  (* no answer because of the connection *)
  | ERej                (* a cloud configuration has been refused *)
  | ECloud              (* the cloud manager is started or restarted *)
  | ENoStart            (* the cloud manager could not be started *)
  | EAttempt            (* a provisioning attempt begins *)
  | EForget             (* all steps have to be repeated *)
  | EForgetCA           (* credentials and access control have to be repeated *)
  | EReset              (* the status is cleared: there is no endpoint *)
  | EFactory            (* factory reset *)
  | EStart (h : fl)     (* the manager is started, with these steps done *)
  | EForce              (* reprovisioning is demanded *)
  | ERenew              (* a request for new certificates is sent *)
  | ERenewed            (* new certificates have been installed *)
  | ESwitch             (* the observer switches to the next cloud server *)
  | EMoved.             (* an answer to a renewal redirects the device *)

(* st: status; mgr: manager_started; force: force_reprovision; trc:
   transient_retry_count; pend: pending delayed callbacks; reqs: outstanding
   requests of steps; rnws: outstanding requests of renewals; conn:
   endpoint_state is OC_SESSION_CONNECTED; closing: closing_insecure_peer;
   epset: endpoint is not empty; sreg, ireg: the session and interface callbacks
   are registered; cmgr: the cloud manager is started; omax: maximal number of
   checks of the observer; orem: remaining_endpoint_changes; ocnt: retry_count;
   oini: initial_endpoint_uri is set and the server-change hook is installed;
   oreg, olog: last_status; hbp: has_been_provisioned_since_reset; tr: events,
   latest first. *)
Record ctx := mkCtx {
  st : status;
  mgr : bool;
  force : bool;
  trc : nat;
  pend : list cb;
  reqs : list step5;
  rnws : nat;
  conn : bool;
  closing : bool;
  epset : bool;
  sreg : bool;
  ireg : bool;
  cmgr : bool;
  omax : nat;
  orem : nat;
  ocnt : nat;
  oini : bool;
  oreg : bool;
  olog : bool;
  hbp : bool;
  tr : list ev }.

Definition w_st (v : status) (s : ctx) : ctx :=
  mkCtx v (mgr s) (force s) (trc s) (pend s) (reqs s) (rnws s) (conn s) (closing s) (epset s) (sreg s) (ireg s) (cmgr s) (omax s) (orem s) (ocnt s) (oini s) (oreg s) (olog s) (hbp s) (tr s).
Definition w_mgr (v : bool) (s : ctx) : ctx :=
  mkCtx (st s) v (force s) (trc s) (pend s) (reqs s) (rnws s) (conn s) (closing s) (epset s) (sreg s) (ireg s) (cmgr s) (omax s) (orem s) (ocnt s) (oini s) (oreg s) (olog s) (hbp s) (tr s).
Definition w_force (v : bool) (s : ctx) : ctx :=
  mkCtx (st s) (mgr s) v (trc s) (pend s) (reqs s) (rnws s) (conn s) (closing s) (epset s) (sreg s) (ireg s) (cmgr s) (omax s) (orem s) (ocnt s) (oini s) (oreg s) (olog s) (hbp s) (tr s).
Definition w_trc (v : nat) (s : ctx) : ctx :=
  mkCtx (st s) (mgr s) (force s) v (pend s) (reqs s) (rnws s) (conn s) (closing s) (epset s) (sreg s) (ireg s) (cmgr s) (omax s) (orem s) (ocnt s) (oini s) (oreg s) (olog s) (hbp s) (tr s).
Definition w_pend (v : list cb) (s : ctx) : ctx :=
  mkCtx (st s) (mgr s) (force s) (trc s) v (reqs s) (rnws s) (conn s) (closing s) (epset s) (sreg s) (ireg s) (cmgr s) (omax s) (orem s) (ocnt s) (oini s) (oreg s) (olog s) (hbp s) (tr s).
Definition w_reqs (v : list step5) (s : ctx) : ctx :=
  mkCtx (st s) (mgr s) (force s) (trc s) (pend s) v (rnws s) (conn s) (closing s) (epset s) (sreg s) (ireg s) (cmgr s) (omax s) (orem s) (ocnt s) (oini s) (oreg s) (olog s) (hbp s) (tr s).
Definition w_rnws (v : nat) (s : ctx) : ctx :=
  mkCtx (st s) (mgr s) (force s) (trc s) (pend s) (reqs s) v (conn s) (closing s) (epset s) (sreg s) (ireg s) (cmgr s) (omax s) (orem s) (ocnt s) (oini s) (oreg s) (olog s) (hbp s) (tr s).
Definition w_conn (v : bool) (s : ctx) : ctx :=
  mkCtx (st s) (mgr s) (force s) (trc s) (pend s) (reqs s) (rnws s) v (closing s) (epset s) (sreg s) (ireg s) (cmgr s) (omax s) (orem s) (ocnt s) (oini s) (oreg s) (olog s) (hbp s) (tr s).
Definition w_closing (v : bool) (s : ctx) : ctx :=
  mkCtx (st s) (mgr s) (force s) (trc s) (pend s) (reqs s) (rnws s) (conn s) v (epset s) (sreg s) (ireg s) (cmgr s) (omax s) (orem s) (ocnt s) (oini s) (oreg s) (olog s) (hbp s) (tr s).
Definition w_epset (v : bool) (s : ctx) : ctx :=
  mkCtx (st s) (mgr s) (force s) (trc s) (pend s) (reqs s) (rnws s) (conn s) (closing s) v (sreg s) (ireg s) (cmgr s) (omax s) (orem s) (ocnt s) (oini s) (oreg s) (olog s) (hbp s) (tr s).
Definition w_sreg (v : bool) (s : ctx) : ctx :=
  mkCtx (st s) (mgr s) (force s) (trc s) (pend s) (reqs s) (rnws s) (conn s) (closing s) (epset s) v (ireg s) (cmgr s) (omax s) (orem s) (ocnt s) (oini s) (oreg s) (olog s) (hbp s) (tr s).
Definition w_ireg (v : bool) (s : ctx) : ctx :=
  mkCtx (st s) (mgr s) (force s) (trc s) (pend s) (reqs s) (rnws s) (conn s) (closing s) (epset s) (sreg s) v (cmgr s) (omax s) (orem s) (ocnt s) (oini s) (oreg s) (olog s) (hbp s) (tr s).
Definition w_cmgr (v : bool) (s : ctx) : ctx :=
  mkCtx (st s) (mgr s) (force s) (trc s) (pend s) (reqs s) (rnws s) (conn s) (closing s) (epset s) (sreg s) (ireg s) v (omax s) (orem s) (ocnt s) (oini s) (oreg s) (olog s) (hbp s) (tr s).
Definition w_omax (v : nat) (s : ctx) : ctx :=
  mkCtx (st s) (mgr s) (force s) (trc s) (pend s) (reqs s) (rnws s) (conn s) (closing s) (epset s) (sreg s) (ireg s) (cmgr s) v (orem s) (ocnt s) (oini s) (oreg s) (olog s) (hbp s) (tr s).
Definition w_orem (v : nat) (s : ctx) : ctx :=
  mkCtx (st s) (mgr s) (force s) (trc s) (pend s) (reqs s) (rnws s) (conn s) (closing s) (epset s) (sreg s) (ireg s) (cmgr s) (omax s) v (ocnt s) (oini s) (oreg s) (olog s) (hbp s) (tr s).
Definition w_ocnt (v : nat) (s : ctx) : ctx :=
  mkCtx (st s) (mgr s) (force s) (trc s) (pend s) (reqs s) (rnws s) (conn s) (closing s) (epset s) (sreg s) (ireg s) (cmgr s) (omax s) (orem s) v (oini s) (oreg s) (olog s) (hbp s) (tr s).
Definition w_oini (v : bool) (s : ctx) : ctx :=
  mkCtx (st s) (mgr s) (force s) (trc s) (pend s) (reqs s) (rnws s) (conn s) (closing s) (epset s) (sreg s) (ireg s) (cmgr s) (omax s) (orem s) (ocnt s) v (oreg s) (olog s) (hbp s) (tr s).
Definition w_oreg (v : bool) (s : ctx) : ctx :=
  mkCtx (st s) (mgr s) (force s) (trc s) (pend s) (reqs s) (rnws s) (conn s) (closing s) (epset s) (sreg s) (ireg s) (cmgr s) (omax s) (orem s) (ocnt s) (oini s) v (olog s) (hbp s) (tr s).
Definition w_olog (v : bool) (s : ctx) : ctx :=
  mkCtx (st s) (mgr s) (force s) (trc s) (pend s) (reqs s) (rnws s) (conn s) (closing s) (epset s) (sreg s) (ireg s) (cmgr s) (omax s) (orem s) (ocnt s) (oini s) (oreg s) v (hbp s) (tr s).
Definition w_hbp (v : bool) (s : ctx) : ctx :=
  mkCtx (st s) (mgr s) (force s) (trc s) (pend s) (reqs s) (rnws s) (conn s) (closing s) (epset s) (sreg s) (ireg s) (cmgr s) (omax s) (orem s) (ocnt s) (oini s) (oreg s) (olog s) v (tr s).
Definition w_tr (v : list ev) (s : ctx) : ctx :=
  mkCtx (st s) (mgr s) (force s) (trc s) (pend s) (reqs s) (rnws s) (conn s) (closing s) (epset s) (sreg s) (ireg s) (cmgr s) (omax s) (orem s) (ocnt s) (oini s) (oreg s) (olog s) (hbp s) v.

Definition upd_st (f : status -> status) (s : ctx) : ctx := w_st (f (st s)) s.
Definition emit (e : ev) (s : ctx) : ctx := w_tr (e :: tr s) s.

Definition mem (c : cb) (l : list cb) : bool := existsb (cb_eqb c) l.
Definition drop (c : cb) (l : list cb) : list cb :=
  filter (fun d => negb (cb_eqb c d)) l.
(* oc_remove_delayed_callback *)
Definition del (c : cb) (s : ctx) : ctx := w_pend (drop c (pend s)) s.
(* dps_reset_delayed_callback_ms (plgd_dps_apis.c:71-91) *)
Definition add (c : cb) (s : ctx) : ctx := w_pend (c :: drop c (pend s)) s.

(* Answers of the surroundings. *)
Record env := mkEnv {
  e_ep : bool;      (* an endpoint of the service is selected *)
  e_epinit : bool;  (* its address can be resolved *)
  e_own : bool;     (* the device is owned or could own itself *)
  e_wait : bool;    (* a reset or the closing of sessions is in progress *)
  e_send : bool;    (* the request could be sent *)
  e_tcp : bool;     (* fetching the time opened an insecure session *)
  e_certs : bool;   (* dps_check_credentials *)
  e_sched : bool;   (* the renewal interval could be computed *)
  e_idc : bool;     (* dps_try_set_identity_chain *)
  e_cstart : bool;  (* oc_cloud_manager_start succeeds *)
  e_mfg : bool;     (* there is a manufacturer certificate *)
  e_has : fl;       (* what is found to be there when the manager starts *)
  e_creg : bool;    (* the cloud reports registered *)
  e_clog : bool;    (* the cloud reports logged in *)
  e_cconn : bool;   (* the session with the cloud is connected *)
  e_sel : bool;     (* a cloud server is selected *)
  e_nsrv : nat;     (* number of other cloud servers *)
  e_next : bool;    (* another cloud server could be selected *)
  e_init : bool;    (* the selected cloud server is the initial one *)
  e_uuid : bool;    (* its identifier differs from the last one *)
  e_same : bool;    (* the cloud configuration is already in use *)
  e_late : bool;    (* refused after the old cloud had been stopped *)
  e_redir : bool }. (* the answer redirects to another endpoint *)

(* Answer of the service, by the branches of dps_response_get_error_code
   (plgd_dps_apis.c:122-132): RConn: a timeout or connection error code; RErr: any
   other error code; RBad: success with a payload that is refused; ROk. *)
Inductive resp := ROk | RBad | RConn | RErr.

(* dps_set_ps_and_last_error(ctx, 0, PLGD_DPS_PROVISIONED_ERROR_FLAGS, ...)
   (plgd_dps_internal.h:39-40) *)
Definition noerr (s : ctx) : ctx :=
  upd_st (fun t => u_tra false (u_fai false t)) s.
Definition err (t : status) : bool := tra t || fai t.

(* dps_is_provisioned (plgd_dps_provision.c:604-610) *)
Definition provisioned (t : status) : bool := fall (hass t) && negb (err t).
(* dps_is_provisioned_with_cloud_started (plgd_dps_provision.c:612-624) *)
Definition pcs (s : ctx) : bool := provisioned (st s) && cmgr s && cst (st s).

(* plgd_dps_force_reprovision (plgd_dps_context.c:193-199) *)
Definition set_force (s : ctx) : ctx := emit EForce (w_force true s).

(* dps_endpoint_disconnect (plgd_dps_endpoint.c:135-145) *)
Definition disconnect (s : ctx) : ctx := w_epset false (w_conn false s).

(* dps_cloud_observer_deinit (plgd_dps_cloud.c:94-117) *)
Definition odeinit (s : ctx) : ctx :=
  w_orem 0 (w_ocnt 0 (w_oini false (w_oreg false (w_olog false (del KObs s))))).

(* dps_cloud_observe_status (plgd_dps_cloud.c:298-314).  The callback that is
   being executed is still found by oc_has_delayed_callback
   (api/oc_event_callback.c:91-105, 208-216). *)
Definition observe (s : ctx) : ctx :=
  if Nat.eqb (omax s) 0 then odeinit s
  else if mem KObs (pend s) then s
  else add KObs s.

(* dps_manager_stop (plgd_dps_manager.c:227-243) *)
Definition mstop (s : ctx) : ctx :=
  w_mgr false (odeinit
    (del KUuid (del KRenewR (del KRenew (del KNext (del KReprov
      (del KRetry (del KProv (del KStart s)))))))))
  .

(* plgd_dps_manager_stop (plgd_dps_manager.c:245-259) *)
Definition pstop (s : ctx) : ctx :=
  disconnect (mstop (del KMgr (w_sreg false s))).

(* dps_manager_start (plgd_dps_manager.c:45-54) *)
Definition mstart (s : ctx) : ctx :=
  if mgr s then s else add KProv (w_mgr true s).

(* dps_check_credentials_and_schedule_renewal (plgd_dps_security.c:402-412) and
   dps_pki_schedule_renew_certificates (plgd_dps_pki.c:226-246) when the
   credentials are valid *)
Definition schedule_renew (e : env) (s : ctx) : ctx :=
  if e_sched e then add KRenew s else s.

(* The provision_flags of dps_get_provision_and_cloud_observer_flags
   (plgd_dps_manager.c:104-142): a step counts only if all earlier ones do. *)
Definition found (e : env) : fl :=
  let t := fT (e_has e) in
  let o := t && fO (e_has e) in
  let l := o && fL (e_has e) in
  let c := l && e_certs e && e_idc e in
  let a := c && fA (e_has e) in
  mkFl t o l c a.

(* ... and its side effect: the renewal is scheduled when the credentials were
   looked at and are valid. *)
Definition found_renew (e : env) (s : ctx) : ctx :=
  if fL (found e) && e_certs e then schedule_renew e s else s.

Definition found_cloud (e : env) (s : ctx) : ctx :=
  if fA (found e) && e_creg e
  then w_oreg true (w_olog (olog s || e_clog e) s) else s.

(* plgd_dps_manager_start (plgd_dps_manager.c:144-200) *)
Definition pstart (e : env) (s : ctx) : ctx :=
  if mgr s then s
  else if negb (e_ep e) then emit EReset (w_force false (w_st st0 s))
  else if negb (e_mfg e) then s
  else
    let h := if force s then fnone else found e in
    let c := negb (force s) && fA (found e) && e_creg e && cmgr s in
    let s1 := if force s then s else found_cloud e (found_renew e s) in
    let s2 := w_trc 0 (w_force false
                (w_st (mkStatus true fnone h c false false false) s1)) in
    let s3 := if fall h then w_hbp true s2 else s2 in
    w_sreg true (w_ireg true (mstart (emit (EStart h) s3))).

(* plgd_dps_manager_restart (plgd_dps_manager.c:220-225) *)
Definition prestart (e : env) (s : ctx) : ctx := pstart e (pstop s).

(* dps_manager_reprovision_and_restart (plgd_dps_manager.c:261-275) *)
Definition reprov_restart (e : env) (s : ctx) : ctx :=
  prestart e (w_cmgr false (set_force s)).

(* dps_manager_restart (plgd_dps.c:58-63) *)
Definition mrestart (s : ctx) : ctx := add KMgr (mstop s).

(* dps_manager_start_async (plgd_dps_manager.c:209-218) *)
Definition mstart_async (s : ctx) : ctx := mstart (w_epset false s).

(* dps_manager_provision_async (plgd_dps_manager.c:295-349) *)
Definition forget (s : ctx) : ctx :=
  if force s
  then emit EForget (w_force false (upd_st (fun t => u_hass fnone (u_gets fnone t)) s))
  else s.

Definition prov_async (e : env) (s0 : ctx) : ctx :=
  let s := emit EAttempt (forget s0) in
  if pcs s then observe s
  else if negb (ini (st s)) then s
  else if negb (e_ep e) then mstop (emit EReset (w_st st0 s))
  else if negb (epset s || e_epinit e) then add KRetry s
  else if negb (e_own e) then add KRetry (w_epset true s)
  else add KStart (w_epset true s).

(* dps_manager_provision_retry_async (plgd_dps_manager.c:285-293) *)
Definition retry_async (e : env) (s : ctx) : ctx := prov_async e (disconnect s).

(* dps_provisioning_start_async (plgd_dps_provision.c:511-531) *)
Definition start_async (e : env) (s : ctx) : ctx :=
  if e_wait e then add KStart s else add KNext s.

(* dps_get_plgd_time (plgd_dps_time.c:174-230), dps_get_owner
   (plgd_dps_provision_owner.c:155-178), dps_provisioning_set_cloud
   (plgd_dps_provision_cloud.c:379-412; it keeps the error flags),
   dps_get_credentials, dps_get_acls (plgd_dps_provision.c:317-334, 206-229),
   with the failure branch of dps_provision_next_step_async. *)
Definition ask (e : env) (k : step5) (s : ctx) : ctx :=
  if negb (e_send e) then add KRetry (upd_st (u_fai true) s)
  else
    let s1 := if step5_eqb k SL then s else noerr s in
    let s2 := if step5_eqb k ST && e_tcp e then w_closing true s1 else s1 in
    emit (EReq k) (w_reqs (reqs s ++ [k])
      (upd_st (fun t => u_gets (fset k true (gets t)) t) s2)).

(* dps_cloud_observer_load and dps_cloud_observer_on_provisioning_started
   (plgd_dps_cloud.c:142-199) *)
Definition ostart (e : env) (s : ctx) : ctx :=
  if oini s then observe s
  else if e_sel e
  then observe (w_oini true (w_orem (e_nsrv e)
         (w_ocnt 0 (w_oreg false (w_olog false s)))))
  else reprov_restart e s.

(* The part of dps_provisioning_start_cloud after the label finish
   (plgd_dps_provision.c:592-601) *)
Definition cloud_started (e : env) (s : ctx) : ctx :=
  w_hbp true (ostart e (noerr (upd_st (u_cst true) (w_trc 0 (emit ECloud s))))).

(* dps_provisioning_start_cloud (plgd_dps_provision.c:548-602) and the failure
   branch of dps_provision_next_step_async when it fails *)
Definition start_cloud (e : env) (s0 : ctx) : ctx :=
  let s := del KRetry s0 in
  if cmgr s then cloud_started e s
  else if e_cstart e then cloud_started e (w_cmgr true s)
  else add KRetry (emit ENoStart (w_force true
         (upd_st (fun t => u_fai true (u_cst false t)) s))).

(* missing certificates in dps_provision_next_step_async
   (plgd_dps_provision.c:484-502) *)
Definition fl_noCA (f : fl) : fl := mkFl (fT f) (fO f) (fL f) false false.
Definition forget_CA (s : ctx) : ctx :=
  emit EForgetCA
    (upd_st (fun t => u_gets (fl_noCA (gets t)) (u_hass (fl_noCA (hass t)) t)) s).

(* dps_provision_next_step_async (plgd_dps_provision.c:440-509) and
   dps_provision_next_step_start_cloud (398-417) *)
Definition next_step (e : env) (s : ctx) : ctx :=
  let h := hass (st s) in
  if negb (fT h) then ask e ST s
  else if negb (fO h) then ask e SO s
  else if negb (fL h) then ask e SL s
  else if negb (fC h) then ask e SC s
  else if negb (fA h) then ask e SA s
  else if negb (provisioned (st s)) then s
  else if pcs s then w_hbp true s
  else if mem KRenew (pend s) then start_cloud e s
  else if e_certs e then start_cloud e (schedule_renew e s)
  else add KRetry (forget_CA (upd_st (u_fai true) s)).

(* dps_provisioning_handle_failure (plgd_dps_provision.c:630-654) *)
Definition handle_failure (sched : bool) (s : ctx) : ctx :=
  let s1 := if tra (st s)
            then if Nat.leb 3 (S (trc s)) then w_trc 0 (w_force true s)
                 else w_trc (S (trc s)) s
            else s in
  let s2 := if fai (st s) then w_force true s1 else s1 in
  if sched then add KRetry s2 else s2.

(* The status which the handler of a step requires, apart from the error flags:
   plgd_dps_time.c:119, plgd_dps_provision_owner.c:93-94,
   plgd_dps_provision_cloud.c:276-277, plgd_dps_provision.c:158-160, 250-252. *)
Definition upto (k : step5) : fl :=
  match k with
  | ST => fnone
  | SO => mkFl true false false false false
  | SL => mkFl true true false false false
  | SC => mkFl true true true false false
  | SA => mkFl true true true true false
  end.

Definition expected (k : step5) (t : status) : bool :=
  ini t && fl_eqb (gets t) (fset k true fnone) && fl_eqb (hass t) (upto k)
  && negb (cst t) && negb (ren t) && negb (tra t) && negb (fai t).

(* Whether the handler of the time schedules what comes next itself, or leaves
   it to the session event (plgd_dps_time.c:148-153, 163-170). *)
Definition goes_on (k : step5) (s : ctx) : bool :=
  if step5_eqb k ST then negb (conn s) || negb (closing s) else true.

(* The label error of the handlers; the one of dps_set_cloud_handler schedules
   nothing (plgd_dps_provision_cloud.c:316-317). *)
Definition step_error (k : step5) (s : ctx) : ctx :=
  if step5_eqb k SL then emit ERej (upd_st (u_fai true) s)
  else handle_failure (goes_on k s)
         (emit (EFail k)
            (upd_st (fun t => u_fai true (u_hass (fset k false (hass t)) t)) s)).

(* A response was accepted. *)
Definition step_done (k : step5) (s : ctx) : ctx :=
  let s1 := w_trc 0 (noerr (emit (EDone k)
    (upd_st (fun t => u_gets (fset k false (gets t))
                        (u_hass (fset k true (hass t)) t)) s))) in
  if goes_on k s1 then add KNext s1 else s1.

(* dps_handle_set_cloud_response (plgd_dps_provision_cloud.c:157-241): the old
   cloud is stopped and no longer observed. *)
Definition old_cloud_stopped (s : ctx) : ctx := odeinit (w_cmgr false s).

(* dps_handle_redirect_response (plgd_dps_apis.c:134-184) *)
Definition redirect (e : env) (k : step5) (s : ctx) : ctx :=
  if e_redir e && negb (step5_eqb k ST) then disconnect s else s.

Definition step_payload (e : env) (k : step5) (ok : bool) (s0 : ctx) : ctx :=
  let s := redirect e k s0 in
  match k with
  | SL =>
      if ok then step_done k (if e_same e then s else old_cloud_stopped s)
      else step_error k (if e_late e then old_cloud_stopped s else s)
  | SC =>
      if ok && e_certs e then
        let s1 := schedule_renew e s in
        if e_idc e then step_done k s1 else step_error k s1
      else step_error k s
  | _ => if ok then step_done k s else step_error k s
  end.

(* dps_get_time_handler (plgd_dps_time.c:99-172), dps_get_owner_handler
   (plgd_dps_provision_owner.c:75-143), dps_set_cloud_handler
   (plgd_dps_provision_cloud.c:256-318), dps_get_credentials_handler and
   dps_get_acls_handler (plgd_dps_provision.c:231-305, 139-204), with
   dps_provisioning_check_response (plgd_dps_provision.c:43-63). *)
Definition handler (e : env) (k : step5) (r : resp) (s0 : ctx) : ctx :=
  if fget k (hass (st s0)) && negb (fai (st s0)) then s0
  else
    let s := noerr (del KRetry s0) in
    if negb (expected k (st s)) then step_error k s
    else match r with
         | ROk => step_payload e k true s
         | RBad => step_payload e k false s
         | RConn => handle_failure (goes_on k s)
                      (emit (ETrans k) (upd_st (u_tra true) s))
         | RErr => handle_failure (goes_on k s)
                      (emit (EFail k) (upd_st (u_fai true) s))
         end.

Fixpoint rem_first (k : step5) (l : list step5) : list step5 :=
  match l with
  | [] => []
  | x :: l' => if step5_eqb k x then l' else x :: rem_first k l'
  end.

(* dps_pki_replace_credentials_retry (plgd_dps_pki.c:287-294) with the forced
   reprovisioning when it fails *)
Definition renew_retry (e : env) (s : ctx) : ctx :=
  if e_certs e then schedule_renew e s else reprov_restart e s.

(* dps_pki_renew_certificates_async (plgd_dps_pki.c:378-397) and
   dps_pki_try_renew_certificates (347-368) *)
Definition renew_async (e : env) (s : ctx) : ctx :=
  if negb (pcs s) then s
  else if e_send e
  then emit ERenew (w_rnws (S (rnws s)) (upd_st (u_ren true) (add KRenewR s)))
  else renew_retry e s.

Definition redirect_renew (e : env) (s : ctx) : ctx :=
  if e_redir e then emit EMoved (disconnect s) else s.

(* dps_pki_replace_credentials_handler (plgd_dps_pki.c:296-345) *)
Definition renew_handler (e : env) (r : resp) (s0 : ctx) : ctx :=
  let s := del KRenewR s0 in
  if negb (pcs s) && negb (ren (st s)) then s
  else match r with
       | RConn | RErr => renew_retry e s
       | RBad => renew_retry e (redirect_renew e s)
       | ROk =>
           let s1 := redirect_renew e s in
           if negb (e_certs e) then reprov_restart e s1
           else let s2 := schedule_renew e s1 in
                if negb (e_idc e) then reprov_restart e s2
                else emit ERenewed (w_trc 0 (upd_st (u_ren false) s2))
       end.

(* dps_cloud_observer_on_server_change (plgd_dps_cloud.c:224-271) *)
Definition server_change (e : env) (s : ctx) : ctx :=
  if Nat.eqb (orem s) 0 then s
  else if negb (e_sel e) then add KReprov (del KObs s)
  else if e_init e then add KReprov (del KObs (w_orem 0 s))
  else
    let s1 := w_orem (pred (orem s)) (w_ocnt 0 (w_oreg false (w_olog false s))) in
    if e_uuid e then add KUuid (del KObs s1) else observe s1.

(* dps_cloud_observer_reprovision_server_uuid_change_async
   (plgd_dps_cloud.c:201-222) *)
Definition uuid_async (s : ctx) : ctx :=
  add KNext (forget_CA (upd_st (u_cst false) (w_cmgr false s))).

(* dps_cloud_observe_status_async (plgd_dps_cloud.c:328-402).  The callback
   stays in the list while it runs. *)
Definition obs_restart (e : env) (s : ctx) : ctx :=
  del KObs (reprov_restart e (odeinit s)).

Definition obs_retry (e : env) (s : ctx) : ctx :=
  let s1 := w_ocnt (S (ocnt s)) s in
  if Nat.leb (omax s1) (ocnt s1) then
    if Nat.eqb (orem s1) 0 then obs_restart e s1
    else if negb (e_next e) then obs_restart e s1
    else del KObs (emit ESwitch (if oini s1 then server_change e s1 else s1))
  else s1.

Definition obs_note (reg log : bool) (s : ctx) : ctx :=
  let s1 := if reg && negb (oreg s) then w_oreg true (w_ocnt 0 s) else s in
  if log && negb (olog s1) then w_olog true (w_ocnt 0 s1) else s1.

Definition obs_async (e : env) (s : ctx) : ctx :=
  if negb (cmgr s) then obs_restart e s
  else if Nat.eqb (omax s) 0 then del KObs s
  else if negb (e_cconn e) then obs_retry e (w_oreg false (w_olog false s))
  else
    let s1 := obs_note (e_creg e) (e_clog e) s in
    if oreg s1 && olog s1 then odeinit s1 else obs_retry e s1.

(* Running a pending callback.  All but the observer are taken from the list
   first; those that schedule themselves again add a new entry. *)
Definition fire (e : env) (c : cb) (s0 : ctx) : ctx :=
  if negb (mem c (pend s0)) then s0
  else
    let s := del c s0 in
    match c with
    | KProv => prov_async e s
    | KRetry => retry_async e s
    | KStart => start_async e s
    | KNext => next_step e s
    | KReprov => reprov_restart e s
    | KMgr => mstart_async s
    | KUuid => uuid_async s
    | KObs => obs_async e s0
    | KRenew => renew_async e s
    | KRenewR => renew_async e s
    | KRestart => prestart e s
    end.

(* dps_handle_endpoint_event (plgd_dps.c:65-126), when the endpoint of the event
   is the one of the context *)
Definition sess_up (s : ctx) : ctx :=
  if sreg s && epset s && mgr s then w_conn true s else s.

Definition sess_down (s0 : ctx) : ctx :=
  if sreg s0 && epset s0 && mgr s0 && conn s0 then
    let s := w_conn false s0 in
    if closing s then
      let s1 := w_closing false s in
      if err (st s1) then add KRetry (w_epset false s1) else add KNext s1
    else if negb (err (st s)) && negb (pcs s) then mrestart s else s
  else s0.

(* dps_restart_initialized and dps_interface_event_handler
   (plgd_dps.c:150-166) *)
Definition only_ini (t : status) : bool :=
  ini t && fl_eqb (gets t) fnone && fl_eqb (hass t) fnone && negb (cst t)
  && negb (ren t) && negb (tra t) && negb (fai t).

(* dps_context_reset (plgd_dps_context.c:129-144) *)
Definition factory (s : ctx) : ctx :=
  emit EFactory (w_hbp false (w_trc 0 (w_st st0 (mstop (disconnect (odeinit s)))))).

Inductive op :=
  | OStart            (* plgd_dps_manager_start *)
  | OStop             (* plgd_dps_manager_stop *)
  | ORestart          (* plgd_dps_manager_restart *)
  | OForce            (* plgd_dps_force_reprovision *)
  | OFactory          (* plgd_dps_on_factory_reset *)
  | OPost             (* an update of the resource that changes something
                         (plgd_dps_resource.c:468-501) *)
  | OFire (c : cb)    (* a delayed callback fires *)
  | OResp (k : step5) (r : resp)  (* an outstanding request ends *)
  | ORenew (r : resp) (* an outstanding renewal ends *)
  | OUp | ODown       (* session events of the endpoint *)
  | OCloudDown        (* the session with the cloud is disconnected
                         (plgd_dps.c:138-147) *)
  | OIface            (* a network interface comes up *)
  | OServer           (* the cloud selects another server
                         (plgd_dps_cloud.c:81-92) *)
  | OCloudMgr (b : bool) (* the cloud manager is started or stopped by others *)
  | OObsMax (n : nat).   (* plgd_dps_set_cloud_observer_configuration *)

Definition step (eo : env * op) (s : ctx) : ctx :=
  let (e, o) := eo in
  match o with
  | OStart => pstart e s
  | OStop => pstop s
  | ORestart => prestart e s
  | OForce => set_force s
  | OFactory => factory s
  | OPost => add KRestart (set_force (if e_redir e then disconnect s else s))
  | OFire c => fire e c s
  | OResp k r =>
      if existsb (step5_eqb k) (reqs s)
      then handler e k r (w_reqs (rem_first k (reqs s)) s) else s
  | ORenew r =>
      match rnws s with
      | 0 => s
      | S n => renew_handler e r (w_rnws n s)
      end
  | OUp => sess_up s
  | ODown => sess_down s
  | OCloudDown => if sreg s && cmgr s then observe s else s
  | OIface => if ireg s && only_ini (st s) then mrestart s else s
  | OServer => if oini s then server_change e s else s
  | OCloudMgr b => w_cmgr b s
  | OObsMax n => w_omax n s
  end.

(* dps_context_init (plgd_dps_context.c:87-114), dps_cloud_observer_init
   (plgd_dps_cloud.c:72-79) *)
Definition init : ctx :=
  mkCtx st0 false false 0 [] [] 0 false false false false false false
    30 0 0 false false false false [].

Definition run (l : list (env * op)) : ctx :=
  fold_left (fun s eo => step eo s) l init.
