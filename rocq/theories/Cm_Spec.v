(* What an application may rely on from the cloud manager. *)
From Coq Require Import List Bool Arith ZArith.
Import ListNotations.
From Verif Require Import Cm_Model.

(* ---- the status ---- *)

(* A device is logged in only while it is registered. *)
Definition login_needs_registration (s : ctx) : Prop :=
  s_log (st s) = true -> s_reg (st s) = true.

(* A registered device has what it needs to renew its access. *)
Definition registered_has_tokens (s : ctx) : Prop :=
  s_reg (st s) = true -> k_rfr (tok s) = true /\ k_uid (tok s) = true.

(* ---- progress ---- *)

(* The parameters belong to a deregistration on behalf of a reset. *)
Fixpoint for_reset (c : cont) : bool :=
  match c with
  | KUser => false
  | KReset _ => true
  | KTryLogin (Param _ c') => for_reset c'
  | KTryRefreshed (Param _ c') => for_reset c'
  end.

Definition reset_param (p : param) : bool := for_reset (pcont p).

Definition reset_req (q : req) : bool :=
  match q with QApi _ p => reset_param p | _ => false end.

(* A reset is under way. *)
Definition resetting (s : ctx) : bool :=
  t_clear (tm s) || existsb reset_param (t_refd (tm s))
  || negb (match t_rst (tm s) with [] => true | _ => false end)
  || existsb reset_req (reqs s).

Definition is_login (q : req) : bool := match q with QLogin => true | _ => false end.
Definition is_refresh (q : req) : bool := match q with QRefresh => true | _ => false end.

(* Something is under way that leads to the login of the device, to another
   attempt or to the end of the registration. *)
Definition busy (s : ctx) : bool :=
  t_login (tm s) || t_rfr (tm s) || t_reconn (tm s) || t_restart (tm s)
  || t_start (tm s) || existsb is_login (reqs s) || existsb is_refresh (reqs s)
  || resetting s.

(* The device is logged in over a session whose end will be noticed. *)
Definition online (s : ctx) : bool :=
  s_log (st s) && conn s && ep s && peer s && subs s.

Definition progress (s : ctx) : Prop :=
  mgr s = true -> oper s = true -> s_reg (st s) = true ->
  busy s = true \/ online s = true.

(* Operations of the application and of the network that the manager copes
   with.  A session does not come up while the manager is about to restart; the
   interface does not come up while the session is up; a login is only answered
   over a session the manager knows of; a reset does not find a deregistration;
   a redirection does not meet a call of the application; calls of the
   application that register, log out or refresh are answered while the manager
   is not running. *)
Definition api_user (a : api) (p : param) : bool :=
  negb (reset_param p)
  && match a with AReg | ALogout | ARefresh => true | _ => false end.

Definition is_api (q : req) : bool := match q with QApi _ _ => true | _ => false end.

Definition tolerable (s : ctx) (o : op) : bool :=
  match o with
  | OUp => negb (t_start (tm s) || t_restart (tm s))
  | OIfUp => negb (conn s)
  | OResp i r _ _ =>
      match nth_error (reqs s) i, r with
      | Some QLogin, ROk _ => conn s
      | Some QReg, ROk (Some d) =>
          negb (pl_redirect d && existsb is_api (reqs s))
      | Some (QApi AReg p), ROk (Some d) =>
          negb (mgr s) && negb (pl_redirect d && existsb is_api (drop i (reqs s)))
      | Some (QApi a p), _ => negb (api_user a p && mgr s)
      | _, _ => true
      end
  | OReset _ _ _ _ | ORst _ _ _ => negb (cps_eqb (cps s) CDeregistering)
  | _ => true
  end.

(* Every operation of a run satisfies P in the state it meets. *)
Fixpoint along (P : ctx -> op -> bool) (s : ctx) (l : list op) : bool :=
  match l with
  | [] => true
  | o :: l' => P s o && along P (step s o) l'
  end.

(* ---- reset ---- *)

Definition erased (s : ctx) : Prop :=
  st s = status0 /\ tok s = tokens0 /\ cps s = CUninit /\ ep s = false
  /\ conn s = false.

Definition cleared_count (s : ctx) : nat :=
  length (filter (fun e => match e with ECleared => true | _ => false end) (out s)).

(* ---- silence ---- *)

Definition sent (s : ctx) : list req :=
  flat_map (fun e => match e with ESent q => [q] | _ => [] end) (out s).

Definition is_update (o : op) : bool := match o with OUpdate _ => true | _ => false end.

(* No answer that would register the device is outstanding. *)
Definition harmless (q : req) : bool :=
  match q with QReg | QApi _ _ => false | _ => true end.

(* ---- memory ---- *)

Fixpoint ids_c (c : cont) : list nat :=
  match c with
  | KUser | KReset _ => []
  | KTryLogin (Param i c') | KTryRefreshed (Param i c') => i :: ids_c c'
  end.

(* The allocations reachable from parameters. *)
Definition ids (p : param) : list nat := pid p :: ids_c (pcont p).

Definition ids_req (q : req) : list nat :=
  match q with QApi _ p => ids p | _ => [] end.

(* The allocations reachable from outstanding requests and delayed callbacks. *)
Definition owned (s : ctx) : list nat :=
  flat_map ids_req (reqs s) ++ flat_map ids (t_refd (tm s))
  ++ flat_map ids (t_rst (tm s)).

(* The delayed second half of a deregistration can send its request. *)
Definition goes_on (s : ctx) (o : op) : bool :=
  match o with
  | ORefd i e _ =>
      (ep s || en_addr e) && en_send e
      && (en_short e || s_log (st s)
          || (s_reg (st s) && en_alloc e && k_uid (tok s) && k_acc (tok s)))
  | _ => true
  end.

(* What nothing is left of after a reset: the registration and the tokens. *)
Definition forgotten (s : ctx) : Prop := s_reg (st s) = false /\ tok s = tokens0.

(* Operations during which a reset that is under way goes on.  The application
   does not configure another cloud; a reset does not find a deregistration;
   and while the manager runs the session does not end, the manager is not
   restarted and the device is not redirected. *)
Definition calm (s : ctx) (o : op) : bool :=
  match o with
  | ORst _ _ _ => negb (cps_eqb (cps s) CDeregistering)
  | OUpdate _ => false
  | ODown _ | OIfUp | ORestart _ | OFire TRestart _ _ | OFire TReconn _ _ =>
      negb (mgr s)
  | OResp _ (ROk (Some d)) _ _ => negb (pl_redirect d)
  | _ => true
  end.

(* A device without cloud: not registered, without an access token, and without
   outstanding answers that could register it. *)
Definition cloudless (s : ctx) : Prop :=
  s_reg (st s) = false /\ s_log (st s) = false /\ k_acc (tok s) = false
  /\ t_refd (tm s) = [] /\ forallb harmless (reqs s) = true.

(* A manager that has been stopped has nothing left to do. *)
Definition stopped (s : ctx) : Prop :=
  mgr s = false /\ reqs s = [] /\ t_reg (tm s) = false /\ t_login (tm s) = false
  /\ t_ping (tm s) = false /\ t_rfr (tm s) = false /\ t_refd (tm s) = []
  /\ t_rst (tm s) = [] /\ t_reconn (tm s) = false /\ t_restart (tm s) = false
  /\ t_start (tm s) = false.

(* Operations that the application does not ask for. *)
Definition passive (o : op) : bool :=
  match o with
  | OStart _ | OReset _ _ _ _ | ODereg _ _ | OReg _ | OLogin _ _ | OLogout _
  | ORefresh _ => false
  | _ => true
  end.
