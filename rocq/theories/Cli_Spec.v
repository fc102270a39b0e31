(** What is claimed about client requests (C38). *)
From Verif Require Import Common Cli_Model.
Local Open Scope N_scope.

(** The record a pointer stands for. *)
Definition lookup (s : st) (i : N) : option cb := find (fun c => c_id c =? i) (s_cbs s).
Definition running (s : st) (i : N) : Prop := exists d r, In (FAnswer i d r) (s_stack s).

(** Which requests a closed session or a message id concerns. *)
Definition concerns (x : select) (c : cb) : bool := match x with SMid m => c_mid c =? m | SEp e => c_ep c =? e end.
Definition unicast (k : kind) : bool := match k with KOne | KObserve | KPing => true | _ => false end.
Definition once (k : kind) : bool := match k with KOne | KPing => true | _ => false end.

(** The rules an application has to keep:
    - a ping is not a GET, observations, discoveries and multicasts are GETs, and two-step requests are POST or PUT;
    - between oc_init_post (or put) and oc_do_post (or put) nothing else is done and no handler returns;
    - oc_do_post and oc_do_put follow an oc_init;
    - oc_stop_observe that fails to make its message is not about the request whose handler runs;
    - the handler of a lost ping does not close the session of this ping. *)
Definition ask_ok (q : ask) : bool := match q_kind q with KPing => negb (q_get q) | KOne => true | _ => q_get q end.
Definition careful (s : st) (o : op) : bool :=
  match s_pend s with
  | Some _ => match o with Do _ _ | StopMulticast _ => true | _ => false end
  | None =>
      match o with
      | Request q _ => ask_ok q
      | Init q _ => kind_eqb (q_kind q) KOne && negb (q_get q)
      | Do t _ => t
      | StopObserve u e _ NoDispatch =>
          forallb (fun f => match f with
                            | FAnswer i _ _ => forallb (fun c => negb ((c_id c =? i) && list_eqb (c_uri c) u && (c_ep c =? e))) (s_cbs s)
                            | _ => true
                            end) (s_stack s)
      | Cancel x _ =>
          forallb (fun f => match f with
                            | FPing i => forallb (fun c => negb ((c_id c =? i) && concerns x c)) (s_cbs s)
                            | _ => true
                            end) (s_stack s)
      | _ => true
      end
  end.
(** Servers that put no Observe option into the answer to a request that did not ask for it. *)
Definition plain (s : st) (o : op) : bool :=
  let fair (c : cb) (r : resp) := negb (once (c_kind c)) || (a_obs r =? NOT_SET)%Z in
  match o with
  | Deliver r => forallb (fun c => negb (list_eqb (c_tok c) (a_tok r)) || fair c r) (s_cbs s)
  | Buffered i r => forallb (fun c => negb (c_id c =? i) || fair c r) (s_cbs s)
  | _ => true
  end.

Section Histories.
Variables oscore tcp : bool.
(** Everything that can happen when all events satisfy [ok], with the calls of handlers. *)
Inductive history (ok : st -> op -> bool) : st -> list call -> Prop :=
| h_start : history ok start []
| h_step s t o s' t' : history ok s t -> may s o = true -> ok s o = true -> step oscore tcp s o = Some (s', t') ->
    history ok s' (t ++ t').

(** Events while the handlers above a stack [k] run. *)
Inductive inside (k : list frame) : st -> list op -> st -> Prop :=
| in_none s : (List.length k < List.length (s_stack s))%nat -> inside k s [] s
| in_more s o s1 t l s2 : (List.length k < List.length (s_stack s))%nat -> may s o = true -> step oscore tcp s o = Some (s1, t) -> inside k s1 l s2 ->
    inside k s (o :: l) s2.
End Histories.

(** Why a request can end. *)
Inductive ends (s : st) (o : op) (t : list call) (c : cb) : Prop :=
| E_told code : t = [Called (c_id c) (c_kind c) (Cancelled code)] -> ends s o t c
| E_lifetime : o = Fire (c_id c) TLife -> ends s o t c
| E_unsent tm : o = Do tm false -> s_pend s = Some (c_id c) -> ends s o t c
| E_unsent_stop u e m : o = StopObserve u e m NoDispatch -> c_uri c = u -> c_ep c = e -> ends s o t c
| E_answered d r stop k : o = Return stop -> s_stack s = FAnswer (c_id c) d r :: k -> a_obs r = NOT_SET -> ends s o t c
| E_lost_ping stop k : o = Return stop -> s_stack s = FPing (c_id c) :: k -> ends s o t c
| E_unreadable r : (o = Deliver r \/ o = Buffered (c_id c) r) -> a_body r = Payload false -> a_obs r = NOT_SET -> t = [] -> ends s o t c
| E_replaced d : lookup s (c_id d) = Some d -> c_id d <> c_id c -> c_tok d = c_tok c -> c_uri d = c_uri c -> c_obs c <> NOT_SET ->
    (exists r, a_obs r = REGISTER /\ a_ep r = c_ep c /\
      ((exists stop k b, o = Return stop /\ s_stack s = FAnswer (c_id d) b r :: k) \/ o = Deliver r \/ o = Buffered (c_id d) r)) -> ends s o t c.

(** One cancelling loop whose handlers return at once. *)
Definition told (x : select) (code : N) (l : list cb) : list call :=
  map (fun c => Called (c_id c) (c_kind c) (Cancelled code)) (filter (fun c => unicast (c_kind c) && negb (c_busy c) && concerns x c) l).
Definition rest (x : select) (l : list cb) : list cb := filter (fun c => negb (unicast (c_kind c) && negb (c_busy c) && concerns x c)) l.

(** Whether every event of a list satisfies [ok] in the state in which it happens. *)
Fixpoint obeys (oscore tcp : bool) (ok : st -> op -> bool) (s : st) (l : list op) : bool :=
  match l with
  | [] => true
  | o :: l => ok s o && match step oscore tcp s o with Some (s', _) => obeys oscore tcp ok s' l | None => true end
  end.
