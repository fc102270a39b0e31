(** Ownership transfer by the onboarding tool: the three methods of
    security/oc_obt_otm_justworks.c, oc_obt_otm_randompin.c and
    oc_obt_otm_cert.c, the request for a random PIN, and the parts of
    security/oc_obt.c they use.

    Simplifications, all stated in DESIGN.md:
    - a device structure is its UUID, the address of its endpoints and the
      list it is on; handles are never reused, so that a use of freed
      memory, which the trace records, goes on with the old contents;
    - the outcome of memory allocation, of sending, of key derivation and of
      adding a credential is an input;
    - a local credential is its subject and the flag owner_cred;
    - the application's callbacks do not call back into the tool;
    - the devices' side is not part of this model. *)

From Coq Require Import List Bool Arith.
Import ListNotations.

(** OC_OBT_OTM_JW, OC_OBT_OTM_RDP, OC_OBT_OTM_CERT, OC_OBT_RDP. *)
Inductive kind : Type := JustWorks | RandomPin | MfgCert | AskPin.

(** The value of oxmsel, oc_doxm_internal.h: OC_OXMTYPE_JW, _RDP, _MFG_CERT. *)
Definition oxm (k : kind) : nat :=
  match k with JustWorks => 0 | RandomPin | AskPin => 1 | MfgCert => 2 end.

(** The requests; the numbers are those of the comment at
    oc_obt_otm_justworks.c:671-688. *)
Inductive msg : Type :=
| MGet                (* 1) GET doxm *)
| MSel (x : nat)      (* 2) POST doxm oxmsel *)
| MOm                 (* 3) POST pstat om *)
| MOwner              (* 4) POST doxm devowneruuid *)
| MUuid (u : nat)     (* 5) POST doxm deviceuuid *)
| MRowDoxm            (* 6) POST doxm rowneruuid *)
| MRowAcl             (* 7) POST acl2 rowneruuid *)
| MRowPstat           (* 8) POST pstat rowneruuid *)
| MCred               (* 9) POST cred *)
| MSdi                (* 10) POST sdi *)
| MOwned              (* 11) POST doxm owned = true *)
| MPro                (* 12) POST pstat s = rfpro *)
| MDelAcl             (* 13) DELETE acl2 *)
| MAcl                (* 14) POST acl2 *)
| MNop.               (* 15) POST pstat s = rfnop *)

(** The first two go to the unsecured endpoint. *)
Definition secure (m : msg) : bool :=
  match m with MGet | MSel _ => false | _ => true end.

(** The answers that are told apart: a code below 4.00, 4.04, any other;
    oc_obt_otm_justworks.c:271-278. *)
Inductive ans : Type := Fine | NotFound | Bad.

(** oc_cache, oc_devices, or neither. *)
Inductive place : Type := Cached | Owned | Freed.

Record dev : Type := mkdev { du : nat; da : nat; dl : place }.

(** oc_otm_ctx_t: the device, the method, the request whose answer is
    awaited (which callback is set) and the UUID drawn. *)
Record ctx : Type := mkctx { cid : nat; hnd : nat; kd : kind; stg : msg; ru : nat }.

(** A pending request of a transfer. *)
Record req : Type := mkreq { raddr : nat; rmsg : msg; rown : nat }.

(** What can be seen from outside. *)
Inductive ev : Type :=
| ECall (c h : nat) (k : kind)        (* a call returned 0 *)
| ERefused (c h : nat) (k : kind)     (* a call with a context returned -1 *)
| ENo                                 (* a call without one returned -1 *)
| ESent (c a : nat) (m : msg)         (* a request was sent to address a *)
| EAns (c : nat) (r : ans)            (* its answer came *)
| ELost (c : nat)                     (* its connection was closed *)
| EReport (c : nat) (good : bool)     (* the application's callback *)
| EFree (h : nat)                     (* the device h was freed *)
| EFault (h : nat)                    (* the freed device h was used or freed *)
| ENull                               (* a null pointer was followed *)
| EStuck.                             (* the model ran out of fuel *)

Record st : Type := mkst {
  heap : list dev;             (* the device at each handle *)
  creds : list (nat * bool);   (* the credentials: subject, owner_cred *)
  gets : list nat;             (* pending GET /oic/res with a device as user data *)
  ctxs : list ctx;             (* oc_otm_ctx_l *)
  reqs : list req;
  next : nat;
  tr : list ev }.

Definition init : st := mkst [] [] [] [] [] 0 [].

Definition set_heap (x : list dev) (s : st) := mkst x (creds s) (gets s) (ctxs s) (reqs s) (next s) (tr s).
Definition set_creds (x : list (nat * bool)) (s : st) := mkst (heap s) x (gets s) (ctxs s) (reqs s) (next s) (tr s).
Definition set_gets (x : list nat) (s : st) := mkst (heap s) (creds s) x (ctxs s) (reqs s) (next s) (tr s).
Definition set_ctxs (x : list ctx) (s : st) := mkst (heap s) (creds s) (gets s) x (reqs s) (next s) (tr s).
Definition set_reqs (x : list req) (s : st) := mkst (heap s) (creds s) (gets s) (ctxs s) x (next s) (tr s).
Definition emit (e : ev) (s : st) := mkst (heap s) (creds s) (gets s) (ctxs s) (reqs s) (next s) (tr s ++ [e]).

Definition get (h : nat) (s : st) : dev := nth h (heap s) (mkdev 0 0 Freed).

Fixpoint put {A} (h : nat) (x : A) (l : list A) : list A :=
  match l, h with
  | [], _ => []
  | _ :: l', O => x :: l'
  | y :: l', S h' => y :: put h' x l'
  end.

Definition set_dev (h : nat) (d : dev) (s : st) : st := set_heap (put h d (heap s)) s.

Definition is_cached (p : place) : bool := match p with Cached => true | _ => false end.
Definition is_freed (p : place) : bool := match p with Freed => true | _ => false end.

(** Any access to a device structure. *)
Definition touch (h : nat) (s : st) : st :=
  if is_freed (dl (get h s)) then emit (EFault h) s else s.

(** free_device, oc_obt.c:264-273. *)
Definition free_device (h : nat) (s : st) : st :=
  if is_freed (dl (get h s)) then emit (EFault h) s
  else emit (EFree h) (set_dev h (mkdev (du (get h s)) (da (get h s)) Freed) s).

(** oc_list_remove from oc_cache and oc_list_add to oc_devices,
    oc_obt.c:450-453. *)
Definition move (h : nat) (s : st) : st :=
  if is_freed (dl (get h s)) then emit (EFault h) s
  else set_dev h (mkdev (du (get h s)) (da (get h s)) Owned) s.

(** get_device_handle over oc_cache, oc_obt.c:151-169. *)
Fixpoint find_cached (u i : nat) (l : list dev) : option nat :=
  match l with
  | [] => None
  | d :: l' => if is_cached (dl d) && (du d =? u) then Some i else find_cached u (S i) l'
  end.

Definition handle (u : nat) (s : st) : option nat := find_cached u 0 (heap s).

(** oc_obt_is_owned_device, oc_obt.c:177-191. *)
Definition owned (u : nat) (s : st) : bool :=
  existsb (fun p => (fst p =? u) && snd p) (creds s).

(** oc_cred_remove_by_subject, oc_cred.c:287-296: the first one found. *)
Fixpoint remove_first (u : nat) (l : list (nat * bool)) : list (nat * bool) :=
  match l with
  | [] => []
  | p :: l' => if fst p =? u then l' else p :: remove_first u l'
  end.

Definition forget (u : nat) (s : st) : st := set_creds (remove_first u (creds s)) s.

(** oc_sec_remove_cred of the temporary credential of the random PIN method,
    found by its identifier (oc_obt_otm_randompin.c:683-686): it was added
    last. *)
Fixpoint remove_temp (u : nat) (l : list (nat * bool)) : list (nat * bool) :=
  match l with
  | [] => []
  | p :: l' => if (fst p =? u) && negb (snd p) then l' else p :: remove_temp u l'
  end.

Definition unlearn (u : nat) (s : st) : st :=
  set_creds (rev (remove_temp u (rev (creds s)))) s.

(** oc_sec_add_new_psk_cred, oc_cred.c:819-827, with a new credential
    identifier: nothing is replaced (oc_cred.c:685-757). *)
Definition learn (u : nat) (o : bool) (s : st) : st := set_creds (creds s ++ [(u, o)]) s.

(** oc_obt_is_otm_ctx_valid, oc_obt.c:415-419, with the context. *)
Definition find_ctx (c : nat) (s : st) : option ctx :=
  find (fun x => cid x =? c) (ctxs s).

Definition drop_ctx (c : nat) (s : st) : st :=
  set_ctxs (filter (fun x => negb (cid x =? c)) (ctxs s)) s.

Definition put_ctx (x : ctx) (s : st) : st :=
  set_ctxs (map (fun y => if cid y =? cid x then x else y) (ctxs s)) s.

(** The first pending request over the secure connection to an address,
    taken out: oc_client_cb.c:310-326. *)
Fixpoint pop (a : nat) (l : list req) : option (req * list req) :=
  match l with
  | [] => None
  | r :: l' =>
      if secure (rmsg r) && (raddr r =? a) then Some (r, l')
      else match pop a l' with
           | Some (x, l'') => Some (x, r :: l'')
           | None => None
           end
  end.

Definition member (a : nat) (l : list nat) : bool := existsb (Nat.eqb a) l.

(** [finish] is free_otm_state, oc_obt.c:433-458.

    [close] is oc_tls_close_connection (oc_tls.c:2315-2336) with
    oc_tls_free_peer (oc_tls.c:468-555): every request pending over the
    connection ends at once with an error, whose callback ends the transfer
    that sent it.  [up] lists the addresses with an open connection. *)
Fixpoint finish (f : nat) (up : list nat) (c : ctx) (good : bool) (s : st) : st :=
  match f with
  | O => emit EStuck s
  | S f' =>
      let s := touch (hnd c) (drop_ctx (cid c) s) in
      let s := close f' up (da (get (hnd c) s)) s in
      if good then
        let s := match kd c with AskPin => touch (hnd c) s | _ => move (hnd c) s end in
        emit (EReport (cid c) true) s
      else
        let s := touch (hnd c) s in
        let s := forget (du (get (hnd c) s)) s in
        free_device (hnd c) (emit (EReport (cid c) false) s)
  end
with close (f : nat) (up : list nat) (a : nat) (s : st) : st :=
  match f with
  | O => emit EStuck s
  | S f' =>
      if member a up then
        match pop a (reqs s) with
        | None => s
        | Some (r, l) =>
            let s := emit (ELost (rown r)) (set_reqs l s) in
            let s := match find_ctx (rown r) s with
                     | Some c => finish f' up c false s
                     | None => s
                     end in
            close f' up a s
        end
      else s
  end.

Definition done (up : list nat) (c : ctx) (good : bool) (s : st) : st :=
  finish (2 * length (reqs s) + 2) up c good s.

Definition hangup (up : list nat) (a : nat) (s : st) : st :=
  close (2 * length (reqs s) + 1) up a s.

(** Sends a request for a context: oc_do_get, oc_init_post and oc_do_post,
    or oc_do_delete.  The device is read for its endpoint. *)
Definition send (c h : nat) (m : msg) (s : st) : st :=
  let s := touch h s in
  let a := da (get h s) in
  emit (ESent c a m) (set_reqs (reqs s ++ [mkreq a m c]) s).

(** One step of a sequence: the context waits for [m]; if the request
    cannot be sent the transfer ends. *)
Definition go (up : list nat) (sendok : bool) (c : ctx) (m : msg) (s : st) : st :=
  if sendok then send (cid c) (hnd c) m (put_ctx (mkctx (cid c) (hnd c) (kd c) m (ru c)) s)
  else done up c false (touch (hnd c) s).

(** What an answer brings with it: whether the next request can be sent, the
    property oxms, the UUID drawn by oc_gen_uuid, and whether the key could
    be derived and the credential added. *)
Record input : Type := mkin { sendok : bool; oxms : list nat; rnd : nat; keyok : bool }.

(** The callback of a context when the answer is not an error. *)
Definition advance (up : list nat) (x : input) (c : ctx) (s : st) : st :=
  match stg c with
  (* obt_jw_2, obt_cert_2, obt_rrdp_2 *)
  | MGet =>
      if existsb (Nat.eqb (oxm (kd c))) (oxms x)
      then go up (sendok x) c (MSel (oxm (kd c))) s
      else done up c false s
  (* obt_jw_3, obt_cert_3; obt_rrdp_3 *)
  | MSel _ =>
      match kd c with
      | AskPin => done up c true s
      | _ =>
          let s := touch (hnd c) s in
          go up (sendok x) c MOm (hangup up (da (get (hnd c) s)) s)
      end
  (* obt_jw_4, obt_cert_4, obt_rdp_2 *)
  | MOm => go up (sendok x) c MOwner s
  (* obt_jw_5, obt_cert_5; obt_rdp_3 *)
  | MOwner =>
      let s := touch (hnd c) s in
      let d := get (hnd c) s in
      let s := match kd c with RandomPin => forget (du d) s | _ => s end in
      let s := set_dev (hnd c) (mkdev (rnd x) (da d) (dl d)) s in
      go up (sendok x) (mkctx (cid c) (hnd c) (kd c) (stg c) (rnd x)) (MUuid (rnd x)) s
  (* obt_jw_6, obt_cert_6, obt_rdp_4 *)
  | MUuid _ => go up (sendok x) c MRowDoxm s
  (* obt_jw_7, obt_cert_7, obt_rdp_5 *)
  | MRowDoxm => go up (sendok x) c MRowAcl s
  (* obt_jw_8, obt_cert_8, obt_rdp_6 *)
  | MRowAcl => go up (sendok x) c MRowPstat s
  (* obt_jw_9, obt_cert_9, obt_rdp_7 *)
  | MRowPstat =>
      let s := touch (hnd c) s in
      if keyok x
      then go up (sendok x) c MCred (learn (du (get (hnd c) s)) true s)
      else done up c false s
  (* obt_jw_10, obt_cert_10, obt_rdp_8 *)
  | MCred => go up (sendok x) c MSdi s
  (* obt_jw_11, obt_cert_11, obt_rdp_9 *)
  | MSdi => go up (sendok x) c MOwned s
  (* obt_jw_12, obt_cert_12, obt_rdp_10 *)
  | MOwned => go up (sendok x) c MPro s
  (* obt_jw_13, obt_cert_13, obt_rdp_11 *)
  | MPro => go up (sendok x) c MDelAcl s
  (* obt_jw_14, obt_cert_14, obt_rdp_12 *)
  | MDelAcl => go up (sendok x) c MAcl s
  (* obt_jw_15, obt_cert_15, obt_rdp_13 *)
  | MAcl => go up (sendok x) c MNop s
  (* obt_jw_16, obt_cert_16, obt_rdp_14 *)
  | MNop => done up c true s
  end.

(** Which answers let the transfer go on: 4.04 does after the POST of sdi,
    oc_obt_otm_justworks.c:271-278. *)
Definition accepted (m : msg) (r : ans) : bool :=
  match r, m with
  | Fine, _ => true
  | NotFound, MSdi => true
  | _, _ => false
  end.

(** The end of a pending request with an answer, or without one when CoAP
    gives up (an error as well). *)
Definition answer (i : nat) (r : ans) (x : input) (up : list nat) (s : st) : st :=
  match nth_error (reqs s) i with
  | None => s
  | Some q =>
      let s := emit (EAns (rown q) r)
                 (set_reqs (firstn i (reqs s) ++ skipn (S i) (reqs s)) s) in
      match find_ctx (rown q) s with
      | None => s
      | Some c => if accepted (stg c) r then advance up x c s else done up c false s
      end
  end.

(** How far a call gets: no memory for the context (or no key from the PIN);
    no memory for the temporary credential of the random PIN method; the
    first request cannot be sent; all is well. *)
Inductive luck : Type := NoContext | NoCred | NotSent | AllWell.

(** A call whose context [c] is on the list ends with -1. *)
Definition refuse (up : list nat) (c : ctx) (s : st) : st :=
  done up c false (emit (ERefused (cid c) (hnd c) (kd c)) s).

(** oc_obt_perform_just_works_otm (oc_obt_otm_justworks.c:689-725),
    oc_obt_perform_cert_otm (oc_obt_otm_cert.c:690-726),
    oc_obt_perform_random_pin_otm (oc_obt_otm_randompin.c:617-691) and
    oc_obt_request_random_pin (oc_obt_otm_randompin.c:767-801). *)
Definition docall (k : kind) (u : nat) (l : luck) (up : list nat) (s : st) : st :=
  match k with
  | AskPin =>
      if owned u s then emit ENo s else
      match handle u s with
      | None => emit ENo s
      | Some h =>
          let c := mkctx (next s) h k MGet 0 in
          let s1 := mkst (heap s) (creds s) (gets s) (ctxs s ++ [c]) (reqs s) (S (next s)) (tr s) in
          match l with
          | NoContext => emit ENo s
          | AllWell => send (cid c) h MGet (emit (ECall (cid c) h k) s1)
          | _ => refuse up c s1
          end
      end
  | JustWorks | MfgCert =>
      match handle u s with
      | None => emit ENo s
      | Some h =>
          let s := if owned u s then forget u s else s in
          let c := mkctx (next s) h k MGet 0 in
          let s1 := mkst (heap s) (creds s) (gets s) (ctxs s ++ [c]) (reqs s) (S (next s)) (tr s) in
          match l with
          | NoContext => emit ENo s
          | AllWell => send (cid c) h MGet (emit (ECall (cid c) h k) s1)
          | _ => refuse up c s1
          end
      end
  | RandomPin =>
      match handle u s with
      | None => emit ENo s
      | Some h =>
          let s := if owned u s then forget u s else s in
          match l with
          | NoContext => emit ENo s
          | NoCred => emit ENo (emit ENull s)   (* o->device is not yet set, oc_obt.c:440 *)
          | _ =>
              let s := hangup up (da (get h s)) (learn u false s) in
              let c := mkctx (next s) h k MOm 0 in
              let s1 := mkst (heap s) (creds s) (gets s) (ctxs s ++ [c]) (reqs s) (S (next s)) (tr s) in
              match l with
              | AllWell => send (cid c) h MOm (emit (ECall (cid c) h k) s1)
              | _ => refuse up c (unlearn u s1)
              end
          end
      end
  end.

(** obt_check_owned, oc_obt.c:602-661, for a device that says it has no
    owner: cache_new_device (oc_obt.c:226-262) over oc_cache, and a GET of
    /oic/res with the device as user data. *)
Definition discover (u a : nat) (s : st) : st :=
  match handle u s with
  | Some h => set_gets (gets s ++ [h]) (set_dev h (mkdev u a Cached) s)
  | None => set_gets (gets s ++ [length (heap s)]) (set_heap (heap s ++ [mkdev u a Cached]) s)
  end.

(** get_endpoints, oc_obt.c:549-600, for such a GET: the endpoints of the
    device are replaced. *)
Definition endpoints (i : nat) (s : st) : st :=
  match nth_error (gets s) i with
  | None => s
  | Some h => touch h (set_gets (firstn i (gets s) ++ skipn (S i) (gets s)) s)
  end.

Inductive op : Type :=
| ODiscover (u a : nat)
| OEndpoints (i : nat)
| OCall (k : kind) (u : nat) (l : luck) (up : list nat)
| OAnswer (i : nat) (r : ans) (x : input) (up : list nat)
| OLose (a : nat) (up : list nat).   (* the peer or the network ends the connection to a *)

Definition step (s : st) (o : op) : st :=
  match o with
  | ODiscover u a => discover u a s
  | OEndpoints i => endpoints i s
  | OCall k u l up => docall k u l up s
  | OAnswer i r x up => answer i r x up s
  | OLose a up => hangup (a :: up) a s
  end.

Definition run (ops : list op) : st := fold_left step ops init.
