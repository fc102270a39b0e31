(** The management sequences of the onboarding tool
    (security/oc_obt.c): hard reset of a device, pairwise credentials,
    pairwise OSCORE contexts, access control entries, and the deletion of
    credentials and of entries.

    Simplifications, all stated in DESIGN.md:
    - a known device is a pair of a memory handle and a UUID; it has one
      secure endpoint, named by the UUID;
    - the helper context of [switch_dos] (oc_obt.c:817-895) is one with the
      request it sends: it is created when the request is sent and freed
      when the request ends, before the sequence goes on;
    - the outcome of memory allocation and of sending is an input;
    - the application's callbacks do not call back into the tool;
    - after a use of freed memory, which the trace records, the model goes
      on with the old contents. *)

From Coq Require Import List Bool Arith.
Import ListNotations.

(** oc_device_t, include/oc_obt.h: the address and the UUID. *)
Definition dref : Type := (nat * nat)%type.

(** The device states sent to /oic/sec/pstat, oc_pstat_internal.h:47-53. *)
Inductive dos : Type := DosReset | DosPro | DosNop.

(** The requests sent to a device. *)
Inductive msg : Type :=
| MDos (s : dos)                       (* POST /oic/sec/pstat, oc_obt.c:874-886 *)
| MKey (subject key : nat)             (* POST /oic/sec/cred, oc_obt.c:1563-1580, 1614-1633 *)
| MOsc (subject secret snd rcv : nat)  (* POST /oic/sec/cred, oc_obt.c:1074-1111, 1142-1182 *)
| MAce (ace : nat)                     (* POST /oic/sec/acl2, oc_obt.c:2650-2730 *)
| MDelKey (id : nat)                   (* DELETE /oic/sec/cred, oc_obt.c:3099-3105 *)
| MDelAce (id : nat).                  (* DELETE /oic/sec/acl2, oc_obt.c:3431-3437 *)

(** The operations, with the devices their contexts point to:
    oc_hard_reset_ctx_t, oc_credprov_ctx_t, oc_oscoreprov_ctx_t,
    oc_acl2prov_ctx_t, oc_creddel_ctx_t, oc_acedel_ctx_t. *)
Inductive task : Type :=
| TReset (d : dref)
| TPair (a b : dref)
| TOsc (a b : dref)
| TAce (d : dref) (ace : nat)
| TDelKey (d : dref) (id : nat)
| TDelAce (d : dref) (id : nat).

(** Which callback waits for the answer: hard_reset_cb; device1_RFPRO,
    provision_ace, creddel_RFPRO, acedel_RFPRO; device2_RFPRO; device1_cred,
    acl2_response, cred_del, ace_del; device2_cred; device1_RFNOP,
    provision_ace_complete, creddel_RFNOP, acedel_RFNOP; device2_RFNOP. *)
Inductive stage : Type :=
| WReset | WPro1 | WPro2 | WWork1 | WWork2 | WNop1 | WNop2.

(** A context of one of the lists oc_obt.c:62-103. *)
Record ctx : Type := mkctx {
  cid : nat;
  tsk : task;
  stg : stage;
  sec : nat;   (* p->key, or p->secret *)
  sid : nat;   (* p->sendid *)
  rid : nat }. (* p->recvid *)

(** A pending request, oc_client_cb_t: the endpoint, the request and the
    context given as user data. *)
Record req : Type := mkreq { rep : nat; rmsg : msg; rown : nat }.

(** What can be seen from outside; [c] is the context's number. *)
Inductive ev : Type :=
| ECall (c : nat) (t : task)          (* a call returned 0 *)
| ERefused                            (* a call returned -1 *)
| ESent (c u : nat) (m : msg)         (* a request was sent to device u *)
| EAns (c : nat) (good : bool)        (* its answer came, code below 4.00 or not *)
| ELost (c : nat)                     (* its connection was closed *)
| EReport (c : nat) (good : bool)     (* the application's callback *)
| EForget (c u : nat)                 (* the credentials for u were removed *)
| EFree (h : nat)                     (* the device at h was freed *)
| EFault (h : nat)                    (* freed memory at h was used or freed *)
| EStuck.                             (* the model ran out of fuel *)

Record st : Type := mkst {
  devs : list dref;    (* oc_devices *)
  creds : list nat;    (* subjects of the owner credentials *)
  ctxs : list ctx;
  reqs : list req;
  next : nat;
  nexth : nat;
  tr : list ev }.

Definition init : st := mkst [] [] [] [] 0 0 [].

Definition set_devs (x : list dref) (s : st) := mkst x (creds s) (ctxs s) (reqs s) (next s) (nexth s) (tr s).
Definition set_creds (x : list nat) (s : st) := mkst (devs s) x (ctxs s) (reqs s) (next s) (nexth s) (tr s).
Definition set_ctxs (x : list ctx) (s : st) := mkst (devs s) (creds s) x (reqs s) (next s) (nexth s) (tr s).
Definition set_reqs (x : list req) (s : st) := mkst (devs s) (creds s) (ctxs s) x (next s) (nexth s) (tr s).
Definition emit (e : ev) (s : st) := mkst (devs s) (creds s) (ctxs s) (reqs s) (next s) (nexth s) (tr s ++ [e]).

(** get_device_handle over oc_devices, oc_obt.c:151-175. *)
Definition handle (u : nat) (s : st) : option dref :=
  find (fun d => snd d =? u) (devs s).

(** oc_obt_is_owned_device, oc_obt.c:177-191. *)
Definition owned (u : nat) (s : st) : bool := existsb (Nat.eqb u) (creds s).

Definition alive (h : nat) (s : st) : bool := existsb (fun d => fst d =? h) (devs s).

(** Any access to a device structure. *)
Definition touch (d : dref) (s : st) : st :=
  if alive (fst d) s then s else emit (EFault (fst d)) s.

(** free_device, oc_obt.c:264-273. *)
Definition free_device (d : dref) (s : st) : st :=
  if alive (fst d) s
  then emit (EFree (fst d)) (set_devs (filter (fun x => negb (fst x =? fst d)) (devs s)) s)
  else emit (EFault (fst d)) s.

(** is_item_in_list, oc_obt.c:402-413, with the item. *)
Definition find_ctx (c : nat) (s : st) : option ctx :=
  find (fun x => cid x =? c) (ctxs s).

Definition drop_ctx (c : nat) (s : st) : st :=
  set_ctxs (filter (fun x => negb (cid x =? c)) (ctxs s)) s.

Definition put_ctx (x : ctx) (s : st) : st :=
  set_ctxs (map (fun y => if cid y =? cid x then x else y) (ctxs s)) s.

(** The first pending request to an endpoint, taken out: the loop of
    oc_ri_free_client_cbs_by_endpoint_v1, oc_client_cb.c:310-326. *)
Fixpoint pop (u : nat) (l : list req) : option (req * list req) :=
  match l with
  | [] => None
  | r :: l' =>
      if rep r =? u then Some (r, l')
      else match pop u l' with
           | Some (x, l'') => Some (x, r :: l'')
           | None => None
           end
  end.

Definition member (u : nat) (l : list nat) : bool := existsb (Nat.eqb u) l.

(** [finish] is free_hard_reset_ctx (oc_obt.c:899-923),
    free_oscoreprov_state (971-990), free_credprov_state (1447-1472),
    free_acl2prov_state (2572-2588), free_creddel_state (3025-3040) and
    free_acedel_state (3358-3373).

    [close] is oc_tls_close_connection (oc_tls.c:2315-2336) with
    oc_tls_free_peer (oc_tls.c:468-555): every request pending at the
    endpoint ends at once with OC_CONNECTION_CLOSED, whose callback ends the
    sequence that sent it: every callback of a sequence frees its context
    when the answer is an error.  [up] lists the endpoints with an open
    connection. *)
Fixpoint finish (f : nat) (up : list nat) (c : ctx) (good : bool) (s : st) : st :=
  match f with
  | O => emit EStuck s
  | S f' =>
      let s := drop_ctx (cid c) s in
      match tsk c with
      | TReset d =>
          let s := close f' up (snd d) (touch d s) in
          let s := if good
                   then emit (EForget (cid c) (snd d))
                          (set_creds (filter (fun x => negb (x =? snd d)) (creds s)) s)
                   else s in
          let s := emit (EReport (cid c) good) (touch d s) in
          free_device d s
      | TPair a b | TOsc a b =>
          let s := close f' up (snd a) (touch a s) in
          let s := close f' up (snd b) (touch b s) in
          emit (EReport (cid c) good) s
      | TAce d _ =>
          let s := close f' up (snd d) (touch d s) in
          emit (EReport (cid c) good) (touch d s)
      | TDelKey d _ | TDelAce d _ =>
          let s := close f' up (snd d) (touch d s) in
          emit (EReport (cid c) good) s
      end
  end
with close (f : nat) (up : list nat) (u : nat) (s : st) : st :=
  match f with
  | O => emit EStuck s
  | S f' =>
      if member u up then
        match pop u (reqs s) with
        | None => s
        | Some (r, l) =>
            let s := emit (ELost (rown r)) (set_reqs l s) in
            let s := match find_ctx (rown r) s with
                     | Some c => finish f' up c false s
                     | None => s
                     end in
            close f' up u s
        end
      else s
  end.

Definition fuel (s : st) : nat := 2 * length (reqs s) + 2.

Definition done (up : list nat) (c : ctx) (good : bool) (s : st) : st :=
  finish (fuel s) up c good s.

(** Sends a request for a context: oc_init_post and oc_do_post, or
    oc_do_delete.  The device is read for its endpoint. *)
Definition send (c : nat) (d : dref) (m : msg) (s : st) : st :=
  let s := touch d s in
  emit (ESent c (snd d) m)
    (set_reqs (reqs s ++ [mkreq (snd d) m c]) s).

(** One step of a sequence: the next stage, the device and the request;
    if the request cannot be sent the sequence ends. *)
Definition go (up : list nat) (sendok : bool) (c : ctx) (d : dref) (m : msg) (s : st) : st :=
  if sendok then send (cid c) d m (put_ctx c s)
  else done up c false (touch d s).

Definition at_stage (x : stage) (c : ctx) : ctx :=
  mkctx (cid c) (tsk c) x (sec c) (sid c) (rid c).

Definition with_keys (k a b : nat) (c : ctx) : ctx :=
  mkctx (cid c) (tsk c) (stg c) k a b.

(** The callback of a context when the answer is a success.  [k a b] are
    the random values drawn by device2_RFPRO (oc_obt.c:1603) and
    device2oscore_RFPRO (oc_obt.c:1135-1137). *)
Definition advance (up : list nat) (sendok : bool) (k a b : nat) (c : ctx) (s : st) : st :=
  match tsk c, stg c with
  (* hard_reset_cb, oc_obt.c:925-934 *)
  | TReset _, _ => done up c true s
  (* device1_RFPRO, oc_obt.c:1642-1660 *)
  | TPair _ d2, WPro1 => go up sendok (at_stage WPro2 c) d2 (MDos DosPro) s
  (* device2_RFPRO, oc_obt.c:1589-1640 *)
  | TPair d1 d2, WPro2 =>
      go up sendok (at_stage WWork1 (with_keys k a b c)) d1
         (MKey (snd d2) k) (touch d2 s)
  (* device1_cred, oc_obt.c:1540-1587 *)
  | TPair d1 d2, WWork1 =>
      go up sendok (at_stage WWork2 c) d2 (MKey (snd d1) (sec c)) (touch d1 s)
  (* device2_cred, oc_obt.c:1517-1538 *)
  | TPair d1 _, WWork2 => go up sendok (at_stage WNop1 c) d1 (MDos DosNop) s
  (* device1_RFNOP, oc_obt.c:1497-1515 *)
  | TPair _ d2, WNop1 => go up sendok (at_stage WNop2 c) d2 (MDos DosNop) s
  (* device2_RFNOP, oc_obt.c:1480-1495 *)
  | TPair _ _, _ => done up c true s
  (* device1oscore_RFPRO, oc_obt.c:1193-1211 *)
  | TOsc _ d2, WPro1 => go up sendok (at_stage WPro2 c) d2 (MDos DosPro) s
  (* device2oscore_RFPRO, oc_obt.c:1122-1191 *)
  | TOsc d1 d2, WPro2 =>
      go up sendok (at_stage WWork1 (with_keys k a b c)) d1
         (MOsc (snd d2) k a b) (touch d2 s)
  (* device1oscore_cred, oc_obt.c:1056-1120 *)
  | TOsc d1 d2, WWork1 =>
      go up sendok (at_stage WWork2 c) d2
         (MOsc (snd d1) (sec c) (rid c) (sid c)) (touch d1 s)
  (* device2oscore_cred, oc_obt.c:1036-1054 *)
  | TOsc d1 _, WWork2 => go up sendok (at_stage WNop1 c) d1 (MDos DosNop) s
  (* device1oscore_RFNOP, oc_obt.c:1015-1034 *)
  | TOsc _ d2, WNop1 => go up sendok (at_stage WNop2 c) d2 (MDos DosNop) s
  (* device2oscore_RFNOP, oc_obt.c:998-1013 *)
  | TOsc _ _, _ => done up c true s
  (* provision_ace, oc_obt.c:2634-2736 *)
  | TAce d x, WPro1 => go up sendok (at_stage WWork1 c) d (MAce x) s
  (* acl2_response, oc_obt.c:2613-2632 *)
  | TAce d _, WWork1 => go up sendok (at_stage WNop1 c) d (MDos DosNop) s
  (* provision_ace_complete, oc_obt.c:2596-2611 *)
  | TAce _ _, _ => done up c true s
  (* creddel_RFPRO, oc_obt.c:3085-3111 *)
  | TDelKey d x, WPro1 => go up sendok (at_stage WWork1 c) d (MDelKey x) s
  (* cred_del, oc_obt.c:3065-3083 *)
  | TDelKey d _, WWork1 => go up sendok (at_stage WNop1 c) d (MDos DosNop) s
  (* creddel_RFNOP, oc_obt.c:3048-3063 *)
  | TDelKey _ _, _ => done up c true s
  (* acedel_RFPRO, oc_obt.c:3418-3443 *)
  | TDelAce d x, WPro1 => go up sendok (at_stage WWork1 c) d (MDelAce x) s
  (* ace_del, oc_obt.c:3398-3416 *)
  | TDelAce d _, WWork1 => go up sendok (at_stage WNop1 c) d (MDos DosNop) s
  (* acedel_RFNOP, oc_obt.c:3381-3396 *)
  | TDelAce _ _, _ => done up c true s
  end.

(** The end of a pending request with an answer, or without one when CoAP
    gives up: oc_client_cb_invoke; then the callback.  A code of 4.00 or
    more, which OC_TRANSACTION_TIMEOUT is too, ends the sequence.
    OC_REQUEST_TIMEOUT, which pstat_POST_dos1_to_dos2 (oc_obt.c:835-850)
    takes for a success, is not modelled: it is given to requests sent
    with a time limit only (oc_client_cb.c:279-285), and oc_do_post sets
    none. *)
Definition answer (i : nat) (good sendok : bool) (k a b : nat) (up : list nat) (s : st) : st :=
  match nth_error (reqs s) i with
  | None => s
  | Some r =>
      let s := emit (EAns (rown r) good)
                 (set_reqs (firstn i (reqs s) ++ skipn (S i) (reqs s)) s) in
      match find_ctx (rown r) s with
      | None => s
      | Some c => if good then advance up sendok k a b c s else done up c false s
      end
  end.

(** The calls of the application; devices are named by UUID. *)
Inductive call : Type :=
| CReset (u : nat)              (* oc_obt_device_hard_reset, oc_obt.c:936-966 *)
| CPair (u v : nat)             (* oc_obt_provision_pairwise_credentials, oc_obt.c:1662-1702 *)
| COsc (u v : nat)              (* oc_obt_provision_pairwise_oscore_contexts, oc_obt.c:1213-1251 *)
| CAce (u ace : nat)            (* oc_obt_provision_ace, oc_obt.c:2738-2770 *)
| CDelKey (u id : nat)          (* oc_obt_delete_cred_by_credid, oc_obt.c:3113-3146 *)
| CDelAce (u id : nat).         (* oc_obt_delete_ace_by_aceid, oc_obt.c:3445-3479 *)

(** oc_obt_is_owned_device, then oc_obt_get_owned_device_handle. *)
Definition lookup (u : nat) (s : st) : option dref :=
  if owned u s then handle u s else None.

Definition resolve (k : call) (s : st) : option task :=
  match k with
  | CReset u => match lookup u s with Some d => Some (TReset d) | None => None end
  | CPair u v =>
      match lookup u s, lookup v s with Some a, Some b => Some (TPair a b) | _, _ => None end
  | COsc u v =>
      match lookup u s, lookup v s with Some a, Some b => Some (TOsc a b) | _, _ => None end
  | CAce u x => match lookup u s with Some d => Some (TAce d x) | None => None end
  | CDelKey u x => match lookup u s with Some d => Some (TDelKey d x) | None => None end
  | CDelAce u x => match lookup u s with Some d => Some (TDelAce d x) | None => None end
  end.

(** The first request of each: switch_dos with OC_DOS_RESET for a reset,
    with OC_DOS_RFPRO for all the others. *)
Definition start (t : task) : stage * dref * msg :=
  match t with
  | TReset d => (WReset, d, MDos DosReset)
  | TPair a _ => (WPro1, a, MDos DosPro)
  | TOsc a _ => (WPro1, a, MDos DosPro)
  | TAce d _ => (WPro1, d, MDos DosPro)
  | TDelKey d _ => (WPro1, d, MDos DosPro)
  | TDelAce d _ => (WPro1, d, MDos DosPro)
  end.

(** [ok]: the contexts could be allocated and the request sent. *)
Definition docall (k : call) (ok : bool) (s : st) : st :=
  match resolve k s with
  | None => emit ERefused s
  | Some t =>
      if ok then
        let '(w, d, m) := start t in
        let c := next s in
        send c d m
          (mkst (devs s) (creds s) (ctxs s ++ [mkctx c t w 0 0 0]) (reqs s)
                (S c) (nexth s) (tr s ++ [ECall c t]))
      else emit ERefused s
  end.

(** A device whose owner credential is present answers discovery:
    cache_new_device over oc_devices, oc_obt.c:226-262, 587-588. *)
Definition discover (u : nat) (s : st) : st :=
  match lookup u s with
  | Some _ => s
  | None =>
      if owned u s then
        mkst (devs s ++ [(nexth s, u)]) (creds s) (ctxs s) (reqs s) (next s)
             (S (nexth s)) (tr s)
      else s
  end.

(** Ownership transfer completes: the credential is there and the device is
    among the owned ones, oc_obt.c:446-449.  (The transfer itself is not
    modelled.) *)
Definition own (u : nat) (s : st) : st :=
  discover u (if owned u s then s else set_creds (creds s ++ [u]) s).

Inductive op : Type :=
| OOwn (u : nat)
| ODiscover (u : nat)
| OCall (k : call) (ok : bool)
| OAnswer (i : nat) (good sendok : bool) (k a b : nat) (up : list nat)
| OLose (u : nat) (up : list nat).   (* the peer or the network ends the connection to u *)

Definition step (s : st) (o : op) : st :=
  match o with
  | OOwn u => own u s
  | ODiscover u => discover u s
  | OCall k ok => docall k ok s
  | OAnswer i good sendok k a b up => answer i good sendok k a b up s
  | OLose u up => close (2 * length (reqs s) + 1) (u :: up) u s
  end.

Definition run (ops : list op) : st := fold_left step ops init.
