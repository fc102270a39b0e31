(** Notifications on behalf of other resources: the observers of a collection that are told about its links, and the
    observers of /oic/res that asked for the batch interface (messaging/coap/observe.c:124-190, 216-281, 588-660,
    811-983, 1053-1600, api/oc_server_api.c:726-889, api/oc_collection.c:80-245, api/oc_ri.c:549-630,
    api/oc_discovery.c:644-840), built with OC_SERVER, OC_COLLECTIONS, OC_SECURITY, OC_BLOCK_WISE,
    OC_RES_BATCH_SUPPORT and OC_DISCOVERY_RESOURCE_OBSERVABLE, for one device whose stack is initialised.

    Simplified: memory and transactions can be allocated, so no notification fails; URIs, clients and the values of
    representations are numbers; a URI other than 0, which stands for /oic/res; the value 0 of a resource that is not
    a collection is the empty representation; whether a client may read a URI does not change during a run; whether a
    notification is larger than a block is an input of every operation (the list of observers for which it is);
    handlers answer with the current value; a collection has a handler for GET only where [r_get] says so, every other
    resource has one; the order in which due timers fire is an input.  A number given to a resource or an observer is
    not used again, so a number that is no longer in use is a dangling pointer; following it is [None]. *)
From Coq Require Import PeanoNat.
From Verif Require Import Common.
Local Open Scope nat_scope.

(** oc_resource_t and oc_collection_t as far as they matter here.  [r_links]: the resources the links of a collection
    point to, in the order of the list. *)
Record res := mk_res {
  r_id : nat; r_uri : nat; r_val : nat; r_coll : bool; r_def : N; r_links : list nat; r_disc : bool; r_obsv : bool;
  r_get : bool }.

Inductive tgt := TDisc | TRes (i : nat).

(** coap_observer_t, messaging/coap/observe_internal.h:68-88. *)
Record obs := mk_obs { o_id : nat; o_cl : nat; o_tgt : tgt; o_url : nat; o_if : N }.

(** coap_batch_observer_t, observe_internal.h:39-49: a resource to be reported or the URI of one that was removed. *)
Inductive what := Live (i : nat) | Gone (u : nat).
Record ent := mk_ent { e_obs : nat; e_what : what }.

(** oc_blockwise_response_state_t: the transfer of a response to one client for one URI and interface;
    [x_fin]: it has the callback that processes the batch observers again, [x_done]: all blocks have been fetched. *)
Record bwt := mk_bwt { x_cl : nat; x_url : nat; x_if : N; x_fin : bool; x_done : bool }.

(** What a message carries. *)
Definition content := (nat * list nat)%type.
Inductive body :=
| BRep (i : nat) (f : N) (v : content)
| BValid
| BLinks (c : nat) (f : N) (ls : list nat)
| BBatch (c : nat) (l : list (nat * nat))
| BDisc (l : list (nat * option content))
| BDiscLinks (f : N).
Record msg := mk_msg { m_obs : nat; m_cl : nat; m_body : body }.

(** [s_disp]: process_batch_observers_async is due; [s_added]: notify_resource_added_or_deleted_dispatch_async;
    [s_chg]: notify_resource_changed_async; [s_ntf]: notify_observers_async; [s_ll], [s_base]:
    collection_notify_links_list_async and collection_notify_baseline_async; [s_nop]: the device is in RFNOP;
    [s_out]: the messages sent so far. *)
Record st := mk_st {
  s_res : list res; s_obs : list obs; s_ent : list ent; s_bw : list bwt; s_disp : bool; s_added : bool;
  s_chg : list nat; s_ntf : list nat; s_ll : list nat; s_base : list nat; s_next : nat; s_nop : bool;
  s_out : list msg }.

Definition init : st := mk_st [] [] [] [] false false [] [] [] [] 0 true [].

Definition set_res l s := mk_st l (s_obs s) (s_ent s) (s_bw s) (s_disp s) (s_added s) (s_chg s) (s_ntf s) (s_ll s) (s_base s) (s_next s) (s_nop s) (s_out s).
Definition set_obs l s := mk_st (s_res s) l (s_ent s) (s_bw s) (s_disp s) (s_added s) (s_chg s) (s_ntf s) (s_ll s) (s_base s) (s_next s) (s_nop s) (s_out s).
Definition set_ent l s := mk_st (s_res s) (s_obs s) l (s_bw s) (s_disp s) (s_added s) (s_chg s) (s_ntf s) (s_ll s) (s_base s) (s_next s) (s_nop s) (s_out s).
Definition set_bw l s := mk_st (s_res s) (s_obs s) (s_ent s) l (s_disp s) (s_added s) (s_chg s) (s_ntf s) (s_ll s) (s_base s) (s_next s) (s_nop s) (s_out s).
Definition set_disp b s := mk_st (s_res s) (s_obs s) (s_ent s) (s_bw s) b (s_added s) (s_chg s) (s_ntf s) (s_ll s) (s_base s) (s_next s) (s_nop s) (s_out s).
Definition set_added b s := mk_st (s_res s) (s_obs s) (s_ent s) (s_bw s) (s_disp s) b (s_chg s) (s_ntf s) (s_ll s) (s_base s) (s_next s) (s_nop s) (s_out s).
Definition set_chg l s := mk_st (s_res s) (s_obs s) (s_ent s) (s_bw s) (s_disp s) (s_added s) l (s_ntf s) (s_ll s) (s_base s) (s_next s) (s_nop s) (s_out s).
Definition set_ntf l s := mk_st (s_res s) (s_obs s) (s_ent s) (s_bw s) (s_disp s) (s_added s) (s_chg s) l (s_ll s) (s_base s) (s_next s) (s_nop s) (s_out s).
Definition set_ll l s := mk_st (s_res s) (s_obs s) (s_ent s) (s_bw s) (s_disp s) (s_added s) (s_chg s) (s_ntf s) l (s_base s) (s_next s) (s_nop s) (s_out s).
Definition set_base l s := mk_st (s_res s) (s_obs s) (s_ent s) (s_bw s) (s_disp s) (s_added s) (s_chg s) (s_ntf s) (s_ll s) l (s_next s) (s_nop s) (s_out s).
Definition set_next n s := mk_st (s_res s) (s_obs s) (s_ent s) (s_bw s) (s_disp s) (s_added s) (s_chg s) (s_ntf s) (s_ll s) (s_base s) n (s_nop s) (s_out s).
Definition set_nop b s := mk_st (s_res s) (s_obs s) (s_ent s) (s_bw s) (s_disp s) (s_added s) (s_chg s) (s_ntf s) (s_ll s) (s_base s) (s_next s) b (s_out s).
Definition set_out l s := mk_st (s_res s) (s_obs s) (s_ent s) (s_bw s) (s_disp s) (s_added s) (s_chg s) (s_ntf s) (s_ll s) (s_base s) (s_next s) (s_nop s) l.

Definition bind {A B} (x : option A) (f : A -> option B) : option B := match x with Some a => f a | None => None end.

Definition find_res (s : st) (i : nat) : option res := find (fun r => r_id r =? i) (s_res s).
Definition find_obs (s : st) (i : nat) : option obs := find (fun o => o_id o =? i) (s_obs s).
Definition mem (i : nat) (l : list nat) : bool := existsb (Nat.eqb i) l.
Definition without (i : nat) (l : list nat) : list nat := filter (fun j => negb (j =? i)) l.
Fixpoint remove1 (i : nat) (l : list nat) : list nat :=
  match l with [] => [] | j :: r => if j =? i then r else j :: remove1 i r end.
Definition is_tgt (i : nat) (o : obs) : bool := match o_tgt o with TRes j => j =? i | TDisc => false end.
Definition is_disc (o : obs) : bool := match o_tgt o with TDisc => true | _ => false end.

(** OC_IF_BASELINE, OC_IF_LL, OC_IF_B, OC_IF_STARTUP, OC_IF_STARTUP_REVERT, include/oc_ri.h:84-122. *)
Definition BASELINE : N := 2%N.
Definition LL : N := 4%N.
Definition B : N := 8%N.
Definition STARTUP : N := 1024%N.
Definition REVERT : N := 2048%N.

(** An observer of the discovery resource with the batch interface, observe.c:1475-1477. *)
Definition is_batch (o : obs) : bool := is_disc o && (o_if o =? B)%N.

(** oc_reset_delayed_callback: remove and add. *)
Definition reset_timer (i : nat) (l : list nat) : list nat := without i l ++ [i].

(** Modify one resource. *)
Definition upd_res (i : nat) (f : res -> res) (s : st) : st :=
  set_res (map (fun r => if r_id r =? i then f r else r) (s_res s)) s.
Definition with_val (v : nat) (r : res) : res :=
  mk_res (r_id r) (r_uri r) v (r_coll r) (r_def r) (r_links r) (r_disc r) (r_obsv r) (r_get r).
Definition with_links (l : list nat) (r : res) : res :=
  mk_res (r_id r) (r_uri r) (r_val r) (r_coll r) (r_def r) l (r_disc r) (r_obsv r) (r_get r).

Definition content_of (r : res) : content := (r_val r, r_links r).

Section Access.
(** oc_sec_check_acl with OC_GET. *)
Variable may : nat -> nat -> bool.

(** cmp_add_batch_observer_resource, observe.c:1436-1455. *)
Definition same_entry (o : obs) (r : res) (removed : bool) (e : ent) : bool :=
  (e_obs e =? o_id o) &&
  match e_what e with
  | Live i => i =? r_id r
  | Gone u => removed && (u =? r_uri r)
  end.

(** coap_add_discovery_batch_observer, observe.c:1464-1540, without the dispatch. *)
Definition add_one (r : res) (removed : bool) (es : list ent) (o : obs) : list ent :=
  if is_batch o && may (o_cl o) (r_uri r) && negb (existsb (same_entry o r removed) es)
  then es ++ [mk_ent (o_id o) (if removed then Gone (r_uri r) else Live (r_id r))]
  else es.
Definition add_ents (r : res) (removed dispatch : bool) (s : st) : st :=
  let s1 := set_ent (fold_left (add_one r removed) (s_obs s) (s_ent s)) s in
  if dispatch then set_disp true s1 else s1.

(** coap_remove_discovery_batch_observers and the part of coap_remove_observer, observe.c:164-179, 250, 1457-1462. *)
Definition ent_of_res (i : nat) (e : ent) : bool := match e_what e with Live j => j =? i | Gone _ => false end.
Definition drop_res_ents (i : nat) (s : st) : st := set_ent (filter (fun e => negb (ent_of_res i e)) (s_ent s)) s.
Definition drop_obs_ents (i : nat) (s : st) : st := set_ent (filter (fun e => negb (e_obs e =? i)) (s_ent s)) s.

(** oc_blockwise_find_response_buffer for an observer, by URI, client and interface. *)
Definition xfer_of (cl url : nat) (f : N) (x : bwt) : bool := (x_cl x =? cl) && (x_url x =? url) && (x_if x =? f)%N.
Definition xfer_for (o : obs) (x : bwt) : bool := xfer_of (o_cl o) (o_url o) (o_if o) x.

(** blockwise_free_buffer, api/oc_blockwise.c:107-135, of all the transfers selected: the finish callback is
    coap_dispatch_process_batch_observers, observe.c:1240-1245. *)
Definition free_bw (f : bwt -> bool) (s : st) : st :=
  let s1 := set_bw (filter (fun x => negb (f x)) (s_bw s)) s in
  if existsb (fun x => f x && x_fin x) (s_bw s) then set_disp true s1 else s1.

Definition emit (o : obs) (b : body) (s : st) : st := set_out (s_out s ++ [mk_msg (o_id o) (o_cl o) b]) s.

(** coap_send_notification_internal with coap_prepare_notification and coap_prepare_notification_blockwise,
    observe.c:591-660, 678-797: a large notification is skipped while a transfer is running. *)
Definition send (big : list nat) (fin ignore : bool) (o : obs) (b : body) (s : st) : st :=
  if (o_if o =? REVERT)%N && negb ignore then emit o BValid s
  else if mem (o_id o) big then
    if existsb (fun x => xfer_for o x && negb (x_done x)) (s_bw s) then s
    else
      let s1 := free_bw (xfer_for o) s in
      emit o b (set_bw (s_bw s1 ++ [mk_bwt (o_cl o) (o_url o) (o_if o) fin false]) s1)
  else emit o b s.

Definition foldo (f : obs -> st -> st) (s : st) : st := fold_left (fun a o => f o a) (s_obs s) s.

(** collection_encode_links, api/oc_collection.c:671-725, follows the pointer of every link. *)
Definition links_uris (s : st) (c : res) : option (list nat) :=
  fold_right (fun i acc => bind (find_res s i) (fun r => bind acc (fun l => Some (r_uri r :: l)))) (Some []) (r_links c).

(** coap_iterate_observers with coap_fill_response, observe.c:1052-1113 and 1000-1050, for a resource other than
    the discovery resource: the interface is the resource's default one, or baseline for a collection. *)
Definition eligible (r : res) (o : obs) : bool :=
  is_tgt (r_id r) o && (negb (r_coll r) || (o_if o =? BASELINE)%N) && negb (o_if o =? STARTUP)%N
  && (negb (r_coll r) || r_get r).
Definition iterate (big : list nat) (r : res) (s : st) : st :=
  foldo (fun o a =>
    if eligible r o
    then send big false false o (BRep (r_id r) (if r_coll r then BASELINE else r_def r) (content_of r)) a
    else a) s.

(** coap_notify_collection_observers, observe.c:812-836. *)
Definition coll_match (c : res) (f : N) (o : obs) : bool :=
  is_tgt (r_id c) o && ((o_if o =? f)%N || (N.lor (o_if o) f =? r_def c)%N).
Definition notify_coll (big : list nat) (c : res) (f : N) (b : body) (s : st) : st :=
  foldo (fun o a => if coll_match c f o then send big false true o b a else a) s.

(** oc_get_next_collection_with_link, api/oc_collection.c:603-629: the collections with a link to the resource. *)
Definition linking (i : nat) (r : res) : bool := r_coll r && mem i (r_links r).
Definition observed (s : st) (c : res) : bool := existsb (is_tgt (r_id c)) (s_obs s).
Fixpoint take_while {A} (f : A -> bool) (l : list A) : list A :=
  match l with [] => [] | x :: r => if f x then x :: take_while f r else [] end.

(** coap_notify_collections, observe.c:921-983: the loop ends at the first collection without observers.  The
    request has no origin, so the link's access is not checked (api/oc_collection.c:846-851). *)
Definition notify_collections (big : list nat) (r : res) (s : st) : st :=
  fold_left (fun a c => notify_coll big c B (BBatch (r_id c) [(r_uri r, r_val r)]) a)
    (take_while (observed s) (filter (linking (r_id r)) (s_res s))) s.

(** coap_notify_observers and coap_notify_observers_internal, observe.c:1132-1193, 1598-1619, for a resource other
    than the discovery resource. *)
Definition notify (big : list nat) (i : nat) (s : st) : option st :=
  bind (find_res s i) (fun r =>
    let s1 := add_ents r false true s in
    if negb (r_obsv r) then Some s1
    else if negb (s_nop s) then Some s1
    else
      let s2 := if observed s1 r then iterate big r s1 else s1 in
      Some (notify_collections big r s2)).

(** notify_discovery_observers, observe.c:1545-1595. *)
Definition notify_disc (big : list nat) (s : st) : st :=
  foldo (fun o a =>
    if is_disc o && (N.land (o_if o) B =? 0)%N
    then send big false false o (BDiscLinks (o_if o)) a else a) s.

(** create_batch_for_batch_observer, observe.c:1247-1289, with oc_discovery_resource_is_in_batch_response and
    discovery_should_ignore_resource_response, api/oc_discovery.c:647-680, 703-732: what an entry adds. *)
Definition item (s : st) (o : obs) (w : what) : option (list (nat * option content)) :=
  match w with
  | Gone u => Some [(u, None)]
  | Live i =>
      bind (find_res s i) (fun r =>
        if r_disc r && may (o_cl o) (r_uri r) && negb (negb (r_coll r) && (r_val r =? 0))
        then Some [(r_uri r, Some (content_of r))] else Some [])
  end.
Fixpoint items (s : st) (o : obs) (es : list ent) : option (list (nat * option content)) :=
  match es with
  | [] => Some []
  | e :: r => bind (item s o (e_what e)) (fun a => bind (items s o r) (fun b => Some (a ++ b)))
  end.

(** coap_process_discovery_batch_observers and observe_batch_set_response_buffer, observe.c:1306-1424: the entries of
    an observer with a transfer are left; the others are merged into one message per observer. *)
Definition busy (s : st) (e : ent) : bool :=
  match find_obs s (e_obs e) with Some o => existsb (xfer_for o) (s_bw s) | None => false end.
Fixpoint process (fuel : nat) (big : list nat) (s : st) : option st :=
  match fuel with
  | O => Some s
  | S n =>
      match find (fun e => negb (busy s e)) (s_ent s) with
      | None => Some s
      | Some e =>
          bind (find_obs s (e_obs e)) (fun o =>
            bind (items s o (filter (fun x => e_obs x =? e_obs e) (s_ent s))) (fun its =>
              let s1 := set_ent (filter (fun x => negb (e_obs x =? e_obs e)) (s_ent s)) s in
              process n big (match its with [] => s1 | _ => send big true true o (BDisc its) s1 end)))
      end
  end.
Definition process_all (big : list nat) (s : st) : option st := process (List.length (s_ent s)) big s.

(** oc_collection_notify_resource_changed, api/oc_collection.c:161-176. *)
Definition coll_changed (c : res) (dispatch : bool) (s : st) : st :=
  add_ents c false dispatch (set_ll (reset_timer (r_id c) (s_ll s)) s).

(** oc_notify_resource_added and oc_notify_resource_removed, api/oc_server_api.c:837-879. *)
Definition notify_added (r : res) (s : st) : st := set_added true (add_ents r false false s).
Definition notify_removed (r : res) (s : st) : st :=
  set_added true (add_ents r true false (drop_res_ents (r_id r) s)).

(** coap_remove_observer, observe.c:222-254; the resource's counter is written. *)
Definition target_alive (s : st) (o : obs) : bool :=
  match o_tgt o with TDisc => true | TRes i => match find_res s i with Some _ => true | None => false end end.
Definition drop_observer (o : obs) (s : st) : option st :=
  if target_alive s o
  then Some (drop_obs_ents (o_id o) (set_obs (filter (fun p => negb (o_id p =? o_id o)) (s_obs s)) s))
  else None.
Definition drop_observers (f : obs -> bool) (s : st) : option st :=
  fold_left (fun a o => bind a (drop_observer o)) (filter f (s_obs s)) (Some s).

(** ri_delete_resource, api/oc_ri.c:549-628: of every collection with links to the resource the first such link. *)
Definition unlink_one (i : nat) (s : st) (c : res) : st :=
  let c' := with_links (remove1 i (r_links c)) c in
  coll_changed c' false (upd_res (r_id c) (with_links (remove1 i (r_links c))) s).
Definition delete_resource (i : nat) (s : st) : option st :=
  match find_res s i with
  | None => Some s
  | Some r =>
      if r_coll r then Some s
      else
        let s1 := fold_left (unlink_one i) (filter (linking i) (s_res s)) s in
        let s2 := set_chg (without i (s_chg s1)) (set_ntf (without i (s_ntf s1)) s1) in
        bind (drop_observers (is_tgt i) s2) (fun s3 =>
          Some (set_res (filter (fun x => negb (r_id x =? i)) (s_res s3)) (notify_removed r s3)))
  end.

(** oc_delete_collection and collection_free, api/oc_collection.c:117-141. *)
Definition delete_collection (i : nat) (s : st) : option st :=
  match find_res s i with
  | None => Some s
  | Some c =>
      if r_coll c then
        let s1 := notify_removed c s in
        let s2 := set_ll (without i (s_ll s1)) (set_base (without i (s_base s1)) s1) in
        Some (set_res (filter (fun x => negb (r_id x =? i)) (s_res s2)) s2)
      else Some s
  end.

(** oc_add_resource and oc_add_collection (refused if the URI is in use), with oc_notify_resource_added. *)
Definition add_resource (u v : nat) (coll : bool) (def : N) (disc obsv get : bool) (s : st) : st :=
  if (u =? 0) || existsb (fun r => r_uri r =? u) (s_res s) then s
  else
    let r := mk_res (s_next s) u v coll def [] disc obsv get in
    notify_added r (set_next (S (s_next s)) (set_res (s_res s ++ [r]) s)).

(** oc_collection_add_link, api/oc_collection.c:178-218; the URIs of all links are compared. *)
Definition add_link (c i : nat) (s : st) : option st :=
  match find_res s c, find_res s i with
  | Some k, Some _ =>
      if r_coll k then
        bind (links_uris s k) (fun _ =>
          let ls := r_links k ++ [i] in
          Some (coll_changed (with_links ls k) true (upd_res c (with_links ls) s)))
      else Some s
  | _, _ => Some s
  end.
(** oc_collection_remove_link, api/oc_collection.c:220-245. *)
Definition remove_link (c i : nat) (s : st) : option st :=
  match find_res s c with
  | Some k =>
      if r_coll k && mem i (r_links k) then
        let ls := remove1 i (r_links k) in
        Some (coll_changed (with_links ls k) true (upd_res c (with_links ls) s))
      else Some s
  | None => Some s
  end.

(** A registration: the engine frees a transfer for the same URI, client and interface (engine.c:578-590), an
    observer with the same ones is replaced (observe.c:283-330), the response is the current representation and, if
    it is large, a transfer without finish callback is left (api/oc_ri.c:1311-1340). *)
Definition answer (s : st) (cl : nat) (t : tgt) (f : N) : option (nat * body) :=
  match t with
  | TDisc =>
      Some (0, if (f =? B)%N
               then BDisc (map (fun r => (r_uri r, Some (content_of r)))
                             (filter (fun r => r_disc r && may cl (r_uri r)) (s_res s)))
               else BDiscLinks f)
  | TRes i =>
      bind (find_res s i) (fun r =>
        if negb (r_obsv r && may cl (r_uri r)) then None
        else Some (r_uri r, BRep i f (content_of r)))
  end.
Definition register (big : bool) (cl : nat) (t : tgt) (f : N) (s : st) : option st :=
  match answer s cl t f with
  | None => Some s
  | Some (u, b) =>
      let s1 := free_bw (xfer_of cl u f) s in
      bind (drop_observers (fun o => (o_cl o =? cl) && (o_url o =? u) && (o_if o =? f)%N) s1) (fun s2 =>
        let o := mk_obs (s_next s2) cl t u f in
        let s3 := set_next (S (s_next s2)) (set_obs (s_obs s2 ++ [o]) s2) in
        let s4 := if big then set_bw (s_bw s3 ++ [mk_bwt cl u f false false]) s3 else s3 in
        Some (emit o b s4))
  end.

(** coap_resource_is_observed, observe.c:1621-1655. *)
Definition is_observed (s : st) (i : nat) : bool :=
  existsb (fun o => is_tgt i o || (is_disc o && negb (N.land (o_if o) B =? 0)%N)) (s_obs s).

Inductive timer := FDisp | FAdded | FChg (i : nat) | FNtf (i : nat) | FLinks (i : nat) | FBase (i : nat).

(** The timers.  notify_resource_added_or_deleted_dispatch_async, api/oc_server_api.c:816-835;
    collection_notify_links_list_async and collection_notify_baseline_async, api/oc_collection.c:89-106;
    coap_notify_collection, observe.c:838-919. *)
Definition fire (big : list nat) (t : timer) (s : st) : option st :=
  match t with
  | FDisp => if s_disp s then process_all big (set_disp false s) else Some s
  | FAdded => if s_added s then process_all big (notify_disc big (set_added false s)) else Some s
  | FChg i => if mem i (s_chg s) then notify big i (set_chg (without i (s_chg s)) s) else Some s
  | FNtf i => if mem i (s_ntf s) then notify big i (set_ntf (without i (s_ntf s)) s) else Some s
  | FLinks i =>
      if mem i (s_ll s) then
        bind (find_res s i) (fun c => bind (links_uris s c) (fun _ =>
          let s1 := notify_coll big c LL (BLinks i LL (r_links c)) (set_ll (without i (s_ll s)) s) in
          Some (set_base (reset_timer i (s_base s1)) s1)))
      else Some s
  | FBase i =>
      if mem i (s_base s) then
        bind (find_res s i) (fun c => bind (links_uris s c) (fun _ =>
          Some (notify_coll big c BASELINE (BLinks i BASELINE (r_links c)) (set_base (without i (s_base s)) s))))
      else Some s
  end.

Inductive op :=
| OAdd (u v : nat) (coll : bool) (def : N) (disc obsv get : bool)
| ODel (i : nat) | ODelColl (i : nat)
| OLink (c i : nat) | OUnlink (c i : nat)
| OReg (big : bool) (cl : nat) (t : tgt) (f : N)
| OCancel (o : nat)
| OChange (big : list nat) (i v : nat)
| OLater (i v : nat) | ODelay (i v : nat)
| OFire (big : list nat) (t : timer)
| OEnd (cl url : nat) (f : N) | ODone (cl url : nat) (f : N)
| ONop (b : bool).

(** OChange: the application changes a value and calls oc_notify_resource_changed (api/oc_server_api.c:769-787);
    OLater: it calls oc_notify_resource_changed_delayed_ms (796-812); ODelay: oc_notify_observers_delayed (743-767). *)
Definition step (s : st) (p : op) : option st :=
  match p with
  | OAdd u v coll def disc obsv get => Some (add_resource u v coll def disc obsv get s)
  | ODel i => delete_resource i s
  | ODelColl i => delete_collection i s
  | OLink c i => add_link c i s
  | OUnlink c i => remove_link c i s
  | OReg big cl t f => register big cl t f s
  | OCancel i => match find_obs s i with Some o => drop_observer o s | None => Some s end
  | OChange big i v =>
      match find_res s i with
      | Some _ => notify big i (upd_res i (with_val v) s)
      | None => Some s
      end
  | OLater i v =>
      match find_res s i with
      | Some _ => let s1 := upd_res i (with_val v) s in Some (set_chg (reset_timer i (s_chg s1)) s1)
      | None => Some s
      end
  | ODelay i v =>
      match find_res s i with
      | Some _ =>
          let s1 := upd_res i (with_val v) s in
          Some (if is_observed s1 i then set_ntf (reset_timer i (s_ntf s1)) s1 else s1)
      | None => Some s
      end
  | OFire big t => fire big t s
  | OEnd cl u f => Some (free_bw (xfer_of cl u f) s)
  | ODone cl u f =>
      Some (set_bw (map (fun x => if xfer_of cl u f x then mk_bwt (x_cl x) (x_url x) (x_if x) (x_fin x) true else x) (s_bw s)) s)
  | ONop b => Some (set_nop b s)
  end.
Fixpoint run (s : st) (ps : list op) : option st :=
  match ps with [] => Some s | p :: r => bind (step s p) (fun s1 => run s1 r) end.
End Access.
