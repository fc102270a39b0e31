(** Observers of resources (messaging/coap/observe.c, the request side in api/oc_ri.c), built with OC_SECURITY,
    OC_BLOCK_WISE and OC_TCP.

    Left out: batch observers and the notifications of the discovery resource and of collections on behalf of their
    links (observe.c:798-980, 1195-1580); blockwise buffers, periodic callbacks, the collection check, the handlers
    that fill a response and the allocation of transactions are inputs.  Resources are numbered; a number is not used
    again after its resource has been deleted. *)
From Verif Require Import Common Ep_Model.
Local Open Scope N_scope.

(** coap_observer_t, messaging/coap/observe_internal.h:68-88. *)
Record obs := mk_obs {
  o_res : nat; o_url : list N; o_ep : ep; o_tok : list N; o_mid : N; o_blk : N; o_cnt : N; o_if : N }.

(** What of a resource matters here: its URI and whether it is observable, periodic and a collection. *)
Record rinfo := mk_ri { r_uri : list N; r_obsv : bool; r_per : bool; r_coll : bool }.

(** The list of observers, the field num_observers (a uint8_t, include/oc_ri.h:347) of each resource, the global
    counter, and the resources that exist. *)
Record st := mk_st { s_obs : list obs; s_num : nat -> N; s_cnt : N; s_live : nat -> bool }.

(** messaging/coap/coap_internal.h:189-190. *)
Definition SEQ_START : N := 2.
Definition SEQ_MAX : N := 16777215.
Definition init : st := mk_st [] (fun _ => 0) SEQ_START (fun _ => true).

(** observe_increment_observe_counter, observe.c:191-200. *)
Definition inc (c : N) : N := if c =? SEQ_MAX then SEQ_START else c + 1.

(** What goes out.  [ISeq]: a notification with its sequence number, whether it left the device and whether it is
    confirmable; [IErr]: a notification with an error code (Observe option 1); [ICancel]: a notification without
    Observe option that ends the observation; [IReg]: a registration (nothing is sent). *)
Record key := mk_key { k_fl : N; k_dev : N; k_addr : list N; k_port : N; k_sess : N; k_url : list N; k_if : N }.
Definition key_of (o : obs) : key :=
  mk_key (N.land (e_flags (o_ep o)) flag_mask) (e_dev (o_ep o)) (e_addr (o_ep o)) (e_port (o_ep o)) (e_sess (o_ep o)) (o_url o) (o_if o).
Inductive item :=
| IReg (k : key)
| ISeq (k : key) (v : N) (sent con : bool)
| IErr (k : key) (code : N)
| ICancel (k : key) (code : N).

Definition dec_num (num : nat -> N) (r : nat) : nat -> N := fun x => if (x =? r)%nat then (num x + 255) mod 256 else num x.
Definition inc_num (num : nat -> N) (r : nat) : nat -> N := fun x => if (x =? r)%nat then (num x + 1) mod 256 else num x.

(** coap_remove_observer and coap_remove_observers_by_filter, observe.c:223-281: what remains, the counts, and the
    observers removed. *)
Fixpoint remove_by (f : obs -> bool) (all : bool) (l : list obs) (num : nat -> N) : list obs * (nat -> N) * list obs :=
  match l with
  | [] => ([], num, [])
  | o :: r =>
      if f o then
        (if all then
           let '(l', num', rm) := remove_by f all r (dec_num num (o_res o)) in (l', num', o :: rm)
         else (r, dec_num num (o_res o), [o]))
      else
        let '(l', num', rm) := remove_by f all r num in (o :: l', num', rm)
  end.
Definition drop (f : obs -> bool) (all : bool) (s : st) : st * list obs :=
  let '(l, num, rm) := remove_by f all (s_obs s) (s_num s) in (mk_st l num (s_cnt s) (s_live s), rm).

(** coap_observer_has_matching_data, observe.c:289-299. *)
Definition same_data (e : ep) (url : list N) (ifm : N) (o : obs) : bool :=
  ep_compare (o_ep o) e && list_eqb (o_url o) url && (o_if o =? ifm).

(** coap_add_observer, observe.c:312-354; [ok] says whether an observer can be allocated. *)
Definition add_observer (s : st) (r : nat) (blk : N) (e : ep) (tok url : list N) (ifm : N) (ok : bool) : st * bool :=
  let '(s, _) := drop (same_data e url ifm) true s in
  if ok then
    (mk_st (s_obs s ++ [mk_obs r url e tok 0 blk (s_cnt s) ifm]) (inc_num (s_num s) r) (s_cnt s) (s_live s), true)
  else (s, false).

(** coap_free_all_observers, observe.c:356-365. *)
Definition free_all (s : st) : st := fst (drop (fun _ => true) true s).

(** coap_remove_observers_by_client, observe.c:375-385. *)
Definition by_client (s : st) (e : ep) : st := fst (drop (fun o => ep_compare (o_ep o) e) true s).

(** coap_remove_observer_by_token, observe.c:404-417; the flag says whether one was removed. *)
Definition by_token (s : st) (e : ep) (tok : list N) : st * bool :=
  let '(s, rm) := drop (fun o => ep_compare (o_ep o) e && list_eqb (o_tok o) tok) false s in
  (s, match rm with [] => false | _ => true end).

(** coap_remove_observer_by_mid, observe.c:432-443 (a reset message, messaging/coap/engine.c:878-889). *)
Definition by_mid (s : st) (e : ep) (mid : N) : st :=
  fst (drop (fun o => ep_compare (o_ep o) e && (o_mid o =? mid)) false s).

(** coap_observer_match_resource, observe.c:473-499. *)
Definition strip (u : list N) : list N := match u with 47 :: r => r | _ => u end.
Definition match_resource (ri : nat -> rinfo) (r : nat) (o : obs) : bool :=
  (o_res o =? r)%nat && list_eqb (strip (r_uri (ri r))) (strip (o_url o)).

(** coap_remove_observers_by_resource, observe.c:508-518: each gets 4.04 (132). *)
Definition by_resource (ri : nat -> rinfo) (s : st) (r : nat) : st * list item :=
  let '(s, rm) := drop (match_resource ri r) true s in (s, map (fun o => ICancel (key_of o) 132) rm).

(** coap_remove_observers_on_dos_change, observe.c:526-553: each gets 5.03 (163); [deny] is the answer of the access
    control list. *)
Definition on_dos_change (s : st) (dev : N) (reset : bool) (deny : obs -> bool) : st * list item :=
  let '(s, rm) := drop (fun o => (e_dev (o_ep o) =? dev) && (reset || deny o)) true s in
  (s, map (fun o => ICancel (key_of o) 163) rm).

(** ri_delete_resource, api/oc_ri.c:597: the observers are removed only if the count is not zero. *)
Definition delete_resource (ri : nat -> rinfo) (s : st) (r : nat) : st * list item :=
  let '(s, it) := if s_num s r =? 0 then (s, []) else by_resource ri s r in
  (mk_st (s_obs s) (s_num s) (s_cnt s) (fun x => if (x =? r)%nat then false else s_live s x), it).

(** * Requests *)

(** A GET request with an Observe option that has been answered with success: the resource found for its path, and
    what the outside contributes: whether memory is available, whether the periodic callback and the collection check
    succeed. *)
Record req := mk_req {
  q_res : nat; q_obs : N; q_ep : ep; q_tok : list N; q_url : list N; q_if : N; q_blk : N;
  q_mem : bool; q_per : bool; q_coll : bool }.

(** ri_add_observation, api/oc_ri.c:925-956, with ri_observe_handler, api/oc_ri.c:895-923. *)
Definition add_observation (ri : nat -> rinfo) (s : st) (q : req) : st * bool * list item :=
  let '(s, ok) := add_observer s (q_res q) (q_blk q) (q_ep q) (q_tok q) (q_url q) (q_if q) (q_mem q) in
  let it := if ok then match rev (s_obs s) with o :: _ => [IReg (key_of o)] | [] => [] end else [] in
  if ok && r_per (ri (q_res q)) && negb (q_per q) then (s, false, it)
  else if r_coll (ri (q_res q)) && negb (q_coll q) then (s, false, it)
  else (s, true, it).

(** ri_handle_observation, api/oc_ri.c:988-1032: the value is the Observe option of the response. *)
Definition handle_observation (ri : nat -> rinfo) (s : st) (q : req) : st * option N * list item :=
  if negb (r_obsv (ri (q_res q))) then (s, None, [])
  else if q_obs q =? 0 then
    let '(s, ok, it) := add_observation ri s q in
    if ok then (s, Some 0, it) else (fst (by_token s (q_ep q) (q_tok q)), None, it)
  else if q_obs q =? 1 then (fst (by_token s (q_ep q) (q_tok q)), None, [])
  else (s, None, []).

(** * Notifications *)

(** What happens outside while an observer is notified: a separate response is pending; the response has a buffer;
    the handler succeeded; its code and length; the outcome of preparing a blockwise transfer; the message id of the
    new transaction if there is one; whether the message could be serialized. *)
Record nenv := mk_ne {
  n_fill : bool; n_sep : bool; n_buf : bool; n_code : N; n_len : N; n_bw : Z; n_mid : option N; n_ser : bool }.
Definition is_tcp (o : obs) : bool := has (e_flags (o_ep o)) TCP.

(** coap_prepare_notification, observe.c:676-711 (COAP_OBSERVE_REFRESH_INTERVAL is 5, line 102): the result and
    whether the message is confirmable. *)
Definition prepare (o : obs) (v : nenv) : Z * bool :=
  if (o_blk o <? n_len v) && negb (is_tcp o) then (n_bw v, true)
  else (1%Z, (o_cnt o mod 5 =? 0) && negb (is_tcp o)).

(** coap_send_notification_internal, observe.c:713-796, with ignore_is_revert false: the result, the observer, the
    global counter and what is sent.  [num] is num_observers of its resource. *)
Definition IF_STARTUP : N := 1024.
Definition IF_STARTUP_REVERT : N := 2048.
Definition IF_BASELINE : N := 2.
Definition send (o : obs) (num g : N) (v : nenv) : Z * obs * N * list item :=
  if n_sep v then (0%Z, o, g, [])
  else if negb (n_buf v) then (0%Z, o, g, [])
  else
    let revert := o_if o =? IF_STARTUP_REVERT in
    let code := if revert then 67 else n_code v in
    if negb revert && (n_len v =? 0) then (0%Z, o, g, [])
    else
      let '(ret, con) := if revert then (1%Z, false) else prepare o v in
      if (ret <=? 0)%Z then (ret, o, g, [])
      else
        let seq := (code <? 128) && negb (num =? 0) in
        let o1 := if seq then mk_obs (o_res o) (o_url o) (o_ep o) (o_tok o) (o_mid o) (o_blk o) (inc (o_cnt o)) (o_if o) else o in
        let g1 := if seq then inc g else g in
        match n_mid v with
        | None => ((-1)%Z, o1, g1, if seq then [ISeq (key_of o) (o_cnt o) false con] else [])
        | Some m =>
            (1%Z, mk_obs (o_res o1) (o_url o1) (o_ep o1) (o_tok o1) m (o_blk o1) (o_cnt o1) (o_if o1), g1,
             if seq then [ISeq (key_of o) (o_cnt o) (n_ser v) con] else if n_ser v then [IErr (key_of o) code] else [])
        end.

(** coap_iterate_observers, observe.c:1053-1113.  [pre] says that the response is given or has been prepared. *)
Definition eligible (ri : nat -> rinfo) (r : nat) (e : option ep) (o : obs) : bool :=
  (o_res o =? r)%nat && match e with Some e => ep_compare (o_ep o) e | None => true end &&
  negb (r_coll (ri r) && negb (o_if o =? IF_BASELINE)) && negb (o_if o =? IF_STARTUP).
Fixpoint iterate (ri : nat -> rinfo) (r : nat) (e : option ep) (pre : bool) (env : obs -> nenv) (num : N) (l : list obs) (g : N) : list obs * N * list item :=
  match l with
  | [] => ([], g, [])
  | o :: rest =>
      if eligible ri r e o && (pre || n_fill (env o)) then
        let '(ret, o', g', it) := send o num g (env o) in
        if (ret <? 0)%Z then (o' :: rest, g', it)
        else
          let '(rest', g'', it') := iterate ri r e pre env num rest g' in (o' :: rest', g'', it ++ it')
      else
        let '(rest', g', it') := iterate ri r e pre env num rest g in (o :: rest', g', it')
  end.

(** coap_notify_observers and coap_notify_observers_internal, observe.c:1131-1193, 1583-1608, for a resource that is
    not the discovery resource.  [given]: the application supplied the response; [fill1]: the outcome of preparing one
    response for the given endpoint. *)
Definition notify (ri : nat -> rinfo) (s : st) (r : nat) (e : option ep) (rfnop given fill1 : bool) (env : obs -> nenv) : st * list item :=
  if negb (r_obsv (ri r)) || negb rfnop || (s_num s r =? 0) then (s, [])
  else
    let one := match e with Some _ => negb given | None => false end in
    if one && negb fill1 then (s, [])
    else
      let '(l, g, it) := iterate ri r e (given || one) env (s_num s r) (s_obs s) (s_cnt s) in
      (mk_st l (s_num s) g (s_live s), it).

(** * Histories *)
Inductive op :=
| Request (q : req)
| Gone (e : ep)
| RstMid (e : ep) (mid : N)
| DosChange (dev : N) (rst : bool) (deny : obs -> bool)
| Delete (r : nat)
| FreeAll
| Notify (r : nat) (e : option ep) (rfnop given fill1 : bool) (env : obs -> nenv).
Definition step (ri : nat -> rinfo) (s : st) (p : op) : st * list item :=
  match p with
  | Request q => let '(s, _, it) := handle_observation ri s q in (s, it)
  | Gone e => (by_client s e, [])
  | RstMid e m => (by_mid s e m, [])
  | DosChange d b f => on_dos_change s d b f
  | Delete r => delete_resource ri s r
  | FreeAll => (free_all s, [])
  | Notify r e a b c env => notify ri s r e a b c env
  end.
Fixpoint run (ri : nat -> rinfo) (s : st) (ps : list op) : st * list item :=
  match ps with
  | [] => (s, [])
  | p :: ps => let '(s', it) := step ri s p in let '(s'', it') := run ri s' ps in (s'', it ++ it')
  end.
