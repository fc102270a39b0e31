(** CoAP transactions: sending, retransmission and acknowledgement.
    messaging/coap/transactions.c, messaging/coap/engine.c. *)
From Verif Require Import Common.
Local Open Scope N_scope.

(** coap_transaction_t, messaging/coap/transactions_internal.h:74-85, with the retransmission timer
    (start, interval; [t_armed] is retrans_timer.p != OC_PROCESS_NONE).  [t_id] is the identity of the
    object.  Endpoints are compared by identity here (comparison itself is C36). *)
Record tx := mkT { t_id : N; t_mid : N; t_ep : N; t_sec : bool; t_count : N; t_interval : N; t_start : N; t_armed : bool }.

(** [log]: transmissions handed to coap_send_message, newest first, as (object, time).  [peers]:
    endpoints with a TLS peer. *)
Record st := mkS { txs : list tx; peers : list N; next_id : N; log : list (N * N) }.
Definition init : st := mkS [] [] 0 [].

Section Clock.
(** OC_CLOCK_SECOND *)
Variable sec : N.

(** messaging/coap/constants.h:61-63, transactions_internal.h:66-71: 2 s, factor 1.5, 4. *)
Definition MAX_RETRANSMIT : N := 4.
Definition first_interval (rnd : N) : N := sec * 2 + rnd mod (sec + 1).

Definition is_id (i : N) (t : tx) : bool := t_id t =? i.
Definition find_id (i : N) (l : list tx) : option tx := find (is_id i) l.
Definition drop_id (i : N) (l : list tx) : list tx := filter (fun t => negb (is_id i t)) l.
Definition put_tx (u : tx) (l : list tx) : list tx := map (fun t => if is_id (t_id u) t then u else t) l.

(** coap_clear_transaction, transactions.c:203-214. *)
Definition clear (i : N) (s : st) : st := mkS (drop_id i (txs s)) (peers s) (next_id s) (log s).

(** coap_free_transactions_by_endpoint, transactions.c:274-305, the part on the list. *)
Definition free_by_endpoint (ep : N) (s : st) : st :=
  mkS (filter (fun t => negb (t_ep t =? ep)) (txs s)) (peers s) (next_id s) (log s).
(** oc_tls_close_connection, security/oc_tls.c:2315-2336: frees the peer and, with it, the
    transactions of its endpoint (security/oc_tls.c:539); without a peer nothing happens. *)
Definition tls_close (ep : N) (s : st) : st :=
  if existsb (N.eqb ep) (peers s) then
    let s' := free_by_endpoint ep s in mkS (txs s') (filter (fun e => negb (e =? ep)) (peers s')) (next_id s') (log s')
  else s.

(** coap_send_transaction for a confirmable message over UDP, transactions.c:145-200; [t] is the
    object with its current counter.  The client callbacks and observers freed on a timeout are not
    modelled. *)
Definition send_transaction (t : tx) (rnd now : N) (s : st) : st :=
  if t_count t <? MAX_RETRANSMIT then
    let interval := if t_count t =? 0 then first_interval rnd else t_interval t * 2 in
    let u := mkT (t_id t) (t_mid t) (t_ep t) (t_sec t) (t_count t) interval now true in
    mkS (put_tx u (txs s)) (peers s) (next_id s) ((t_id t, now) :: log s)
  else if t_sec t then tls_close (t_ep t) s
  else clear (t_id t) s.

(** coap_new_transaction followed by coap_send_transaction, transactions.c:88-143: a message that is
    not confirmable (or goes over TCP) is sent and the transaction cleared. *)
Definition send_new (mid ep : N) (secured con peer : bool) (rnd now : N) (s : st) : st :=
  let t := mkT (next_id s) mid ep secured 0 0 0 false in
  let ps := if peer then ep :: peers s else peers s in
  if con then send_transaction t rnd now (mkS (txs s ++ [t]) ps (next_id s + 1) (log s))
  else mkS (txs s) ps (next_id s + 1) ((t_id t, now) :: log s).

(** The poll of the event timers, util/oc_etimer.c:72-101 with oc_timer_expired, util/oc_timer.c:61-80:
    the timers that have run out become expired.  The event queue is taken to have room. *)
Definition timer_expired (t : tx) (now : N) : bool := (t_start t <=? now) && (t_interval t <? now - t_start t + 1).
Definition poll_timers (now : N) (s : st) : st :=
  mkS (map (fun t => if t_armed t && timer_expired t now
                     then mkT (t_id t) (t_mid t) (t_ep t) (t_sec t) (t_count t) (t_interval t) (t_start t) false else t) (txs s))
      (peers s) (next_id s) (log s).

(** coap_check_transactions, transactions.c:243-262.  [pass] walks the rest of the list ([next]
    pointers); it reports whether more than one transaction disappeared, in which case the walk starts
    again at the head.  retrans_counter is a uint8_t. *)
Fixpoint pass (cursor : list N) (now : N) (s : st) : st * bool :=
  match cursor with
  | [] => (s, false)
  | i :: r =>
    match find_id i (txs s) with
    | None => pass r now s
    | Some t =>
      if t_armed t then pass r now s
      else
        let u := mkT (t_id t) (t_mid t) (t_ep t) (t_sec t) ((t_count t + 1) mod 256) (t_interval t) (t_start t) false in
        let s1 := mkS (put_tx u (txs s)) (peers s) (next_id s) (log s) in
        let s2 := send_transaction u 0 now s1 in
        if (List.length (txs s2) + 1 <? List.length (txs s))%nat then (s2, true) else pass r now s2
    end
  end.
(** [None]: the walk did not end within the fuel. *)
Fixpoint walk (fuel : nat) (now : N) (s : st) : option st :=
  match fuel with
  | O => None
  | S f => match pass (map t_id (txs s)) now s with
           | (s', true) => walk f now s'
           | (s', false) => Some s'
           end
  end.
Definition check_transactions (now : N) (s : st) : st :=
  match walk (S (List.length (txs s))) now s with Some s' => s' | None => s end.

(** coap_process_inbound_message, engine.c:1131-1140: the first transaction with the message id is
    cleared.  [from] is the endpoint of the message; the code does not look at it. *)
Definition receive (mid from : N) (s : st) : st :=
  match find (fun t => t_mid t =? mid) (txs s) with
  | Some t => clear (t_id t) s
  | None => s
  end.

Inductive op :=
| Send (mid ep : N) (secured con peer : bool) (rnd now : N)
| Check (now : N)
| Receive (mid from : N)
| Close (ep : N).

Definition step (s : st) (o : op) : st :=
  match o with
  | Send mid ep secured con peer rnd now => send_new mid ep secured con peer rnd now s
  | Check now => check_transactions now (poll_timers now s)
  | Receive mid from => receive mid from s
  | Close ep => tls_close ep s
  end.
Definition run (ops : list op) (s : st) : st := fold_left step ops s.
End Clock.
