(** Messages to secured peers: the queue of a peer during its handshake, the events of the TLS
    handler and the release of peers (security/oc_tls.c). *)
From Verif Require Import Common.

(** A peer: its address in memory, endpoint, whether we are the client, handshake over, send_q.
    (Messages are numbers; the received ones are in other areas.) *)
Record peer := Peer { q_at : nat; q_ep : nat; q_client : bool; q_over : bool; q_send : list nat }.

(** Events of oc_tls_handler with a peer as their data: TLS_WRITE_APPLICATION_DATA and
    TLS_READ_DECRYPTED_DATA. *)
Inductive ev := Write (a : nat) | Read (a : nat).
Definition ev_at (e : ev) : nat := match e with Write a => a | Read a => a end.

(** The peers (g_tls_peers), the queued events, the requests with the roles that are not answered
    (endpoint, user data: a peer), what was written in a session (endpoint, message), the messages
    released without (because refused or with their peer; because the handshake was not over;
    because already queued), and whether memory of a released peer was read. *)
Record st := St { peers : list peer; events : list ev; roles : list (nat * nat);
                  sent : list (nat * nat); lost : list nat; early : list nat; merged : list nat; bad : bool }.
Definition init : st := St [] [] [] [] [] [] [] false.

Definition set_peers (s : st) x := St x (events s) (roles s) (sent s) (lost s) (early s) (merged s) (bad s).
Definition set_events (s : st) x := St (peers s) x (roles s) (sent s) (lost s) (early s) (merged s) (bad s).
Definition set_roles (s : st) x := St (peers s) (events s) x (sent s) (lost s) (early s) (merged s) (bad s).
Definition set_sent (s : st) x := St (peers s) (events s) (roles s) x (lost s) (early s) (merged s) (bad s).
Definition set_lost (s : st) x := St (peers s) (events s) (roles s) (sent s) x (early s) (merged s) (bad s).
Definition set_early (s : st) x := St (peers s) (events s) (roles s) (sent s) (lost s) x (merged s) (bad s).
Definition set_merged (s : st) x := St (peers s) (events s) (roles s) (sent s) (lost s) (early s) x (bad s).
Definition set_bad (s : st) x := St (peers s) (events s) (roles s) (sent s) (lost s) (early s) (merged s) x.

(** What mbedtls answers to a handshake (over: roles are asserted to this peer or not; more data
    needed; failed) and to a write. *)
Inductive hs := Done (with_roles : bool) | Wait | Fail.
Inductive wr := WOk | WWait | WFail.

(** security/oc_tls.c:329-340, is_peer_active; 557-569, oc_tls_get_peer *)
Definition at_ (l : list peer) (a : nat) : option peer := find (fun p => Nat.eqb (q_at p) a) l.
Definition of_ep (l : list peer) (ep : nat) : option peer := find (fun p => Nat.eqb (q_ep p) ep) l.
Definition without (l : list peer) (a : nat) : list peer := filter (fun p => negb (Nat.eqb (q_at p) a)) l.
Definition update (l : list peer) (a : nat) (f : peer -> peer) : list peer :=
  map (fun p => if Nat.eqb (q_at p) a then f p else p) l.

Definition post (s : st) (e : ev) : st := set_events s (events s ++ [e]).

(** security/oc_tls.c:398-466, tls_drop_endpoint_events: events of peers with that endpoint leave
    the queue; [mem] are the peers in memory, and looking at another one is a read of freed
    memory.  (Events with messages are in the area of reference counts.) *)
Definition drop_events (s : st) (mem : list peer) (ep : nat) : st :=
  set_bad
    (set_events s (filter (fun e => match at_ mem (ev_at e) with Some p => negb (Nat.eqb (q_ep p) ep) | None => true end) (events s)))
    (bad s || existsb (fun e => match at_ mem (ev_at e) with Some _ => false | None => true end) (events s)).

(** security/oc_tls.c:468-555, oc_tls_free_peer, as far as it concerns messages and events: the
    handlers of open requests to the endpoint are called when the peer is gone, and that of the
    request with the roles (2790-2794, assert_all_roles_internal) posts a write. *)
Definition free_peer (s : st) (p : peer) : st :=
  let s1 := set_peers s (without (peers s) (q_at p)) in
  let s2 := set_lost s1 (lost s1 ++ q_send p) in
  let s3 := drop_events s2 (p :: peers s2) (q_ep p) in
  let mine := filter (fun r => Nat.eqb (fst r) (q_ep p)) (roles s3) in
  let s4 := set_roles s3 (filter (fun r => negb (Nat.eqb (fst r) (q_ep p))) (roles s3)) in
  set_events s4 (events s4 ++ map (fun r => Write (snd r)) mine).

(** security/oc_tls.c:346-377, oc_tls_free_invalid_peer *)
Definition free_invalid (s : st) (p : peer) : st :=
  let s1 := set_peers s (without (peers s) (q_at p)) in
  set_lost s1 (lost s1 ++ q_send p).

Definition set_over (p : peer) : peer := Peer (q_at p) (q_ep p) (q_client p) true (q_send p).
Definition set_send (p : peer) (l : list nat) : peer := Peer (q_at p) (q_ep p) (q_client p) (q_over p) l.
Definition over_at (s : st) (a : nat) : st := set_peers s (update (peers s) a set_over).
Definition send_at (s : st) (a : nat) (l : list nat) : st := set_peers s (update (peers s) a (fun p => set_send p l)).

(** security/oc_tls.c:2162-2216, oc_tls_add_new_peer: the allocator returns [a]; if that is in use
    there is no memory. *)
Definition add_peer (s : st) (a ep : nat) (client : bool) : option peer * st :=
  match at_ (peers s) a with
  | Some _ => (None, s)
  | None => let p := Peer a ep client false [] in (Some p, set_peers s (peers s ++ [p]))
  end.

(** security/oc_tls.c:2643-2657, oc_tls_handshake *)
Definition handshake (s : st) (p : peer) (o : hs) : st :=
  match o with
  | Fail => free_peer s p
  | Done _ => post (over_at s (q_at p)) (Write (q_at p))
  | Wait => s
  end.

(** security/oc_tls.c:2679-2753, oc_tls_init_connection, without asynchronous TCP connections:
    these wait here and go on in [OnConnect]. *)
Definition init_connection (s : st) (m ep : nat) (rfnop : bool) (a : nat) (o : hs) : st :=
  if rfnop then
    let s1 := match of_ep (peers s) ep with
              | Some p => if q_client p then s else free_invalid s p
              | None => s
              end in
    let '(peer, s2) := match of_ep (peers s1) ep with
                       | Some p => (Some p, s1)
                       | None => add_peer s1 a ep true
                       end in
    match peer with
    | None => set_lost s2 (lost s2 ++ [m])
    | Some p =>
      if q_client p then
        let s3 := if existsb (Nat.eqb m) (q_send p) then set_merged s2 (merged s2 ++ [m])
                  else send_at s2 (q_at p) (q_send p ++ [m]) in
        match q_send p with
        | [] => match at_ (peers s3) (q_at p) with Some p3 => handshake s3 p3 o | None => s3 end
        | _ :: _ => s3
        end
      else set_lost s2 (lost s2 ++ [m])
    end
  else set_lost s (lost s ++ [m]).

(** security/oc_tls.c:2756-2766, oc_tls_send_message, with 2560-2591, oc_tls_send_message_internal *)
Definition send_message (s : st) (m ep : nat) (rfnop : bool) (a : nat) (o : hs) (w : wr) : st :=
  match of_ep (peers s) ep with
  | Some p =>
    if q_over p then
      match w with
      | WFail => free_peer (set_lost s (lost s ++ [m])) p
      | _ => set_sent s (sent s ++ [(ep, m)])
      end
    else init_connection s m ep rfnop a o
  | None => init_connection s m ep rfnop a o
  end.

(** security/oc_tls.c:2609-2641, write_application_data, with one answer of mbedtls per message.
    mbedtls_ssl_write first goes on with the handshake if that is not over, and the message is
    released even if more data is needed for it. *)
Fixpoint write_data (fuel : nat) (s : st) (a : nat) (ws : list wr) : st :=
  match fuel with
  | O => s
  | S fuel =>
    match at_ (peers s) a with
    | None => s
    | Some p =>
      match q_send p with
      | [] => s
      | m :: r =>
        let s1 := send_at s a r in
        match hd WOk ws with
        | WFail => match at_ (peers s1) a with
                   | Some p1 => free_peer (set_lost s1 (lost s1 ++ [m])) p1
                   | None => s1
                   end
        | WWait => if q_over p then write_data fuel (set_sent s1 (sent s1 ++ [(q_ep p, m)])) a (tl ws)
                   else write_data fuel (set_early s1 (early s1 ++ [m])) a (tl ws)
        | WOk => write_data fuel (set_sent (over_at s1 a) (sent s1 ++ [(q_ep p, m)])) a (tl ws)
        end
      end
    end
  end.

(** security/oc_tls.c:3003-3022, tls_read_application_data, with 2878-2925, tls_handshake_step *)
Definition read_data (s : st) (a : nat) (o : hs) : st :=
  match at_ (peers s) a with
  | None => s
  | Some p =>
    match o with
    | Fail => free_peer s p
    | Wait => s
    | Done with_roles =>
      if q_over p then s
      else
        let s1 := over_at s a in
        if with_roles then set_roles s1 (roles s1 ++ [(q_ep p, a)]) else post s1 (Write a)
    end
  end.

(** What happens: a message is sent to an endpoint (event RI_TO_TLS_EVENT), a datagram of an
    endpoint arrives (UDP_TO_TLS_EVENT, 3024-3086, oc_tls_recv_message), the next read or write
    event is handled, the retransmission timer of a peer expires (742-773, check_retry_timers), an
    asynchronous connection is established or failed (2659-2678), the request with the roles is
    answered or times out, a connection is closed (578-602, oc_tls_remove_peer). *)
Inductive op :=
| Send (m ep : nat) (rfnop : bool) (a : nat) (o : hs) (w : wr)
| Recv (ep a : nat)
| Handle (o : hs) (ws : list wr)
| Retry (a : nat) (o : hs)
| OnConnect (ep : nat) (o : hs)
| Answer (ep : nat)
| Close (ep : nat).

Fixpoint remove_first (ep : nat) (l : list (nat * nat)) : list (nat * nat) :=
  match l with [] => [] | r :: t => if Nat.eqb (fst r) ep then t else r :: remove_first ep t end.

Definition step (s : st) (o : op) : st :=
  match o with
  | Send m ep rfnop a o w => send_message s m ep rfnop a o w
  | Recv ep a =>
    match of_ep (peers s) ep with
    | Some p => post s (Read (q_at p))
    | None => match add_peer s a ep false with (Some p, s1) => post s1 (Read (q_at p)) | (None, s1) => s1 end
    end
  | Handle o ws =>
    match events s with
    | [] => s
    | e :: r =>
      let s1 := set_events s r in
      match e with
      | Read a => read_data s1 a o
      | Write a => match at_ (peers s1) a with Some p => write_data (length (q_send p)) s1 a ws | None => s1 end
      end
    end
  | Retry a o =>
    match at_ (peers s) a with
    | Some p => if q_over p then s
                else match o with Fail => free_peer s p | Done _ => over_at s a | Wait => s end
    | None => s
    end
  | OnConnect ep o => match of_ep (peers s) ep with Some p => handshake s p o | None => s end
  | Answer ep =>
    match find (fun r => Nat.eqb (fst r) ep) (roles s) with
    | Some r => post (set_roles s (remove_first ep (roles s))) (Write (snd r))
    | None => s
    end
  | Close ep => match of_ep (peers s) ep with Some p => free_peer s p | None => drop_events s (peers s) ep end
  end.
Fixpoint run (s : st) (l : list op) : st := match l with [] => s | o :: r => run (step s o) r end.
