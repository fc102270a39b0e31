(** How received messages get from the threads of the network to the event loop: api/oc_network_events.c, the polls of util/oc_process.c
    and the flow control of port/linux/ipadapter.c, with dynamic allocation. Every step is one access to shared memory (or one critical
    section under the mutex of the network events); any interleaving of steps of the threads is an execution. The accesses are atomic
    and sequentially consistent (util/oc_atomic.h, __ATOMIC_SEQ_CST). *)
From Verif Require Import Common.
Local Open Scope nat_scope.

(** OC_DEVICE_MAX_NUM_CONCURRENT_REQUESTS (port/linux/oc_config.h:73-75) *)
Definition MAX : nat := 32.

(** oc_message_t: a name, the device and address of its endpoint, and whether its header is valid (oc_udp_is_valid_message, or it came
    over TCP, where the header has been checked). *)
Record msg := mk_msg { m_name : nat; m_dev : nat; m_ep : nat; m_valid : bool }.
(** get_events_queue_length (api/oc_network_events.c:49-60) *)
Definition count (d : nat) (l : list msg) : nat := List.length (filter (fun m => m_dev m =? d) l).

(** send_wakeup_signal (api/oc_network_events.c:62-77): the devices that are woken; the fuel is the number of devices looked at. *)
Fixpoint wake_from (fuel total dev : nat) (l : list msg) : option (list nat) :=
  if total <? MAX then Some []
  else match fuel with
  | O => None
  | S f => match wake_from f (total - count dev l) (S dev) l with
           | Some r => Some (if MAX <=? count dev l then dev :: r else r)
           | None => None
           end
  end.
Definition wake (l : list msg) : option (list nat) := wake_from (S (list_max (map m_dev l))) (List.length l) 0 l.

(** The thread of a device, network_event_thread (port/linux/ipadapter.c:1053-1120), process_events (972-1021, which reads at most as many sockets as the queue has room for), oc_network_receive_event
    (api/oc_network_events.c:149-173), oc_process_poll (util/oc_process.c:493-504). *)
Inductive tpc : Type :=
| TTop                     (* before looking at the length of the queue *)
| TFull                    (* waits for control events only *)
| TSelect                  (* waits for all events *)
| TRecv (k : nat)          (* [k] messages may still be read *)
| TGot (m : msg) (k : nat) (* a message is about to be added to the list *)
| TAdded (k : nat)         (* it has been *)
| TState (k : nat)         (* the process is known to run *)
| TNeed (k : nat).         (* needspoll is set *)
(** The event loop: oc_process_run, do_poll (util/oc_process.c:269-284, 345-357), oc_process_network_event (api/oc_network_events.c:79-128). *)
Inductive cpc : Type :=
| CIdle
| CPoll                    (* g_poll_requested has been cleared *)
| CNeed                    (* needspoll was set and has been cleared *)
| CSig (todo : list nat)   (* the list has been taken; these devices are to be woken *)
| CPost.                   (* the messages are posted *)

(** g_network_events, the list taken by the event loop, the flags, whether the process runs, the threads, the bytes in the wake-up pipes,
    the event loop, devices to be woken after messages were dropped; all messages that were added, posted, dropped. *)
Record st := mk_st {
  q : list msg; loc : list msg; poll : bool; need : bool; running : bool; thr : nat -> tpc; sig : nat -> nat; cons : cpc; pend : list nat; next : nat;
  arr : list msg; del : list msg; gone : list msg }.
Definition start : st := mk_st [] [] false false true (fun _ => TTop) (fun _ => 0) CIdle [] 0 [] [] [].

Definition upd {A} (d : nat) (v : A) (f : nat -> A) : nat -> A := fun x => if x =? d then v else f x.
Definition set_thr (d : nat) (p : tpc) (t : st) : st :=
  mk_st (q t) (loc t) (poll t) (need t) (running t) (upd d p (thr t)) (sig t) (cons t) (pend t) (next t) (arr t) (del t) (gone t).
Definition set_cons (c : cpc) (t : st) : st :=
  mk_st (q t) (loc t) (poll t) (need t) (running t) (thr t) (sig t) c (pend t) (next t) (arr t) (del t) (gone t).
Definition set_sig (d n : nat) (t : st) : st :=
  mk_st (q t) (loc t) (poll t) (need t) (running t) (thr t) (upd d n (sig t)) (cons t) (pend t) (next t) (arr t) (del t) (gone t).
Definition set_flags (p n : bool) (t : st) : st :=
  mk_st (q t) (loc t) p n (running t) (thr t) (sig t) (cons t) (pend t) (next t) (arr t) (del t) (gone t).

Inductive op : Type :=
| Look (d : nat)                            (* port/linux/ipadapter.c:1096-1105 *)
| Woken (d : nat)                           (* select returns for the wake-up pipe while the queue was full; 1106, 682-695 *)
| Control (d : nat)                         (* ... for another control event *)
| Ready (d k : nat) (signal : bool)         (* select returns for [k] readable sockets that may be read, and perhaps the pipe *)
| Done (d : nat)
| Receive (d ep : nat) (valid : bool)       (* api/oc_network_events.c:152-166 *)
| AddList (d : nat)                         (* 167-169 *)
| CheckState (d : nat)                      (* util/oc_process.c:496-498 *)
| SetNeed (d : nat)                         (* 499 *)
| SetPoll (d : nat)                         (* 500 *)
| OtherPoll                                 (* another process asks for a poll *)
| Run                                       (* g_poll_requested is seen and cleared; util/oc_process.c:271-272, 349-351 *)
| Take                                      (* needspoll; 274-278 *)
| Copy                                      (* api/oc_network_events.c:82-97; the wake-up signals are decided, 101 *)
| Signal                                    (* oc_connectivity_wakeup, 71 *)
| Post                                      (* oc_recv_message, 113-117 *)
| Exit                                      (* oc_process_exit(&oc_network_events) *)
| Drop (d ep : nat)                         (* oc_network_drop_receive_events, api/oc_network_events.c:190-226 *)
| DropSignal.                               (* 228 *)

Definition same_ep (d ep : nat) (m : msg) : bool := (m_dev m =? d) && (m_ep m =? ep).

(** [None]: the step cannot be taken now. *)
Definition step (t : st) (o : op) : option st :=
  match o with
  | Look d => match thr t d with TTop => Some (set_thr d (if MAX <=? count d (q t) then TFull else TSelect) t) | _ => None end
  | Woken d => match thr t d with TFull => match sig t d with S n => Some (set_sig d n (set_thr d TTop t)) | O => None end | _ => None end
  | Control d => match thr t d with TFull => Some (set_thr d TTop t) | _ => None end
  | Ready d k s =>
      match thr t d with
      | TSelect => if k <=? MAX - count d (q t)
                   then let t' := set_thr d (TRecv k) t in if s then match sig t d with S n => Some (set_sig d n t') | O => None end else Some t'
                   else None
      | _ => None
      end
  | Done d => match thr t d with TRecv _ => Some (set_thr d TTop t) | _ => None end
  | Receive d ep v =>
      match thr t d with
      | TRecv (S k) => let m := mk_msg (next t) d ep v in
          Some (mk_st (q t) (loc t) (poll t) (need t) (running t) (upd d (if running t && v then TGot m k else TRecv k) (thr t)) (sig t) (cons t) (pend t) (S (next t)) (arr t) (del t) (gone t))
      | _ => None
      end
  | AddList d =>
      match thr t d with
      | TGot m k => Some (mk_st (q t ++ [m]) (loc t) (poll t) (need t) (running t) (upd d (TAdded k) (thr t)) (sig t) (cons t) (pend t) (next t) (arr t ++ [m]) (del t) (gone t))
      | _ => None
      end
  | CheckState d => match thr t d with TAdded k => Some (set_thr d (if running t then TState k else TRecv k) t) | _ => None end
  | SetNeed d => match thr t d with TState k => Some (set_flags (poll t) true (set_thr d (TNeed k) t)) | _ => None end
  | SetPoll d => match thr t d with TNeed k => Some (set_flags true (need t) (set_thr d (TRecv k) t)) | _ => None end
  | OtherPoll => Some (set_flags true (need t) t)
  | Run => match cons t with CIdle => if poll t then Some (set_flags false (need t) (set_cons CPoll t)) else None | _ => None end
  | Take => match cons t with
            | CPoll => Some (if need t && running t then set_flags (poll t) false (set_cons CNeed t) else set_cons CIdle t)
            | _ => None end
  | Copy => match cons t with
            | CNeed => match wake (q t) with
                       | Some w => Some (mk_st [] (q t) (poll t) (need t) (running t) (thr t) (sig t) (CSig w) (pend t) (next t) (arr t) (del t) (gone t))
                       | None => None end
            | _ => None end
  | Signal => match cons t with
              | CSig (d :: r) => Some (set_sig d (S (sig t d)) (set_cons (CSig r) t))
              | CSig [] => Some (set_cons CPost t)
              | _ => None end
  | Post => match cons t with
            | CPost => match loc t with
                       | m :: r => Some (mk_st (q t) r (poll t) (need t) (running t) (thr t) (sig t) CPost (pend t) (next t) (arr t) (del t ++ [m]) (gone t))
                       | [] => Some (set_cons CIdle t) end
            | _ => None end
  | Exit => match cons t with CIdle => Some (mk_st (q t) (loc t) (poll t) (need t) false (thr t) (sig t) CIdle (pend t) (next t) (arr t) (del t) (gone t)) | _ => None end
  | Drop d ep =>
      let out := filter (same_ep d ep) (q t) in
      let q' := filter (fun m => negb (same_ep d ep m)) (q t) in
      Some (mk_st q' (loc t) (poll t) (need t) (running t) (thr t) (sig t) (cons t)
             (if MAX <=? count d q' + List.length out then pend t ++ [d] else pend t) (next t) (arr t) (del t) (gone t ++ out))
  | DropSignal => match pend t with
                  | d :: r => Some (set_sig d (S (sig t d)) (mk_st (q t) (loc t) (poll t) (need t) (running t) (thr t) (sig t) (cons t) r (next t) (arr t) (del t) (gone t)))
                  | [] => None end
  end.
Fixpoint run (t : st) (l : list op) : option st := match l with [] => Some t | o :: k => match step t o with Some t' => run t' k | None => None end end.
