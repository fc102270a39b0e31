(** How connections that were opened and closed by the threads of the network are told to the event loop: api/oc_session_events.c:47-174, add_new_session_locked and
    free_session_locked of port/linux/tcpsession.c:240-345, the polls of util/oc_process.c.  Every step is one access to shared memory (or one critical section under
    the mutex of the network events); any interleaving of steps of the threads is an execution.  The accesses are atomic and sequentially consistent. *)
From Verif Require Import Common.
Local Open Scope nat_scope.

(** OC_SESSION_CONNECTED, OC_SESSION_DISCONNECTED *)
Inductive kind : Type := Conn | Disc.
(** The endpoint in an event: the thread that saw it and its session. *)
Record ev := mk_ev { e_thr : nat; e_ses : nat }.

(** oc_session_start_event and oc_session_end_event (api/oc_session_events.c:130-174), oc_process_poll (util/oc_process.c:493-504). *)
Inductive tpc : Type :=
| TIdle
| TAsk (k : kind) (x : nat)     (* before looking whether the process runs *)
| TSaw (k : kind) (x : nat)     (* it did; the event is about to be added to the list *)
| TAdded                        (* it has been *)
| TState                        (* the process is known to run *)
| TNeed.                        (* needspoll is set *)
(** The event loop: oc_process_run, do_poll (util/oc_process.c:269-284, 345-357), oc_process_session_event (api/oc_session_events.c:96-115),
    free_session_state_delayed (64-82). *)
Inductive cpc : Type :=
| CIdle
| CPoll                         (* g_poll_requested has been cleared *)
| CStart                        (* takes start events *)
| CCount                        (* looks for end events *)
| CEnd                          (* takes end events; g_session_end_ref is 1 *)
| CClear.                       (* no more of them *)

(** g_session_start_events, g_session_end_events, the flags, whether the process runs, g_session_end_ref, the threads, the event loop, the number of pending delayed callbacks;
    everything the threads opened or closed, the events they did not report, the events that were added to the lists, and what was handled. *)
Record st := mk_st {
  starts : list ev; ends : list ev; poll : bool; need : bool; running : bool; ref : bool; thr : nat -> tpc; cons : cpc; timers : nat;
  asked : list (kind * ev); skipped : list (kind * ev); added : list (kind * ev); out : list (kind * ev) }.
Definition start : st := mk_st [] [] false false true false (fun _ => TIdle) CIdle 0 [] [] [] [].

Definition upd {A} (d : nat) (v : A) (f : nat -> A) : nat -> A := fun x => if x =? d then v else f x.
Definition set_thr (d : nat) (p : tpc) (t : st) : st :=
  mk_st (starts t) (ends t) (poll t) (need t) (running t) (ref t) (upd d p (thr t)) (cons t) (timers t) (asked t) (skipped t) (added t) (out t).
Definition set_cons (c : cpc) (t : st) : st :=
  mk_st (starts t) (ends t) (poll t) (need t) (running t) (ref t) (thr t) c (timers t) (asked t) (skipped t) (added t) (out t).
Definition set_flags (p n : bool) (t : st) : st :=
  mk_st (starts t) (ends t) p n (running t) (ref t) (thr t) (cons t) (timers t) (asked t) (skipped t) (added t) (out t).
Definition set_ref (r : bool) (t : st) : st :=
  mk_st (starts t) (ends t) (poll t) (need t) (running t) r (thr t) (cons t) (timers t) (asked t) (skipped t) (added t) (out t).
Definition set_timers (n : nat) (t : st) : st :=
  mk_st (starts t) (ends t) (poll t) (need t) (running t) (ref t) (thr t) (cons t) n (asked t) (skipped t) (added t) (out t).
Definition ask (k : kind) (e : ev) (t : st) : st :=
  mk_st (starts t) (ends t) (poll t) (need t) (running t) (ref t) (thr t) (cons t) (timers t) (asked t ++ [(k, e)]) (skipped t) (added t) (out t).
Definition skip (k : kind) (e : ev) (t : st) : st :=
  mk_st (starts t) (ends t) (poll t) (need t) (running t) (ref t) (thr t) (cons t) (timers t) (asked t) (skipped t ++ [(k, e)]) (added t) (out t).
Definition add (k : kind) (e : ev) (t : st) : st :=
  mk_st (match k with Conn => starts t ++ [e] | Disc => starts t end) (match k with Conn => ends t | Disc => ends t ++ [e] end)
    (poll t) (need t) (running t) (ref t) (thr t) (cons t) (timers t) (asked t) (skipped t) (added t ++ [(k, e)]) (out t).
(** oc_list_pop and oc_handle_session (api/oc_session_events.c:353-364) *)
Definition handle (k : kind) (e : ev) (r : list ev) (t : st) : st :=
  mk_st (match k with Conn => r | Disc => starts t end) (match k with Conn => ends t | Disc => r end)
    (poll t) (need t) (running t) (ref t) (thr t) (cons t) (timers t) (asked t) (skipped t) (added t) (out t ++ [(k, e)]).

Inductive op : Type :=
| Open (d x : nat)              (* port/linux/tcpsession.c:272-274 *)
| Close (d x : nat)             (* port/linux/tcpsession.c:330-333: g_session_end_ref is looked at *)
| CheckRun (d : nat)            (* api/oc_session_events.c:133, 156 *)
| AddList (d : nat)             (* 145-147, 168-170 *)
| CheckState (d : nat)          (* util/oc_process.c:496-498 *)
| SetNeed (d : nat)             (* 499 *)
| SetPoll (d : nat)             (* 500 *)
| OtherPoll                     (* another process asks for a poll *)
| Run                           (* g_poll_requested is seen and cleared; util/oc_process.c:271-272, 349-351 *)
| Take                          (* needspoll; 274-278 *)
| PopStart                      (* api/oc_session_events.c:99-109 *)
| Count                         (* 111-114 *)
| Fire                          (* a delayed callback is due; 68 *)
| PopEnd                        (* 70-79 *)
| Clear                         (* 80 *)
| Exit.                         (* oc_process_exit(&oc_session_events): the process is marked, then 126 *)

(** [None]: the step cannot be taken now. *)
Definition step (t : st) (o : op) : option st :=
  match o with
  | Open d x => match thr t d with TIdle => Some (ask Conn (mk_ev d x) (set_thr d (TAsk Conn x) t)) | _ => None end
  | Close d x => match thr t d with
                 | TIdle => let t1 := ask Disc (mk_ev d x) t in
                            Some (if ref t then skip Disc (mk_ev d x) t1 else set_thr d (TAsk Disc x) t1)
                 | _ => None end
  | CheckRun d => match thr t d with
                  | TAsk k x => Some (if running t then set_thr d (TSaw k x) t else skip k (mk_ev d x) (set_thr d TIdle t))
                  | _ => None end
  | AddList d => match thr t d with TSaw k x => Some (add k (mk_ev d x) (set_thr d TAdded t)) | _ => None end
  | CheckState d => match thr t d with TAdded => Some (set_thr d (if running t then TState else TIdle) t) | _ => None end
  | SetNeed d => match thr t d with TState => Some (set_flags (poll t) true (set_thr d TNeed t)) | _ => None end
  | SetPoll d => match thr t d with TNeed => Some (set_flags true (need t) (set_thr d TIdle t)) | _ => None end
  | OtherPoll => Some (set_flags true (need t) t)
  | Run => match cons t with CIdle => if poll t then Some (set_flags false (need t) (set_cons CPoll t)) else None | _ => None end
  | Take => match cons t with
            | CPoll => Some (if need t && running t then set_flags (poll t) false (set_cons CStart t) else set_cons CIdle t)
            | _ => None end
  | PopStart => match cons t with
                | CStart => match starts t with e :: r => Some (handle Conn e r t) | [] => Some (set_cons CCount t) end
                | _ => None end
  | Count => match cons t with
             | CCount => Some (set_cons CIdle (match ends t with [] => t | _ => set_timers (S (timers t)) t end))
             | _ => None end
  | Fire => match cons t with
            | CIdle => match timers t with S n => Some (set_ref true (set_cons CEnd (set_timers n t))) | O => None end
            | _ => None end
  | PopEnd => match cons t with
              | CEnd => match ends t with e :: r => Some (handle Disc e r t) | [] => Some (set_cons CClear t) end
              | _ => None end
  | Clear => match cons t with CClear => Some (set_ref false (set_cons CIdle t)) | _ => None end
  | Exit => match cons t with
            | CIdle => if running t
                       then Some (set_ref true (set_cons CEnd (mk_st (starts t) (ends t) (poll t) (need t) false (ref t) (thr t) (cons t) (timers t) (asked t) (skipped t) (added t) (out t))))
                       else None
            | _ => None end
  end.
Fixpoint run (t : st) (l : list op) : option st := match l with [] => Some t | o :: k => match step t o with Some t' => run t' k | None => None end end.

(** What the event loop does next when it is left alone. *)
Definition loop_op (t : st) : option op :=
  match cons t with
  | CIdle => if poll t then Some Run else match timers t with O => None | S _ => Some Fire end
  | CPoll => Some Take
  | CStart => Some PopStart
  | CCount => Some Count
  | CEnd => Some PopEnd
  | CClear => Some Clear
  end.
Fixpoint loop (n : nat) (t : st) : option st :=
  match n with
  | O => Some t
  | S m => match loop_op t with Some o => match step t o with Some t' => loop m t' | None => None end | None => Some t end
  end.

(** * The application's callbacks *)

(** session_event_versioned_handler_t and oc_session_event_cb_t, include/oc_session_events.h: version, function, user data; [c_id] is the address of the item. *)
Record cb := mk_cb { c_id : nat; c_ver : bool; c_fun : nat; c_data : nat }.
(** oc_session_event_callback_find, api/oc_session_events.c:243-267: version 0 has no user data. *)
Definition matches (ver : bool) (f d : nat) (ignore : bool) (c : cb) : bool :=
  Bool.eqb ver (c_ver c) && (f =? c_fun c) && (negb ver || ignore || (d =? c_data c)).
Fixpoint remove_first (p : cb -> bool) (l : list cb) : list cb :=
  match l with [] => [] | c :: r => if p c then r else c :: remove_first p r end.

(** What a callback may do: add and remove callbacks. *)
Inductive act : Type := Add (ver : bool) (f d : nat) | Remove (ver : bool) (f d : nat) (ignore : bool) | RemoveAll.
(** The list and the next free address.  session_event_add_callback (203-220), session_event_remove_callback (269-282), oc_session_events_remove_all_callbacks (327-334). *)
Definition act1 (s : list cb * nat) (a : act) : list cb * nat :=
  match a with
  | Add v f d => (fst s ++ [mk_cb (snd s) v f (if v then d else 0)], S (snd s))
  | Remove v f d i => (remove_first (matches v f d i) (fst s), snd s)
  | RemoveAll => ([], snd s)
  end.
Fixpoint after (i : nat) (l : list cb) : list cb := match l with [] => [] | c :: r => if c_id c =? i then r else after i r end.
(** handle_session_event_callback, api/oc_session_events.c:308-325: [cb_item->next] is read after the call; [None]: from an item that has been freed, or the
    fuel is used up.  [acts] says what each callback does. *)
Fixpoint dispatch (fuel : nat) (acts : cb -> list act) (cur : option cb) (s : list cb * nat) : option (list cb * (list cb * nat)) :=
  match cur with
  | None => Some ([], s)
  | Some c =>
      match fuel with
      | O => None
      | S n =>
          let s1 := fold_left act1 (acts c) s in
          if existsb (fun x => c_id x =? c_id c) (fst s1)
          then match dispatch n acts (hd_error (after (c_id c) (fst s1))) s1 with Some (l, s2) => Some (c :: l, s2) | None => None end
          else None
      end
  end.
Definition call_all (fuel : nat) (acts : cb -> list act) (s : list cb * nat) : option (list cb * (list cb * nat)) := dispatch fuel acts (hd_error (fst s)) s.
