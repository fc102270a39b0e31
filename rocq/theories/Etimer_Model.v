(** Model of util/oc_timer.c and util/oc_etimer.c.

    Timers are named by numbers; a timer's fields live in a table, the pending list g_timerlist is a list of
    names.  Clock values are 64-bit and wrap.  The event queue is the list of property C23, with the free
    places counted ([None]: it grows).  Process 0 is OC_PROCESS_NONE. *)
From Verif Require Import Common.
Local Open Scope N_scope.

Definition W : N := 2 ^ 64.
Definition add64 (a b : N) : N := (a + b) mod W.
Definition sub64 (a b : N) : N := (a + W - b mod W) mod W.

Record timer := mkT { t_start : N; t_int : N; t_p : N }.

Record st := mkSt {
  s_now : N;                     (* the monotonic clock, oc_timer.c lines 38-42 *)
  s_tm : N -> timer;
  s_list : list N;               (* g_timerlist *)
  s_next : N;                    (* g_next_expiration *)
  s_queue : list (N * N);        (* queued OC_PROCESS_EVENT_TIMER events: process and timer *)
  s_cap : option nat;            (* queue capacity, None when it grows *)
  s_poll : bool }.               (* the timer process was asked to run *)

Definition upd (f : N -> timer) (i : N) (t : timer) : N -> timer := fun x => if x =? i then t else f x.

(** timer_expired, oc_timer.c lines 63-73. *)
Definition timer_expired (t : timer) (now : N) : bool :=
  if now <? t_start t then false else t_int t <? add64 (sub64 now (t_start t)) 1.

(** oc_timer_until, oc_timer.c lines 81-88. *)
Definition timer_until (t : timer) (now : N) : N :=
  if timer_expired t now then 0 else sub64 (add64 (t_start t) (t_int t)) now.

(** oc_timer_expiration_time, oc_timer.c lines 96-100. *)
Definition expiration_time (t : timer) : N := add64 (t_start t) (t_int t).

(** The minimum computed by etimer_update_time, lines 61-67. *)
Fixpoint min_until (tm : N -> timer) (now : N) (l : list N) (d : N) : N :=
  match l with
  | [] => d
  | i :: r => let d2 := timer_until (tm i) now in min_until tm now r (if d2 <? d then d2 else d)
  end.

(** etimer_update_time, lines 49-70. *)
Definition update_time (s : st) : st :=
  let next := match s_list s with
              | [] => 0
              | i :: r => add64 (s_now s) (min_until (s_tm s) (s_now s) r (timer_until (s_tm s i) (s_now s)))
              end in
  mkSt (s_now s) (s_tm s) (s_list s) next (s_queue s) (s_cap s) (s_poll s).

(** Is there room for one more event? *)
Definition room (s : st) : bool :=
  match s_cap s with None => true | Some c => (List.length (s_queue s) <? c)%nat end.

(** The scan of etimer_process_poll, lines 75-98: the first expired timer whose event can be posted is taken
    out of the list; expired timers whose post is refused ask for another poll.  The queue does not change
    while posts are refused, so the first refusal means refusal of all. *)
Fixpoint scan (s : st) (before l : list N) (asked : bool) : st * bool :=
  match l with
  | [] => (mkSt (s_now s) (s_tm s) (s_list s) (s_next s) (s_queue s) (s_cap s) (s_poll s || asked), false)
  | i :: r =>
      if negb (timer_expired (s_tm s i) (s_now s)) then scan s (before ++ [i]) r asked
      else if negb (room s) then scan s (before ++ [i]) r true
      else (update_time
              (mkSt (s_now s) (upd (s_tm s) i (mkT (t_start (s_tm s i)) (t_int (s_tm s i)) 0)) (before ++ r) (s_next s)
                    (s_queue s ++ [(t_p (s_tm s i), i)]) (s_cap s) (s_poll s || asked)), true)
  end.
Definition process_poll (s : st) : st * bool := scan s [] (s_list s) false.

(** The POLL branch of the timer process, lines 138-140: poll until nothing was posted. *)
Fixpoint poll_all (fuel : nat) (s : st) : option st :=
  match fuel with
  | O => None
  | S f => let (s', again) := process_poll s in if again then poll_all f s' else Some s'
  end.

(** etimer_remove_process_pending_timers, lines 102-121. *)
Definition remove_process (s : st) (p : N) : st :=
  mkSt (s_now s) (s_tm s) (filter (fun i => negb (t_p (s_tm s i) =? p)) (s_list s)) (s_next s) (s_queue s) (s_cap s) (s_poll s).

(** etimer_add_timer, lines 153-176; [cur] is the current process.  [None]: the timer is put in front of a
    list that already contains it, which closes the list into a loop, and line 175 does not return. *)
Definition add_timer (s : st) (i cur : N) : option st :=
  let in_list := existsb (fun x => x =? i) (s_list s) in
  let found := negb (t_p (s_tm s i) =? 0) && in_list in
  if negb found && in_list then None
  else
    let l := if found then s_list s else i :: s_list s in
    Some (update_time (mkSt (s_now s) (upd (s_tm s) i (mkT (t_start (s_tm s i)) (t_int (s_tm s i)) cur)) l (s_next s)
                            (s_queue s) (s_cap s) true)).

Definition with_timer (s : st) (i : N) (start int : N) : st :=
  mkSt (s_now s) (upd (s_tm s) i (mkT start int (t_p (s_tm s i)))) (s_list s) (s_next s) (s_queue s) (s_cap s) (s_poll s).

(** oc_etimer_set, lines 178-184 (oc_timer_set, oc_timer.c lines 44-49). *)
Definition etimer_set (s : st) (i int cur : N) : option st := add_timer (with_timer s i (s_now s) int) i cur.
(** oc_etimer_reset_with_new_interval, lines 186-193 (oc_timer_reset, oc_timer.c lines 51-55). *)
Definition etimer_reset_new (s : st) (i int cur : N) : option st :=
  add_timer (with_timer s i (add64 (t_start (s_tm s i)) (t_int (s_tm s i))) int) i cur.
(** oc_etimer_reset, lines 195-200. *)
Definition etimer_reset (s : st) (i cur : N) : option st :=
  add_timer (with_timer s i (add64 (t_start (s_tm s i)) (t_int (s_tm s i))) (t_int (s_tm s i))) i cur.
(** oc_etimer_restart, lines 202-207 (oc_timer_restart, oc_timer.c lines 57-61). *)
Definition etimer_restart (s : st) (i cur : N) : option st := add_timer (with_timer s i (s_now s) (t_int (s_tm s i))) i cur.
(** oc_etimer_stop, lines 246-275. *)
Definition etimer_stop (s : st) (i : N) : st :=
  let in_list := existsb (fun x => x =? i) (s_list s) in
  let s1 := mkSt (s_now s) (s_tm s) (filter (fun x => negb (x =? i)) (s_list s)) (s_next s) (s_queue s) (s_cap s) (s_poll s) in
  let s2 := if in_list then update_time s1 else s in
  mkSt (s_now s2) (upd (s_tm s2) i (mkT (t_start (s_tm s2 i)) (t_int (s_tm s2 i)) 0)) (s_list s2) (s_next s2) (s_queue s2) (s_cap s2) (s_poll s2).

(** oc_etimer_next_expiration_time, lines 240-244. *)
Definition next_expiration (s : st) : N := match s_list s with [] => 0 | _ => s_next s end.
(** oc_etimer_expired, lines 216-220. *)
Definition etimer_expired (s : st) (i : N) : bool := t_p (s_tm s i) =? 0.

Inductive op :=
| OSet (i int cur : N) | OResetNew (i int cur : N) | OReset (i cur : N) | ORestart (i cur : N)
| OStop (i : N)
| OPoll                       (* the timer process runs its POLL branch *)
| OExited (p : N)             (* lines 130-133 *)
| OTick (d : N)               (* the clock moves on *)
| OTakeEvent.                 (* the main loop takes the oldest event *)

Definition exec (s : st) (o : op) : option st :=
  match o with
  | OSet i int cur => etimer_set s i int cur
  | OResetNew i int cur => etimer_reset_new s i int cur
  | OReset i cur => etimer_reset s i cur
  | ORestart i cur => etimer_restart s i cur
  | OStop i => Some (etimer_stop s i)
  | OPoll => poll_all (S (List.length (s_list s)))
                (mkSt (s_now s) (s_tm s) (s_list s) (s_next s) (s_queue s) (s_cap s) false)
  | OExited p => Some (remove_process s p)
  | OTick d => Some (mkSt (s_now s + d) (s_tm s) (s_list s) (s_next s) (s_queue s) (s_cap s) (s_poll s))
  | OTakeEvent => Some (mkSt (s_now s) (s_tm s) (s_list s) (s_next s) (tl (s_queue s)) (s_cap s) (s_poll s))
  end.

Fixpoint run (s : st) (os : list op) : option st :=
  match os with
  | [] => Some s
  | o :: r => match exec s o with None => None | Some s' => run s' r end
  end.

Definition init (now : N) (cap : option nat) : st := mkSt now (fun _ => mkT 0 0 0) [] 0 [] cap false.
