(** Model of api/oc_event_callback.c: delayed (timed) callbacks.

    A registration is named by a number that is never reused; the list g_timed_callbacks holds the
    registrations in order.  The code a handler executes is a script of calls into this interface, chosen by an
    arbitrary function of the history, plus its return value.  on_delete functions are named by numbers (0 is
    NULL) and only recorded.  Whether the pool has a free slot is an input of each addition.  Time does not
    wrap here (property C24 treats the 64-bit clock). *)
From Verif Require Import Common.
Local Open Scope N_scope.

(** oc_event_callback_t, oc_event_callback_internal.h; [e_fired]: oc_etimer_expired, the timer process has
    posted the timer's event. *)
Record ev := mkEv { e_id : N; e_cb : N; e_data : N; e_start : N; e_int : N; e_fired : bool }.

Inductive item :=
| LCall (e : ev) (t : N)          (* the handler of [e] is called at time [t] *)
| LDelete (od data : N)           (* the on_delete function is called *)
| LHas (b : bool).                (* an answer of oc_ri_has_timed_event_callback *)

Inductive action :=
| AAdd (cb data ticks : N) (slot : bool)
| ARemove (cb : N) (f : N -> bool) (all : bool) (od : N)
| AHas (cb data : N) (ignore : bool)
| ATick (d : N).

Record st := mkSt {
  s_now : N; s_next : N; s_evs : list ev;
  s_cur : option N;        (* g_currently_processed_event_cb *)
  s_del : bool;            (* g_currently_processed_event_cb_delete *)
  s_od : N;                (* g_currently_processed_event_on_delete *)
  s_log : list item }.     (* newest first *)

(** oc_ri_has_timed_event_callback, lines 91-105. *)
Fixpoint has (l : list ev) (cb data : N) (ignore : bool) : bool :=
  match l with
  | [] => false
  | e :: r => if (e_cb e =? cb) && (ignore || (e_data e =? data)) then true else has r cb data ignore
  end.

Definition is_cur (cur : option N) (e : ev) : bool := match cur with Some i => e_id e =? i | None => false end.

(** The loop of oc_ri_remove_timed_event_callback_by_filter, lines 126-152: list left, data of the deleted
    registrations in order, and the flag want_to_delete_currently_processed_event_cb. *)
Fixpoint rm (l : list ev) (cur : option N) (cb : N) (f : N -> bool) (all want : bool) : list ev * list N * bool :=
  match l with
  | [] => ([], [], want)
  | e :: r =>
      if negb (e_cb e =? cb) || negb (f (e_data e)) then
        let '(l', ds, w) := rm r cur cb f all want in (e :: l', ds, w)
      else if is_cur cur e then
        if all then let '(l', ds, w) := rm r cur cb f all true in (e :: l', ds, w) else (e :: r, [], true)
      else
        if all then let '(l', ds, w) := rm r cur cb f all false in (l', e_data e :: ds, w) else (r, [e_data e], false)
  end.

Definition log_deletes (od : N) (ds : list N) (lg : list item) : list item :=
  if od =? 0 then lg else rev (map (LDelete od) ds) ++ lg.

(** oc_ri_remove_timed_event_callback_by_filter, lines 118-160; oc_ri_remove_timed_event_callback (lines
    168-174) is the case [all = false], [od = 0] and equality as filter. *)
Definition remove_by_filter (s : st) (cb : N) (f : N -> bool) (all : bool) (od : N) : st :=
  let '(l, ds, want) := rm (s_evs s) (s_cur s) cb f all false in
  mkSt (s_now s) (s_next s) l (s_cur s) (if want then true else s_del s) (if want then od else s_od s) (log_deletes od ds (s_log s)).

(** oc_ri_add_timed_event_callback_ticks, lines 176-194. *)
Definition add (s : st) (cb data ticks : N) (slot : bool) : st :=
  if slot then mkSt (s_now s) (s_next s + 1) (s_evs s ++ [mkEv (s_next s) cb data (s_now s) ticks false]) (s_cur s) (s_del s) (s_od s) (s_log s)
  else s.

Definition act (s : st) (a : action) : st :=
  match a with
  | AAdd cb data ticks slot => add s cb data ticks slot
  | ARemove cb f all od => remove_by_filter s cb f all od
  | AHas cb data ign => mkSt (s_now s) (s_next s) (s_evs s) (s_cur s) (s_del s) (s_od s) (LHas (has (s_evs s) cb data ign) :: s_log s)
  | ATick d => mkSt (s_now s + d) (s_next s) (s_evs s) (s_cur s) (s_del s) (s_od s) (s_log s)
  end.

Fixpoint acts (s : st) (l : list action) : st := match l with [] => s | a :: r => acts (act s a) r end.

(** The scan for the next expired timer, lines 199-205 with the restarts from the head in lines 216 and 222. *)
Fixpoint first_fired (l : list ev) : option ev :=
  match l with [] => None | e :: r => if e_fired e then Some e else first_fired r end.

(** What a handler does: its calls and whether it returns OC_EVENT_DONE. *)
Definition behaviour := list item -> ev -> list action * bool.

(** Lines 206-222 for one expired registration. *)
Definition call (beh : behaviour) (s : st) (e : ev) : st :=
  let s0 := mkSt (s_now s) (s_next s) (s_evs s) (Some (e_id e)) false (s_od s) (LCall e (s_now s) :: s_log s) in
  let (script, done) := beh (s_log s) e in
  let s1 := acts s0 script in
  if done || s_del s1 then
    mkSt (s_now s1) (s_next s1) (filter (fun x => negb (e_id x =? e_id e)) (s_evs s1)) (s_cur s1) (s_del s1) (s_od s1)
         (log_deletes (s_od s1) [e_data e] (s_log s1))
  else
    mkSt (s_now s1) (s_next s1)
         (map (fun x => if e_id x =? e_id e then mkEv (e_id x) (e_cb x) (e_data x) (s_now s1) (e_int x) false else x) (s_evs s1))
         (s_cur s1) (s_del s1) (s_od s1) (s_log s1).

(** event_callbacks_poll_timers, lines 196-229. *)
Fixpoint poll (fuel : nat) (beh : behaviour) (s : st) : option st :=
  match fuel with
  | O => None
  | S f => match first_fired (s_evs s) with
           | Some e => poll f beh (call beh s e)
           | None => Some (mkSt (s_now s) (s_next s) (s_evs s) None false 0 (s_log s))
           end
  end.

(** Events from outside handlers: an interface call, the timer process posting some of the due timers, and
    the delivery of a timer event (event_callbacks_check, lines 310-317). *)
Inductive op := OAct (a : action) | OFire (sel : N -> bool) | OCheck.

Definition due (now : N) (e : ev) : bool := e_start e + e_int e <=? now.
Definition fire (now : N) (sel : N -> bool) (e : ev) : ev :=
  if sel (e_id e) && due now e then mkEv (e_id e) (e_cb e) (e_data e) (e_start e) (e_int e) true else e.

Definition exec (beh : behaviour) (s : st) (o : op) : option st :=
  match o with
  | OAct a => Some (act s a)
  | OFire sel => Some (mkSt (s_now s) (s_next s) (map (fire (s_now s) sel) (s_evs s)) (s_cur s) (s_del s) (s_od s) (s_log s))
  | OCheck => poll (S (List.length (s_evs s))) beh s
  end.

Fixpoint run (beh : behaviour) (s : st) (os : list op) : option st :=
  match os with [] => Some s | o :: r => match exec beh s o with None => None | Some s' => run beh s' r end end.

Definition init (now : N) : st := mkSt now 1 [] None false 0 [].
