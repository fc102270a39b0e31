(** What event timers promise, in unbounded time. *)
From Verif Require Import Common Etimer_Model.
Local Open Scope N_scope.

(** Deadline of a timer. *)
Definition deadline (t : timer) : N := t_start t + t_int t.
Definition due (s : st) (i : N) : bool := deadline (s_tm s i) <=? s_now s.

(** The clock and all deadlines stay below 2^64, and timers are started from within a process. *)
Definition op_ok (s : st) (o : op) : Prop :=
  match o with
  | OSet i int cur => s_now s + int < W /\ cur <> 0
  | OResetNew i int cur => t_start (s_tm s i) + t_int (s_tm s i) + int < W /\ cur <> 0
  | OReset i cur => t_start (s_tm s i) + t_int (s_tm s i) + t_int (s_tm s i) < W /\ cur <> 0
  | ORestart i cur => s_now s + t_int (s_tm s i) < W /\ cur <> 0
  | OTick d => s_now s + d < W - 1
  | OExited p => p <> 0
  | _ => True
  end.

Fixpoint ops_ok (s : st) (os : list op) : Prop :=
  match os with
  | [] => True
  | o :: r => op_ok s o /\ (forall s', exec s o = Some s' -> ops_ok s' r)
  end.

(** Earliest deadline among the armed timers. *)
Definition earliest (s : st) (d : N) : Prop :=
  (exists i, In i (s_list s) /\ deadline (s_tm s i) = d) /\ forall i, In i (s_list s) -> d <= deadline (s_tm s i).

(** How many events still fit. *)
Definition free_places (s : st) : option nat :=
  match s_cap s with None => None | Some c => Some (c - List.length (s_queue s))%nat end.
Definition take_opt {A} (n : option nat) (l : list A) : list A := match n with None => l | Some k => firstn k l end.

Definition no_exit (o : op) : bool := match o with OExited _ => false | _ => true end.
