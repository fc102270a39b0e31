(** What is asked of the hand-over of messages. *)
From Verif Require Import Common Net_Model.
Local Open Scope nat_scope.

Definition reachable (ops : list op) (t : st) : Prop := run start ops = Some t.
(** Messages in the order they arrived, without those that were dropped. *)
Definition kept (t : st) : list msg := filter (fun m => negb (existsb (fun x => m_name x =? m_name m) (gone t))) (arr t).
(** No thread is in the middle of handing over a message. *)
Definition between (p : tpc) : Prop := match p with TGot _ _ | TAdded _ | TState _ | TNeed _ => False | _ => True end.
Definition quiet (t : st) : Prop := cons t = CIdle /\ forall d, between (thr t d).
(** Steps of the event loop alone. *)
Definition of_loop (o : op) : Prop := match o with Run | Take | Copy | Signal | Post => True | _ => False end.
(** The thread of a device waits, with nothing that would wake it. *)
Definition stalled (t : st) (d : nat) : Prop := thr t d = TFull /\ sig t d = 0.
(** The messages of a history that are to be handed over: those with a valid header that were read while the process ran. A message is named by
    its place among all that were read. *)
Fixpoint reads (n : nat) (up : bool) (l : list op) : list msg :=
  match l with
  | [] => []
  | Receive d ep v :: k => if up && v then mk_msg n d ep v :: reads (S n) up k else reads (S n) up k
  | Exit :: k => reads n false k
  | _ :: k => reads n up k
  end.
Definition in_hand (t : st) (m : msg) : Prop := exists d k, thr t d = TGot m k.
