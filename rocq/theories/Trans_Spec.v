(** What a user sees of a confirmable message: when it was put on the wire. *)
From Verif Require Import Common Trans_Model.
Local Open Scope N_scope.

(** Transmission times of object [i], oldest first. *)
Definition times (i : N) (s : st) : list N := rev (map snd (filter (fun e => fst e =? i) (log s))).

(** The first wait is at least [w], each further one at least twice the previous minimum. *)
Fixpoint spaced (w : N) (ts : list N) : Prop :=
  match ts with
  | a :: (b :: _) as r => a + w <= b /\ spaced (2 * w) r
  | _ => True
  end.

(** Every message to a secured endpoint had a TLS peer when it was sent. *)
Definition peer_known (o : op) : Prop :=
  match o with Send _ _ true _ peer _ _ => peer = true | _ => True end.

(** Time does not run backwards. *)
Fixpoint timed (now : N) (ops : list op) : Prop :=
  match ops with
  | [] => True
  | Send _ _ _ _ _ _ t :: r => now <= t /\ timed t r
  | Check t :: r => now <= t /\ timed t r
  | _ :: r => timed now r
  end.

(** The message object is still waiting for an acknowledgement. *)
Definition waiting (i : N) (s : st) : Prop := In i (map t_id (txs s)).
