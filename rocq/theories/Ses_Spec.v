(** What the application should see of connections (independent of the model's helpers). *)
From Verif Require Import Common Ses_Model.
Local Open Scope nat_scope.

Definition kind_eqb (a b : kind) : bool := match a, b with Conn, Conn | Disc, Disc => true | _, _ => false end.
(** The events of a kind, and of a thread, in a log. *)
Definition of_kind (k : kind) (l : list (kind * ev)) : list ev := map snd (filter (fun p => kind_eqb (fst p) k) l).
Definition of_thread (d : nat) (l : list (kind * ev)) : list (kind * ev) := filter (fun p => e_thr (snd p) =? d) l.

(** The event loop is in the middle of telling about closed connections. *)
Definition telling (s : st) : Prop := cons s = CEnd \/ cons s = CClear.
(** Threads close connections at other times only, and the process is not ended. *)
Fixpoint polite (s : st) (l : list op) : Prop :=
  match l with
  | [] => True
  | o :: r => match o with Close _ _ => ~ telling s | Exit => False | _ => True end /\ (forall t, step s o = Some t -> polite t r)
  end.
(** No thread is in the middle of reporting. *)
Definition quiet (s : st) : Prop := forall d, thr s d = TIdle.
(** The event loop has nothing to do. *)
Definition at_rest (s : st) : Prop := cons s = CIdle /\ poll s = false /\ timers s = 0.



Fixpoint sorted (l : list nat) : Prop := match l with [] => True | x :: r => (forall y, In y r -> x < y) /\ sorted r end.
(** Callbacks are in the order of their registration. *)
Definition sane (s : list cb * nat) : Prop := sorted (map c_id (fst s)) /\ (forall c, In c (fst s) -> c_id c < snd s).
(** No callback removes itself, whatever the list is when it is called. *)
Definition stays (acts : cb -> list act) : Prop :=
  forall c s, sane s -> In c (fst s) -> In c (fst (fold_left act1 (acts c) s)).
