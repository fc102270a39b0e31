(** What a list of server addresses with a selected one is, stated as a ring with a cursor. *)
From Verif Require Import Common Ea_Model.
Local Open Scope N_scope.

(** An address as users see it. *)
Definition addr := (list N * meta)%type.
(** Nothing, or the selected address with those before and after it. *)
Definition ring := option (list addr * addr * list addr).

Definition all (z : ring) : list addr := match z with None => [] | Some (l, x, r) => l ++ x :: r end.
Definition cursor (z : ring) : option addr := match z with None => None | Some (_, x, _) => Some x end.
Definition known (z : ring) (u : list N) : Prop := In u (map fst (all z)).

Definition r_add (z : ring) (a : addr) : ring :=
  match z with None => Some ([], a, []) | Some (l, x, r) => Some (l, x, r ++ [a]) end.

(** Put the cursor on the first address. *)
Definition r_start (l : list addr) : ring := match l with [] => None | x :: r => Some ([], x, r) end.

Definition r_next (z : ring) : ring :=
  match z with
  | None => None
  | Some (l, x, y :: r) => Some (l ++ [x], y, r)
  | Some (l, x, []) => r_start (l ++ [x])
  end.

Definition without (u : list N) (l : list addr) : list addr := filter (fun a => negb (list_eqb (fst a) u)) l.

(** Removing the selected address moves on to the next one. *)
Definition r_remove (z : ring) (u : list N) : ring :=
  match z with
  | None => None
  | Some (l, x, r) =>
      if list_eqb (fst x) u
      then match r with y :: r' => Some (l, y, r') | [] => r_start l end
      else Some (without u l, x, without u r)
  end.

(** [z'] is [z] with the cursor on the address [u]. *)
Definition moved (z z' : ring) (u : list N) : Prop := all z' = all z /\ option_map fst (cursor z') = Some u.

(** The model state [s] shows the ring [z]. *)
Definition shows (s : eas) (z : ring) : Prop :=
  map (fun e => (a_uri e, a_meta e)) (l_items s) = all z /\
  option_map (fun e => (a_uri e, a_meta e)) (selected s) = cursor z.

(** A pool slot handed out is not in use. *)
Definition op_ok (s : eas) (o : op) : Prop :=
  match o with
  | Add _ _ (Some p) => ~ In p (map a_ptr (l_items s))
  | _ => True
  end.

Inductive reach : eas -> Prop :=
| Reach0 u m mem log : reach (fst (init log u m mem))
| ReachS s o : reach s -> op_ok s o -> reach (step s o).

(** The selected addresses seen when stepping on [n] times. *)
Fixpoint tour (n : nat) (s : eas) : list (option (list N)) :=
  match n with
  | O => []
  | S k => selected_uri (fst (select_next s)) :: tour k (fst (select_next s))
  end.
