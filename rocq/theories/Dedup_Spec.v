(** Duplicate detection as a sliding window over the executed requests. *)
From Verif Require Import Common Dedup_Model.
Local Open Scope N_scope.

(** The requests that were executed and recorded, newest first. *)
Fixpoint executed (rs : list req) (ans : list bool) (acc : list (N * N)) : list (N * N) :=
  match rs, ans with
  | r :: rs', a :: ans' => executed rs' ans' (if a && negb (r_con r) then (r_mid r, r_dev r) :: acc else acc)
  | _, _ => acc
  end.

(** What a request should get after the executed requests [past] (newest first) when the last [n] count. *)
Definition fresh (n : nat) (past : list (N * N)) (r : req) : Prop := ~ In (r_mid r, r_dev r) (firstn n past).
