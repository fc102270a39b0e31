(** What lists mean: every list variable holds a finite sequence of cells. *)
From Verif Require Import Common List_Model.
Local Open Scope N_scope.

Definition seqs := N -> list N.
Definition set_seq (a : seqs) (l : N) (s : list N) : seqs := fun x => if x =? l then s else a x.

Fixpoint insert_after (p x : N) (s : list N) : list N :=
  match s with
  | [] => []
  | y :: r => if y =? p then y :: x :: r else y :: insert_after p x r
  end.

Fixpoint remove_first (x : N) (s : list N) : list N :=
  match s with
  | [] => []
  | y :: r => if y =? x then r else y :: remove_first x r
  end.

Fixpoint mem_of (x : N) (s : list N) : bool :=
  match s with [] => false | y :: r => (y =? x) || mem_of x r end.

(** The cell after [x] in the sequence, 0 at the end. *)
Fixpoint succ_of (x : N) (s : list N) : N :=
  match s with
  | [] => 0
  | y :: r => if y =? x then hd 0 r else succ_of x r
  end.

(** Effect on the sequences and result of one call. *)
Definition spec (a : seqs) (o : op) : seqs * N :=
  match o with
  | OInit l => (set_seq a l [], 0)
  | OHead l => (a, hd 0 (a l))
  | OTail l => (a, last (a l) 0)
  | OAdd l x => (set_seq a l (a l ++ [x]), 0)
  | OPush l x => (set_seq a l (x :: a l), 0)
  | OInsert l p x => (set_seq a l (if p =? 0 then x :: a l else insert_after p x (a l)), 0)
  | OChop l => (set_seq a l (removelast (a l)), last (a l) 0)
  | OPop l => (set_seq a l (tl (a l)), hd 0 (a l))
  | ORemove l x => (set_seq a l (remove_first x (a l)), if mem_of x (a l) then x else 0)
  | OLength l => (a, N.of_nat (List.length (a l)))
  | OHas l x => (a, if mem_of x (a l) then 1 else 0)
  | ONext l x => (a, succ_of x (a l))
  end.

Fixpoint spec_run (a : seqs) (os : list op) : seqs * list N :=
  match os with
  | [] => (a, [])
  | o :: r => let (a1, v) := spec a o in let (a2, vs) := spec_run a1 r in (a2, v :: vs)
  end.

(** What a caller has to respect: a cell that is added is a real cell in no list, and the cell after which
    one inserts is in that list. *)
Definition detached (a : seqs) (x : N) : Prop := x <> 0 /\ forall l, ~ In x (a l).
Definition allowed (a : seqs) (o : op) : Prop :=
  match o with
  | OAdd l x | OPush l x => detached a x
  | OInsert l p x => detached a x /\ (p = 0 \/ In p (a l))
  | ORemove l x | OHas l x => x <> 0
  | ONext l x => In x (a l)
  | _ => True
  end.
Fixpoint all_allowed (a : seqs) (os : list op) : Prop :=
  match os with
  | [] => True
  | o :: r => allowed a o /\ all_allowed (fst (spec a o)) r
  end.

