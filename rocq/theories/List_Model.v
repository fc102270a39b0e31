(** Model of util/oc_list.c: singly linked lists of caller-owned cells.

    The machine state is the [next] field of every cell, addressed by its pointer (an [N], 0 is NULL), and
    the head pointer of every list variable.  Loops carry fuel; [None] means that the loop did not stop
    within the fuel, which is how an endless loop of the C code shows. *)
From Verif Require Import Common.
Local Open Scope N_scope.

Record mem := mkMem { m_next : N -> N; m_head : N -> N }.

Definition upd (f : N -> N) (a v : N) : N -> N := fun x => if x =? a then v else f x.
Definition set_next (m : mem) (a v : N) : mem := mkMem (upd (m_next m) a v) (m_head m).
Definition set_head (m : mem) (l v : N) : mem := mkMem (m_next m) (upd (m_head m) l v).

(** oc_list_tail, lines 71-76: walk until the next field is NULL. *)
Fixpoint walk_tail (fuel : nat) (m : mem) (c : N) : option N :=
  match fuel with
  | O => None
  | S f => if m_next m c =? 0 then Some c else walk_tail f m (m_next m c)
  end.

(** oc_list_tail, lines 64-77. *)
Definition list_tail (fuel : nat) (m : mem) (l : N) : option N :=
  if m_head m l =? 0 then Some 0 else walk_tail fuel m (m_head m l).

(** oc_list_add, lines 79-90. *)
Definition list_add (fuel : nat) (m : mem) (l item : N) : option mem :=
  let m1 := set_next m item 0 in
  match list_tail fuel m1 l with
  | None => None
  | Some t => Some (if t =? 0 then set_head m1 l item else set_next m1 t item)
  end.

(** oc_list_push, lines 92-97. *)
Definition list_push (m : mem) (l item : N) : mem :=
  set_head (set_next m item (m_head m l)) l item.

(** oc_list_insert, lines 99-109. *)
Definition list_insert (m : mem) (l prev item : N) : mem :=
  if prev =? 0 then list_push m l item
  else set_next (set_next m item (m_next m prev)) prev item.

(** oc_list_chop, lines 123-125: walk until next->next is NULL. *)
Fixpoint walk_chop (fuel : nat) (m : mem) (c : N) : option N :=
  match fuel with
  | O => None
  | S f => if m_next m (m_next m c) =? 0 then Some c else walk_chop f m (m_next m c)
  end.

(** oc_list_chop, lines 111-130. *)
Definition list_chop (fuel : nat) (m : mem) (l : N) : option (mem * N) :=
  let h := m_head m l in
  if h =? 0 then Some (m, 0)
  else if m_next m h =? 0 then Some (set_head m l 0, h)
  else match walk_chop fuel m h with
       | None => None
       | Some c => Some (set_next m c 0, m_next m c)
       end.

(** oc_list_pop, lines 132-142. *)
Definition list_pop (m : mem) (l : N) : mem * N :=
  let h := m_head m l in
  if h =? 0 then (m, h) else (set_next (set_head m l (m_next m h)) h 0, h).

(** The pointer-to-pointer of oc_list_remove2, line 153: the address of a list head or of a next field. *)
Inductive loc := LHead (l : N) | LNext (a : N).
Definition load (m : mem) (p : loc) : N := match p with LHead l => m_head m l | LNext a => m_next m a end.
Definition store (m : mem) (p : loc) (v : N) : mem :=
  match p with LHead l => set_head m l v | LNext a => set_next m a v end.

(** oc_list_remove2, lines 150-162. *)
Fixpoint remove_loop (fuel : nat) (m : mem) (p : loc) (item : N) : option (mem * N) :=
  match fuel with
  | O => None
  | S f =>
      let c := load m p in
      if c =? 0 then Some (m, 0)
      else if c =? item then Some (set_next (store m p (m_next m c)) c 0, c)
      else remove_loop f m (LNext c) item
  end.
Definition list_remove (fuel : nat) (m : mem) (l item : N) : option (mem * N) :=
  remove_loop fuel m (LHead l) item.

(** oc_list_length, lines 164-173 (the counter is an int; histories of 2^31 cells are out of scope). *)
Fixpoint length_loop (fuel : nat) (m : mem) (c n : N) : option N :=
  match fuel with
  | O => None
  | S f => if c =? 0 then Some n else length_loop f m (m_next m c) (n + 1)
  end.
Definition list_length (fuel : nat) (m : mem) (l : N) : option N := length_loop fuel m (m_head m l) 0.

(** oc_list_has_item, lines 175-184. *)
Fixpoint has_loop (fuel : nat) (m : mem) (c item : N) : option bool :=
  match fuel with
  | O => None
  | S f => if c =? 0 then Some false else if c =? item then Some true else has_loop f m (m_next m c) item
  end.
Definition list_has (fuel : nat) (m : mem) (l item : N) : option bool := has_loop fuel m (m_head m l) item.

(** oc_list_item_next, lines 186-190. *)
Definition item_next (m : mem) (item : N) : N := if item =? 0 then 0 else m_next m item.

(** One call of the interface. *)
Inductive op :=
| OInit (l : N)                  (* oc_list_init, lines 46-50 *)
| OHead (l : N)                  (* oc_list_head, lines 52-56 *)
| OTail (l : N)
| OAdd (l item : N)
| OPush (l item : N)
| OInsert (l prev item : N)
| OChop (l : N)
| OPop (l : N)
| ORemove (l item : N)
| OLength (l : N)
| OHas (l item : N)
| ONext (l item : N).            (* [l] is not an argument of the C function: it names the list the cell is in *)

Definition b2n (b : bool) : N := if b then 1 else 0.

Definition exec (fuel : nat) (m : mem) (o : op) : option (mem * N) :=
  match o with
  | OInit l => Some (set_head m l 0, 0)
  | OHead l => Some (m, m_head m l)
  | OTail l => option_map (fun t => (m, t)) (list_tail fuel m l)
  | OAdd l x => option_map (fun m' => (m', 0)) (list_add fuel m l x)
  | OPush l x => Some (list_push m l x, 0)
  | OInsert l p x => Some (list_insert m l p x, 0)
  | OChop l => list_chop fuel m l
  | OPop l => Some (list_pop m l)
  | ORemove l x => list_remove fuel m l x
  | OLength l => option_map (fun n => (m, n)) (list_length fuel m l)
  | OHas l x => option_map (fun b => (m, b2n b)) (list_has fuel m l x)
  | ONext _ x => Some (m, item_next m x)
  end.

Fixpoint run (fuel : nat) (m : mem) (os : list op) : option (mem * list N) :=
  match os with
  | [] => Some (m, [])
  | o :: r => match exec fuel m o with
              | None => None
              | Some (m1, v) => match run fuel m1 r with
                                | None => None
                                | Some (m2, vs) => Some (m2, v :: vs)
                                end
              end
  end.

(** Nothing linked. *)
Definition empty_mem : mem := mkMem (fun _ => 0) (fun _ => 0).
