(** Model of util/oc_memb.c: fixed pools of equally sized blocks (the static form, num > 0).

    A pool has a base address, a block size, one use counter per block and byte-addressed memory.  The
    dynamic form (num = 0) hands requests to calloc and free and is not modelled. *)
From Verif Require Import Common.
Local Open Scope N_scope.

Record pool := mkPool {
  p_base : N;            (* m->mem *)
  p_size : N;            (* m->size *)
  p_count : list N;      (* m->count, m->num entries *)
  p_mem : N -> N }.      (* the bytes in memory, by address *)

(** oc_memb_init sets every counter to 0, oc_memb.c line 48; a static pool starts like that. *)
Definition fresh_pool (base size : N) (num : nat) : pool := mkPool base size (repeat 0 num) (fun _ => 0).

(** The range of bytes line 49 of oc_memb_init clears: num * sizeof(char * ) from the base (8-byte pointers). *)
Definition init_clears (p : pool) (a : N) : bool :=
  (p_base p <=? a) && (a <? p_base p + N.of_nat (List.length (p_count p)) * 8).

(** The loop of _oc_memb_alloc, lines 67-76 and 79: the first block with counter 0. *)
Fixpoint alloc_loop (a size : N) (count : list N) : option (list N * N) :=
  match count with
  | [] => None
  | c :: r => if c =? 0 then Some (c + 1 :: r, a)
              else match alloc_loop (a + size) size r with
                   | None => None
                   | Some (r', b) => Some (c :: r', b)
                   end
  end.

(** memset(ptr, 0, size), line 80. *)
Definition clear (mem : N -> N) (a size : N) : N -> N := fun x => if (a <=? x) && (x <? a + size) then 0 else mem x.

(** _oc_memb_alloc, lines 53-100; 0 is NULL. *)
Definition memb_alloc (p : pool) : pool * N :=
  match alloc_loop (p_base p) (p_size p) (p_count p) with
  | None => (p, 0)
  | Some (count', a) => (mkPool (p_base p) (p_size p) count' (clear (p_mem p) a (p_size p)), a)
  end.

(** The loop of _oc_memb_free, lines 121-133. *)
Fixpoint free_loop (a size : N) (count : list N) (ptr : N) : list N :=
  match count with
  | [] => []
  | c :: r => if a =? ptr then (if 0 <? c then c - 1 else c) :: r else c :: free_loop (a + size) size r ptr
  end.

(** oc_memb_numfree, lines 153-163. *)
Fixpoint numfree_loop (count : list N) (n : N) : N :=
  match count with
  | [] => n
  | c :: r => numfree_loop r (if c =? 0 then n + 1 else n)
  end.
Definition memb_numfree (p : pool) : N := numfree_loop (p_count p) 0.

(** _oc_memb_free, lines 102-144; the result is the number given to buffers_avail_cb, line 141. *)
Definition memb_free (p : pool) (ptr : N) : pool * N :=
  let p' := mkPool (p_base p) (p_size p) (free_loop (p_base p) (p_size p) (p_count p) ptr) (p_mem p) in
  (p', memb_numfree p').

(** oc_memb_inmemb, lines 146-151. *)
Definition memb_inmemb (p : pool) (ptr : N) : bool :=
  (p_base p <=? ptr) && (ptr <? p_base p + N.of_nat (List.length (p_count p)) * p_size p).

(** Calls of the interface, and a client's own writes and reads of single bytes of a block. *)
Inductive op :=
| OAlloc
| OFree (ptr : N)
| ONumFree
| OIn (ptr : N)
| OWrite (ptr off v : N)
| ORead (ptr off : N).

Definition exec (p : pool) (o : op) : pool * N :=
  match o with
  | OAlloc => memb_alloc p
  | OFree ptr => memb_free p ptr
  | ONumFree => (p, memb_numfree p)
  | OIn ptr => (p, if memb_inmemb p ptr then 1 else 0)
  | OWrite ptr off v =>
      (mkPool (p_base p) (p_size p) (p_count p) (fun x => if x =? ptr + off then v else p_mem p x), 0)
  | ORead ptr off => (p, p_mem p (ptr + off))
  end.

Fixpoint run (p : pool) (os : list op) : list N :=
  match os with
  | [] => []
  | o :: r => let (p', v) := exec p o in v :: run p' r
  end.
