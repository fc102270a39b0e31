(** Model of util/oc_buffer.c.

    The destination is the list of its bytes.  A write is given the text that vsnprintf would produce with
    unlimited room; encoding errors of vsnprintf and texts longer than INT_MAX are not modelled. *)
From Verif Require Import Common.
Local Open Scope nat_scope.

(** oc_write_buffer_t, oc_buffer_internal.h; [w_off] is how far wb->buffer has moved, [w_null]: no buffer. *)
Record wb := mkWb { w_null : bool; w_mem : list N; w_off : nat; w_size : nat; w_total : nat }.

(** vsnprintf(buffer + off, size, ...): at most [size - 1] characters and the terminating zero. *)
Definition vsn (mem : list N) (off size : nat) (text : list N) : list N :=
  match size with
  | O => mem
  | S k => let put := firstn k text ++ [0%N] in firstn off mem ++ put ++ skipn (off + List.length put) mem
  end.

(** oc_buffer_write, lines 24-46; [None] is -1. *)
Definition buffer_write (b : wb) (text : list N) : wb * option nat :=
  let mem := if w_null b then w_mem b else vsn (w_mem b) (w_off b) (w_size b) text in
  let n := List.length text in
  let total := w_total b + n in
  if w_null b then (mkWb true mem (w_off b) (w_size b) total, Some total)
  else if w_size b <=? n then (mkWb false mem (w_off b + w_size b) 0 total, None)
  else (mkWb false mem (w_off b + n) (w_size b - n) total, Some total).

Fixpoint writes (b : wb) (ts : list (list N)) : wb * list (option nat) :=
  match ts with
  | [] => (b, [])
  | t :: r => let (b1, v) := buffer_write b t in let (b2, vs) := writes b1 r in (b2, v :: vs)
  end.

Definition open_buffer (mem : list N) : wb := mkWb false mem 0 (List.length mem) 0.
Definition no_buffer : wb := mkWb true [] 0 0 0.
