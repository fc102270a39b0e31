(** What writing a text in pieces should leave behind. *)
From Verif Require Import Common.
Local Open Scope nat_scope.

(** The terminated prefix of [text] that fits, in front of the untouched rest. *)
Definition holds (mem : list N) (text : list N) : list N :=
  let put := firstn (List.length mem - 1) text ++ [0%N] in put ++ skipn (List.length put) mem.

(** Answer of each write: the length so far, or an error from the write on that did not fit. *)
Fixpoint answers (fits : nat -> bool) (len : nat) (ts : list (list N)) : list (option nat) :=
  match ts with
  | [] => []
  | t :: r => let n := len + List.length t in (if fits n then Some n else None) :: answers fits n r
  end.
