(** Block-wise transfers, seen from a payload cut into pieces (RFC 7959). *)
From Verif Require Import Common Block_Model.
Local Open Scope N_scope.

Definition total (P : list N) : N := N.of_nat (List.length P).
(** Bytes [o, o+n) of the payload, as far as it goes. *)
Definition slice (P : list N) (o n : N) : list N := firstn (N.to_nat n) (skipn (N.to_nat o) P).

(** Block [i] of [P] cut into blocks of [sz] bytes, and whether more follow. *)
Definition more_after (P : list N) (sz i : N) : bool := (i + 1) * sz <? total P.
Definition is_block (P : list N) (sz i : N) : Prop := i = 0 \/ i * sz < total P.

(** A request that belongs to the transfer of [P] in blocks of [sz]: one of its blocks, or [P] at once,
    or the buffer timing out. *)
Definition faithful (P : list N) (sz : N) (o : op) : Prop :=
  match o with
  | Block _ b p _ _ => k_size b = sz /\ is_block P sz (k_num b) /\ k_more b = more_after P sz (k_num b) /\ p = slice P (k_num b * sz) sz
  | Plain _ p _ _ => p = P
  | Expire _ => True
  end.

(** A block of the transfer that is not the last, and that finds or gets a buffer large enough. *)
Definition early_block (P : list N) (sz : N) (max_app : N) (o : op) : Prop :=
  match o with
  | Block _ b p size1 room => k_size b = sz /\ is_block P sz (k_num b) /\ more_after P sz (k_num b) = true /\ k_more b = true /\
                              p = slice P (k_num b * sz) sz /\ room = true /\ total P <= (if size1 =? 0 then max_app else size1)
  | _ => False
  end.
Definition num_of (o : op) : N := match o with Block _ b _ _ _ => k_num b | _ => 0 end.
(** No block runs ahead of the ones before it: [n] is the next block expected. *)
Fixpoint advancing (n : N) (nums : list N) : Prop :=
  match nums with
  | [] => True
  | i :: r => i <= n /\ advancing (if i =? n then n + 1 else n) r
  end.
Fixpoint reached (n : N) (nums : list N) : N :=
  match nums with [] => n | i :: r => reached (if i =? n then n + 1 else n) r end.
