(** Model of util/oc_crc.c. *)
From Verif Require Import Common.
Local Open Scope N_scope.

(** CRC64_POLYNOMIAL, line 29. *)
Definition poly : N := 0xC96C5795D7870F42.

(** One turn of the loop in crc64_update, lines 35-41. *)
Definition crc_bit (crc : N) : N := if N.testbit crc 0 then N.lxor (N.shiftr crc 1) poly else N.shiftr crc 1.

Fixpoint crc_bits (n : nat) (crc : N) : N := match n with O => crc | S k => crc_bits k (crc_bit crc) end.

(** crc64_update, lines 31-43. *)
Definition crc_update (crc byte : N) : N := crc_bits 8 (N.lxor crc byte).

(** oc_crc64, lines 45-52. *)
Fixpoint crc64 (crc : N) (buffer : list N) : N :=
  match buffer with [] => crc | b :: r => crc64 (crc_update crc b) r end.
