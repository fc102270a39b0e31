(** Cyclic redundancy check by polynomials over GF(2): bit i of a number is the coefficient of x^i, addition
    is exclusive or. *)
From Verif Require Import Common.
Local Open Scope N_scope.

(** Product of polynomials. *)
Fixpoint pmul_pos (a : positive) (b : N) : N :=
  match a with
  | xH => b
  | xO p => N.double (pmul_pos p b)
  | xI p => N.lxor b (N.double (pmul_pos p b))
  end.
Definition pmul (a b : N) : N := match a with N0 => 0 | Npos p => pmul_pos p b end.

(** The generator of ECMA-182: x^64 plus the published normal form. *)
Definition generator : N := 2 ^ 64 + 0x42F0E1EBA9EA3693.

(** Number with the given low bits. *)
Fixpoint of_bits (f : N -> bool) (k : nat) : N :=
  match k with O => 0 | S j => if f (N.of_nat j) then N.setbit (of_bits f j) (N.of_nat j) else of_bits f j end.
(** A register value read as a polynomial: the least significant bit is the coefficient of x^63. *)
Definition reflect (c : N) : N := of_bits (fun i => N.testbit c (63 - i)) 64.

(** The message as a polynomial: bytes in order, each byte least significant bit first, the first bit being
    the highest coefficient. *)
Definition message_bits (m : list N) : list bool := flat_map (fun b => map (N.testbit b) [0; 1; 2; 3; 4; 5; 6; 7]) m.
Fixpoint horner (acc : N) (l : list bool) : N := match l with [] => acc | b :: r => horner (2 * acc + (if b then 1 else 0)) r end.
Definition message_poly (m : list N) : N := horner 0 (message_bits m).

(** [r] is the remainder of [a] modulo the generator. *)
Definition remainder (a r : N) : Prop := r < 2 ^ 64 /\ exists q, N.lxor a r = pmul q generator.

(** The bytes as one little-endian number: position of a bit is its distance from the start of the message. *)
Fixpoint le (m : list N) : N := match m with [] => 0 | b :: r => b + 256 * le r end.
