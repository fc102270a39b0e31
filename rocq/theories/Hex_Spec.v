(** Text forms, independent of the code. *)
From Verif Require Import Common.
From Coq Require Import String.
Local Open Scope N_scope.

Definition hexdigits : list N := str "0123456789abcdef".
Definition HEXDIGITS : list N := str "0123456789ABCDEF".

(** [reads_as digits c v]: character c is the digit of value v in lower or upper case. *)
Definition reads_as (c v : N) : Prop :=
  (v < 16) /\ (c = nth (N.to_nat v) hexdigits 0 \/ c = nth (N.to_nat v) HEXDIGITS 0).

(** Text in which each byte is two hex digits, most significant first (any letter case). *)
Inductive hex_text : list N -> list N -> Prop :=
| ht_nil : hex_text [] []
| ht_cons c d hi lo s l : reads_as c hi -> reads_as d lo -> hex_text s l ->
    hex_text (c :: d :: s) (hi * 16 + lo :: l).

(** RFC 4122 text: groups of 4, 2, 2, 2 and 6 bytes in hex, separated by dashes. *)
Definition uuid_text (s u : list N) : Prop :=
  exists s1 s2 s3 s4 s5 u1 u2 u3 u4 u5,
    (s = s1 ++ [45] ++ s2 ++ [45] ++ s3 ++ [45] ++ s4 ++ [45] ++ s5)%list /\
    (u = u1 ++ u2 ++ u3 ++ u4 ++ u5)%list /\
    hex_text s1 u1 /\ hex_text s2 u2 /\ hex_text s3 u3 /\ hex_text s4 u4 /\ hex_text s5 u5 /\
    List.length u1 = 4%nat /\ List.length u2 = 2%nat /\ List.length u3 = 2%nat /\
    List.length u4 = 2%nat /\ List.length u5 = 6%nat.

(** RFC 4122: version in the high nibble of octet 6, variant 10x in the top bits of octet 8. *)
Definition uuid_version (u : list N) : N := nth 6 u 0 / 16.
Definition rfc4122_variant (u : list N) : bool := N.testbit (nth 8 u 0) 7 && negb (N.testbit (nth 8 u 0) 6).

Definition no_uppercase (s : list N) : Prop := Forall (fun c => ~ (65 <= c <= 90)) s.

(** The characters of a UUID text other than dashes, within the 36 characters such a text has. *)
Definition nodash (c : N) : bool := negb (c =? 45).
Definition digits_of (s : list N) : nat := List.length (filter nodash (firstn 36 s)).
