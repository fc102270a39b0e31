(* What is expected of the retry counter and of the renewal of certificates. *)
From Coq Require Import List NArith.
Import ListNotations.
From Verif Require Import Dpr_Model.
Local Open Scope N_scope.

(* A configuration that is accepted: one to eight values, none of them zero. *)
Definition acceptable (c : list N) : Prop :=
  (1 <= length c <= 8)%nat /\ forall x, In x c -> x <> 0.

(* Configurations have one byte per value. *)
Definition bytes (c : list N) : Prop := forall x, In x c -> x <= 255.

(* The application never sets its own schedule. *)
Definition own_schedule (o : rop) : Prop := o = RCustom true.
Definition byte_cfg (o : rop) : Prop :=
  match o with RSet c => bytes c | _ => True end.

(* Between half of t and t seconds, in milliseconds. *)
Definition around (t d : N) : Prop := 500 * t <= d < 1000 * t.

(* n increments with any random values. *)
Inductive increments : nat -> list rop -> Prop :=
  | inc0 : increments 0 []
  | incS : forall n l a b rnd, increments n l ->
      increments (S n) (l ++ [RInc a b rnd]).

(* Waiting, looking at the certificate again, waiting, ...: the moments at which
   a certificate is looked at, until it is found to be expiring. *)
Inductive rechecks (limit valid_to : N) : N -> nat -> N -> Prop :=
  | re_end : forall now, is_expiring limit valid_to now = true ->
      rechecks limit valid_to now 0 now
  | re_wait : forall now n last, is_expiring limit valid_to now = false ->
      rechecks limit valid_to (now + interval limit valid_to now / 1000) n last ->
      rechecks limit valid_to now (S n) last.
