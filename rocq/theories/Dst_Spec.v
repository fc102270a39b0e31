(** What the provisioning client expects of its storage. *)
From Verif Require Import Common Ea_Model Ea_Spec.
Local Open Scope N_scope.

(** The pool never runs out and never hands out a slot twice. *)
Definition pool_ok (mem : nat -> option N) : Prop := (forall k, exists p, mem k = Some p) /\ forall j k, mem j = mem k -> j = k.

(** An address as it reads: no name is the empty name. *)
Definition reads (a : addr) : list N * list N :=
  (fst a, match snd a with MName (Some t) => t | _ => [] end).

(** The addresses of the provisioning client have names. *)
Definition named (z : ring) : Prop := forall a, In a (all z) -> exists n, snd a = MName n.

(** The selected address first, then the others in their order. *)
Definition in_front (z : ring) : list addr := match z with None => [] | Some (l, x, r) => x :: l ++ r end.
