(** What the configuration resource promises, without the code's functions. *)

From Coq Require Import List Bool Arith String.
From Verif Require Import Con_Model.
Import ListNotations.
Open Scope string_scope.
Open Scope list_scope.
Open Scope nat_scope.

(** A request that can be understood: texts that are not empty, for the name
    and for the location only. *)
Definition readable (p : payload) : Prop :=
  forall k x, In (k, x) p -> (k = "n" \/ k = "locn") /\ exists t, x = Text t /\ t <> "".

(** [t] is the last value given for [k]. *)
Definition asked (k t : string) (p : payload) : Prop :=
  exists a b, p = a ++ (k, Text t) :: b /\ forall x, ~ In (k, x) b.
Definition unasked (k : string) (p : payload) : Prop := forall x, ~ In (k, x) p.

(** The text of location number [i]. *)
Definition place (i : nat) (t : string) : Prop := 0 < i /\ nth_error locns (i - 1) = Some t.

(** The location asked for, if any, can be set at a device with tag [g]. *)
Definition settable (g : nat) (p : payload) : Prop :=
  forall t, asked "locn" t p -> g <> 0 /\ In t locns.

Definition acceptable (g : nat) (p : payload) : Prop := p <> [] /\ readable p /\ settable g p.

(** Device [w] is [v] with what [p] asks for. *)
Definition carried_out (p : payload) (v w : dev) : Prop :=
  (forall t, asked "n" t p -> nm w = t) /\ (unasked "n" p -> nm w = nm v) /\
  (forall t, asked "locn" t p -> place (tag w) t) /\ (unasked "locn" p -> tag w = tag v) /\
  cb w = cb v.

(** The events of a kind. *)
Definition calls (es : list event) : list event :=
  filter (fun e => match e with Called _ _ _ => true | _ => false end) es.
Definition answers (es : list event) : list event :=
  filter (fun e => match e with Answer _ _ _ => true | _ => false end) es.
Definition notes (es : list event) : list event :=
  filter (fun e => match e with Notified _ => true | _ => false end) es.

(** Operations that leave the name and the location of device [d] alone. *)
Definition aside (d : nat) (o : op) : Prop :=
  match o with
  | Named e _ | Tagged e _ | Post e _ | Wiped e _ _ => e <> d
  | _ => True
  end.
