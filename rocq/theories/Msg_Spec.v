(** What the layers above and below rely on, in terms of what happens to
    messages. *)

From Coq Require Import List Bool Arith.
From Verif Require Import Msg_Model.
Import ListNotations.

Definition same (a b : item) : bool := (no a =? no b) && Bool.eqb (copy a) (copy b).

(** How often the reference was made, released, and is waiting. *)
Definition made (r : item) (l : list ev) : nat :=
  length (filter (fun e => match e with EBorn i => same r i | _ => false end) l).

Definition freed (r : item) (l : list ev) : nat :=
  length (filter (fun e => match e with EFree i => same r i | _ => false end) l).

Definition queued (r : item) (l : list qev) : nat :=
  length (filter (fun q => match q with Ev _ i => same r i | Misc => false end) l).

Definition kept (r : item) (l : list item) : nat := length (filter (same r) l).

(** The events that read a message. *)
Definition reads (e : ev) : option item :=
  match e with
  | EClear i | EDisc i | EGroup i | ETls i | EWrite i | ETlsIn i | ECoap i | EFree i => Some i
  | EBorn _ | ENull => None
  end.

(** The ways of messages: 1 sent in the clear, 2 sent through TLS, 3 received
    in the clear, 4 received by multicast with OSCORE, 5 received encrypted,
    6 decrypted. *)
Definition lane (c : cfg) (i : item) : nat :=
  match org i with
  | Out => if client c && disc i then 0
           else if client c && oscore c && (multi i && sec i) then 0
           else if sec i then 2 else 1
  | In_ => if enc i then 5 else if oscore c && multi i then 4 else 3
  | Dec => 6
  end.

(** The numbers of the messages of a lane, in the order in which they were
    handed over, and in that in which they arrived. *)
Definition handed (c : cfg) (n : nat) (l : list ev) : list nat :=
  flat_map (fun e => match e with
                     | EBorn i => if negb (copy i) && (lane c i =? n) then [no i] else []
                     | _ => []
                     end) l.

Definition arrived (c : cfg) (n : nat) (l : list ev) : list nat :=
  flat_map (fun e => match e with
                     | EClear i | ETls i | ETlsIn i | ECoap i => if lane c i =? n then [no i] else []
                     | _ => []
                     end) l.

(** Some of the elements, in the same order. *)
Inductive within {A} : list A -> list A -> Prop :=
| within_nil : within [] []
| within_skip x l m : within l m -> within l (x :: m)
| within_keep x l m : within l m -> within (x :: l) (x :: m).

(** A turn of the event loop that starts nothing new. *)
Definition quiet (x : input) : Prop := x_err x = false /\ x_posts x = [] /\ x_misc x = 0.

(** A turn in which OSCORE refuses no message of the lane: received ones can
    be opened; sent ones have no context, or can be copied and protected. *)
Definition good (c : cfg) (n : nat) (x : input) : Prop :=
  oscore c = true ->
  (n = 4 \/ n = 6 -> x_osc x = true -> x_ok x = true) /\
  (n = 2 -> x_ctx x = false \/ (client c = true /\ x_mem x = true /\ x_cover x <> Fails)).
