(** What the user of the onboarding tool relies on, in terms of the calls,
    the requests on the wire and the reports.  Only the data types of the
    model are used, and [run] and its fields. *)

From Coq Require Import List Bool Arith.
From Verif Require Import Obt_Model.
Import ListNotations.

(** The events of one operation, in order. *)
Definition about (c : nat) (e : ev) : bool :=
  match e with
  | ECall x _ | ESent x _ _ | EAns x _ | ELost x | EReport x _ | EForget x _ => x =? c
  | ERefused | EFree _ | EFault _ | EStuck => false
  end.

Definition history (c : nat) (l : list ev) : list ev := filter (about c) l.

(** How often the operation was accepted and reported. *)
Definition accepted (c : nat) (l : list ev) : nat :=
  length (filter (fun e => match e with ECall x _ => x =? c | _ => false end) l).

Definition reported (c : nat) (l : list ev) : nat :=
  length (filter (fun e => match e with EReport x _ => x =? c | _ => false end) l).

Definition pending (c : nat) (s : st) : nat :=
  length (filter (fun r => rown r =? c) (reqs s)).

(** The requests an operation has to make, in this order. *)
Definition script (t : task) (k a b : nat) : list (nat * msg) :=
  match t with
  | TReset (_, u) => [(u, MDos DosReset)]
  | TPair (_, u) (_, v) =>
      [(u, MDos DosPro); (v, MDos DosPro);
       (u, MKey v k); (v, MKey u k);
       (u, MDos DosNop); (v, MDos DosNop)]
  | TOsc (_, u) (_, v) =>
      [(u, MDos DosPro); (v, MDos DosPro);
       (u, MOsc v k a b); (v, MOsc u k b a);
       (u, MDos DosNop); (v, MDos DosNop)]
  | TAce (_, u) x => [(u, MDos DosPro); (u, MAce x); (u, MDos DosNop)]
  | TDelKey (_, u) x => [(u, MDos DosPro); (u, MDelKey x); (u, MDos DosNop)]
  | TDelAce (_, u) x => [(u, MDos DosPro); (u, MDelAce x); (u, MDos DosNop)]
  end.

(** Requests that were sent and each answered with success before the next. *)
Definition said (c : nat) (l : list (nat * msg)) : list ev :=
  flat_map (fun p => [ESent c (fst p) (snd p); EAns c true]) l.

(** The end of a successful operation. *)
Definition success (c : nat) (t : task) : list ev :=
  match t with
  | TReset (_, u) => [EForget c u; EReport c true]
  | _ => [EReport c true]
  end.

(** The four things an operation can look like. *)
Inductive story (c : nat) : list ev -> Prop :=
| never : story c []
| under_way t k a b n u m :
    nth_error (script t k a b) n = Some (u, m) ->
    story c (ECall c t :: said c (firstn n (script t k a b)) ++ [ESent c u m])
| succeeded t k a b :
    story c (ECall c t :: said c (script t k a b) ++ success c t)
| unsent t k a b n :
    0 < n -> n < length (script t k a b) ->
    story c (ECall c t :: said c (firstn n (script t k a b)) ++ [EReport c false])
| failed t k a b n u m e :
    nth_error (script t k a b) n = Some (u, m) ->
    e = EAns c false \/ e = ELost c ->
    story c (ECall c t :: said c (firstn n (script t k a b)) ++ [ESent c u m; e; EReport c false]).

(** The UUIDs of the devices of an operation or of a call. *)
Definition uuids (t : task) : list nat :=
  match t with
  | TReset d | TAce d _ | TDelKey d _ | TDelAce d _ => [snd d]
  | TPair a b | TOsc a b => [snd a; snd b]
  end.

Definition named (k : call) : list nat :=
  match k with
  | CReset u | CAce u _ | CDelKey u _ | CDelAce u _ => [u]
  | CPair u v | COsc u v => [u; v]
  end.

Definition in_progress (c : nat) (t : task) (l : list ev) : Prop :=
  In (ECall c t) l /\ reported c l = 0.

(** A call that keeps resets apart from everything else on the same device. *)
Definition apart (k : call) (l : list ev) : Prop :=
  forall c t, in_progress c t l ->
    (forall u, k = CReset u -> ~ In u (uuids t)) /\
    (forall d, t = TReset d -> ~ In (snd d) (named k)).

Definition careful (ops : list op) : Prop :=
  forall before k ok after,
    ops = before ++ OCall k ok :: after -> apart k (tr (run before)).

(** Answers to pending requests, in any order and with any outcome. *)
Record reply : Type := mkreply {
  which : nat; fine : bool; sendok : bool; rk : nat; ra : nat; rb : nat; conns : list nat }.

Definition reply_op (s : st) (r : reply) : op :=
  OAnswer (which r mod length (reqs s)) (fine r) (sendok r) (rk r) (ra r) (rb r) (conns r).

Fixpoint all_answered (rs : list reply) (ops : list op) : list op :=
  match rs with
  | [] => ops
  | r :: rs' => all_answered rs' (ops ++ [reply_op (run ops) r])
  end.
