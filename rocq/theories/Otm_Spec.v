(** What the user of ownership transfer relies on, in terms of the calls,
    the requests on the wire and the reports.  Only the data types of the
    model are used, and [run] and its fields. *)

From Coq Require Import List Bool Arith.
From Verif Require Import Otm_Model.
Import ListNotations.

(** The events of one transfer, in order. *)
Definition about (c : nat) (e : ev) : bool :=
  match e with
  | ECall x _ _ | ERefused x _ _ | ESent x _ _ | EAns x _ | ELost x | EReport x _ => x =? c
  | ENo | EFree _ | EFault _ | ENull | EStuck => false
  end.

Definition history (c : nat) (l : list ev) : list ev := filter (about c) l.

Definition tried (c : nat) (l : list ev) : nat :=
  length (filter (fun e => match e with
                           | ECall x _ _ | ERefused x _ _ => x =? c | _ => false end) l).

Definition reported (c : nat) (l : list ev) : nat :=
  length (filter (fun e => match e with EReport x _ => x =? c | _ => false end) l).

Definition pending (c : nat) (s : st) : nat :=
  length (filter (fun r => rown r =? c) (reqs s)).

(** The requests of a transfer, in this order, as OCF asks for. *)
Definition main_part (u : nat) : list msg :=
  [MOm; MOwner; MUuid u; MRowDoxm; MRowAcl; MRowPstat; MCred; MSdi; MOwned;
   MPro; MDelAcl; MAcl; MNop].

Definition script (k : kind) (u : nat) : list msg :=
  match k with
  | JustWorks => MGet :: MSel 0 :: main_part u
  | MfgCert => MGet :: MSel 2 :: main_part u
  | RandomPin => main_part u
  | AskPin => [MGet; MSel 1]
  end.

(** A request, where it went and how it was answered. *)
Record turn : Type := mkturn { where_to : nat; what : msg; how : ans }.

(** Success, or for sdi that there is no such resource. *)
Definition welcome (t : turn) : Prop :=
  how t = Fine \/ (what t = MSdi /\ how t = NotFound).

Definition said (c : nat) (l : list turn) : list ev :=
  flat_map (fun t => [ESent c (where_to t) (what t); EAns c (how t)]) l.

(** Everything a transfer can look like. *)
Inductive story (c : nat) : list ev -> Prop :=
| never : story c []
| refused h k : story c [ERefused c h k; EReport c false]
| under_way h k u l a m more :
    script k u = map what l ++ m :: more -> Forall welcome l ->
    story c (ECall c h k :: said c l ++ [ESent c a m])
| succeeded h k u l :
    script k u = map what l -> Forall welcome l ->
    story c (ECall c h k :: said c l ++ [EReport c true])
| stopped h k u l m more :
    script k u = map what l ++ m :: more -> Forall welcome l -> l <> [] ->
    story c (ECall c h k :: said c l ++ [EReport c false])
| failed h k u l a m more e :
    script k u = map what l ++ m :: more -> Forall welcome l ->
    (exists r, e = EAns c r /\ ~ welcome (mkturn a m r)) \/ e = ELost c ->
    story c (ECall c h k :: said c l ++ [ESent c a m; e; EReport c false]).

Definition in_progress (c h : nat) (l : list ev) : Prop :=
  (exists k, In (ECall c h k) l) /\ reported c l = 0.

(** The UUID that the tool has for the device [h], and where it is kept. *)
Definition uuid_of (h : nat) (s : st) : nat :=
  match nth_error (heap s) h with Some d => du d | None => 0 end.

Definition kept (h : nat) (s : st) : place :=
  match nth_error (heap s) h with Some d => dl d | None => Freed end.

(** One transfer of a device at a time. *)
Definition solo (ops : list op) : Prop :=
  forall before k u l up after c h,
    ops = before ++ OCall k u l up :: after ->
    in_progress c h (tr (run before)) -> uuid_of h (run before) <> u.

(** The UUIDs drawn, which is when the POST of devowneruuid is answered, are
    not those of devices known to have no owner. *)
Definition fresh (ops : list op) : Prop :=
  forall before i r x up after q h,
    ops = before ++ OAnswer i r x up :: after ->
    nth_error (reqs (run before)) i = Some q -> rmsg q = MOwner ->
    kept h (run before) = Cached -> uuid_of h (run before) <> rnd x.

(** Discovery and transfer of a device are kept apart. *)
Definition apart (ops : list op) : Prop :=
  (forall before k u l up after h,
    ops = before ++ OCall k u l up :: after ->
    In h (gets (run before)) -> uuid_of h (run before) <> u) /\
  (forall before u a after c h,
    ops = before ++ ODiscover u a :: after ->
    in_progress c h (tr (run before)) -> uuid_of h (run before) <> u).

(** Answers to pending requests, in any order and with any outcome. *)
Record reply : Type := mkreply { which : nat; rep : ans; rin : input; conns : list nat }.

Definition reply_op (s : st) (r : reply) : op :=
  OAnswer (which r mod length (reqs s)) (rep r) (rin r) (conns r).

Fixpoint all_answered (rs : list reply) (ops : list op) : list op :=
  match rs with
  | [] => ops
  | r :: rs' => all_answered rs' (ops ++ [reply_op (run ops) r])
  end.
