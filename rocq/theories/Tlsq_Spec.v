(** Messages to secured peers, independent of the code. *)
From Verif Require Import Common Tlsq_Model.

(** The messages handed over, with their endpoints, in order. *)
Fixpoint given (l : list op) : list (nat * nat) :=
  match l with
  | [] => []
  | Send m ep _ _ _ _ :: r => (ep, m) :: given r
  | _ :: r => given r
  end.

Definition times (m : nat) (l : list nat) : nat := count_occ Nat.eq_dec l m.
Definition to_ep (ep : nat) (l : list (nat * nat)) : list nat :=
  map snd (filter (fun x => Nat.eqb (fst x) ep) l).

(** The messages waiting. *)
Definition waiting (s : st) : list nat := flat_map q_send (peers s).

(** [a] is [b] with some elements left out. *)
Inductive sub {A} : list A -> list A -> Prop :=
| sub_nil : sub [] []
| sub_skip x a b : sub a b -> sub a (x :: b)
| sub_take x a b : sub a b -> sub (x :: a) (x :: b).

(** No message is sent to a peer whose handshake is over while others still wait for it. *)
Definition prompt_step (s : st) (o : op) : Prop :=
  match o with
  | Send _ ep _ _ _ _ => forall p, In p (peers s) -> q_ep p = ep -> q_over p = true -> q_send p = []
  | _ => True
  end.
(** No handshake ends in the retransmission timer. *)
Definition no_retry_end (o : op) : Prop := match o with Retry _ (Done _) => False | _ => True end.

(** No message is sent to a peer that connects to us while events of that peer are queued, and no
    connection ends while the assertion of roles to it is not answered. *)
Definition prudent_step (s : st) (o : op) : Prop :=
  (forall r, In r (roles s) -> In r (roles (step s o)) \/ exists ep, o = Answer ep) /\
  match o with
  | Send _ ep _ _ _ _ => forall p, In p (peers s) -> q_ep p = ep -> q_over p = false -> q_client p = false ->
                         forall e, In e (events s) -> ev_at e <> q_at p
  | _ => True
  end.

(** A condition on every step of a run. *)
Fixpoint along (P : st -> op -> Prop) (s : st) (l : list op) : Prop :=
  match l with [] => True | o :: r => P s o /\ along P (step s o) r end.

(** Nothing fails: normal operation, memory for a new peer, mbedtls reports no errors, the
    application closes nothing. *)
Definition benign (s : st) (o : op) : Prop :=
  match o with
  | Send _ _ rf a o w => rf = true /\ o <> Fail /\ w <> WFail /\ ~ In a (map q_at (peers s))
  | Handle o ws => o <> Fail /\ ~ In WFail ws
  | Retry _ o | OnConnect _ o => o <> Fail
  | Close _ => False
  | _ => True
  end.
