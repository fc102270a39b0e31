(** Messages protected with OSCORE, independent of the code. *)
From Verif Require Import Common Oscore_Model Oscore_Spec Osx_Model.
Local Open Scope N_scope.

(** The contexts of a group of devices: each sender key belongs to one context of one device, no
    context receives with its own sender key, a device has one context per subject, identifiers
    are short byte strings; pairwise contexts and group clients have a sender identifier, pairwise
    contexts and group servers a recipient identifier. *)
Definition sends (c : ctx) : Prop := x_type c <> McServer.
Definition wf (s : st) : Prop :=
  (forall d c, In c (d_ctxs (devs s d)) ->
     (List.length (x_send c) <= 7)%nat /\ (List.length (x_recv c) <= 7)%nat /\ bytes_ok (x_send c) /\ bytes_ok (x_recv c) /\
     (x_type c <> McServer -> x_send c <> []) /\ (x_type c <> McClient -> x_recv c <> []) /\
     (x_type c = McServer -> x_send c = []) /\ (x_type c = McClient -> x_recv c = []) /\ x_send c <> x_recv c) /\
  (forall d, NoDup (map x_subject (d_ctxs (devs s d)))) /\
  (forall d c d' c', In c (d_ctxs (devs s d)) -> In c' (d_ctxs (devs s d')) -> sends c -> sends c' ->
     x_secret c = x_secret c' -> x_send c = x_send c' -> d = d' /\ x_subject c = x_subject c').

(** No message has been sent or received yet. *)
Definition initial (s : st) : Prop :=
  wf s /\ prot s = [] /\ acc s = [] /\ forall d, d_cbs (devs s d) = [] /\ d_trs (devs s d) = [].

(** The network and other devices: they pass on, hold back, repeat and change what they want, but
    a ciphertext is one that was sent, or made with a secret they know. *)
Definition network (known : list N -> bool) (s : st) (o : op) : Prop :=
  match o with
  | Deliver _ p _ _ =>
    bytes_ok (o_piv p) /\ (List.length (o_piv p) <= 5)%nat /\
    match o_ct p with
    | Junk => True
    | Ct k _ _ _ => known (fst k) = true \/ In (o_ct p) (map e_ct (prot s))
    end
  | _ => True
  end.

(** No answer is sent again. *)
Definition answers_once (s : st) (o : op) : Prop :=
  match o with
  | Again d k => forall m, nth_error (d_trs (devs s d)) k = Some m -> is_request (i_code (g_inner m)) = true
  | _ => True
  end.

(** A condition on every step of a run. *)
Fixpoint along (civ : list N -> list N) (P : st -> op -> Prop) (s : st) (l : list op) : Prop :=
  match l with [] => True | o :: r => P s o /\ along civ P (step civ s o) r end.

(** The sequence numbers in use stay below 2^40. *)
Definition in_range (s : st) : Prop := forall e, In e (prot s) -> e_ssn e < 2 ^ 40.

(** [a] was accepted and [e] is its origin: protected with the sender key that [a] was received
    with, with the same contents, as a request or as an answer to the same message, under the
    sequence number [a] shows (40 bits of it). *)
Definition origin (a : acc_) (e : sent_) : Prop :=
  e_secret e = a_secret a /\ e_send e = a_recv a /\ e_inner e = a_inner a /\ e_to e = a_to a /\ be_val (a_piv a) = e_ssn e mod 2 ^ 40.

(** Two ends of a pairwise association. *)
Definition ends (c c' : ctx) : Prop :=
  x_type c = Pair /\ x_type c' = Pair /\ x_secret c = x_secret c' /\ x_send c = x_recv c' /\ x_recv c = x_send c'.
