(** What registrations and sequence numbers are for, stated without the code that handles them. *)
From Verif Require Import Common Ep_Model Ep_Spec Obs_Model.
Local Open Scope N_scope.

(** Two registrations for one client, resource path and interface. *)
Definition same_relation (a b : obs) : Prop :=
  same_peer (o_ep a) (o_ep b) /\ o_url a = o_url b /\ o_if a = o_if b.
Definition count (r : nat) (l : list obs) : nat := List.length (filter (fun o => (o_res o =? r)%nat) l).

(** The requests the dispatcher passes on: from an Internet endpoint, for a resource that exists and has the path of
    the request (api/oc_ri.c finds it by that path, a leading slash not counting). *)
Definition op_ok (ri : nat -> rinfo) (s : st) (p : op) : Prop :=
  match p with
  | Request q => ep_ok (q_ep q) /\ (is_v6 (q_ep q) \/ is_v4 (q_ep q)) /\ s_live s (q_res q) = true /\
                 strip (r_uri (ri (q_res q))) = strip (q_url q)
  | Notify r _ _ _ _ _ => s_live s r = true
  | Delete r => s_live s r = true
  | _ => True
  end.
(** States reached from the start of the device, with what has been sent so far. *)
Inductive reach (ri : nat -> rinfo) (P : st -> op -> Prop) : st -> list item -> Prop :=
| Reach0 : reach ri P init []
| ReachS s l p : reach ri P s l -> op_ok ri s p -> P s p -> reach ri P (fst (step ri s p)) (l ++ snd (step ri s p)).
Definition always (s : st) (p : op) : Prop := True.
(** No resource with 256 registrations or more is deleted. *)
Definition few (s : st) (p : op) : Prop := match p with Delete r => (count r (s_obs s) < 256)%nat | _ => True end.

(** RFC 7641, section 3.4, without the clock: the value [b] is newer than [a]. *)
Definition fresher (a b : N) : Prop := a < b /\ b - a < 2 ^ 23 \/ b < a /\ 2 ^ 23 < a - b.

(** Sequence numbers: the values from 2 to 2^24 - 1 in turn. *)
Definition val (i : N) : N := 2 + i mod 16777214.

Definition seqs (l : list item) : nat := List.length (filter (fun i => match i with ISeq _ _ _ _ => true | _ => false end) l).
Definition no_reg (k : key) (l : list item) : Prop := ~ In (IReg k) l.
Definition key_dec (a b : key) : {a = b} + {a <> b}.
Proof. decide equality; try apply N.eq_dec; apply (list_eq_dec N.eq_dec). Defined.
Definition seqs_of (k : key) (l : list item) : nat :=
  List.length (filter (fun i => match i with ISeq k' _ _ _ => if key_dec k' k then true else false | _ => false end) l).

(** The observers a notification is for: those of the resource, of one client if one is given; for a collection those
    of the baseline interface only; those of the startup interface are told of changes at startup only. *)
Definition recipient (ri : nat -> rinfo) (r : nat) (e : option ep) (o : obs) : Prop :=
  o_res o = r /\ (forall e', e = Some e' -> same_peer (o_ep o) e') /\ (r_coll (ri r) = true -> o_if o = 2) /\ o_if o <> 1024.

(** Nothing outside fails while an observer is notified: the handler produces a response, no separate response is
    pending, and buffers and transactions are available. *)
Definition fine (v : nenv) : Prop := n_fill v = true /\ n_sep v = false /\ n_buf v = true /\ n_code v < 128 /\ 0 < n_len v /\ (0 < n_bw v)%Z /\ n_mid v <> None /\ n_ser v = true.

(** Confirmable: never over TCP; otherwise at every fifth value and for payloads that take several blocks. *)
Definition con_fine (env : obs -> nenv) (o : obs) (c : bool) : Prop :=
  (c = true -> N.testbit (e_flags (o_ep o)) 4 = false) /\
  (N.testbit (e_flags (o_ep o)) 4 = false -> o_if o <> IF_STARTUP_REVERT -> (o_cnt o mod 5 = 0 \/ o_blk o < n_len (env o)) -> c = true).
