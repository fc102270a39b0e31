(** What the observers of collections and of /oic/res may rely on, stated on the messages sent, without the model's
    functions. *)
From Coq Require Import PeanoNat.
From Verif Require Import Common Ntf_Model.
Local Open Scope nat_scope.

(** Something in the state still refers to resource [i]. *)
Definition refers (s : st) (i : nat) : Prop :=
  (exists o, In o (s_obs s) /\ o_tgt o = TRes i)
  \/ (exists c, In c (s_res s) /\ In i (r_links c))
  \/ (exists e, In e (s_ent s) /\ e_what e = Live i)
  \/ In i (s_chg s) \/ In i (s_ntf s) \/ In i (s_ll s) \/ In i (s_base s).

(** What an application has to take care of: a collection is deleted only when nobody observes it, no other
    collection links to it and no delayed notification is due for it; a resource is linked once from a collection. *)
Definition cautious (s : st) (p : op) : Prop :=
  match p with
  | ODelColl i =>
      (forall o, In o (s_obs s) -> o_tgt o <> TRes i)
      /\ (forall c, In c (s_res s) -> r_id c <> i -> ~ In i (r_links c))
      /\ ~ In i (s_chg s) /\ ~ In i (s_ntf s)
  | OLink c i => forall k, In k (s_res s) -> r_id k = c -> ~ In i (r_links k)
  | _ => True
  end.
Fixpoint careful (may : nat -> nat -> bool) (s : st) (ps : list op) : Prop :=
  match ps with
  | [] => True
  | p :: r => cautious s p /\ (forall s1, step may s p = Some s1 -> careful may s1 r)
  end.

(** The notifications a change of resource [r] asks for: to every observer of the resource itself (but not to those of
    the start-up interface), then, collection by collection, to the batch observers of the collections that link to
    it. *)
Definition direct (s : st) (r : res) : list msg :=
  map (fun o => mk_msg (o_id o) (o_cl o) (if (o_if o =? 2048)%N then BValid else BRep (r_id r) (r_def r) (r_val r, r_links r)))
    (filter (fun o => match o_tgt o with TRes i => i =? r_id r | TDisc => false end && negb (o_if o =? 1024)%N) (s_obs s)).
Definition batch_of (s : st) (c : res) : list obs :=
  filter (fun o => match o_tgt o with TRes i => i =? r_id c | TDisc => false end
                   && ((o_if o =? 8)%N || (N.lor (o_if o) 8 =? r_def c)%N)) (s_obs s).
Definition via (s : st) (r c : res) : list msg :=
  map (fun o => mk_msg (o_id o) (o_cl o) (BBatch (r_id c) [(r_uri r, r_val r)])) (batch_of s c).
Definition holders (s : st) (r : res) : list res :=
  filter (fun c => r_coll c && existsb (fun i => r_id r =? i) (r_links c)) (s_res s).
Definition watched (s : st) (c : res) : Prop := exists o, In o (s_obs s) /\ o_tgt o = TRes (r_id c).

(** The links of collection [c] as observer [o] last heard of them. *)
Definition links_in (c : nat) (b : body) : option (list nat) :=
  match b with
  | BRep i _ (_, ls) => if i =? c then Some ls else None
  | BLinks i _ ls => if i =? c then Some ls else None
  | _ => None
  end.
Fixpoint heard_links (o c : nat) (ms : list msg) (acc : option (list nat)) : option (list nat) :=
  match ms with
  | [] => acc
  | m :: r =>
      heard_links o c r
        (if m_obs m =? o then match links_in c (m_body m) with Some l => Some l | None => acc end else acc)
  end.

(** What observer [o] of /oic/res last heard about URI [u]: [None] is that there is no such resource. *)
Fixpoint last_about (u : nat) (l : list (nat * option content)) (acc : option content) : option content :=
  match l with
  | [] => acc
  | (x, v) :: r => last_about u r (if x =? u then v else acc)
  end.
Fixpoint heard (o u : nat) (ms : list msg) (acc : option content) : option content :=
  match ms with
  | [] => acc
  | m :: r =>
      heard o u r (if m_obs m =? o then match m_body m with BDisc l => last_about u l acc | _ => acc end else acc)
  end.
(** What there is to know: the discoverable resource with that URI. *)
Definition truth (s : st) (u : nat) : option content :=
  match find (fun r => (r_uri r =? u) && r_disc r) (s_res s) with
  | Some r => Some (r_val r, r_links r)
  | None => None
  end.
(** The resource with that URI is a discoverable one whose representation is empty. *)
Definition blank (s : st) (u : nat) : Prop :=
  exists r, In r (s_res s) /\ r_uri r = u /\ r_disc r = true /\ r_coll r = false /\ r_val r = 0.
(** The device still has to tell observer [o] about URI [u]. *)
Definition owed (s : st) (o u : nat) : Prop :=
  (exists e, In e (s_ent s) /\ e_obs e = o
     /\ (e_what e = Gone u \/ exists r, In r (s_res s) /\ r_uri r = u /\ r_disc r = true /\ e_what e = Live (r_id r)))
  \/ (exists r, In r (s_res s) /\ r_uri r = u /\ r_disc r = true /\ (In (r_id r) (s_chg s) \/ In (r_id r) (s_ntf s))).

Definition batch_observer (s : st) (o : obs) : Prop := In o (s_obs s) /\ o_tgt o = TDisc /\ o_if o = 8%N.
(** A block-wise transfer to that observer is running. *)
Definition transferring (s : st) (o : obs) : Prop :=
  exists x, In x (s_bw s) /\ x_cl x = o_cl o /\ x_url x = o_url o /\ x_if x = o_if o.

(** No notification is larger than a block. *)
Definition small_op (p : op) : Prop :=
  match p with OChange big _ _ => big = [] | OFire big _ => big = [] | _ => True end.
(** The first response to an observer of /oic/res with the batch interface fits in a block. *)
Definition short_op (p : op) : Prop :=
  match p with OReg big _ TDisc f => f = 8%N -> big = false | _ => True end.

(** What entry [w] of observer [o] adds to a notification. *)
Definition report (may : nat -> nat -> bool) (s : st) (o : obs) (w : what) : list (nat * option content) :=
  match w with
  | Gone u => [(u, None)]
  | Live i =>
      match find (fun r => r_id r =? i) (s_res s) with
      | Some r =>
          if r_disc r && may (o_cl o) (r_uri r) && (r_coll r || negb (r_val r =? 0))
          then [(r_uri r, Some (r_val r, r_links r))] else []
      | None => []
      end
  end.

(** The operation by which the change of resource [i] is announced: oc_notify_resource_changed, or one of the delayed
    notifications when it is due. *)
Definition announces (s : st) (big : list nat) (i : nat) (p : op) : Prop :=
  (exists v, p = OChange big i v)
  \/ (p = OFire big (FChg i) /\ In i (s_chg s))
  \/ (p = OFire big (FNtf i) /\ In i (s_ntf s)).
