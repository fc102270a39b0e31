(** C141: the storage of the provisioning client. *)
From Verif Require Import Common Rep_Model Repd_Model Ea_Model Ea_Spec Ea_Proofs Ea2_Proofs Dst_Model Dst_Spec Dst_Proofs.
From Coq Require Import String.
Local Open Scope string_scope.
Local Open Scope list_scope.
Local Open Scope N_scope.

Lemma reads_full a : reads (full a) = reads a.
Proof. destruct a as [u [v|[t|]]]; reflexivity. Qed.

(** What was saved is what is loaded into a store just initialised: the same
    address in use, the same addresses with their names, the one in use first,
    the same owner and the same flag. *)
Theorem C141_load_restores : forall mem s z old,
  pool_ok mem -> reach (d_eps s) -> shows (d_eps s) z -> named z ->
  exists s' z', load mem (Some (encode s)) (clear_store old) = (true, s') /\ reach (d_eps s') /\ shows (d_eps s') z' /\
    option_map reads (cursor z') = option_map reads (cursor z) /\ map reads (all z') = map reads (in_front z) /\
    d_owner s' = d_owner s /\ d_flag s' = d_flag s.
Proof.
  intros mem s z old P R Sh Nm. destruct z as [[[l x] r]|].
  - destruct (roundtrip mem s (clear_store old) l x r P R Sh Nm) as (s' & E & R' & S' & O & F).
    exists s', (Some ([], full x, map full (l ++ r))). cbn [load]. rewrite E. split; [reflexivity|]. split; [exact R'|]. split; [exact S'|].
    cbn [cursor option_map all in_front app map]. rewrite reads_full, map_map. split; [reflexivity|]. split; [|split; [|exact F]].
    + apply f_equal. apply map_ext. exact reads_full.
    + rewrite O. destruct (d_owner s); reflexivity.
  - exists (decode mem (encode s) (clear_store old)), None. split; [reflexivity|]. rewrite (roundtrip_none mem s _ Sh). cbn [clear_store d_eps d_owner d_flag].
    split; [exact (Reach0 [] (MName None) None (l_log (d_eps old)))|]. split; [split; reflexivity|]. repeat split. destruct (d_owner s); reflexivity.
Qed.

(** The same over a store that already holds something, if an address and an owner were saved. *)
Theorem C141_load_replaces : forall mem s l x r s0,
  pool_ok mem -> reach (d_eps s) -> shows (d_eps s) (Some (l, x, r)) -> named (Some (l, x, r)) -> d_owner s <> [] ->
  exists s' y q, load mem (Some (encode s)) s0 = (true, s') /\ shows (d_eps s') (Some ([], y, q)) /\
    reads y = reads x /\ map reads q = map reads (l ++ r) /\ d_owner s' = d_owner s /\ d_flag s' = d_flag s.
Proof.
  intros mem s l x r s0 P R Sh Nm No. destruct (roundtrip mem s s0 l x r P R Sh Nm) as (s' & E & R' & S' & O & F).
  exists s', (full x), (map full (l ++ r)). cbn [load]. rewrite E. split; [reflexivity|]. split; [exact S'|]. split; [apply reads_full|].
  split; [rewrite map_map; apply map_ext; exact reads_full|]. split; [|exact F]. rewrite O. destruct (d_owner s); [contradiction|reflexivity].
Qed.

(** Whatever the file says, the list of addresses keeps its invariant; without
    a file the load fails and the store is empty. *)
Theorem C141_any_file : forall mem file s,
  (pool_ok mem -> reach (d_eps s) -> reach (d_eps (snd (load mem file s)))) /\
  (fst (load mem file s) = false <-> file = None) /\
  (file = None -> shows (d_eps (snd (load mem file s))) None /\ d_owner (snd (load mem file s)) = [] /\ d_flag (snd (load mem file s)) = false).
Proof.
  intros mem file s. split; [exact (load_reach mem file s)|]. split.
  - destruct file; cbn [load fst]; split; congruence.
  - intros ->. repeat split; reflexivity.
Qed.

Lemma keep_on {B} (f : data -> B) l : (forall d r, In r l -> f (take d r) = f d) -> forall d, f (fold_left take l d) = f d.
Proof.
  induction l as [|r l IH]; intros H d; [reflexivity|]. cbn [fold_left]. rewrite IH; [apply H; left; reflexivity|]. intros d' r' Hr. apply H. right. exact Hr.
Qed.

Lemma neq_eqb a b : a <> b -> list_eqb a b = false.
Proof. intros H. destruct (list_eqb a b) eqn:E; [|reflexivity]. destruct H. exact (proj1 (list_eqb_spec a b) E). Qed.

(** A file that does not name a part leaves that part as it is. *)
Theorem C141_unsaid_is_kept : forall mem l s,
  ((forall r, In r l -> fst r <> str "ep" /\ fst r <> str "eps") -> d_eps (snd (load mem (Some l) s)) = d_eps s) /\
  ((forall r, In r l -> fst r <> str "owner") -> d_owner (snd (load mem (Some l) s)) = d_owner s) /\
  ((forall r, In r l -> fst r <> str "hasBeenProvisionedSinceReset") -> d_flag (snd (load mem (Some l) s)) = d_flag s).
Proof.
  intros mem l s. cbn [load snd]. unfold decode. cbn [d_eps d_owner d_flag]. split; [|split]; intros H.
  - rewrite (keep_on dd_eps l), (keep_on dd_ep l); [reflexivity|..]; intros d [n v] Hr; destruct (H _ Hr) as [H1 H2]; cbn [fst] in *; unfold take; cbn [fst snd];
      rewrite (neq_eqb _ _ H1), (neq_eqb _ _ H2); destruct v; try reflexivity; repeat (match goal with |- context[if ?b then _ else _] => destruct b end); reflexivity.
  - rewrite (keep_on dd_owner l); [reflexivity|]. intros d [n v] Hr. pose proof (H _ Hr) as H1. cbn [fst] in *; unfold take; cbn [fst snd].
    rewrite (neq_eqb _ _ H1); destruct v; try reflexivity; repeat (match goal with |- context[if ?b then _ else _] => destruct b end); reflexivity.
  - rewrite (keep_on dd_flag l); [reflexivity|]. intros d [n v] Hr. pose proof (H _ Hr) as H1. cbn [fst] in *; unfold take; cbn [fst snd].
    rewrite (neq_eqb _ _ H1); destruct v; try reflexivity; repeat (match goal with |- context[if ?b then _ else _] => destruct b end); reflexivity.
Qed.

(** Properties of other names do not matter. *)
Theorem C141_unknown_is_ignored : forall mem a r b s,
  ~ In (fst r) [str "ep"; str "epname"; str "eps"; str "owner"; str "hasBeenProvisionedSinceReset"] ->
  load mem (Some (a ++ r :: b)) s = load mem (Some (a ++ b)) s.
Proof.
  intros mem a [n v] b s H. cbn [load]. f_equal. unfold decode. rewrite !fold_left_app. cbn [fold_left].
  assert (T : forall d, take d (n, v) = d).
  { intros d. unfold take. cbn [fst snd] in *.
    rewrite (neq_eqb n (str "ep")), (neq_eqb n (str "epname")), (neq_eqb n (str "eps")), (neq_eqb n (str "owner")), (neq_eqb n (str "hasBeenProvisionedSinceReset"));
      [destruct v; reflexivity|intros ->; apply H; cbn [In]; auto 8..]. }
  rewrite T. reflexivity.
Qed.

Definition slots : pool := fun k => Some (N.of_nat k).
Definition none : store := mk_ds (mk_eas [] None []) [] false.
Definition two : store :=
  mk_ds (mk_eas [mk_ea 5 (str "coaps://a") (MName None); mk_ea 6 (str "coaps://b") (MName (Some (str "bee")))] (Some 6) []) (str "me") true.

(** An owner that was removed comes back when the file is loaded over the old store. *)
Theorem C141_removed_owner_refuted : exists mem s s0, pool_ok mem /\ d_owner (snd (load mem (Some (encode s)) s0)) <> d_owner s.
Proof.
  exists slots, none, two. split; [|vm_compute; discriminate].
  split; [intros k; eexists; reflexivity|]. intros j k E. injection E as E. lia.
Qed.

(** A further address that is not valid takes those after it along. *)
Theorem C141_invalid_address_refuted : exists mem f, pool_ok mem /\
  get_s [(str "uri", RStr (str "coaps://b"))] (str "uri") = Some (str "coaps://b") /\
  f = [(str "ep", RStr (str "coaps://a")); (str "eps", RObjArr [[(str "uri", RStr [])]; [(str "uri", RStr (str "coaps://b"))]])] /\
  contains (d_eps (snd (load mem (Some f) none))) (str "coaps://b") = false.
Proof.
  exists slots. eexists. split; [|split; [vm_compute; reflexivity|split; [reflexivity|vm_compute; reflexivity]]].
  split; [intros k; eexists; reflexivity|]. intros j k E. injection E as E. lia.
Qed.

(** Two addresses, the second in use: after loading it is the first. *)
Example C141_two_addresses :
  map (fun e => reads (a_uri e, a_meta e)) (l_items (d_eps (snd (load slots (Some (encode two)) none)))) =
    [(str "coaps://b", str "bee"); (str "coaps://a", [])] /\
  d_owner (snd (load slots (Some (encode two)) none)) = str "me" /\ d_flag (snd (load slots (Some (encode two)) none)) = true.
Proof. vm_compute. repeat split; reflexivity. Qed.

Example C141_shown : shows (d_eps two) (Some ([(str "coaps://a", MName None)], (str "coaps://b", MName (Some (str "bee"))), [])) /\
  named (Some ([(str "coaps://a", MName None)], (str "coaps://b", MName (Some (str "bee"))), [])).
Proof. split; [split; vm_compute; reflexivity|]. intros a [<-|[<-|[]]]; eexists; reflexivity. Qed.

(** The list of that store is one a run builds. *)
Example C141_reached : exists s, reach s /\ map (fun e => (a_uri e, a_meta e)) (l_items s) = map (fun e => (a_uri e, a_meta e)) (l_items (d_eps two)).
Proof.
  exists (fst (add (fst (init [] (str "coaps://a") (MName None) (Some 5))) (str "coaps://b") (MName (Some (str "bee"))) (Some 6))).
  split; [|vm_compute; reflexivity].
  apply (ReachS _ (Add (str "coaps://b") (MName (Some (str "bee"))) (Some 6))); [apply Reach0|]. vm_compute. intros [H|[]]. discriminate H.
Qed.

(** A file with an owner only keeps the addresses. *)
Example C141_owner_only : snd (load slots (Some [(str "owner", RStr (str "you")); (str "x", RBool true)]) two) = mk_ds (d_eps two) (str "you") true.
Proof. vm_compute. reflexivity. Qed.

Print Assumptions C141_load_restores.
Print Assumptions C141_load_replaces.
Print Assumptions C141_any_file.
Print Assumptions C141_unsaid_is_kept.
Print Assumptions C141_unknown_is_ignored.
Print Assumptions C141_removed_owner_refuted.
Print Assumptions C141_invalid_address_refuted.
