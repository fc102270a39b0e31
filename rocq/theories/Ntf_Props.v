(** C95: nothing follows a pointer to a deleted resource.  C96: the observers of collections.  C97: the observers of
    /oic/res with the batch interface. *)
From Coq Require Import PeanoNat Lia.
From Verif Require Import Common Ntf_Model Ntf_Spec Ntf_Proofs Ntf2_Proofs Ntf3_Proofs Ntf4_Proofs Ntf5_Proofs Ntf6_Proofs.
Local Open Scope nat_scope.

Definition reached (may : nat -> nat -> bool) (ps : list op) (s : st) : Prop := careful may init ps /\ run may init ps = Some s.
Definition all_may : nat -> nat -> bool := fun _ _ => true.


(** A decision procedure for [careful], used in the examples. *)
Definition cautiousb (s : st) (p : op) : bool :=
  match p with
  | ODelColl i =>
      forallb (fun o => match o_tgt o with TRes j => negb (j =? i) | TDisc => true end) (s_obs s)
      && forallb (fun c => (r_id c =? i) || negb (mem i (r_links c))) (s_res s) && negb (mem i (s_chg s)) && negb (mem i (s_ntf s))
  | OLink c i => forallb (fun k => negb (r_id k =? c) || negb (mem i (r_links k))) (s_res s)
  | _ => true
  end.
Fixpoint carefulb (may : nat -> nat -> bool) (s : st) (ps : list op) : bool :=
  match ps with [] => true | p :: r => cautiousb s p && match step may s p with Some s1 => carefulb may s1 r | None => true end end.
Lemma mem_not i l : negb (mem i l) = true -> ~ In i l.
Proof. intros H X. apply mem_in in X. rewrite X in H. discriminate H. Qed.
Lemma cautiousb_ok s p : cautiousb s p = true -> cautious s p.
Proof.
  intros H. destruct p; try exact Coq.Init.Logic.I; cbn [cautiousb cautious] in *.
  - apply andb_true_iff in H. destruct H as (H & H4). apply andb_true_iff in H. destruct H as (H & H3). apply andb_true_iff in H. destruct H as (H1 & H2).
    rewrite forallb_forall in H1, H2. split; [|split; [|split; now apply mem_not]].
    + intros o O E. specialize (H1 o O). rewrite E, Nat.eqb_refl in H1. discriminate H1.
    + intros c C N. specialize (H2 c C). apply orb_true_iff in H2. destruct H2 as [H2|H2]; [apply Nat.eqb_eq in H2; contradiction|now apply mem_not].
  - intros k K E. rewrite forallb_forall in H. specialize (H k K). rewrite E, Nat.eqb_refl in H. now apply mem_not.
Qed.
Lemma carefulb_ok may ps : forall s, carefulb may s ps = true -> careful may s ps.
Proof.
  induction ps as [|p ps IH]; intros s H; cbn [careful carefulb] in *; [exact Coq.Init.Logic.I|]. apply andb_true_iff in H. destruct H as (H1 & H2).
  split; [now apply cautiousb_ok|]. intros s1 E. rewrite E in H2. now apply IH.
Qed.
Ltac careful_run := apply carefulb_ok; vm_compute; reflexivity.

(** * C95 *)

(** Whatever resources and collections are added, linked, changed and deleted, whatever is observed and whenever the timers fire: no dangling pointer is
    followed, provided the application takes the care described by [cautious]. *)
Theorem C95_safe : forall may ps, careful may init ps -> exists s, run may init ps = Some s.
Proof. intros may ps C. destruct (run_ok may ps init (inv_init may) C) as (s & E & _). now exists s. Qed.
Print Assumptions C95_safe.

(** Once a resource is deleted, no observer, link, pending notification or timer refers to it. *)
Theorem C95_deleted : forall may ps s t i r, reached may ps s -> In r (s_res s) -> r_id r = i -> r_coll r = false -> step may s (ODel i) = Some t ->
  ~ refers t i /\ (forall q, In q (s_res t) -> r_id q <> i).
Proof.
  intros may ps s t i r (C & H) R E RC ST. pose proof (run_inv may ps s C H) as I. destruct (inv_delete may i s I) as (t' & E' & _ & X).
  cbn [step] in ST. assert (t' = t) by congruence. subst t' i. destruct (X r (find_res_in s r (i_ids may s I) R) RC) as (X1 & X2). split; [exact X1|].
  intros q Q Z. apply X2. unfold alive. rewrite <- Z. now apply in_map.
Qed.
Print Assumptions C95_deleted.

(** A resource that is linked, observed, queued for a batch observer and has both kinds of delayed notification, then deleted. *)
Definition busy_run : list op :=
  [OAdd 1 5 false 16 true true true; OAdd 2 0 true 4 true true true; OLink 1 0; OReg false 7 TDisc 8; OReg false 8 (TRes 0) 16; OChange [] 0 6; OLater 0 7; ODelay 0 8]%N.
Example C95_example :
  exists s t, reached all_may busy_run s /\ refers s 0 /\ step all_may s (ODel 0) = Some t /\ ~ refers t 0 /\ s_obs t <> [] /\ s_ent t = [mk_ent 2 (Live 1); mk_ent 2 (Gone 1)].
Proof.
  destruct (run all_may init busy_run) as [s|] eqn:E; [|vm_compute in E; discriminate E]. exists s.
  assert (R : reached all_may busy_run s).
  { split; [careful_run|exact E]. }
  vm_compute in E. injection E as <-.
  destruct (step all_may _ (ODel 0)) as [t|] eqn:T in |- *; [|vm_compute in T; discriminate T]. exists t. split; [exact R|]. split.
  { left. eexists. split; [cbn; right; left; reflexivity|reflexivity]. }
  split; [reflexivity|]. split.
  - refine (proj1 (C95_deleted all_may busy_run _ t 0 (mk_res 0 1 8 false 16 [] true true true) R _ eq_refl eq_refl T)). now left.
  - vm_compute in T. injection T as <-. split; [discriminate|reflexivity].
Qed.

(** A collection is deleted while it is observed; then the observation is cancelled. *)
Theorem C95_observed_refuted : exists ps, ps = [OAdd 1 0 true 4 true true true; OReg false 7 (TRes 0) 4; ODelColl 0; OCancel 1]%N /\ run all_may init ps = None.
Proof. eexists. split; [reflexivity|]. vm_compute. reflexivity. Qed.
Print Assumptions C95_observed_refuted.

(** A collection that is linked from another one is deleted; then the other one's observers are told. *)
Theorem C95_linked_refuted : exists ps,
  ps = [OAdd 1 0 true 4 true true true; OAdd 2 0 true 4 true true true; OLink 0 1; ODelColl 1; OFire [] (FLinks 0)]%N /\ run all_may init ps = None.
Proof. eexists. split; [reflexivity|]. vm_compute. reflexivity. Qed.
Print Assumptions C95_linked_refuted.

(** A delayed notification of a collection is due after the collection was deleted. *)
Theorem C95_delayed_refuted : exists ps, ps = [OAdd 1 0 true 4 true true true; OLater 0 0; ODelColl 0; OFire [] (FChg 0)]%N /\ run all_may init ps = None.
Proof. eexists. split; [reflexivity|]. vm_compute. reflexivity. Qed.
Print Assumptions C95_delayed_refuted.

(** A resource is linked twice from a collection and deleted. *)
Theorem C95_twice_refuted : exists ps,
  ps = [OAdd 1 5 false 16 true true true; OAdd 2 0 true 4 true true true; OLink 1 0; OLink 1 0; ODel 0; OFire [] (FLinks 1)]%N /\ run all_may init ps = None.
Proof. eexists. split; [reflexivity|]. vm_compute. reflexivity. Qed.
Print Assumptions C95_twice_refuted.

(** * C96 *)

Lemma announced may ps s big i p t q r : reached may ps s -> announces s big i p -> step may s p = Some t -> In q (s_res s) -> r_id q = i -> In r (s_res t) -> r_id r = i ->
  exists s0, notify may big i s0 = Some t /\ find_res s0 i = Some r /\ s_out s0 = s_out s /\ s_obs s0 = s_obs s /\ s_nop s0 = s_nop s /\ s_obs t = s_obs s0 /\ s_res t = s_res s0.
Proof.
  intros (C & H) A ST Q QI R RI. pose proof (run_inv may ps s C H) as I.
  assert (AL : alive s i) by (unfold alive; rewrite <- QI; now apply in_map).
  destruct (announce_notify may s big i p t A ST AL) as (s0 & N & E1 & E2 & E3 & E4 & _).
  assert (AL0 : alive s0 i) by (unfold alive; now rewrite E4). destruct (alive_find s0 i AL0) as (r0 & F).
  destruct (notify_msgs may big i s0 t r0 N F) as (_ & _ & _ & _ & ER & EO & _).
  exists s0. split; [exact N|]. split; [|auto 10]. rewrite <- RI. apply find_res_in; [rewrite E4; apply (i_ids may s I)|]. now rewrite <- ER.
Qed.
Lemma direct_ext s t r : s_obs t = s_obs s -> direct t r = direct s r.
Proof. intros E. unfold direct. now rewrite E. Qed.
Lemma via_flat s t r l : s_obs t = s_obs s -> flat_map (via t r) l = flat_map (via s r) l.
Proof. intros E. apply flat_map_ext. intros c. unfold via, batch_of. now rewrite E. Qed.

(** When a resource changes, its own observers get its representation, and the batch observers of the collections with a link to it get it in a batch: of
    the collections in their order, as far as the first one nobody observes. *)
Theorem C96_exact : forall may ps s i p t q r, reached may ps s -> announces s [] i p -> step may s p = Some t ->
  In q (s_res s) -> r_id q = i -> In r (s_res t) -> r_id r = i -> r_coll r = false -> r_obsv r = true -> s_nop s = true ->
  exists l1 l2, holders t r = l1 ++ l2 /\ (forall c, In c l1 -> watched t c) /\ match l2 with [] => True | c :: _ => ~ watched t c end
    /\ s_out t = s_out s ++ direct t r ++ flat_map (via t r) l1.
Proof.
  intros may ps s i p t q r RE A ST Q QI R RI RC RO NP. destruct (announced may ps s [] i p t q r RE A ST Q QI R RI) as (s0 & N & F & E1 & E2 & E3 & EO & ER).
  destruct (notify_out may i s0 t r N F RC RO) as (l1 & l2 & X1 & X2 & X3 & X4 & _); [congruence|]. exists l1, l2. unfold holders, watched in *. rewrite ER, EO.
  split; [exact X1|]. split; [exact X2|]. split; [exact X3|]. rewrite (direct_ext s0 t r EO), (via_flat s0 t r l1 EO). congruence.
Qed.
Print Assumptions C96_exact.

(** So everybody is told if every such collection has an observer. *)
Theorem C96_all : forall may ps s i p t q r, reached may ps s -> announces s [] i p -> step may s p = Some t ->
  In q (s_res s) -> r_id q = i -> In r (s_res t) -> r_id r = i -> r_coll r = false -> r_obsv r = true -> s_nop s = true ->
  (forall c, In c (holders t r) -> watched t c) -> s_out t = s_out s ++ direct t r ++ flat_map (via t r) (holders t r).
Proof.
  intros may ps s i p t q r RE A ST Q QI R RI RC RO NP W. destruct (C96_exact may ps s i p t q r RE A ST Q QI R RI RC RO NP) as (l1 & l2 & X1 & X2 & X3 & X4).
  destruct l2 as [|c l2]; [rewrite app_nil_r in X1; now rewrite X1|]. exfalso. apply X3. apply W. rewrite X1. apply in_app_iff. right. now left.
Qed.
Print Assumptions C96_all.

(** Nobody else is told anything, however large the notifications are. *)
Theorem C96_only : forall may ps s big i p t q r, reached may ps s -> announces s big i p -> step may s p = Some t ->
  In q (s_res s) -> r_id q = i -> In r (s_res t) -> r_id r = i -> r_coll r = false ->
  exists ms, s_out t = s_out s ++ ms /\ incl ms (direct t r ++ flat_map (via t r) (holders t r)).
Proof.
  intros may ps s big i p t q r RE A ST Q QI R RI RC. destruct (announced may ps s big i p t q r RE A ST Q QI R RI) as (s0 & N & F & E1 & E2 & E3 & EO & ER).
  destruct (notify_only may big i s0 t r N F RC) as (ms & X1 & X2). exists ms. unfold holders in *. rewrite ER, (direct_ext s0 t r EO), (via_flat s0 t r _ EO).
  split; [congruence|exact X2].
Qed.
Print Assumptions C96_only.

(** The observers of the links of a collection: what they last heard is the list of links, or the timer that tells them is running. *)
Theorem C96_links : forall may ps s o c, reached may ps s -> Forall small_op ps -> In o (s_obs s) -> In c (s_res s) -> r_coll c = true -> o_tgt o = TRes (r_id c) ->
  (o_if o = 4%N -> heard_links (o_id o) (r_id c) (s_out s) None = Some (r_links c) \/ In (r_id c) (s_ll s))
  /\ (o_if o = 2%N -> heard_links (o_id o) (r_id c) (s_out s) None = Some (r_links c) \/ In (r_id c) (s_ll s) \/ In (r_id c) (s_base s)).
Proof.
  intros may ps s o c (C & H) SM O CI CC T.
  assert (L : linv s) by (apply (linv_run may ps init s (inv_init may)); [intros x y []|exact C|exact SM|exact H]). split; intros F.
  - destruct (L o c O CI CC T) as [X|[X|(X & _)]]; [now left|now left|now right|]. rewrite F in X. discriminate X.
  - destruct (L o c O CI CC T) as [X|[X|(_ & X)]]; auto.
Qed.
Print Assumptions C96_links.

(** The timer tells them: when it fires for collection [c], the observers of its links hear its links of that moment. *)
Theorem C96_fires : forall may ps s t c o, reached may ps s -> Forall small_op ps -> In (r_id c) (s_ll s) -> In c (s_res s) -> r_coll c = true ->
  In o (s_obs s) -> o_tgt o = TRes (r_id c) -> o_if o = 4%N -> step may s (OFire [] (FLinks (r_id c))) = Some t ->
  heard_links (o_id o) (r_id c) (s_out t) None = Some (r_links c).
Proof.
  intros may ps s t c o (C & H) SM LL_ CI CC O T F ST. pose proof (run_inv may ps s C H) as I.
  assert (R2 : reached may (ps ++ [OFire [] (FLinks (r_id c))]) t).
  { assert (RA : forall qs a b, run may a (qs ++ [b]) = match run may a qs with Some x => step may x b | None => None end).
    { induction qs as [|x qs IH]; intros a b; cbn [run app].
      - destruct (step may a b); reflexivity.
      - destruct (step may a x); cbn [bind]; [apply IH|reflexivity]. }
    assert (CA : forall qs a b x, careful may a qs -> (forall z, cautious z b) -> x = qs ++ [b] -> careful may a x).
    { induction qs as [|y qs IH]; intros a b x X Y ->; cbn [careful app] in *; [split; [apply Y|intros; exact Coq.Init.Logic.I]|].
      destruct X as (X1 & X2). split; [exact X1|]. intros s1 E. apply (IH s1 b); auto. }
    split; [|rewrite RA, H; exact ST]. apply (CA ps init (OFire [] (FLinks (r_id c)))); [exact C|intros z; exact Coq.Init.Logic.I|reflexivity]. }
  assert (SM2 : Forall small_op (ps ++ [OFire [] (FLinks (r_id c))])) by (apply Forall_app; split; [exact SM|]; repeat constructor).
  cbn [step fire] in ST. pose proof (proj2 (mem_in (r_id c) (s_ll s)) LL_) as M. rewrite M in ST. rewrite (find_res_in s c (i_ids may s I) CI) in ST. cbn [bind] in ST.
  destruct (links_uris s c); cbn [bind] in ST; [|discriminate]. cbv zeta in ST. apply some_inj in ST.
  destruct (frame_coll [] c LL (BLinks (r_id c) LL (r_links c)) (set_ll (without (r_id c) (s_ll s)) s)) as (F1 & F2 & F3 & F4 & F5 & F6 & F7 & F8 & _).
  set (s2 := notify_coll [] c LL (BLinks (r_id c) LL (r_links c)) (set_ll (without (r_id c) (s_ll s)) s)) in *. clearbody s2. subst t.
  destruct (C96_links may _ _ o c R2 SM2) as (X & _).
  - cbn. rewrite F2. exact O.
  - cbn. rewrite F1. exact CI.
  - exact CC.
  - exact T.
  - destruct (X F) as [Y|Y]; [exact Y|]. exfalso. cbn in Y. rewrite F7 in Y. cbn in Y. apply without_in in Y. now destruct Y.
Qed.
Print Assumptions C96_fires.

(** Two collections, both observed; the links of one change. *)
Definition coll_run : list op :=
  [OAdd 1 5 false 16 true true true; OAdd 2 0 true 4 true true true; OAdd 3 0 true 8 true true true; OLink 1 0; OLink 2 0;
   OReg false 7 (TRes 1) 4; OReg false 8 (TRes 2) 8; OReg false 9 (TRes 0) 16; OReg false 9 (TRes 1) 2; OFire [] (FLinks 1); OFire [] (FLinks 2); OFire [] (FBase 1); OUnlink 1 0]%N.
Example C96_example :
  exists s t u, reached all_may coll_run s /\ Forall small_op coll_run /\ step all_may s (OChange [] 0 6) = Some t
    /\ s_out t = s_out s ++ [mk_msg 5 9 (BRep 0 16 (6, [])); mk_msg 4 8 (BBatch 2 [(1, 6)])]
    /\ heard_links 3 1 (s_out t) None = Some [0] /\ In 1 (s_ll t)
    /\ step all_may t (OFire [] (FLinks 1)) = Some u /\ heard_links 3 1 (s_out u) None = Some [] /\ heard_links 6 1 (s_out u) None = Some [0] /\ In 1 (s_base u).
Proof.
  destruct (run all_may init coll_run) as [s|] eqn:E; [|vm_compute in E; discriminate E]. exists s.
  assert (R : reached all_may coll_run s) by (split; [careful_run|exact E]). vm_compute in E. injection E as <-.
  destruct (step all_may _ (OChange [] 0 6)) as [t|] eqn:T in |- *; [|vm_compute in T; discriminate T]. exists t. vm_compute in T. injection T as <-.
  eexists. split; [exact R|]. split; [repeat constructor|]. split; [reflexivity|]. split; [reflexivity|]. split; [reflexivity|]. split; [cbn; tauto|].
  split; [vm_compute; reflexivity|]. split; [reflexivity|]. split; [reflexivity|]. cbn. tauto.
Qed.

(** The loop over the collections ends at the first one without observers: the batch observers of the next one are not told. *)
Theorem C96_loop_refuted : exists ps s t c o,
  ps = [OAdd 1 5 false 16 true true true; OAdd 2 0 true 8 true true true; OAdd 3 0 true 8 true true true; OLink 1 0; OLink 2 0; OReg false 8 (TRes 2) 8]%N
  /\ reached all_may ps s /\ step all_may s (OChange [] 0 6) = Some t /\ In c (s_res t) /\ In 0 (r_links c) /\ In o (batch_of t c) /\ s_out t = s_out s.
Proof.
  eexists. destruct (run all_may init [OAdd 1 5 false 16 true true true; OAdd 2 0 true 8 true true true; OAdd 3 0 true 8 true true true; OLink 1 0; OLink 2 0; OReg false 8 (TRes 2) 8]%N) as [s|] eqn:E;
    [|vm_compute in E; discriminate E]. exists s. destruct (step all_may s (OChange [] 0 6)) as [t|] eqn:T; [|vm_compute in E; injection E as <-; vm_compute in T; discriminate T].
  exists t, (mk_res 2 3 0 true 8 [0] true true true), (mk_obs 3 8 (TRes 2) 3 8). split; [reflexivity|]. split; [split; [careful_run|exact E]|]. split; [first [exact T|reflexivity]|].
  vm_compute in E. injection E as <-. vm_compute in T. injection T as <-. vm_compute. auto 12.
Qed.
Print Assumptions C96_loop_refuted.

(** oc_notify_observers_delayed does nothing if only the collection is observed. *)
Theorem C96_delayed_refuted : exists ps s t c o,
  ps = [OAdd 1 5 false 16 true true true; OAdd 2 0 true 8 true true true; OLink 1 0; OReg false 8 (TRes 1) 8]%N
  /\ reached all_may ps s /\ step all_may s (ODelay 0 6) = Some t /\ In c (s_res t) /\ In 0 (r_links c) /\ In o (batch_of t c)
  /\ s_out t = s_out s /\ s_ntf t = [] /\ s_chg t = [].
Proof.
  eexists. destruct (run all_may init [OAdd 1 5 false 16 true true true; OAdd 2 0 true 8 true true true; OLink 1 0; OReg false 8 (TRes 1) 8]%N) as [s|] eqn:E;
    [|vm_compute in E; discriminate E]. exists s. destruct (step all_may s (ODelay 0 6)) as [t|] eqn:T; [|vm_compute in E; injection E as <-; vm_compute in T; discriminate T].
  exists t, (mk_res 1 2 0 true 8 [0] true true true), (mk_obs 2 8 (TRes 1) 2 8). split; [reflexivity|]. split; [split; [careful_run|exact E]|]. split; [first [exact T|reflexivity]|].
  vm_compute in E. injection E as <-. vm_compute in T. injection T as <-. vm_compute. auto 12.
Qed.
Print Assumptions C96_delayed_refuted.

(** A batch observer of a collection is told the value of a linked resource that it may not read. *)
Theorem C96_leak_refuted : exists may ps s cl, may cl 1 = false
  /\ ps = [OAdd 1 5 false 16 true true true; OAdd 2 0 true 8 true true true; OLink 1 0; OReg false cl (TRes 1) 8; OChange [] 0 6]%N
  /\ reached may ps s /\ In (mk_msg 2 cl (BBatch 1 [(1, 6)])) (s_out s).
Proof.
  exists (fun _ u => negb (u =? 1)). eexists. eexists. exists 7. split; [reflexivity|]. split; [reflexivity|]. split; [split; [careful_run|vm_compute; reflexivity]|]. vm_compute. auto 12.
Qed.
Print Assumptions C96_leak_refuted.

(** An observer that asked for another interface gets the representation of the resource's default interface. *)
Theorem C96_interface_refuted : exists ps s o,
  ps = [OAdd 1 5 false 16 true true true; OReg false 7 (TRes 0) 2; OChange [] 0 6]%N /\ reached all_may ps s /\ In o (s_obs s) /\ o_if o = 2%N
  /\ s_out s = [mk_msg (o_id o) 7 (BRep 0 2 (5, [])); mk_msg (o_id o) 7 (BRep 0 16 (6, []))].
Proof.
  eexists. eexists. exists (mk_obs 1 7 (TRes 0) 1 2). split; [reflexivity|]. split; [split; [careful_run|vm_compute; reflexivity]|]. cbn. auto.
Qed.
Print Assumptions C96_interface_refuted.

(** A large notification about the links is skipped while a transfer is running, and not sent afterwards. *)
Theorem C96_large_refuted : exists ps s o c,
  ps = [OAdd 1 5 false 16 true true true; OAdd 2 0 true 4 true true true; OReg true 7 (TRes 1) 4; OLink 1 0; OFire [2%nat] (FLinks 1); OFire [2%nat] (FBase 1); OEnd 7 2 4; OFire [] FDisp]%N
  /\ reached all_may ps s /\ In o (s_obs s) /\ In c (s_res s) /\ o_tgt o = TRes (r_id c) /\ o_if o = 4%N
  /\ heard_links (o_id o) (r_id c) (s_out s) None <> Some (r_links c) /\ s_ll s = [] /\ s_base s = [] /\ s_bw s = [].
Proof.
  eexists. eexists. exists (mk_obs 2 7 (TRes 1) 2 4), (mk_res 1 2 0 true 4 [0] true true true). split; [reflexivity|]. split; [split; [careful_run|vm_compute; reflexivity]|].
  cbn. split; [tauto|]. split; [tauto|]. split; [reflexivity|]. split; [reflexivity|]. split; [discriminate|]. auto.
Qed.
Print Assumptions C96_large_refuted.

(** * C97 *)

(** What a batch observer of /oic/res last heard about a URI it may read is what there is, or the device still owes it that news: whatever the sizes of
    the notifications and the transfers under way. *)
Theorem C97_told : forall may ps s o u, reached may ps s -> batch_observer s o -> may (o_cl o) u = true -> ~ blank s u ->
  heard (o_id o) u (s_out s) None = truth s u \/ owed s (o_id o) u.
Proof. intros may ps s o u (C & H) O M N. destruct (gk_reach may ps s C H) as (_ & _ & K). now apply K. Qed.
Print Assumptions C97_told.

(** Once nothing is pending, it knows exactly the resources that exist, with their current representations. *)
Theorem C97_settled : forall may ps s o u, reached may ps s -> batch_observer s o -> may (o_cl o) u = true -> ~ blank s u ->
  (forall e, In e (s_ent s) -> e_obs e <> o_id o) -> s_chg s = [] -> s_ntf s = [] -> heard (o_id o) u (s_out s) None = truth s u.
Proof.
  intros may ps s o u R O M N E C D. destruct (C97_told may ps s o u R O M N) as [X|[(e & X1 & X2 & _)|(r & _ & _ & _ & X)]]; [exact X|exfalso; now apply (E e)|].
  rewrite C, D in X. destruct X as [[]|[]].
Qed.
Print Assumptions C97_settled.

(** When one of the two timers fires, such an observer gets one message with everything that is pending for it, or none if there is nothing to say or a
    transfer to it is running; in the latter case everything stays pending. *)
Theorem C97_exact : forall may ps s big tm t o, reached may ps s -> (tm = FDisp /\ s_disp s = true) \/ (tm = FAdded /\ s_added s = true) -> batch_observer s o ->
  step may s (OFire big tm) = Some t ->
  exists ms, s_out t = s_out s ++ ms
    /\ (transferring s o -> filter (fun m => m_obs m =? o_id o) ms = [] /\ filter (fun e => e_obs e =? o_id o) (s_ent t) = filter (fun e => e_obs e =? o_id o) (s_ent s))
    /\ (~ transferring s o ->
        filter (fun m => m_obs m =? o_id o) ms =
          match flat_map (fun e => report may s o (e_what e)) (filter (fun e => e_obs e =? o_id o) (s_ent s)) with [] => [] | l => [mk_msg (o_id o) (o_cl o) (BDisc l)] end
        /\ filter (fun e => e_obs e =? o_id o) (s_ent t) = []).
Proof.
  intros may ps s big tm t o (C & H) TM O ST. destruct (fire_exact may big tm s t o (run_inv may ps s C H) (lone_reach may ps s C H) TM O ST) as (ms & M1 & M2 & M3 & _).
  exists ms. split; [exact M1|]. unfold own, batch_msg in *. split; intros T.
  - apply transferring_covered in T. rewrite T in M2, M3. now split.
  - rewrite transferring_covered in T. apply not_true_iff_false in T. rewrite T in M2, M3. now split.
Qed.
Print Assumptions C97_exact.

(** Pending news are not forgotten: a timer is running, or a transfer to the observer whose end starts it - if the first responses fit in a block. *)
Theorem C97_no_stall : forall may ps s e, reached may ps s -> Forall short_op ps -> In e (s_ent s) ->
  s_disp s = true \/ s_added s = true
  \/ exists o t, In o (s_obs s) /\ o_id o = e_obs e /\ transferring s o /\ step may s (OEnd (o_cl o) (o_url o) (o_if o)) = Some t /\ s_disp t = true.
Proof.
  intros may ps s e (C & H) SH E. pose proof (run_inv may ps s C H) as I.
  assert (S0 : stirred init) by (split; [intros x []|intros x []]).
  destruct (stirred_run may ps init s (inv_init may) S0 C SH H) as (A & S). destruct (S e E) as [X|[X|(o & O & OI & X)]]; [now left|right; now left|right; right].
  exists o. eexists. split; [exact O|]. split; [exact OI|]. split; [now apply transferring_covered|]. split; [reflexivity|].
  unfold covered in X. apply existsb_exists in X. destruct X as (x & X & Y). apply (free_disp_fin _ s x X Y).
  destruct (i_ent may s I e E) as (p & P & PI & PB & _).
  assert (p = o) by (apply (nodup_inj o_id (s_obs s)); [apply (i_oids may s I)|exact P|exact O|congruence]). subst p.
  apply is_batch_eq in PB. destruct PB as (T & F). pose proof (i_obs may s I o O) as Z. unfold obs_ok in Z. rewrite T in Z.
  apply xfer_key in Y. destruct Y as (_ & Y1 & Y2). apply A; [exact X|congruence|congruence].
Qed.
Print Assumptions C97_no_stall.

(** Such messages only mention resources their client may read. *)
Theorem C97_allowed : forall may ps s m l u v, reached may ps s -> In m (s_out s) -> m_body m = BDisc l -> In (u, v) l -> may (m_cl m) u = true.
Proof. intros may ps s m l u v (C & H) M E X. destruct (gk_reach may ps s C H) as (_ & KN & _). exact (proj2 (KN m M) l u v E X). Qed.
Print Assumptions C97_allowed.

(** A resource is removed and its URI used again by another one while a transfer to the observer is running. *)
Definition batch_run : list op :=
  [OReg false 7 TDisc 8; OAdd 1 5 false 16 true true true; OFire [0%nat] FAdded; OChange [] 1 6; ODel 1; OAdd 1 9 false 16 true true true; OFire [] FAdded; OFire [] FDisp]%N.
Example C97_example :
  exists s t o, reached all_may batch_run s /\ Forall short_op batch_run /\ batch_observer s o /\ transferring s o /\ ~ blank s 1
    /\ heard (o_id o) 1 (s_out s) None = Some (5, []) /\ truth s 1 = Some (9, []) /\ s_ent s = [mk_ent 0 (Gone 1); mk_ent 0 (Live 2)]
    /\ run all_may s [OEnd 7 0 8; OFire [] FDisp]%N = Some t /\ s_out t = s_out s ++ [mk_msg 0 7 (BDisc [(1, None); (1, Some (9, []))])]
    /\ heard (o_id o) 1 (s_out t) None = Some (9, []) /\ s_ent t = [].
Proof.
  destruct (run all_may init batch_run) as [s|] eqn:E; [|vm_compute in E; discriminate E]. exists s.
  assert (R : reached all_may batch_run s) by (split; [careful_run|exact E]). vm_compute in E. injection E as <-.
  eexists. exists (mk_obs 0 7 TDisc 0 8). split; [exact R|]. split; [repeat constructor; discriminate|]. split; [split; [cbn; tauto|split; reflexivity]|].
  split; [eexists; split; [cbn; left; reflexivity|cbn; auto]|]. split; [intros (r & [X|[]] & _ & _ & _ & V); subst r; discriminate V|].
  split; [reflexivity|]. split; [reflexivity|]. split; [reflexivity|]. split; [vm_compute; reflexivity|]. split; [reflexivity|]. split; reflexivity.
Qed.

(** The transfer of a first response that does not fit in a block has no callback: what becomes pending meanwhile stays so when it ends. *)
Theorem C97_first_refuted : exists ps s o,
  ps = [OAdd 1 5 false 16 true true true; OFire [] FAdded; OReg true 7 TDisc 8; OChange [] 0 6; OFire [] FDisp; OEnd 7 0 8]%N /\ reached all_may ps s /\ batch_observer s o
  /\ heard (o_id o) 1 (s_out s) None = Some (5, []) /\ truth s 1 = Some (6, []) /\ s_ent s <> [] /\ s_disp s = false /\ s_added s = false /\ s_bw s = [].
Proof.
  eexists. eexists. exists (mk_obs 1 7 TDisc 0 8). split; [reflexivity|]. split; [split; [careful_run|vm_compute; reflexivity]|].
  split; [split; [cbn; tauto|split; reflexivity]|]. cbn. split; [reflexivity|]. split; [reflexivity|]. split; [discriminate|]. auto.
Qed.
Print Assumptions C97_first_refuted.

(** A representation that has become empty is not reported. *)
Theorem C97_empty_refuted : exists ps s o,
  ps = [OAdd 1 5 false 16 true true true; OReg false 7 TDisc 8; OChange [] 0 0; OFire [] FAdded; OFire [] FDisp]%N /\ reached all_may ps s /\ batch_observer s o
  /\ heard (o_id o) 1 (s_out s) None = Some (5, []) /\ truth s 1 = Some (0, []) /\ s_ent s = [] /\ s_disp s = false /\ s_added s = false /\ s_chg s = [] /\ s_ntf s = [].
Proof.
  eexists. eexists. exists (mk_obs 1 7 TDisc 0 8). split; [reflexivity|]. split; [split; [careful_run|vm_compute; reflexivity]|].
  split; [split; [cbn; tauto|split; reflexivity]|]. vm_compute. auto 12.
Qed.
Print Assumptions C97_empty_refuted.

(** The removal of a resource that is not discoverable is announced. *)
Theorem C97_hidden_refuted : exists ps s,
  ps = [OReg false 7 TDisc 8; OAdd 1 5 false 16 false true true; OFire [] FAdded; ODel 1; OFire [] FAdded]%N /\ reached all_may ps s
  /\ s_out s = [mk_msg 0 7 (BDisc []); mk_msg 0 7 (BDisc [(1, None)])].
Proof. eexists. eexists. split; [reflexivity|]. split; [split; [careful_run|vm_compute; reflexivity]|]. reflexivity. Qed.
Print Assumptions C97_hidden_refuted.
