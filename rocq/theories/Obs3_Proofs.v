From Verif Require Import Common Ep_Model Ep_Spec Ep_Proofs Obs_Model Obs_Spec Obs_Proofs Obs2_Proofs.
Local Open Scope N_scope.

(** * Who is registered after each operation *)
Lemma reach_ep ri P s l o : reach ri P s l -> In o (s_obs s) -> ep_ok (o_ep o).
Proof. intros R I. pose proof (gd_ok _ _ (reach_good _ _ _ _ R)) as O. rewrite Forall_forall in O. exact (proj1 (O o I)). Qed.
Lemma relations ri P s l : reach ri P s l -> ForallOrdPairs (fun a b => ~ same_relation a b) (s_obs s).
Proof.
  intros R. pose proof (reach_good _ _ _ _ R) as [C _ O]. clear R. revert C O. induction (s_obs s) as [|o t IH]; intros C O; [constructor|]. inversion C; inversion O; subst. constructor; [|auto].
  rewrite Forall_forall in *. intros b I X. specialize (H1 b I). apply (clash_spec o b (proj1 H5) (proj1 (H6 b I))) in X. rewrite X in H1. discriminate.
Qed.

Lemma registered ri P s l q : reach ri P s l -> op_ok ri s (Request q) -> q_obs q = 0 -> r_obsv (ri (q_res q)) = true -> q_mem q = true ->
  (r_per (ri (q_res q)) = true -> q_per q = true) -> (r_coll (ri (q_res q)) = true -> q_coll q = true) ->
  let n := mk_obs (q_res q) (q_url q) (q_ep q) (q_tok q) 0 (q_blk q) (s_cnt s) (q_if q) in
  let '(s', ob, it) := handle_observation ri s q in
  ob = Some 0 /\ it = [IReg (key_of n)] /\ s_cnt s' = s_cnt s /\
  forall o, In o (s_obs s') <-> o = n \/ In o (s_obs s) /\ ~ same_relation o n.
Proof.
  intros R (E & _) Z V M PE CO n. unfold handle_observation. rewrite V, Z. cbn [negb N.eqb]. change (0 =? 0) with true. cbv iota.
  destruct (add_observation_obs ri s q) as (it & A & _ & C & D & F & OK). destruct (add_observation ri s q) as [[s1 ok] it']. cbn in A, C, D, OK. subst it'.
  rewrite M in A, F, OK. cbn [andb] in OK.
  assert (ok = true). { rewrite OK. destruct (r_per (ri (q_res q))); [rewrite (PE eq_refl)|]; cbn; (destruct (r_coll (ri (q_res q))); [rewrite (CO eq_refl)|]; reflexivity). }
  subst ok. rewrite H. split; [reflexivity|]. split; [exact F|]. split; [exact C|]. intros o. rewrite A, in_app_iff, filter_In. fold n.
  assert (S : In o (s_obs s) -> (negb (same_data (q_ep q) (q_url q) (q_if q) o) = true <-> ~ same_relation o n)).
  { intros I. rewrite <- (clash_spec o n (reach_ep _ _ _ _ _ R I) E). unfold clash, n. cbn. rewrite negb_true_iff. destruct (same_data _ _ _ o); intuition congruence. }
  cbn [In]. unfold new_obs. fold n. intuition.
Qed.

Lemma client_gone ri P s l e o : reach ri P s l -> ep_ok e ->
  (In o (s_obs (fst (step ri s (Gone e)))) <-> In o (s_obs s) /\ ~ same_peer (o_ep o) e).
Proof.
  intros R E. cbn [step fst]. unfold by_client. rewrite drop_all_obs, filter_In, negb_true_iff. split; intros [I H]; (split; [exact I|]).
  - intros X. apply (compare_spec _ _ (reach_ep _ _ _ _ _ R I) E) in X. congruence.
  - destruct (ep_compare (o_ep o) e) eqn:C; [|reflexivity]. apply (compare_spec _ _ (reach_ep _ _ _ _ _ R I) E) in C. contradiction.
Qed.

Lemma in_middle {A} (a b : list A) x y : In y (a ++ x :: b) <-> y = x \/ In y (a ++ b).
Proof. rewrite !in_app_iff. cbn [In]. intuition. Qed.
Lemma pairs_mid {A} (R : A -> A -> Prop) a x b : (forall u v, R u v -> R v u) -> ForallOrdPairs R (a ++ x :: b) -> forall y, In y (a ++ b) -> R x y.
Proof.
  intros SY. induction a as [|z a IH]; intros F y I; cbn [app] in *; inversion F; subst.
  - rewrite Forall_forall in H1. auto.
  - destruct I as [<-|I]; [|auto]. rewrite Forall_forall in H1. apply SY, H1. apply in_middle. left. reflexivity.
Qed.
(** The first match goes; with no second match, all that match. *)
Lemma drop_one f s : (forall a b, In a (s_obs s) -> In b (s_obs s) -> f a = true -> f b = true -> a = b) -> NoDup (s_obs s) ->
  forall o, In o (s_obs (fst (drop f false s))) <-> In o (s_obs s) /\ f o = false.
Proof.
  intros U N o. unfold drop. pose proof (remove_first f (s_obs s) (s_num s)) as H. destruct (remove_by f false (s_obs s) (s_num s)) as [[l n] rm]. cbn in *.
  destruct H as [(A & -> & _)|(a & x & b & E & A & X & -> & _)].
  - split; [intros I; split; [exact I|]|tauto]. destruct (f o) eqn:F; [|reflexivity]. assert (J : In o (filter f (s_obs s))) by (apply filter_In; auto). rewrite A in J. destruct J.
  - rewrite E in *. split.
    + intros I. assert (I' : In o (a ++ x :: b)) by (apply in_middle; auto). split; [exact I'|]. destruct (f o) eqn:F; [|reflexivity].
      exfalso. assert (o = x) by (apply U; auto; apply in_middle; auto). subst. exact (NoDup_remove_2 _ _ _ N I).
    + intros [I F]. apply in_middle in I. destruct I as [->|I]; [congruence|exact I].
Qed.
Lemma good_nodup ri s : good ri s -> NoDup (s_obs s).
Proof. intros G. exact (NoDup_map_inv _ _ (good_keys _ _ G)). Qed.

Lemma cancelled ri P s l q : reach ri P s l -> op_ok ri s (Request q) -> q_obs q = 1 -> r_obsv (ri (q_res q)) = true ->
  (forall a b, In a (s_obs s) -> In b (s_obs s) -> same_peer (o_ep a) (q_ep q) -> same_peer (o_ep b) (q_ep q) -> o_tok a = q_tok q -> o_tok b = q_tok q -> a = b) ->
  forall o, In o (s_obs (fst (step ri s (Request q)))) <-> In o (s_obs s) /\ ~ (same_peer (o_ep o) (q_ep q) /\ o_tok o = q_tok q).
Proof.
  intros R (E & _) Z V U o. cbn [step]. unfold handle_observation. rewrite V, Z. cbn [negb]. change (1 =? 0) with false. change (1 =? 1) with true. cbv iota. cbn [fst]. unfold by_token.
  set (f := fun o => ep_compare (o_ep o) (q_ep q) && list_eqb (o_tok o) (q_tok q)).
  assert (FS : forall x, In x (s_obs s) -> (f x = true <-> same_peer (o_ep x) (q_ep q) /\ o_tok x = q_tok q)).
  { intros x I. unfold f. rewrite andb_true_iff, list_eqb_spec, (compare_spec _ _ (reach_ep _ _ _ _ _ R I) E). tauto. }
  assert (D : forall o, In o (s_obs (fst (drop f false s))) <-> In o (s_obs s) /\ f o = false).
  { apply drop_one; [|exact (good_nodup _ _ (reach_good _ _ _ _ R))]. intros a b Ia Ib Fa Fb. apply FS in Fa, Fb; try assumption. apply U; tauto. }
  destruct (drop f false s) as [s1 rm]. cbn in *. rewrite D. split; intros [I H]; (split; [exact I|]).
  - intros X. apply (FS o I) in X. congruence.
  - destruct (f o) eqn:F; [|reflexivity]. apply (FS o I) in F. contradiction.
Qed.
Lemma reset_mid ri P s l e m : reach ri P s l -> ep_ok e ->
  (forall a b, In a (s_obs s) -> In b (s_obs s) -> same_peer (o_ep a) e -> same_peer (o_ep b) e -> o_mid a = m -> o_mid b = m -> a = b) ->
  forall o, In o (s_obs (fst (step ri s (RstMid e m)))) <-> In o (s_obs s) /\ ~ (same_peer (o_ep o) e /\ o_mid o = m).
Proof.
  intros R E U o. cbn [step fst]. unfold by_mid. set (f := fun o => ep_compare (o_ep o) e && (o_mid o =? m)).
  assert (FS : forall x, In x (s_obs s) -> (f x = true <-> same_peer (o_ep x) e /\ o_mid x = m)).
  { intros x I. unfold f. rewrite andb_true_iff, N.eqb_eq, (compare_spec _ _ (reach_ep _ _ _ _ _ R I) E). tauto. }
  rewrite (drop_one f s); [|intros a b Ia Ib Fa Fb; apply FS in Fa, Fb; try assumption; apply U; tauto|exact (good_nodup _ _ (reach_good _ _ _ _ R))].
  split; intros [I H]; (split; [exact I|]).
  - intros X. apply (FS o I) in X. congruence.
  - destruct (f o) eqn:F; [|reflexivity]. apply (FS o I) in F. contradiction.
Qed.
Lemma denied ri s d b f :
  let '(s', it) := step ri s (DosChange d b f) in
  (forall o, In o (s_obs s') <-> In o (s_obs s) /\ ~ (e_dev (o_ep o) = d /\ (b = true \/ f o = true))) /\
  it = map (fun o => ICancel (key_of o) 163) (filter (fun o => (e_dev (o_ep o) =? d) && (b || f o)) (s_obs s)).
Proof.
  cbn [step]. unfold on_dos_change. set (g := fun o => (e_dev (o_ep o) =? d) && (b || f o)). pose proof (drop_all_obs g s) as A. pose proof (drop_all_removed g s) as B. destruct (drop g true s) as [s1 rm]. cbn in A, B.
  split; [|rewrite B; reflexivity]. intros o. rewrite A, filter_In, negb_true_iff.
  assert (X : g o = true <-> e_dev (o_ep o) = d /\ (b = true \/ f o = true)) by (unfold g; rewrite andb_true_iff, orb_true_iff, N.eqb_eq; reflexivity).
  rewrite <- X. destruct (g o); intuition congruence.
Qed.

(** * Notifications reach every observer once *)
Definition con_of (env : obs -> nenv) (o : obs) : bool := if o_if o =? IF_STARTUP_REVERT then false else snd (prepare o (env o)).
Lemma send_fine o num g v : fine v -> num <> 0 -> exists o', send o num g v = (1%Z, o', inc g, [ISeq (key_of o) (o_cnt o) true (if o_if o =? IF_STARTUP_REVERT then false else snd (prepare o v))]).
Proof.
  intros (_ & S & B & C & L & W & M & R) N. unfold send. rewrite S, B. cbn [negb]. cbv zeta.
  assert (LZ : n_len v =? 0 = false) by (apply N.eqb_neq; lia). rewrite LZ, andb_false_r. apply N.eqb_neq in N. rewrite N, R.
  destruct (n_mid v) as [m|]; [|contradiction].
  assert (PR : (fst (prepare o v) <=? 0)%Z = false) by (unfold prepare; destruct (_ && _); cbn; lia).
  destruct (o_if o =? IF_STARTUP_REVERT).
  - change (67 <? 128) with true. cbn. eexists. reflexivity.
  - apply N.ltb_lt in C. rewrite C. destruct (prepare o v) as [ret con]. cbn [fst snd] in *. rewrite PR. cbn. eexists. reflexivity.
Qed.
Lemma iterate_fine ri r e pre env num : num <> 0 -> forall l g, (forall o, In o l -> eligible ri r e o = true -> fine (env o)) ->
  snd (iterate ri r e pre env num l g) = map (fun o => ISeq (key_of o) (o_cnt o) true (con_of env o)) (filter (eligible ri r e) l).
Proof.
  intros N. induction l as [|o l IH]; intros g F; [reflexivity|]. cbn [iterate filter]. destruct (eligible ri r e o) eqn:E; cbn [andb].
  - pose proof (F o (or_introl eq_refl) E) as FO. rewrite (proj1 FO), orb_true_r. destruct (send_fine o num g (env o) FO N) as (o' & ->). change ((1 <? 0)%Z) with false. cbv iota.
    specialize (IH (inc g) (fun x I => F x (or_intror I))). destruct (iterate ri r e pre env num l (inc g)) as [[l' g'] it]. cbn in IH |- *. rewrite IH. reflexivity.
  - specialize (IH g (fun x I => F x (or_intror I))). destruct (iterate ri r e pre env num l g) as [[l' g'] it]. cbn in *. exact IH.
Qed.
Lemma con_of_fine env o : con_fine env o (con_of env o).
Proof.
  unfold con_fine, con_of, prepare. rewrite <- has_tcp. fold (is_tcp o). destruct (o_if o =? IF_STARTUP_REVERT) eqn:I.
  - apply N.eqb_eq in I. split; [discriminate|]. intros _ H. contradiction.
  - destruct (is_tcp o); cbn [negb].
    + rewrite andb_false_r. cbn [snd]. rewrite andb_false_r. split; discriminate.
    + rewrite andb_true_r. split; [reflexivity|]. intros _ _ [H|H].
      * destruct (o_blk o <? n_len (env o)); [reflexivity|]. cbn [snd]. rewrite H. reflexivity.
      * apply N.ltb_lt in H. rewrite H. reflexivity.
Qed.
Lemma notified ri P s l r e given fill1 env : reach ri P s l -> r_obsv (ri r) = true -> (0 < count r (s_obs s) < 256)%nat ->
  (e <> None -> given = true \/ fill1 = true) -> (forall o, In o (s_obs s) -> eligible ri r e o = true -> fine (env o)) ->
  exists con, (forall o, con_fine env o (con o)) /\
  snd (step ri s (Notify r e true given fill1 env)) = map (fun o => ISeq (key_of o) (o_cnt o) true (con o)) (filter (eligible ri r e) (s_obs s)).
Proof.
  intros R V C G F. exists (con_of env). split; [apply con_of_fine|]. cbn [step]. unfold notify. rewrite V. cbn [negb orb].
  assert (N : s_num s r <> 0) by (rewrite (gd_num _ _ (reach_good _ _ _ _ R) r); lia). pose proof N as N'. apply N.eqb_neq in N'. rewrite N'. cbv zeta.
  assert (Z : match e with Some _ => negb given | None => false end && negb fill1 = false).
  { destruct e; [|reflexivity]. destruct (G ltac:(discriminate)) as [-> | ->]; [reflexivity|apply andb_false_r]. }
  rewrite Z. pose proof (iterate_fine ri r e (given || match e with Some _ => negb given | None => false end) env (s_num s r) N (s_obs s) (s_cnt s) F) as H.
  destruct (iterate _ _ _ _ _ _ _ _) as [[l' g] it]. exact H.
Qed.

Lemma eligible_spec ri r e o : ep_ok (o_ep o) -> (forall e', e = Some e' -> ep_ok e') -> (eligible ri r e o = true <-> recipient ri r e o).
Proof.
  intros O E. unfold eligible, recipient. rewrite !andb_true_iff, Nat.eqb_eq, !negb_true_iff, N.eqb_neq, andb_false_iff, negb_false_iff, N.eqb_eq. fold IF_BASELINE. fold IF_STARTUP.
  assert (X : match e with Some e0 => ep_compare (o_ep o) e0 | None => true end = true <-> forall e', e = Some e' -> same_peer (o_ep o) e').
  { destruct e as [e0|]; [|split; [discriminate|reflexivity]]. rewrite (compare_spec _ _ O (E e0 eq_refl)). split; [intros H e' [= <-]; exact H|intros H; exact (H e0 eq_refl)]. }
  rewrite X. destruct (r_coll (ri r)); intuition discriminate.
Qed.
Lemma notified_all ri P s l r e given fill1 env : reach ri P s l -> r_obsv (ri r) = true -> (0 < count r (s_obs s) < 256)%nat ->
  (forall e', e = Some e' -> ep_ok e' /\ (given = true \/ fill1 = true)) -> (forall o, In o (s_obs s) -> recipient ri r e o -> fine (env o)) ->
  exists f con, (forall o, In o (s_obs s) -> (f o = true <-> recipient ri r e o)) /\ (forall o, con_fine env o (con o)) /\
  snd (step ri s (Notify r e true given fill1 env)) = map (fun o => ISeq (key_of o) (o_cnt o) true (con o)) (filter f (s_obs s)).
Proof.
  intros R V C G F. exists (eligible ri r e).
  assert (ES : forall o, In o (s_obs s) -> (eligible ri r e o = true <-> recipient ri r e o)).
  { intros o I. apply eligible_spec; [exact (reach_ep _ _ _ _ _ R I)|]. intros e' E. exact (proj1 (G e' E)). }
  destruct (notified ri P s l r e given fill1 env R V C) as (con & A & B).
  - intros N. destruct e as [e'|]; [|contradiction]. exact (proj2 (G e' eq_refl)).
  - intros o I E. apply F; [exact I|]. apply ES; assumption.
  - exists con. auto.
Qed.

(** * Confirmable notifications *)
Lemma nth_seq k : forall b j, (j < seqs_of k b)%nat -> exists b1 v se c b2, b = b1 ++ ISeq k v se c :: b2 /\ seqs_of k b1 = j.
Proof.
  induction b as [|i b IH]; intros j J; [cbn in J; lia|].
  assert (X : (exists v se c, i = ISeq k v se c) \/ seqs_of k (i :: b) = seqs_of k b /\ forall l, seqs_of k (i :: l) = seqs_of k l).
  { unfold seqs_of. cbn [filter]. destruct i as [k'|k' v se c|k' c|k' c]; auto. destruct (key_dec k' k) as [->|X]; [left; eauto|right; auto]. }
  destruct X as [(v & se & c & ->)|[X Y]].
  - destruct j as [|j].
    + exists [], v, se, c, b. split; reflexivity.
    + assert (Z : forall l, seqs_of k (ISeq k v se c :: l) = S (seqs_of k l)) by (intros l; unfold seqs_of; cbn [filter]; destruct (key_dec k k); [reflexivity|contradiction]).
      rewrite Z in J. destruct (IH j ltac:(lia)) as (b1 & v' & se' & c' & b2 & -> & B). exists (ISeq k v se c :: b1), v', se', c', b2. split; [reflexivity|]. rewrite Z, B. reflexivity.
  - rewrite X in J. destruct (IH j J) as (b1 & v' & se' & c' & b2 & -> & B). exists (i :: b1), v', se', c', b2. split; [reflexivity|]. rewrite Y. exact B.
Qed.
Lemma confirmable ri P s a b c k : reach ri P s (a ++ b ++ c) -> no_reg k b -> (5 <= seqs_of k b)%nat -> N.testbit (k_fl k) 4 = false -> k_if k <> IF_STARTUP_REVERT ->
  exists v se, In (ISeq k v se true) b.
Proof.
  intros R H F T I. destruct (val_five (pos k (rev a))) as (j & J & V).
  destruct (nth_seq k b (N.to_nat j) ltac:(lia)) as (b1 & v & se & co & b2 & -> & B).
  assert (R' : reach ri P s ((a ++ b1) ++ ISeq k v se co :: b2 ++ c)). { repeat (rewrite <- app_assoc || cbn [app]). rewrite <- app_assoc in R. exact R. }
  destruct (log_split _ _ _ _ _ _ _ _ _ R') as (E & _ & C). rewrite rev_app_distr, pos_noreg in E by (intros X; apply H, in_or_app; left; exact X). rewrite B, N2Nat.id in E.
  replace (j + pos k (rev a)) with (pos k (rev a) + j) in E by lia. rewrite <- E in V.
  exists v, se. destruct C as [->|[C|[C|C]]]; try congruence. apply in_or_app. right. left. reflexivity.
Qed.

(** * Any counter can be reached *)
Definition single (s : st) (r : nat) (c : N) : Prop :=
  exists o, s_obs s = [o] /\ o_res o = r /\ o_cnt o = c /\ o_if o = IF_BASELINE /\ s_cnt s = c /\ s_num s r = 1 /\ s_live s r = true.
Definition all_fine : obs -> nenv := fun o => mk_ne true false true 69 10 1 (Some 77) true.
Lemma single_step ri s r c : r_obsv (ri r) = true -> single s r c -> single (fst (step ri s (Notify r None true true true all_fine))) r (inc c).
Proof.
  intros V (o & O & R & C & I & G & N & L). cbn [step]. unfold notify. rewrite V, N. cbn [negb orb andb]. change (1 =? 0) with false. cbv iota zeta. rewrite O. cbn [iterate].
  assert (E : eligible ri r None o = true) by (unfold eligible; rewrite R, Nat.eqb_refl, I; cbn; rewrite andb_false_r; reflexivity). rewrite E. cbn [andb orb].
  assert (F : fine (all_fine o)) by (repeat split; discriminate). destruct (send_fine o 1 (s_cnt s) (all_fine o) F ltac:(discriminate)) as (o' & X).
  assert (SO : o_cnt o' = inc (o_cnt o)).
  { unfold send, all_fine in X. cbn in X. rewrite I in X. change (IF_BASELINE =? IF_STARTUP_REVERT) with false in X. cbn in X. change (10 =? 0) with false in X. cbv iota in X. unfold prepare in X. cbn [n_len n_bw] in X.
    destruct ((o_blk o <? 10) && negb (is_tcp o)); injection X as <-; reflexivity. }
  pose proof (send_reg o 1 (s_cnt s) (all_fine o)) as SR. rewrite X in *. cbn in SR. cbn. exists o'. cbn. destruct SR as (S1 & _ & _ & _ & _ & S6). rewrite <- S1, <- S6, SO, C, G. repeat split; assumption.
Qed.
Lemma reach_count ri : forall n s0 l0 r c, r_obsv (ri r) = true -> reach ri always s0 l0 -> single s0 r c ->
  forall i, c = val i -> exists s l, reach ri always s (l0 ++ l) /\ single s r (val (i + n)).
Proof.
  intros n. induction n as [|n IH] using N.peano_ind; intros s0 l0 r c V R S i E.
  - exists s0, []. rewrite app_nil_r, N.add_0_r, <- E. auto.
  - destruct (IH s0 l0 r c V R S i E) as (s & l & R' & S'). exists (fst (step ri s (Notify r None true true true all_fine))), (l ++ snd (step ri s (Notify r None true true true all_fine))).
    rewrite app_assoc. split.
    + apply ReachS; [exact R'| |exact I]. destruct S' as (o & _ & _ & _ & _ & _ & _ & L). exact L.
    + apply (single_step ri s r _ V) in S'. rewrite inc_val in S'. replace (i + N.succ n) with (i + n + 1) by lia. exact S'.
Qed.
