From Verif Require Import Common Ep_Model Ep_Spec Ep_Proofs Obs_Model Obs_Spec Obs_Proofs.
Local Open Scope N_scope.

(** * Keys *)
Lemma key_clash ri a b : key_of a = key_of b -> obs_ok ri a -> clash a b = true.
Proof.
  intros K (E & V & _). unfold key_of in K. injection K as Kf Kd Ka Kp Ks Ku Ki. unfold clash, same_data.
  rewrite Ku, Ki, list_eqb_refl, N.eqb_refl, !andb_true_r. unfold ep_compare.
  rewrite <- Kf, <- Kd, <- Ka, <- Kp, !N.eqb_refl. cbn [negb orb].
  assert (S : compare_sessions (o_ep a) (o_ep b) = true) by (unfold compare_sessions; rewrite <- Ks, N.eqb_refl; apply orb_true_r).
  rewrite S, has6, has4, !list_eqb_refl. unfold is_v6, is_v4 in V. destruct (N.testbit (e_flags (o_ep a)) 3); [reflexivity|]. destruct V as [V|V]; [discriminate|]. rewrite V. reflexivity.
Qed.
Lemma good_keys ri s : good ri s -> NoDup (map key_of (s_obs s)).
Proof.
  intros [P _ O]. revert P O. induction (s_obs s) as [|o l IH]; intros P O; [constructor|]. inversion P; inversion O; subst. cbn [map]. constructor; [|auto].
  intros I. apply in_map_iff in I. destruct I as (b & E & I). rewrite Forall_forall in H1. specialize (H1 b I). rewrite (key_clash ri o b (eq_sym E) H5) in H1. discriminate.
Qed.

(** * Sequence numbers *)
Lemma inc_val i : inc (val i) = val (i + 1).
Proof. unfold inc, val, SEQ_MAX, SEQ_START. destruct (2 + i mod 16777214 =? 16777215) eqn:E; lia. Qed.
Lemma val_range i : 2 <= val i <= 16777215.
Proof. unfold val. lia. Qed.
Lemma val_fresher i d : 0 < d -> d < 2 ^ 23 - 2 -> fresher (val i) (val (i + d)).
Proof.
  intros D1 D2. unfold fresher, val. change (2 ^ 23 - 2) with 8388606 in D2. change (2 ^ 23) with 8388608.
  set (m := i mod 16777214). assert (M : m < 16777214) by (apply N.mod_lt; discriminate).
  assert (X : (i + d) mod 16777214 = if m + d <? 16777214 then m + d else m + d - 16777214).
  { unfold m in *. destruct (i mod 16777214 + d <? 16777214) eqn:E; lia. }
  rewrite X. destruct (m + d <? 16777214) eqn:E; lia.
Qed.
Lemma val_five i : exists j, j < 5 /\ val (i + j) mod 5 = 0.
Proof.
  unfold val. set (m := i mod 16777214). assert (M : m < 16777214) by (apply N.mod_lt; discriminate).
  assert (X : forall j, j < 5 -> (i + j) mod 16777214 = if m + j <? 16777214 then m + j else m + j - 16777214).
  { intros j J. unfold m in *. destruct (i mod 16777214 + j <? 16777214) eqn:E; lia. }
  assert (C : m < 16777214 - 4 \/ m = 16777210 \/ m = 16777211 \/ m = 16777212 \/ m = 16777213) by lia.
  destruct C as [C|[C|[C|[C|C]]]].
  - exists ((3 + 4 * m) mod 5). assert (J : (3 + 4 * m) mod 5 < 5) by lia. split; [exact J|]. rewrite X by exact J.
    assert (L : m + (3 + 4 * m) mod 5 <? 16777214 = true) by lia. rewrite L. lia.
  - exists 3. split; [lia|]. rewrite X, C by lia. reflexivity.
  - exists 2. split; [lia|]. rewrite X, C by lia. reflexivity.
  - exists 1. split; [lia|]. rewrite X, C by lia. reflexivity.
  - exists 0. split; [lia|]. rewrite X, C by lia. reflexivity.
Qed.

(** The log with the newest entry first: how many numbered notifications it holds, and the position of a key. *)
Fixpoint tot (l : list item) : N := match l with [] => 0 | ISeq _ _ _ _ :: r => tot r + 1 | _ :: r => tot r end.
Fixpoint pos (k : key) (l : list item) : N :=
  match l with
  | [] => 0
  | IReg k' :: r => if key_dec k' k then tot r else pos k r
  | ISeq k' _ _ _ :: r => if key_dec k' k then pos k r + 1 else pos k r
  | _ :: r => pos k r
  end.
Definition con_ok (k : key) (v : N) (con : bool) : Prop :=
  con = true \/ N.testbit (k_fl k) 4 = true \/ k_if k = IF_STARTUP_REVERT \/ v mod 5 <> 0.
Fixpoint log_ok (l : list item) : Prop :=
  match l with
  | [] => True
  | ISeq k v _ con :: r => v = val (pos k r) /\ In (IReg k) r /\ con_ok k v con /\ log_ok r
  | _ :: r => log_ok r
  end.
Definition Linv (obs : list obs) (g : N) (rl : list item) : Prop :=
  g = val (tot rl) /\ Forall (fun o => In (IReg (key_of o)) rl /\ o_cnt o = val (pos (key_of o) rl)) obs /\ log_ok rl.

Lemma Linv_sub a b g rl : sub a b -> Linv b g rl -> Linv a g rl.
Proof. intros S (G & F & L). split; [exact G|]. split; [exact (sub_forall _ _ _ S F)|exact L]. Qed.
Lemma Linv_other obs g rl i : (match i with IErr _ _ => True | ICancel _ _ => True | _ => False end) -> Linv obs g rl -> Linv obs g (i :: rl).
Proof.
  intros I (G & F & L). destruct i; try contradiction; (split; [exact G|]; split; [|exact L]); apply (Forall_impl _ (fun o H => conj (or_intror (proj1 H)) (proj2 H)) F).
Qed.
Lemma Linv_cancels obs g c : forall l rl, Linv obs g rl -> Linv obs g (rev (map (fun o => ICancel (key_of o) c) l) ++ rl).
Proof.
  induction l as [|o l IH]; intros rl H; [exact H|]. cbn [map rev]. rewrite <- app_assoc. cbn [app]. apply IH. apply Linv_other; [exact I|exact H].
Qed.

(** A numbered notification to one of them. *)
Lemma Linv_seq pre o o' rest g rl sent con :
  NoDup (map key_of (pre ++ o :: rest)) -> Linv (pre ++ o :: rest) g rl -> key_of o' = key_of o -> o_cnt o' = inc (o_cnt o) ->
  con_ok (key_of o) (o_cnt o) con ->
  Linv (pre ++ o' :: rest) (inc g) (ISeq (key_of o) (o_cnt o) sent con :: rl).
Proof.
  intros N (G & F & L) K C CO. apply Forall_app in F. destruct F as [Fp F]. inversion F; subst. destruct H1 as [R V].
  assert (Q : forall l, (forall x, In x l -> key_of x <> key_of o) -> Forall (fun o => In (IReg (key_of o)) rl /\ o_cnt o = val (pos (key_of o) rl)) l ->
    Forall (fun x => In (IReg (key_of x)) (ISeq (key_of o) (o_cnt o) sent con :: rl) /\ o_cnt x = val (pos (key_of x) (ISeq (key_of o) (o_cnt o) sent con :: rl))) l).
  { intros l NE Fl. apply Forall_forall. intros x I. rewrite Forall_forall in Fl. destruct (Fl x I) as [A B]. split; [right; exact A|]. cbn [pos].
    destruct (key_dec (key_of o) (key_of x)) as [X|X]; [exfalso; exact (NE x I (eq_sym X))|exact B]. }
  rewrite map_app in N. cbn [map] in N. pose proof (NoDup_remove_2 _ _ _ N) as NI.
  assert (NE : forall x, In x (pre ++ rest) -> key_of x <> key_of o).
  { intros x I E. apply NI. rewrite <- E, <- map_app. apply in_map. exact I. }
  split; [cbn [tot]; apply inc_val|]. split.
  - apply Forall_app. split; [apply Q; [intros x I; apply NE, in_or_app; left; exact I|exact Fp]|]. constructor; [|apply Q; [intros x I; apply NE, in_or_app; right; exact I|assumption]].
    rewrite K. split; [right; exact R|]. cbn [pos]. destruct (key_dec (key_of o) (key_of o)) as [_|X]; [|contradiction]. rewrite C, V. apply inc_val.
  - cbn [log_ok]. split; [exact V|]. split; [exact R|]. split; [exact CO|exact L].
Qed.
Lemma prepare_con o v : con_ok (key_of o) (o_cnt o) (snd (prepare o v)).
Proof.
  unfold prepare, con_ok. destruct ((o_blk o <? n_len v) && negb (is_tcp o)); [left; reflexivity|]. cbn [snd]. unfold is_tcp. rewrite has_tcp.
  destruct (o_cnt o mod 5 =? 0) eqn:E; [|right; right; right; apply N.eqb_neq; exact E]. cbn [andb]. destruct (N.testbit (e_flags (o_ep o)) 4) eqn:T; [|left; reflexivity].
  right. left. cbn. rewrite N.land_spec, T. reflexivity.
Qed.
Lemma send_Linv pre o rest g rl num v :
  NoDup (map key_of (pre ++ o :: rest)) -> Linv (pre ++ o :: rest) g rl ->
  Linv (pre ++ snd (fst (fst (send o num g v))) :: rest) (snd (fst (send o num g v))) (rev (snd (send o num g v)) ++ rl).
Proof.
  intros N L. unfold send. destruct (n_sep v); [exact L|]. destruct (negb (n_buf v)); [exact L|]. cbv zeta.
  destruct (negb (o_if o =? IF_STARTUP_REVERT) && (n_len v =? 0)); [exact L|].
  assert (CO : con_ok (key_of o) (o_cnt o) (snd (if o_if o =? IF_STARTUP_REVERT then (1%Z, false) else prepare o v))).
  { destruct (o_if o =? IF_STARTUP_REVERT) eqn:E; [|apply prepare_con]. right. right. left. apply N.eqb_eq. exact E. }
  destruct (if o_if o =? IF_STARTUP_REVERT then (1%Z, false) else prepare o v) as [ret con]. cbn [snd] in CO. destruct (ret <=? 0)%Z; [exact L|].
  destruct ((_ <? 128) && negb (num =? 0)), (n_mid v) as [m|]; cbn [fst snd rev app].
  - apply Linv_seq; auto.
  - apply Linv_seq; auto.
  - assert (L' : Linv (pre ++ mk_obs (o_res o) (o_url o) (o_ep o) (o_tok o) m (o_blk o) (o_cnt o) (o_if o) :: rest) g rl).
    { destruct L as (G & F & L). split; [exact G|]. split; [|exact L]. apply Forall_app in F. destruct F as [Fp F]. inversion F; subst. apply Forall_app. split; [exact Fp|]. constructor; assumption. }
    destruct (n_ser v); [apply Linv_other; [exact I|exact L']|exact L'].
  - exact L.
Qed.
Lemma iterate_Linv ri r e p env num : forall l pre g rl, NoDup (map key_of (pre ++ l)) -> Linv (pre ++ l) g rl ->
  Linv (pre ++ fst (fst (iterate ri r e p env num l g))) (snd (fst (iterate ri r e p env num l g))) (rev (snd (iterate ri r e p env num l g)) ++ rl).
Proof.
  induction l as [|o l IH]; intros pre g rl N L; [exact L|]. cbn [iterate]. destruct (eligible ri r e o && (p || n_fill (env o))).
  - pose proof (send_Linv pre o l g rl num (env o) N L) as S. pose proof (send_reg o num g (env o)) as R. destruct (send o num g (env o)) as [[[ret o'] g'] it]. cbn [fst snd] in S, R.
    destruct (ret <? 0)%Z; [exact S|].
    specialize (IH (pre ++ [o']) g' (rev it ++ rl)). rewrite <- !app_assoc in IH. cbn [app] in IH. rewrite map_app in N, IH. cbn [map] in N, IH. rewrite (same_reg_key _ _ R) in N.
    specialize (IH N S). destruct (iterate ri r e p env num l g') as [[l' g''] it']. cbn [fst snd] in *. rewrite rev_app_distr, <- app_assoc. exact IH.
  - specialize (IH (pre ++ [o]) g rl). rewrite <- app_assoc in IH. specialize (IH N L). destruct (iterate ri r e p env num l g) as [[l' g''] it']. cbn [fst snd] in *. rewrite <- app_assoc in IH. exact IH.
Qed.

Lemma tot_app a b : tot (a ++ b) = tot a + tot b.
Proof. induction a as [|[k|k v se c|k c|k c] a IH]; cbn [app tot]; rewrite ?IH; lia. Qed.

(** Registration. *)
Lemma Linv_reg ri s l r blk e tok url ifm : Linv (s_obs s) (s_cnt s) l -> good ri s -> ep_ok e -> (is_v6 e \/ is_v4 e) ->
  Linv (filter (fun o => negb (same_data e url ifm o)) (s_obs s) ++ [new_obs s r blk e tok url ifm]) (s_cnt s) (IReg (key_of (new_obs s r blk e tok url ifm)) :: l).
Proof.
  intros (G & F & L) GD E V. set (n := new_obs s r blk e tok url ifm). split; [exact G|]. split; [|exact L]. apply Forall_app. split.
  - apply Forall_forall. intros o I. apply filter_In in I. destruct I as [I M]. rewrite Forall_forall in F. destruct (F o I) as [A B]. split; [right; exact A|]. cbn [pos].
    destruct (key_dec (key_of n) (key_of o)) as [X|X]; [|exact B]. exfalso. pose proof (gd_ok _ _ GD) as O. rewrite Forall_forall in O. pose proof (key_clash ri o n (eq_sym X) (O o I)) as C.
    unfold clash, n in C. cbn in C. rewrite C in M. discriminate.
  - constructor; [|constructor]. split; [left; reflexivity|]. cbn [pos]. destruct (key_dec (key_of n) (key_of n)) as [_|X]; [|contradiction]. exact G.
Qed.
Lemma step_Linv ri s l p : good ri s -> Linv (s_obs s) (s_cnt s) l -> op_ok ri s p ->
  Linv (s_obs (fst (step ri s p))) (s_cnt (fst (step ri s p))) (rev (snd (step ri s p)) ++ l).
Proof.
  intros G L O. destruct p as [q|e|e m|d b f|r| |r e a b c env]; cbn [step].
  - destruct O as (E & V & _ & _). unfold handle_observation. destruct (negb (r_obsv (ri (q_res q)))); [exact L|].
    assert (BT : forall s' l', Linv (s_obs s') (s_cnt s') l' -> Linv (s_obs (fst (by_token s' (q_ep q) (q_tok q)))) (s_cnt (fst (by_token s' (q_ep q) (q_tok q)))) l').
    { intros s' l' L'. destruct (by_token_sub s' (q_ep q) (q_tok q)) as (S & _ & C). rewrite C. exact (Linv_sub _ _ _ _ S L'). }
    destruct (q_obs q =? 0).
    + destruct (add_observation_obs ri s q) as (it & A & _ & B & C & D & _). destruct (add_observation ri s q) as [[s1 ok] it']. cbn in A, B, C. subst it'.
      assert (L1 : Linv (s_obs s1) (s_cnt s1) (rev it ++ l)).
      { rewrite A, B, D. destruct (q_mem q); cbn [rev app]; [apply (Linv_reg ri); assumption|]. rewrite app_nil_r. exact (Linv_sub _ _ _ _ (sub_filter _ _) L). }
      destruct ok; [exact L1|]. cbn [fst snd]. apply BT. exact L1.
    + destruct (q_obs q =? 1); [cbn; apply BT; exact L|exact L].
  - cbn [fst snd rev app]. unfold by_client. rewrite (proj1 (drop_cnt _ _ _)). exact (Linv_sub _ _ _ _ (drop_sub _ _ _) L).
  - cbn [fst snd rev app]. unfold by_mid. rewrite (proj1 (drop_cnt _ _ _)). exact (Linv_sub _ _ _ _ (drop_sub _ _ _) L).
  - unfold on_dos_change. pose proof (drop_sub (fun o => (e_dev (o_ep o) =? d) && (b || f o)) true s) as S. pose proof (drop_cnt (fun o => (e_dev (o_ep o) =? d) && (b || f o)) true s) as [C _].
    destruct (drop _ true s) as [s1 rm]. cbn in *. rewrite C. apply Linv_cancels. exact (Linv_sub _ _ _ _ S L).
  - unfold delete_resource, by_resource. destruct (s_num s r =? 0); [exact L|]. pose proof (drop_sub (match_resource ri r) true s) as S. pose proof (drop_cnt (match_resource ri r) true s) as [C _].
    destruct (drop _ true s) as [s1 rm]. cbn in *. rewrite C. apply Linv_cancels. exact (Linv_sub _ _ _ _ S L).
  - cbn [fst snd rev app]. unfold free_all. rewrite (proj1 (drop_cnt _ _ _)). exact (Linv_sub _ _ _ _ (drop_sub _ _ _) L).
  - unfold notify. destruct (negb (r_obsv (ri r)) || negb a || (s_num s r =? 0)); [exact L|]. cbv zeta.
    destruct (match e with Some _ => negb b | None => false end && negb c); [exact L|].
    pose proof (iterate_Linv ri r e (b || match e with Some _ => negb b | None => false end) env (s_num s r) (s_obs s) [] (s_cnt s) l (good_keys _ _ G) L) as H.
    destruct (iterate _ _ _ _ _ _ _ _) as [[l' g] it]. exact H.
Qed.
Lemma reach_Linv ri P s l : reach ri P s l -> Linv (s_obs s) (s_cnt s) (rev l).
Proof.
  induction 1 as [|s l p R IH O W].
  - split; [reflexivity|]. split; [constructor|exact I].
  - rewrite rev_app_distr. apply step_Linv; [exact (reach_good _ _ _ _ R)|exact IH|exact O].
Qed.

(** * Reading the log *)
Lemma log_ok_app a b : log_ok (a ++ b) -> log_ok b.
Proof. induction a as [|i a IH]; intros H; [exact H|]. cbn [app log_ok] in H. destruct i; try (exact (IH H)). exact (IH (proj2 (proj2 (proj2 H)))). Qed.
Lemma log_split ri P s a k v se c b : reach ri P s (a ++ ISeq k v se c :: b) -> v = val (pos k (rev a)) /\ In (IReg k) a /\ con_ok k v c.
Proof.
  intros R. pose proof (proj2 (proj2 (reach_Linv _ _ _ _ R))) as L. rewrite rev_app_distr in L. cbn [rev] in L. rewrite <- app_assoc in L. apply log_ok_app in L. cbn in L.
  destruct L as (A & B & C & _). split; [exact A|]. split; [apply in_rev; exact B|exact C].
Qed.
Lemma seqs_tot l : N.of_nat (seqs l) = tot (rev l).
Proof.
  induction l as [|i l IH]; [reflexivity|]. cbn [rev]. rewrite tot_app, <- IH. unfold seqs. cbn [filter]. destruct i; cbn [List.length tot]; lia.
Qed.
Lemma pos_noreg k l r : no_reg k l -> pos k (rev l ++ r) = N.of_nat (seqs_of k l) + pos k r.
Proof.
  revert r. induction l as [|i l IH]; intros r H; [reflexivity|]. cbn [rev]. rewrite <- app_assoc. cbn [app].
  assert (H' : no_reg k l) by (intros I; apply H; right; exact I). rewrite (IH _ H'). unfold seqs_of. cbn [filter].
  destruct i as [k'|k' v se c|k' c|k' c]; cbn [pos].
  - destruct (key_dec k' k) as [->|X]; [exfalso; apply H; left; reflexivity|reflexivity].
  - destruct (key_dec k' k) as [->|X]; cbn [List.length]; lia.
  - reflexivity.
  - reflexivity.
Qed.
Lemma pos_le k l : pos k l <= tot l.
Proof. induction l as [|[k'|k' v se c|k' c|k' c] l IH]; cbn [pos tot]; try destruct (key_dec k' k); lia. Qed.
(** After more entries the position grows at least by the number of its own notifications. *)
Lemma pos_grow k a b : pos k b <= pos k (a ++ b) .
Proof. induction a as [|[k'|k' v se c|k' c|k' c] a IH]; cbn [app pos]; try destruct (key_dec k' k); try lia. pose proof (pos_le k b). rewrite tot_app. lia. Qed.
Lemma pos_reg k l : exists n, pos k (IReg k :: l) = tot l + n /\ n = 0.
Proof. exists 0. cbn [pos]. destruct (key_dec k k) as [_|X]; [lia|contradiction]. Qed.

Lemma fresh_within ri P s a k v1 s1 c1 b v2 s2 c2 d :
  reach ri P s (a ++ ISeq k v1 s1 c1 :: b ++ ISeq k v2 s2 c2 :: d) -> no_reg k b -> N.of_nat (seqs_of k b) < 2 ^ 23 - 3 -> fresher v1 v2.
Proof.
  intros R H C. destruct (log_split _ _ _ _ _ _ _ _ _ R) as [A _].
  assert (R2 : reach ri P s ((a ++ ISeq k v1 s1 c1 :: b) ++ ISeq k v2 s2 c2 :: d)) by (rewrite <- app_assoc; exact R).
  destruct (log_split _ _ _ _ _ _ _ _ _ R2) as [B _]. rewrite rev_app_distr in B. cbn [rev] in B. rewrite <- app_assoc in B. rewrite (pos_noreg k b _ H) in B. cbn [app pos] in B.
  destruct (key_dec k k) as [_|X]; [|contradiction]. rewrite A, B. replace (N.of_nat (seqs_of k b) + (pos k (rev a) + 1)) with (pos k (rev a) + (1 + N.of_nat (seqs_of k b))) by lia. apply val_fresher; lia.
Qed.
Lemma fresh_across ri P s a k b v1 s1 c1 c v2 s2 c2 d :
  reach ri P s (a ++ IReg k :: b ++ ISeq k v1 s1 c1 :: c ++ ISeq k v2 s2 c2 :: d) -> no_reg k b -> N.of_nat (seqs (b ++ c)) < 2 ^ 23 - 3 -> fresher v1 v2.
Proof.
  intros R H C.
  assert (R1 : reach ri P s ((a ++ IReg k :: b) ++ ISeq k v1 s1 c1 :: c ++ ISeq k v2 s2 c2 :: d)) by (rewrite <- app_assoc; exact R).
  destruct (log_split _ _ _ _ _ _ _ _ _ R1) as [A _].
  assert (R2 : reach ri P s ((a ++ IReg k :: b ++ ISeq k v1 s1 c1 :: c) ++ ISeq k v2 s2 c2 :: d)).
  { repeat (rewrite <- app_assoc || cbn [app]). exact R. }
  destruct (log_split _ _ _ _ _ _ _ _ _ R2) as [B _].
  rewrite rev_app_distr in A. cbn [rev] in A. rewrite <- app_assoc in A. rewrite (pos_noreg k b _ H) in A. cbn [app pos] in A. destruct (key_dec k k) as [_|X]; [|contradiction].
  assert (E : rev (a ++ IReg k :: b ++ ISeq k v1 s1 c1 :: c) = rev c ++ ISeq k v1 s1 c1 :: rev b ++ IReg k :: rev a).
  { rewrite rev_app_distr. cbn [rev]. rewrite rev_app_distr. cbn [rev]. rewrite <- !app_assoc. cbn [app]. reflexivity. }
  rewrite E in B. set (T := tot (rev a)) in *.
  assert (P1 : pos k (ISeq k v1 s1 c1 :: rev b ++ IReg k :: rev a) = N.of_nat (seqs_of k b) + T + 1).
  { cbn [pos]. destruct (key_dec k k) as [_|X]; [|contradiction]. rewrite (pos_noreg k b _ H). cbn [pos]. destruct (key_dec k k) as [_|X]; [|contradiction]. reflexivity. }
  pose proof (pos_grow k (rev c) (ISeq k v1 s1 c1 :: rev b ++ IReg k :: rev a)) as G. rewrite P1 in G.
  pose proof (pos_le k (rev c ++ ISeq k v1 s1 c1 :: rev b ++ IReg k :: rev a)) as U. rewrite tot_app in U. cbn [tot] in U. rewrite tot_app in U. cbn [tot] in U. fold T in U.
  assert (Q : N.of_nat (seqs (b ++ c)) = tot (rev b) + tot (rev c)).
  { rewrite seqs_tot, rev_app_distr, tot_app. lia. }
  rewrite A, B. set (p2 := pos k (rev c ++ ISeq k v1 s1 c1 :: rev b ++ IReg k :: rev a)) in *.
  replace p2 with (N.of_nat (seqs_of k b) + T + (p2 - (N.of_nat (seqs_of k b) + T))) by lia. apply val_fresher; lia.
Qed.
