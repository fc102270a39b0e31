From Verif Require Import Common Ep_Model Ep_Spec Ep_Proofs Obs_Model Obs_Spec.
Local Open Scope N_scope.

(** * Removal *)
Lemma remove_all f : forall l num, fst (fst (remove_by f true l num)) = filter (fun o => negb (f o)) l /\ snd (remove_by f true l num) = filter f l.
Proof.
  induction l as [|o l IH]; intros num; [split; reflexivity|]. cbn [remove_by filter]. destruct (f o); cbn [negb].
  - specialize (IH (dec_num num (o_res o))). destruct (remove_by f true l (dec_num num (o_res o))) as [[l' n'] rm]. cbn in *. destruct IH as [-> ->]. split; reflexivity.
  - specialize (IH num). destruct (remove_by f true l num) as [[l' n'] rm]. cbn in *. destruct IH as [-> ->]. split; reflexivity.
Qed.
(** Removal of the first match. *)
Lemma remove_first f : forall l num,
  (filter f l = [] /\ fst (fst (remove_by f false l num)) = l /\ snd (remove_by f false l num) = []) \/
  exists a o b, l = a ++ o :: b /\ filter f a = [] /\ f o = true /\ fst (fst (remove_by f false l num)) = a ++ b /\ snd (remove_by f false l num) = [o].
Proof.
  induction l as [|o l IH]; intros num; [left; repeat split; reflexivity|]. cbn [remove_by filter]. destruct (f o) eqn:E.
  - right. exists [], o, l. repeat split; auto.
  - specialize (IH num). destruct (remove_by f false l num) as [[l' n'] rm]. cbn in *. destruct IH as [(A & -> & ->)|(a & p & b & -> & A & B & -> & ->)].
    + left. auto.
    + right. exists (o :: a), p, b. cbn [filter app]. rewrite E. auto.
Qed.

Definition good_num (l : list obs) (num : nat -> N) : Prop := forall r, num r = N.of_nat (count r l) mod 256.
Lemma count_app r a b : count r (a ++ b) = (count r a + count r b)%nat.
Proof. unfold count. rewrite filter_app, app_length. reflexivity. Qed.
Lemma count_cons r o l : count r (o :: l) = ((if (o_res o =? r)%nat then 1 else 0) + count r l)%nat.
Proof. unfold count. cbn [filter]. destruct (o_res o =? r)%nat; reflexivity. Qed.
Lemma dec_good o l num : good_num (o :: l) num -> good_num l (dec_num num (o_res o)).
Proof.
  intros G r. specialize (G r). unfold dec_num. rewrite count_cons in G. rewrite (Nat.eqb_sym r). destruct (o_res o =? r)%nat; rewrite G; lia.
Qed.
Lemma good_perm a b num : (forall r, count r a = count r b) -> good_num a num -> good_num b num.
Proof. intros H G r. rewrite (G r), H. reflexivity. Qed.
Lemma remove_num f all : forall l pre num, good_num (pre ++ l) num ->
  good_num (pre ++ fst (fst (remove_by f all l num))) (snd (fst (remove_by f all l num))).
Proof.
  induction l as [|o l IH]; intros pre num G; [exact G|]. cbn [remove_by].
  assert (M : good_num (o :: pre ++ l) num).
  { apply (good_perm (pre ++ o :: l)); [|exact G]. intros r. rewrite !count_cons, !count_app, count_cons. lia. }
  destruct (f o).
  - apply dec_good in M. destruct all; [|exact M]. specialize (IH pre _ M). destruct (remove_by f true l _) as [[l' n'] rm]. exact IH.
  - assert (G' : good_num ((pre ++ [o]) ++ l) num) by (rewrite <- app_assoc; exact G).
    specialize (IH (pre ++ [o]) num G'). destruct (remove_by f all l num) as [[l' n'] rm]. cbn in *. rewrite <- app_assoc in IH. exact IH.
Qed.
Lemma remove_sub f all : forall l num o, In o (fst (fst (remove_by f all l num))) -> In o l.
Proof.
  induction l as [|x l IH]; intros num o H; [exact H|]. cbn [remove_by] in H. destruct (f x).
  - destruct all; [|right; exact H]. specialize (IH (dec_num num (o_res x)) o). destruct (remove_by f true l _) as [[l' n'] rm]. right. auto.
  - specialize (IH num o). destruct (remove_by f all l num) as [[l' n'] rm]. cbn in *. destruct H as [H|H]; [left; exact H|right; auto].
Qed.

(** Sublists keep the properties of pairs. *)
Inductive sub {A} : list A -> list A -> Prop :=
| sub_nil : sub [] []
| sub_keep x a b : sub a b -> sub (x :: a) (x :: b)
| sub_drop x a b : sub a b -> sub a (x :: b).
Lemma sub_refl {A} (l : list A) : sub l l. Proof. induction l; constructor; assumption. Qed.
Lemma sub_in {A} (a b : list A) x : sub a b -> In x a -> In x b.
Proof. intros S. induction S as [|y a b S IH|y a b S IH]; [auto| |]; intros H; [destruct H as [->|H]; [left; reflexivity|right; auto]|right; auto]. Qed.
Lemma sub_forall {A} (P : A -> Prop) a b : sub a b -> Forall P b -> Forall P a.
Proof. intros S F. apply Forall_forall. intros x H. rewrite Forall_forall in F. apply F. exact (sub_in _ _ _ S H). Qed.
Lemma sub_pairs {A} (R : A -> A -> Prop) a b : sub a b -> ForallOrdPairs R b -> ForallOrdPairs R a.
Proof.
  intros S. induction S as [|y a b S IH|y a b S IH]; intros F; [constructor| |].
  - inversion F; subst. constructor; [exact (sub_forall _ _ _ S H1)|auto].
  - inversion F; subst. auto.
Qed.
Lemma sub_filter {A} (f : A -> bool) l : sub (filter f l) l.
Proof. induction l as [|x l IH]; [constructor|]. cbn [filter]. destruct (f x); constructor; assumption. Qed.
Lemma remove_sublist f all l num : sub (fst (fst (remove_by f all l num))) l.
Proof.
  revert num. induction l as [|x l IH]; intros num; [constructor|]. cbn [remove_by]. destruct (f x).
  - destruct all; [|constructor; apply sub_refl]. specialize (IH (dec_num num (o_res x))). destruct (remove_by f true l _) as [[l' n'] rm]. constructor. exact IH.
  - specialize (IH num). destruct (remove_by f all l num) as [[l' n'] rm]. cbn in *. constructor. exact IH.
Qed.
Lemma sub_map {A B} (f : A -> B) a b : sub a b -> sub (map f a) (map f b).
Proof. induction 1; cbn [map]; constructor; assumption. Qed.
Lemma sub_nodup {A} (a b : list A) : sub a b -> NoDup b -> NoDup a.
Proof.
  intros S. induction S as [|y a b S IH|y a b S IH]; intros N; [constructor| |]; inversion N; subst; [|auto].
  constructor; [|auto]. intros X. exact (H1 (sub_in _ _ _ S X)).
Qed.

(** * The invariant *)
Definition obs_ok (ri : nat -> rinfo) (o : obs) : Prop :=
  ep_ok (o_ep o) /\ (is_v6 (o_ep o) \/ is_v4 (o_ep o)) /\ strip (r_uri (ri (o_res o))) = strip (o_url o).
Definition clash (a b : obs) : bool := same_data (o_ep b) (o_url b) (o_if b) a.
Record good (ri : nat -> rinfo) (s : st) : Prop := mk_good {
  gd_pairs : ForallOrdPairs (fun a b => clash a b = false) (s_obs s);
  gd_num : good_num (s_obs s) (s_num s);
  gd_ok : Forall (obs_ok ri) (s_obs s) }.

Lemma clash_spec a b : ep_ok (o_ep a) -> ep_ok (o_ep b) -> (clash a b = true <-> same_relation a b).
Proof.
  intros A B. unfold clash, same_data, same_relation. rewrite !andb_true_iff, list_eqb_spec, N.eqb_eq, compare_spec by assumption. tauto.
Qed.
Lemma clash_sym a b : clash a b = clash b a.
Proof. unfold clash, same_data. rewrite compare_sym, list_eqb_sym, N.eqb_sym. reflexivity. Qed.

Lemma drop_good ri f all s : good ri s -> good ri (fst (drop f all s)).
Proof.
  intros [P N O]. unfold drop. pose proof (remove_num f all (s_obs s) [] (s_num s) N) as RN. pose proof (remove_sublist f all (s_obs s) (s_num s)) as S.
  destruct (remove_by f all (s_obs s) (s_num s)) as [[l n] rm]. cbn in *. constructor; cbn; [exact (sub_pairs _ _ _ S P)|exact RN|exact (sub_forall _ _ _ S O)].
Qed.
Lemma drop_all_obs f s : s_obs (fst (drop f true s)) = filter (fun o => negb (f o)) (s_obs s).
Proof. unfold drop. pose proof (remove_all f (s_obs s) (s_num s)) as [H _]. destruct (remove_by f true (s_obs s) (s_num s)) as [[l n] rm]. exact H. Qed.
Lemma drop_all_removed f s : snd (drop f true s) = filter f (s_obs s).
Proof. unfold drop. pose proof (remove_all f (s_obs s) (s_num s)) as [_ H]. destruct (remove_by f true (s_obs s) (s_num s)) as [[l n] rm]. exact H. Qed.
Lemma drop_cnt f all s : s_cnt (fst (drop f all s)) = s_cnt s /\ s_live (fst (drop f all s)) = s_live s.
Proof. unfold drop. destruct (remove_by f all (s_obs s) (s_num s)) as [[l n] rm]. split; reflexivity. Qed.
Lemma drop_sub f all s : sub (s_obs (fst (drop f all s))) (s_obs s).
Proof. unfold drop. pose proof (remove_sublist f all (s_obs s) (s_num s)) as S. destruct (remove_by f all (s_obs s) (s_num s)) as [[l n] rm]. exact S. Qed.

Lemma pairs_snoc {A} (R : A -> A -> Prop) l x : ForallOrdPairs R l -> Forall (fun a => R a x) l -> ForallOrdPairs R (l ++ [x]).
Proof.
  intros P F. induction P as [|a l H P IH]; [repeat constructor|]. inversion F; subst. cbn [app]. constructor; [|auto].
  apply Forall_app. split; [assumption|]. constructor; [assumption|constructor].
Qed.
Lemma inc_good l num r x : good_num l num -> o_res x = r -> good_num (l ++ [x]) (inc_num num r).
Proof. intros G E q. specialize (G q). unfold inc_num. rewrite count_app, count_cons, E, (Nat.eqb_sym q). unfold count at 2. cbn [filter List.length]. destruct (r =? q)%nat; rewrite G; lia. Qed.

Definition new_obs (s : st) (r : nat) (blk : N) (e : ep) (tok url : list N) (ifm : N) : obs := mk_obs r url e tok 0 blk (s_cnt s) ifm.
Lemma add_obs s r blk e tok url ifm ok :
  s_obs (fst (add_observer s r blk e tok url ifm ok)) =
    filter (fun o => negb (same_data e url ifm o)) (s_obs s) ++ (if ok then [new_obs s r blk e tok url ifm] else []) /\
  snd (add_observer s r blk e tok url ifm ok) = ok /\ s_cnt (fst (add_observer s r blk e tok url ifm ok)) = s_cnt s /\
  s_live (fst (add_observer s r blk e tok url ifm ok)) = s_live s.
Proof.
  unfold add_observer. pose proof (drop_all_obs (same_data e url ifm) s) as D. pose proof (drop_cnt (same_data e url ifm) true s) as [C L].
  destruct (drop (same_data e url ifm) true s) as [s1 rm]. cbn in D, C, L. destruct ok; cbn.
  - rewrite D, C. repeat split; auto.
  - rewrite D, app_nil_r. repeat split; auto.
Qed.
Lemma add_good ri s r blk e tok url ifm ok : good ri s -> ep_ok e -> (is_v6 e \/ is_v4 e) -> strip (r_uri (ri r)) = strip url ->
  good ri (fst (add_observer s r blk e tok url ifm ok)).
Proof.
  intros G E V U. pose proof (drop_good ri (same_data e url ifm) true s G) as GD.
  pose proof (drop_all_obs (same_data e url ifm) s) as D. unfold add_observer.
  destruct (drop (same_data e url ifm) true s) as [s1 rm]. cbn in GD, D. destruct ok; [|exact GD]. destruct GD as [P N O]. constructor; cbn.
  - apply pairs_snoc; [exact P|]. rewrite D. apply Forall_forall. intros o I. apply filter_In in I. destruct I as [_ I]. unfold clash. cbn. apply negb_true_iff. exact I.
  - apply inc_good; [exact N|reflexivity].
  - apply Forall_app. split; [exact O|]. constructor; [|constructor]. exact (conj E (conj V U)).
Qed.
Lemma by_token_good ri s e tok : good ri s -> good ri (fst (by_token s e tok)).
Proof. intros G. unfold by_token. pose proof (drop_good ri (fun o => ep_compare (o_ep o) e && list_eqb (o_tok o) tok) false s G) as D. destruct (drop _ false s) as [s1 rm]. exact D. Qed.
Lemma add_observation_good ri s q : good ri s -> ep_ok (q_ep q) -> (is_v6 (q_ep q) \/ is_v4 (q_ep q)) -> strip (r_uri (ri (q_res q))) = strip (q_url q) ->
  good ri (fst (fst (add_observation ri s q))).
Proof.
  intros G E V U. unfold add_observation. pose proof (add_good ri s (q_res q) (q_blk q) (q_ep q) (q_tok q) (q_url q) (q_if q) (q_mem q) G E V U) as A.
  destruct (add_observer _ _ _ _ _ _ _ _) as [s1 ok]. cbn in A. destruct (ok && r_per (ri (q_res q)) && negb (q_per q)); [exact A|]. destruct (r_coll (ri (q_res q)) && negb (q_coll q)); exact A.
Qed.
Lemma handle_good ri s q : good ri s -> op_ok ri s (Request q) -> good ri (fst (fst (handle_observation ri s q))).
Proof.
  intros G (E & V & _ & U). unfold handle_observation. destruct (negb (r_obsv (ri (q_res q)))); [exact G|].
  destruct (q_obs q =? 0).
  - pose proof (add_observation_good ri s q G E V U) as A. destruct (add_observation ri s q) as [[s1 ok] it]. cbn in A. destruct ok; [exact A|]. apply by_token_good. exact A.
  - destruct (q_obs q =? 1); [apply by_token_good; exact G|exact G].
Qed.

(** A notification changes only the counters and message ids. *)
Definition same_reg (a b : obs) : Prop := o_res a = o_res b /\ o_url a = o_url b /\ o_ep a = o_ep b /\ o_tok a = o_tok b /\ o_blk a = o_blk b /\ o_if a = o_if b.
Lemma same_reg_refl a : same_reg a a. Proof. repeat split. Qed.
Lemma send_reg o num g v : same_reg o (snd (fst (fst (send o num g v)))).
Proof.
  unfold send. destruct (n_sep v); [apply same_reg_refl|]. destruct (negb (n_buf v)); [apply same_reg_refl|]. cbv zeta.
  destruct (negb (o_if o =? IF_STARTUP_REVERT) && (n_len v =? 0)); [apply same_reg_refl|].
  destruct (if o_if o =? IF_STARTUP_REVERT then (1%Z, false) else prepare o v) as [ret con]. destruct (ret <=? 0)%Z; [apply same_reg_refl|].
  destruct ((_ <? 128) && negb (num =? 0)), (n_mid v); repeat split.
Qed.
Lemma iterate_reg ri r e pre env num : forall l g, Forall2 same_reg l (fst (fst (iterate ri r e pre env num l g))).
Proof.
  induction l as [|o l IH]; intros g; [constructor|]. cbn [iterate]. destruct (eligible ri r e o && (pre || n_fill (env o))).
  - pose proof (send_reg o num g (env o)) as S. destruct (send o num g (env o)) as [[[ret o'] g'] it]. cbn in S. destruct (ret <? 0)%Z.
    + cbn. constructor; [exact S|]. clear. induction l; constructor; [apply same_reg_refl|assumption].
    + specialize (IH g'). destruct (iterate ri r e pre env num l g') as [[l' g''] it']. cbn in *. constructor; assumption.
  - specialize (IH g). destruct (iterate ri r e pre env num l g) as [[l' g''] it']. cbn in *. constructor; [apply same_reg_refl|assumption].
Qed.
Lemma same_reg_clash a b a' b' : same_reg a a' -> same_reg b b' -> clash a b = clash a' b'.
Proof. intros (A1 & A2 & A3 & A4 & A5 & A6) (B1 & B2 & B3 & B4 & B5 & B6). unfold clash, same_data. rewrite A2, A3, A6, B2, B3, B6. reflexivity. Qed.
Lemma same_reg_key a b : same_reg a b -> key_of a = key_of b.
Proof. intros (_ & A2 & A3 & _ & _ & A6). unfold key_of. rewrite A2, A3, A6. reflexivity. Qed.
Lemma reg_good ri s l g : Forall2 same_reg (s_obs s) l -> good ri s -> good ri (mk_st l (s_num s) g (s_live s)).
Proof.
  intros F [P N O]. constructor; cbn.
  - clear N O. revert P. induction F as [|a b la lb S F IH]; intros P; [constructor|]. inversion P; subst. constructor; [|auto].
    clear IH P. revert H1. induction F as [|a' b' la lb S' F IH]; intros H; [constructor|]. inversion H; subst. constructor; [rewrite <- (same_reg_clash _ _ _ _ S S'); assumption|].
    inversion H2; subst. auto.
  - apply (good_perm (s_obs s)); [|exact N]. intros r. clear P N O. induction F as [|a b la lb S F IH]; [reflexivity|]. rewrite !count_cons, IH. destruct S as [-> _]. reflexivity.
  - clear P N. revert O. induction F as [|a b la lb S F IH]; intros O; [constructor|]. inversion O; subst. constructor; [|auto].
    destruct S as (S1 & S2 & S3 & _). unfold obs_ok in *. rewrite <- S1, <- S2, <- S3. assumption.
Qed.
Lemma step_good ri s p : good ri s -> op_ok ri s p -> good ri (fst (step ri s p)).
Proof.
  intros G O. destruct p as [q|e|e m|d b f|r| |r e a b c env]; cbn [step].
  - pose proof (handle_good ri s q G O) as H. destruct (handle_observation ri s q) as [[s1 ob] it]. exact H.
  - apply drop_good. exact G.
  - apply drop_good. exact G.
  - unfold on_dos_change. pose proof (drop_good ri (fun o => (e_dev (o_ep o) =? d) && (b || f o)) true s G) as H. destruct (drop _ true s) as [s1 rm]. exact H.
  - unfold delete_resource, by_resource. destruct (s_num s r =? 0).
    + destruct G as [P N K]. constructor; assumption.
    + pose proof (drop_good ri (match_resource ri r) true s G) as H. destruct (drop _ true s) as [s1 rm]. destruct H as [P N K]. constructor; assumption.
  - apply drop_good. exact G.
  - unfold notify. destruct (negb (r_obsv (ri r)) || negb a || (s_num s r =? 0)); [exact G|]. cbv zeta.
    destruct (match e with Some _ => negb b | None => false end && negb c); [exact G|].
    pose proof (iterate_reg ri r e (b || match e with Some _ => negb b | None => false end) env (s_num s r) (s_obs s) (s_cnt s)) as F.
    destruct (iterate _ _ _ _ _ _ _ _) as [[l g] it]. cbn in F |- *. apply reg_good; assumption.
Qed.
Lemma init_good ri : good ri init.
Proof. constructor; cbn; [constructor|intros r; reflexivity|constructor]. Qed.
Lemma reach_good ri P s l : reach ri P s l -> good ri s.
Proof. induction 1; [apply init_good|apply step_good; assumption]. Qed.

(** * No registration for a resource that is gone *)
Definition live_ok (s : st) : Prop := Forall (fun o => s_live s (o_res o) = true) (s_obs s).
Lemma drop_live f all s : live_ok s -> live_ok (fst (drop f all s)).
Proof. unfold live_ok. rewrite (proj2 (drop_cnt f all s)). apply sub_forall, drop_sub. Qed.
Lemma by_token_sub s e tok : sub (s_obs (fst (by_token s e tok))) (s_obs s) /\ s_live (fst (by_token s e tok)) = s_live s /\ s_cnt (fst (by_token s e tok)) = s_cnt s.
Proof.
  unfold by_token. pose proof (drop_sub (fun o => ep_compare (o_ep o) e && list_eqb (o_tok o) tok) false s) as S.
  pose proof (drop_cnt (fun o => ep_compare (o_ep o) e && list_eqb (o_tok o) tok) false s) as [C L]. destruct (drop _ false s) as [s1 rm]. cbn in *. auto.
Qed.
Lemma add_observation_obs ri s q : exists it,
  s_obs (fst (fst (add_observation ri s q))) =
    filter (fun o => negb (same_data (q_ep q) (q_url q) (q_if q) o)) (s_obs s) ++ (if q_mem q then [new_obs s (q_res q) (q_blk q) (q_ep q) (q_tok q) (q_url q) (q_if q)] else []) /\
  s_live (fst (fst (add_observation ri s q))) = s_live s /\ s_cnt (fst (fst (add_observation ri s q))) = s_cnt s /\
  snd (add_observation ri s q) = it /\ it = (if q_mem q then [IReg (key_of (new_obs s (q_res q) (q_blk q) (q_ep q) (q_tok q) (q_url q) (q_if q)))] else []) /\
  snd (fst (add_observation ri s q)) = negb (q_mem q && r_per (ri (q_res q)) && negb (q_per q)) && negb (r_coll (ri (q_res q)) && negb (q_coll q)).
Proof.
  unfold add_observation. destruct (add_obs s (q_res q) (q_blk q) (q_ep q) (q_tok q) (q_url q) (q_if q) (q_mem q)) as (A & B & C & D).
  destruct (add_observer _ _ _ _ _ _ _ _) as [s1 ok]. cbn in A, B, C, D. subst ok.
  eexists. cbv zeta.
  assert (I : (if q_mem q then match rev (s_obs s1) with o :: _ => [IReg (key_of o)] | [] => [] end else []) = (if q_mem q then [IReg (key_of (new_obs s (q_res q) (q_blk q) (q_ep q) (q_tok q) (q_url q) (q_if q)))] else [])).
  { destruct (q_mem q); [|reflexivity]. rewrite A, rev_app_distr. reflexivity. }
  rewrite I. destruct (q_mem q && r_per (ri (q_res q)) && negb (q_per q)); [cbn; repeat split; auto|].
  destruct (r_coll (ri (q_res q)) && negb (q_coll q)); cbn; repeat split; auto.
Qed.
Lemma handle_live ri s q : live_ok s -> s_live s (q_res q) = true -> live_ok (fst (fst (handle_observation ri s q))).
Proof.
  intros L Q. unfold handle_observation. destruct (negb (r_obsv (ri (q_res q)))); [exact L|].
  assert (BT : forall s', live_ok s' -> live_ok (fst (by_token s' (q_ep q) (q_tok q)))).
  { intros s' L'. destruct (by_token_sub s' (q_ep q) (q_tok q)) as (S & E & _). unfold live_ok. rewrite E. exact (sub_forall _ _ _ S L'). }
  destruct (q_obs q =? 0).
  - destruct (add_observation_obs ri s q) as (it & A & B & _ & _ & _ & _). destruct (add_observation ri s q) as [[s1 ok] it']. cbn in A, B.
    assert (L1 : live_ok s1).
    { unfold live_ok. rewrite A, B. apply Forall_app. split; [exact (sub_forall _ _ _ (sub_filter _ _) L)|]. destruct (q_mem q); [|constructor]. constructor; [exact Q|constructor]. }
    destruct ok; [exact L1|]. apply BT. exact L1.
  - destruct (q_obs q =? 1); [apply BT; exact L|exact L].
Qed.
Lemma count_zero r l : count r l = 0%nat -> Forall (fun o => o_res o <> r) l.
Proof.
  intros H. apply Forall_forall. intros o I E. unfold count in H. apply length_zero_iff_nil in H.
  assert (X : In o (filter (fun o => (o_res o =? r)%nat) l)) by (apply filter_In; split; [exact I|apply Nat.eqb_eq; exact E]). rewrite H in X. exact X.
Qed.
Lemma delete_spec ri s r : good ri s -> (count r (s_obs s) < 256)%nat ->
  s_obs (fst (delete_resource ri s r)) = filter (fun o => negb (o_res o =? r)%nat) (s_obs s) /\
  snd (delete_resource ri s r) = map (fun o => ICancel (key_of o) 132) (filter (fun o => (o_res o =? r)%nat) (s_obs s)).
Proof.
  intros G C. unfold delete_resource, by_resource.
  assert (M : forall o, In o (s_obs s) -> match_resource ri r o = (o_res o =? r)%nat).
  { intros o I. unfold match_resource. destruct (o_res o =? r)%nat eqn:E; [|reflexivity]. apply Nat.eqb_eq in E. cbn [andb]. apply list_eqb_spec.
    pose proof (gd_ok _ _ G) as O. rewrite Forall_forall in O. destruct (O o I) as (_ & _ & U). rewrite E in U. exact U. }
  assert (FM : forall l, (forall o, In o l -> In o (s_obs s)) -> filter (match_resource ri r) l = filter (fun o => (o_res o =? r)%nat) l /\ filter (fun o => negb (match_resource ri r o)) l = filter (fun o => negb (o_res o =? r)%nat) l).
  { induction l as [|x l IH]; intros H; [split; reflexivity|]. cbn [filter]. rewrite (M x (H x (or_introl eq_refl))). destruct (IH (fun o I => H o (or_intror I))) as [-> ->]. split; reflexivity. }
  destruct (s_num s r =? 0) eqn:Z.
  - apply N.eqb_eq in Z. rewrite (gd_num _ _ G r) in Z. assert (CZ : count r (s_obs s) = 0%nat) by lia. cbn. apply count_zero in CZ.
    assert (E : forall l, Forall (fun o => o_res o <> r) l -> filter (fun o => (o_res o =? r)%nat) l = [] /\ filter (fun o => negb (o_res o =? r)%nat) l = l).
    { induction 1 as [|x l H F IH]; [split; reflexivity|]. cbn [filter]. apply Nat.eqb_neq in H. rewrite H. cbn [negb]. destruct IH as [-> ->]. split; reflexivity. }
    destruct (E _ CZ) as [-> ->]. split; reflexivity.
  - pose proof (drop_all_obs (match_resource ri r) s) as A. pose proof (drop_all_removed (match_resource ri r) s) as B. destruct (drop _ true s) as [s1 rm]. cbn in *.
    destruct (FM (s_obs s) (fun o I => I)) as [F1 F2]. rewrite A, B, F1, F2. split; reflexivity.
Qed.
Lemma step_live ri s p : good ri s -> live_ok s -> op_ok ri s p -> few s p -> live_ok (fst (step ri s p)).
Proof.
  intros G L O W. destruct p as [q|e|e m|d b f|r| |r e a b c env]; cbn [step].
  - pose proof (handle_live ri s q L (proj1 (proj2 (proj2 O)))) as H. destruct (handle_observation ri s q) as [[s1 ob] it]. exact H.
  - apply drop_live. exact L.
  - apply drop_live. exact L.
  - unfold on_dos_change. pose proof (drop_live (fun o => (e_dev (o_ep o) =? d) && (b || f o)) true s L) as H. destruct (drop _ true s) as [s1 rm]. exact H.
  - destruct (delete_spec ri s r G W) as [D _].
    assert (LV : s_live (fst (delete_resource ri s r)) = fun x => if (x =? r)%nat then false else s_live s x).
    { unfold delete_resource, by_resource. destruct (s_num s r =? 0); [reflexivity|]. pose proof (drop_cnt (match_resource ri r) true s) as [_ E]. destruct (drop _ true s) as [s1 rm]. cbn in *. rewrite E. reflexivity. }
    unfold live_ok. rewrite D, LV. apply Forall_forall. intros o I. apply filter_In in I. destruct I as [I N]. apply negb_true_iff in N. rewrite N.
    unfold live_ok in L. rewrite Forall_forall in L. auto.
  - apply drop_live. exact L.
  - unfold notify. destruct (negb (r_obsv (ri r)) || negb a || (s_num s r =? 0)); [exact L|]. cbv zeta.
    destruct (match e with Some _ => negb b | None => false end && negb c); [exact L|].
    pose proof (iterate_reg ri r e (b || match e with Some _ => negb b | None => false end) env (s_num s r) (s_obs s) (s_cnt s)) as F.
    destruct (iterate _ _ _ _ _ _ _ _) as [[l g] it]. cbn in F |- *. unfold live_ok in *. cbn. clear - F L. revert L. induction F as [|x y lx ly S F IH]; intros L; [constructor|]. inversion L; subst. constructor; [|auto]. destruct S as [<- _]. assumption.
Qed.
Lemma reach_live ri s l : reach ri few s l -> live_ok s.
Proof. induction 1 as [|s l p R IH O W]; [constructor|]. apply step_live; try assumption. exact (reach_good _ _ _ _ R). Qed.
