From Verif Require Import Common Cli_Model Cli_Spec Cli_Proofs Cli2_Proofs.
From Coq Require Import Lia.
Local Open Scope N_scope.

Section Build.
Variables oscore tcp : bool.
Notation B := (fun _ : N => oscore = true).

Lemma alloc_lookup s q : inv B s -> lookup (alloc q s) (s_next s) = Some (new_cb (s_next s) q).
Proof. intros H. rewrite lookup_alloc by (intros c; apply (i_next _ s H)). rewrite N.eqb_refl. reflexivity. Qed.
Lemma alloc_life_but s q : inv B s -> life s -> life_but (s_next s) (alloc q s).
Proof.
  intros H Hl i c Hn Hc. rewrite lookup_alloc in Hc by (intros d; apply (i_next _ s H)).
  destruct (N.eqb_spec i (s_next s)); [contradiction|]. exact (Hl i c Hc).
Qed.
Lemma alloc_undo s q : inv B s -> ask_ok q = true -> life s -> inv B (remove (s_next s) (alloc q s)) /\ life (remove (s_next s) (alloc q s)).
Proof.
  intros H Hq Hl. destruct (fresh_not B s H) as [Hp [Hr Hg]]. split.
  - apply inv_remove; [apply inv_alloc; assumption|exact Hp|exact Hr|exact Hg].
  - apply life_remove, alloc_life_but; assumption.
Qed.

Lemma request_inv s q r : inv B s -> life s -> s_pend s = None -> ask_ok q = true -> inv B (request q r s) /\ life (request q r s).
Proof.
  intros H Hl Hp Hq. pose proof (alloc_undo s q H Hq Hl) as [Hu1 Hu2]. pose proof (alloc_lookup s q H) as Hc.
  pose proof (inv_alloc B s q H Hq) as Ha. pose proof (alloc_life_but s q H Hl) as Hb.
  assert (Hs : forall k, q_kind q = k -> k <> KPing ->
    inv B (arm (s_next s) (if kind_eqb k KObserve then REGISTER else NOT_SET) (q_timeout q) (set_pend (alloc q s) None)) /\
    life (arm (s_next s) (if kind_eqb k KObserve then REGISTER else NOT_SET) (q_timeout q) (set_pend (alloc q s) None))).
  { intros k Hk Hn. assert (Ha' : inv B (set_pend (alloc q s) None)) by (apply inv_set_pend; [exact Ha|discriminate]).
    unfold arm. destruct (kind_eqb k KObserve) eqn:Ho.
    - change (REGISTER =? NOT_SET)%Z with false. cbv iota.
      assert (Hl' : life (set_pend (alloc q s) None)).
      { intros i c Hi Hki Hpi. destruct (N.eq_dec i (s_next s)) as [->|Hne].
        - change (lookup (alloc q s) (s_next s) = Some c) in Hi. rewrite Hc in Hi. injection Hi as <-. cbn [new_cb c_kind] in Hki. rewrite Hk in Hki. destruct k; discriminate.
        - apply (Hb i c Hne Hi Hki). cbn [alloc s_pend]. congruence. }
      destruct (q_timeout q); [|exact (conj Ha' Hl')]. split; [|apply life_add_timer, Hl'].
      apply inv_add_timer; [exact Ha'|]. eexists. split; [exact Hc|discriminate].
    - change (NOT_SET =? NOT_SET)%Z with true. cbv iota.
      assert (Hi' : inv B (add_timer (s_next s) TLife (set_pend (alloc q s) None))).
      { apply inv_add_timer; [exact Ha'|]. eexists. split; [exact Hc|discriminate]. }
      assert (Hl' : life (add_timer (s_next s) TLife (set_pend (alloc q s) None))).
      { apply life_add_life. intros i c Hne Hi Hki Hpi. apply (Hb i c Hne Hi Hki). cbn [alloc s_pend]. congruence. }
      destruct (q_timeout q); [|exact (conj Hi' Hl')]. split; [|apply life_add_timer, Hl'].
      apply inv_add_timer; [exact Hi'|]. eexists. split; [exact Hc|discriminate]. }
  assert (Hnd : inv B (set_pend (remove (s_next s) (alloc q s)) None) /\ life (set_pend (remove (s_next s) (alloc q s)) None)).
  { split; [apply inv_set_pend; [exact Hu1|discriminate]|]. intros i c Hi Hk _. apply (Hu2 i c Hi Hk). cbn [remove alloc s_pend]. congruence. }
  unfold request. destruct (q_kind q) eqn:Hk, r;
    try exact (conj Hu1 Hu2); try exact Hnd;
    try (apply (Hs _ eq_refl); discriminate).
  split.
  - apply inv_add_timer; [exact Ha|]. eexists. split; [exact Hc|]. intros _. exact Hk.
  - intros i c Hi Hki Hpi. right. destruct (N.eq_dec i (s_next s)) as [->|Hne].
    + change (lookup (alloc q s) (s_next s) = Some c) in Hi. rewrite Hc in Hi. injection Hi as <-. cbn [new_cb c_kind] in Hki. rewrite Hk in Hki. discriminate.
    + exact (Hb i c Hne Hi Hki Hpi).
Qed.

Lemma init_inv s q ok : inv B s -> life s -> s_pend s = None -> q_kind q = KOne -> inv B (init_request q ok s) /\ life (init_request q ok s).
Proof.
  intros H Hl Hp Hk. assert (Hq : ask_ok q = true) by (unfold ask_ok; rewrite Hk; reflexivity).
  unfold init_request. destruct ok; [|exact (alloc_undo s q H Hq Hl)].
  pose proof (alloc_lookup s q H) as Hc. split.
  - apply inv_set_pend; [apply inv_alloc; assumption|]. intros i [= <-]. eexists. split; [exact Hc|]. cbn [new_cb c_kind c_obs c_busy]. rewrite Hk. auto.
  - intros i c Hi Hki Hpi. cbn [set_pend s_pend] in Hpi. assert (Hne : i <> s_next s) by congruence.
    apply (alloc_life_but s q H Hl i c Hne Hi Hki). cbn [alloc s_pend]. congruence.
Qed.

Lemma do_inv s tm ok s' : inv B s -> life s -> do_request tm ok s = Some s' -> inv B s' /\ life s'.
Proof.
  intros H Hl. unfold do_request. destruct (s_pend s) as [i|] eqn:Hp.
  2:{ destruct tm; [|discriminate]. intros [= <-]. exact (conj H Hl). }
  change (find (is_id i) (s_cbs s)) with (lookup s i).
  destruct (i_pend _ s H i Hp) as [c [Hc [Hk [Ho Hb]]]]. rewrite Hc.
  assert (H1 : inv B (set_pend s None)) by (apply inv_set_pend; [exact H|discriminate]).
  assert (Hb1 : life_but i (set_pend s None)).
  { intros j d Hne Hj Hkj _. apply (Hl j d Hj Hkj). congruence. }
  destruct ok; intros [= <-].
  - unfold arm. rewrite Ho. change (NOT_SET =? NOT_SET)%Z with true. cbv iota.
    assert (Hi' : inv B (add_timer i TLife (set_pend s None))).
    { apply inv_add_timer; [exact H1|]. exists c. split; [exact Hc|discriminate]. }
    assert (Hl' : life (add_timer i TLife (set_pend s None))) by (apply life_add_life, Hb1).
    destruct tm; [|exact (conj Hi' Hl')]. split; [|apply life_add_timer, Hl'].
    apply inv_add_timer; [exact Hi'|]. exists c. split; [exact Hc|discriminate].
  - change (set_pend (remove i s) None) with (remove i (set_pend s None)). split; [|apply life_remove, Hb1].
    apply inv_remove; [exact H1|discriminate| |].
    + intros Hr. rewrite (running_busy B s i c H Hr Hc) in Hb. discriminate.
    + intros Hi. rewrite (ping_kind B s i c H Hi Hc) in Hk. discriminate.
Qed.

Lemma stop_observe_inv s u e m r : inv B s -> life s -> s_pend s = None -> careful s (StopObserve u e m r) = true ->
  inv B (stop_observe u e m r s) /\ life (stop_observe u e m r s).
Proof.
  intros H Hl Hp Hcf. unfold stop_observe. destruct (find (same_get u e) (s_cbs s)) as [c|] eqn:Hf; [|exact (conj H Hl)].
  apply find_some in Hf as [Hc Hm]. unfold same_get in Hm. apply andb_true_iff in Hm as [Hm Hg]. apply andb_true_iff in Hm as [Hu He].
  pose proof (in_lookup B s c H Hc) as Hlc.
  assert (Hnp : ~ In (FPing (c_id c)) (s_stack s)).
  { intros Hi. pose proof (ping_kind B s _ c H Hi Hlc) as Hk. rewrite (i_ping _ s H _ c Hlc Hk) in Hg. discriminate. }
  set (f := fun c => set_obs UNREGISTER (set_mid m c)). assert (Hkf : keeps f) by (intros d; repeat split).
  assert (H1 : inv B (update (c_id c) f s)).
  { apply inv_update; [exact H|exact Hkf| | | |].
    - congruence.
    - intros _ d Hb. exact Hb.
    - intros Hi. destruct (Hnp Hi).
    - intros d Hb. left. exact Hb. }
  assert (Hl1 : life (update (c_id c) f s)) by (apply life_update; assumption).
  destruct r; [exact (conj H1 Hl1)| |].
  - assert (Hnr : ~ running s (c_id c)).
    { intros [d [r Hi]]. unfold careful in Hcf. rewrite Hp in Hcf. rewrite forallb_forall in Hcf. specialize (Hcf _ Hi). cbv beta iota in Hcf.
      rewrite forallb_forall in Hcf. specialize (Hcf c Hc). rewrite N.eqb_refl, Hu, He in Hcf. discriminate. }
    split.
    + apply inv_set_pend; [|discriminate]. apply inv_remove; [exact H1| |exact Hnr|exact Hnp]. cbn [update set_cbs s_pend]. congruence.
    + intros i d Hi Hk _. apply (life_remove _ _ (life_weak _ _ Hl1) i d Hi Hk). cbn [update set_cbs remove s_pend]. congruence.
  - split; [apply inv_set_pend; [exact H1|discriminate]|]. intros i d Hi Hk _. apply (Hl1 i d Hi Hk). cbn [update set_cbs s_pend]. congruence.
Qed.

Definition pop (s : st) (k : list frame) : st := mk_st (s_cbs s) (s_tm s) (s_next s) (s_pend s) k.

Lemma pop_cancel s x k : inv B s -> s_stack s = FCancel x :: k -> inv B (pop s k).
Proof.
  intros H Hk. destruct H. rewrite Hk in *. constructor; try assumption.
  - cbn [pop s_stack]. apply (stack_same s); [reflexivity|]. destruct k; [exact I|]. destruct x as [x|]; [exact i_stack|destruct i_stack].
  - intros i y code c Hi Hy. exact (i_spare i y code c (or_intror Hi) (or_intror Hy)).
  - intros i c Hc Hb. destruct (i_busy i c Hc Hb) as [Hi|[d [r Hi]]]; [left; exact Hi|]. right. rewrite Hk in Hi. destruct Hi as [Hi|Hi]; [discriminate|]. exists d, r. exact Hi.
Qed.

Lemma step_inv s o s' t : inv B s -> life s -> may s o = true -> careful s o = true -> step oscore tcp s o = Some (s', t) -> inv B s' /\ life s'.
Proof.
  intros H Hl Hm Hcf. destruct (s_pend s) as [p|] eqn:Hp.
  { assert (Ho : (exists tm ok, o = Do tm ok) \/ exists i, o = StopMulticast i).
    { unfold careful in Hcf. rewrite Hp in Hcf. destruct o; try discriminate; [left|right]; eauto. }
    destruct Ho as [[tm [ok ->]]|[i ->]]; cbn [step].
    - destruct (do_request tm ok s) as [s1|] eqn:Hd; [|discriminate]. intros [= <- _]. exact (do_inv s tm ok s1 H Hl Hd).
    - intros [= <- _]. split; [|apply life_update; [apply keeps_stop|exact Hl]]. apply inv_update; [exact H|apply keeps_stop| | | |]; auto.
      }
  destruct o as [q r|q ok|tm ok|u e m r|i|x code|stop|r|i r|i tm]; cbn [step].
  - intros [= <- _]. unfold careful in Hcf. rewrite Hp in Hcf. exact (request_inv s q r H Hl Hp Hcf).
  - intros [= <- _]. unfold careful in Hcf. rewrite Hp in Hcf. apply andb_true_iff in Hcf as [Hk _].
    apply (init_inv s q ok H Hl Hp). destruct (q_kind q); try discriminate. reflexivity.
  - destruct (do_request tm ok s) as [s1|] eqn:Hd; [|discriminate]. intros [= <- _]. exact (do_inv s tm ok s1 H Hl Hd).
  - intros [= <- _]. exact (stop_observe_inv s u e m r H Hl Hp Hcf).
  - intros [= <- _]. split; [|apply life_update; [apply keeps_stop|exact Hl]]. apply inv_update; [exact H|apply keeps_stop| | | |]; auto.
  - intros [= He]. split; [|exact (life_cancel _ _ _ _ _ Hl He)]. apply (cancel_inv B s x code s' t H Hp); [|exact He].
    intros i c Hi Hc. unfold careful in Hcf. rewrite Hp, forallb_forall in Hcf. specialize (Hcf _ Hi). cbv beta iota in Hcf. rewrite forallb_forall in Hcf.
    destruct (lookup_id s i c Hc) as [Hin Hid]. specialize (Hcf c Hin). rewrite Hid, N.eqb_refl in Hcf. destruct (concerns x c); [discriminate|reflexivity].
  - destruct (s_stack s) as [|f k] eqn:Hk; [intros [= <- _]; exact (conj H Hl)|]. change (mk_st (s_cbs s) (s_tm s) (s_next s) (s_pend s) k) with (pop s k).
    assert (Hlp : life (pop s k)) by exact Hl. destruct f as [i d r|x|i].
    + pose proof (i_stack _ s H) as Hs. rewrite Hk in Hs. destruct k; [|destruct Hs]. destruct Hs as [c [Hc [Hb Hd]]].
      apply finish_inv; [|reflexivity|exact Hp|exact Hlp|].
      * destruct H. constructor; try assumption; try exact I.
        -- intros j y cd c' [].
        -- intros j c' Hj Hbj. left. destruct (i_busy j c' Hj Hbj) as [Ho|[d' [r' Hi]]]; [right; exact Ho|left]. rewrite Hk in Hi. destruct Hi as [[= <- _ _]|[]]. reflexivity.
      * intros c' Hc'. change (lookup s i = Some c') in Hc'. congruence.
    + pose proof (pop_cancel s x k H Hk) as Hpop. destruct x as [[x code]|].
      * intros [= He]. split; [|exact (life_cancel _ _ _ _ _ Hlp He)]. apply (cancel_inv B (pop s k) x code s' t Hpop Hp); [|exact He].
        intros i c Hi Hc. apply (i_spare _ s H i x code c); [rewrite Hk; right; exact Hi|rewrite Hk; left; reflexivity|exact Hc].
      * intros [= <- _]. exact (conj Hpop Hlp).
    + destruct (live (pop s k) i); [|discriminate]. intros [= <- _]. split; [|apply life_remove, life_weak, Hlp].
      pose proof (i_stack _ s H) as Hs. rewrite Hk in Hs. destruct k; [|destruct Hs].
      apply inv_remove; [|cbn [pop s_pend]; congruence|intros [d [r []]]|intros []].
      destruct H. constructor; try assumption; try exact I.
      * intros j y cd c' [].
      * intros j c' Hj Hbj. destruct (i_busy j c' Hj Hbj) as [Ho|[d' [r' Hi]]]; [left; exact Ho|]. rewrite Hk in Hi. destruct Hi as [Hi|[]]. discriminate.
  - assert (Hk : s_stack s = []) by (cbn [may] in Hm; unfold main_loop in Hm; destruct (s_stack s); [reflexivity|discriminate]).
    destruct (find (fun c => list_eqb (c_tok c) (a_tok r)) (s_cbs s)) as [c|] eqn:Hf; [|intros [= <- _]; exact (conj H Hl)].
    apply find_some in Hf as [Hc _]. exact (invoke_inv oscore tcp s c r s' t H Hl Hk Hp (in_lookup _ s c H Hc)).
  - assert (Hk : s_stack s = []) by (cbn [may] in Hm; unfold main_loop in Hm; destruct (s_stack s); [reflexivity|discriminate]).
    destruct (find (is_id i) (s_cbs s)) as [c|] eqn:Hf; [|discriminate].
    apply find_id in Hf as [Hc _]. exact (invoke_inv oscore tcp s c r s' t H Hl Hk Hp (in_lookup _ s c H Hc)).
  - assert (Hk : s_stack s = []) by (cbn [may] in Hm; unfold main_loop in Hm; destruct (s_stack s); [reflexivity|discriminate]).
    destruct (find (is_id i) (s_cbs s)) as [c|] eqn:Hf; [|discriminate].
    assert (Hrm : inv B (remove i s)).
    { apply inv_remove; [exact H|congruence| |].
      - intros [d [r Hi]]. rewrite Hk in Hi. destruct Hi.
      - rewrite Hk. exact (fun f => f). }
    assert (Hlr : life (remove i s)) by (apply life_remove, life_weak, Hl).
    destruct tm; intros [= <- _].
    + exact (conj Hrm Hlr).
    + split; [|exact Hlr]. destruct Hrm. cbn [remove s_stack] in *. rewrite Hk in *. constructor; try assumption; cbn [push remove s_stack]; try rewrite Hk.
      * exact I.
      * intros j y cd c' [Hj|[]]. discriminate.
      * intros j c' Hj Hbj. destruct (i_busy j c' Hj Hbj) as [Ho|[d' [r' Hi]]]; [left; exact Ho|]. cbn [remove s_stack] in Hi. rewrite Hk in Hi. destruct Hi.
    + split; [|apply life_drop_ping, Hl]. pose proof (inv_drop_timer B s i TPing H) as Hd.
      assert (Hkp : c_kind c = KPing).
      { cbn [may] in Hm. apply andb_true_iff in Hm as [_ Hm]. unfold has_timer in Hm. rewrite existsb_exists in Hm. destruct Hm as [[j u] [Hi Hu]].
        cbn [fst snd] in Hu. apply andb_true_iff in Hu as [Hj Hu]. apply N.eqb_eq in Hj. subst j. destruct u; try discriminate. exact (i_tping _ s H i c Hi Hf). }
      destruct Hd. constructor; try assumption; cbn [push drop_timer s_stack]; try rewrite Hk.
      * exists c. split; [exact Hf|exact Hkp].
      * intros j y cd c' _ [Hj|[]]. discriminate.
      * intros j c' Hj Hbj. destruct (i_busy j c' Hj Hbj) as [Ho|[d' [r' Hi]]]; [left; exact Ho|]. cbn [drop_timer s_stack] in Hi. rewrite Hk in Hi. destruct Hi.
Qed.

Lemma step_some s o : inv B s -> may s o = true -> careful s o = true -> step oscore tcp s o <> None.
Proof.
  intros H Hm Hcf. destruct o as [q r|q ok|tm ok|u e m r|i|x code|stop|r|i r|i tm]; cbn [step]; try discriminate.
  - unfold do_request. unfold careful in Hcf. destruct (s_pend s) as [i|] eqn:Hp.
    + destruct (i_pend _ s H i Hp) as [c [Hc _]]. change (find (is_id i) (s_cbs s)) with (lookup s i). rewrite Hc. destruct ok; discriminate.
    + rewrite Hcf. discriminate.
  - destruct (s_stack s) as [|f k] eqn:Hk; [discriminate|]. pose proof (i_stack _ s H) as Hs. rewrite Hk in Hs. destruct f as [i d r|[[x code]|]|i]; try discriminate.
    + destruct k; [|destruct Hs]. destruct Hs as [c [Hc _]]. apply (finish_some tcp _ i d r stop c). exact Hc.
    + destruct k; [|destruct Hs]. destruct Hs as [c [Hc _]]. assert (Hlv : live s i = true) by (apply live_lookup; exists c; exact Hc).
      change (live (mk_st (s_cbs s) (s_tm s) (s_next s) (s_pend s) []) i) with (live s i). rewrite Hlv. discriminate.
  - destruct (find (fun c => list_eqb (c_tok c) (a_tok r)) (s_cbs s)) as [c|] eqn:Hf; [|discriminate].
    apply find_some in Hf as [Hc _]. exact (invoke_some oscore tcp s c r (in_lookup _ s c H Hc)).
  - cbn [may] in Hm. apply andb_true_iff in Hm as [_ Hm]. apply live_lookup in Hm as [c Hc]. unfold lookup in Hc. change (fun c => c_id c =? i) with (is_id i) in Hc.
    rewrite Hc. apply find_id in Hc as [Hc _]. exact (invoke_some oscore tcp s c r (in_lookup _ s c H Hc)).
  - cbn [may] in Hm. apply andb_true_iff in Hm as [_ Hm]. unfold has_timer in Hm. rewrite existsb_exists in Hm. destruct Hm as [[j u] [Hi Hu]].
    cbn [fst snd] in Hu. apply andb_true_iff in Hu as [Hj Hu]. apply N.eqb_eq in Hj. subst j. destruct (i_tm _ s H i u Hi) as [c Hc].
    change (find (is_id i) (s_cbs s)) with (lookup s i). rewrite Hc. destruct tm; discriminate.
Qed.

Lemma history_inv ok s t : (forall s o, ok s o = true -> careful s o = true) -> history oscore tcp ok s t -> inv B s /\ life s.
Proof.
  intros Hok Hh. induction Hh as [|s t o s' t' Hh [IH1 IH2] Hm Ho Hs]; [exact (conj (inv_start _) life_start)|].
  exact (step_inv s o s' t' IH1 IH2 Hm (Hok s o Ho) Hs).
Qed.

Lemma no_dangling s t o : history oscore tcp careful s t -> may s o = true -> careful s o = true -> step oscore tcp s o <> None.
Proof. intros Hh. apply step_some. exact (proj1 (history_inv careful s t (fun _ _ h => h) Hh)). Qed.

Lemma timers_live s t i tm : history oscore tcp careful s t -> In (i, tm) (s_tm s) -> exists c, lookup s i = Some c.
Proof. intros Hh. apply (i_tm B). exact (proj1 (history_inv careful s t (fun _ _ h => h) Hh)). Qed.

Lemma released s t c : history oscore tcp careful s t -> In c (s_cbs s) -> c_kind c <> KObserve -> c_kind c <> KPing -> s_pend s <> Some (c_id c) ->
  In (c_id c, TLife) (s_tm s) /\ forall s' t', step oscore tcp s (Fire (c_id c) TLife) = Some (s', t') -> lookup s' (c_id c) = None.
Proof.
  intros Hh Hc Hk1 Hk2 Hp. destruct (history_inv careful s t (fun _ _ h => h) Hh) as [H Hl]. split.
  - apply (Hl _ c); [exact (in_lookup B s c H Hc)| |exact Hp]. destruct (c_kind c); try contradiction; reflexivity.
  - intros s' t'. cbn [step]. destruct (find (is_id (c_id c)) (s_cbs s)); [|discriminate]. intros [= <- _]. rewrite lookup_remove, N.eqb_refl. reflexivity.
Qed.
End Build.
