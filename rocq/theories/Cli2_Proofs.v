From Verif Require Import Common Cli_Model Cli_Spec Cli_Proofs.
From Coq Require Import Lia.
Local Open Scope N_scope.

Lemma inv_weaken (B C : N -> Prop) s : (forall i c, lookup s i = Some c -> c_busy c = true -> B i -> C i) -> inv B s -> inv C s.
Proof.
  intros Hbc H. destruct H. constructor; try assumption. intros i c Hc Hb. destruct (i_busy i c Hc Hb) as [Hi|Hi]; [left; exact (Hbc i c Hc Hb Hi)|right; exact Hi].
Qed.

Lemma ping_in_stack s k i : stack_ok s k -> In (FPing i) k -> exists c, lookup s i = Some c /\ c_kind c = KPing.
Proof.
  induction k as [|g k IH]; [easy|]. intros Hk Hi. destruct k as [|g' k].
  - destruct Hi as [->|[]]. exact Hk.
  - destruct g as [? ? ?|[x|]|?]; cbn [stack_ok] in Hk; try contradiction. destruct Hi as [Hi|Hi]; [discriminate|]. exact (IH Hk Hi).
Qed.
Lemma answer_in_stack s k i d r : stack_ok s k -> In (FAnswer i d r) k -> exists c, lookup s i = Some c /\ c_busy c = true /\ c_disc c = d.
Proof.
  induction k as [|g k IH]; [easy|]. intros Hk Hi. destruct k as [|g' k].
  - destruct Hi as [->|[]]. exact Hk.
  - destruct g as [? ? ?|[x|]|?]; cbn [stack_ok] in Hk; try contradiction. destruct Hi as [Hi|Hi]; [discriminate|]. exact (IH Hk Hi).
Qed.
Lemma running_busy B s i c : inv B s -> running s i -> lookup s i = Some c -> c_busy c = true.
Proof. intros H [d [r Hi]] Hc. destruct (answer_in_stack s _ i d r (i_stack _ s H) Hi) as [c' [Hc' [Hb _]]]. congruence. Qed.
Lemma ping_kind B s i c : inv B s -> In (FPing i) (s_stack s) -> lookup s i = Some c -> c_kind c = KPing.
Proof. intros H Hi Hc. destruct (ping_in_stack s _ i (i_stack _ s H) Hi) as [c' [Hc' Hk]]. congruence. Qed.

Lemma in_lookup B s c : inv B s -> In c (s_cbs s) -> lookup s (c_id c) = Some c.
Proof. intros H Hc. exact (find_in _ c (i_nodup _ s H) Hc). Qed.

(* ---------- cancelling ---------- *)
Lemma inv_push_cancel B s x code : inv B s -> (forall i c, In (FPing i) (s_stack s) -> lookup s i = Some c -> concerns x c = false) ->
  inv B (push s (FCancel (Some (x, code)))).
Proof.
  intros H Hx. destruct H. constructor; try assumption.
  - cbn [push s_stack]. assert (Hs : stack_ok (push s (FCancel (Some (x, code)))) (s_stack s)) by (apply (stack_same s); [reflexivity|exact i_stack]).
    destruct (s_stack s); [exact I|exact Hs].
  - intros i y code' c. cbn [push s_stack]. intros [Hi|Hi]; [discriminate|]. intros [[= <- <-]|Hy] Hc; [exact (Hx i c Hi Hc)|exact (i_spare i y code' c Hi Hy Hc)].
  - intros i c Hc Hb. destruct (i_busy i c Hc Hb) as [Hi|[d [r Hi]]]; [left; exact Hi|right]. exists d, r. right. exact Hi.
Qed.

Lemma cancellable_spec x c : cancellable x c = unicast (c_kind c) && negb (c_busy c) && concerns x c.
Proof. unfold cancellable, c_multi, c_disc, concerns. destruct (c_kind c), (c_busy c), x; reflexivity. Qed.

Lemma cancel_inv B s x code s' t : inv B s -> s_pend s = None ->
  (forall i c, In (FPing i) (s_stack s) -> lookup s i = Some c -> concerns x c = false) ->
  cancel x code s = (s', t) -> inv B s'.
Proof.
  intros H Hp Hx. unfold cancel. destruct (find (cancellable x) (s_cbs s)) as [c|] eqn:Hf; intros [= <- _]; [|exact H].
  apply find_some in Hf as [Hc Hm]. rewrite cancellable_spec in Hm. pose proof (in_lookup B s c H Hc) as Hl.
  apply andb_true_iff in Hm as [Hm Hcn]. apply andb_true_iff in Hm as [_ Hb].
  apply inv_push_cancel.
  - apply inv_remove; [exact H|congruence| |].
    + intros Hr. rewrite (running_busy B s _ c H Hr Hl) in Hb. discriminate.
    + intros Hi. rewrite (Hx _ c Hi Hl) in Hcn. discriminate.
  - intros i d Hi. rewrite lookup_remove. destruct (N.eqb_spec i (c_id c)); [discriminate|]. exact (Hx i d Hi).
Qed.

Definition life_but (j : N) (s : st) : Prop :=
  forall i c, i <> j -> lookup s i = Some c -> life_kind (c_kind c) = true -> s_pend s <> Some i -> In (i, TLife) (s_tm s).

Lemma life_remove j s : life_but j s -> life (remove j s).
Proof.
  intros H i c. rewrite lookup_remove. destruct (N.eqb_spec i j) as [|Hn]; [discriminate|]. intros Hc Hk Hp.
  cbn [remove s_tm]. apply filter_In. split; [exact (H i c Hn Hc Hk Hp)|]. cbn [fst]. destruct (N.eqb_spec i j); [contradiction|reflexivity].
Qed.
Lemma life_weak j s : life s -> life_but j s.
Proof. intros H i c _. apply H. Qed.
Lemma life_update j f s : keeps f -> life s -> life (update j f s).
Proof.
  intros Hk H i c. rewrite lookup_update by (apply keeps_id, Hk). destruct (i =? j); [|exact (H i c)].
  destruct (lookup s i) as [d|] eqn:Hd; [|discriminate]. intros [= <-]. destruct (Hk d) as [_ [-> _]]. exact (H i d Hd).
Qed.
Lemma life_add_timer j t s : life s -> life (add_timer j t s).
Proof. intros H i c Hc Hk Hp. right. exact (H i c Hc Hk Hp). Qed.
Lemma life_add_life j s : life_but j s -> life (add_timer j TLife s).
Proof.
  intros H i c Hc Hk Hp. destruct (N.eq_dec i j) as [->|Hn]; [left; reflexivity|]. right. exact (H i c Hn Hc Hk Hp).
Qed.
Lemma life_drop_ping j s : life s -> life (drop_timer j TPing s).
Proof.
  intros H i c Hc Hk Hp. cbn [drop_timer s_tm]. apply filter_In. split; [exact (H i c Hc Hk Hp)|]. cbn [fst snd timer_eqb]. rewrite andb_false_r. reflexivity.
Qed.
Lemma life_cancel s x code s' t : life s -> cancel x code s = (s', t) -> life s'.
Proof.
  intros H. unfold cancel. destruct (find (cancellable x) (s_cbs s)) as [c|]; intros [= <- _]; [|exact H].
  exact (life_remove _ s (life_weak _ s H)).
Qed.

(* ---------- the end of an answer ---------- *)
Definition and_busy (i : N) (B : N -> Prop) : N -> Prop := fun j => j = i \/ B j.

Lemma inv_unbusy B s i : inv (and_busy i B) s -> s_stack s = [] -> s_pend s = None -> inv B (update i (set_busy false) s).
Proof.
  intros H Hk Hp. apply (inv_weaken (and_busy i B)).
  - intros j c Hc Hb [->|Hj]; [|exact Hj]. rewrite lookup_update in Hc by (apply keeps_id, keeps_busy). rewrite N.eqb_refl in Hc.
    destruct (lookup s i); [|discriminate]. injection Hc as <-. discriminate.
  - apply inv_update; [exact H|apply keeps_busy| | | |].
    + congruence.
    + intros [d [r Hi]]. rewrite Hk in Hi. destruct Hi.
    + intros Hi. rewrite Hk in Hi. destruct Hi.
    + discriminate.
Qed.

Lemma set_observe_inv B s c o ep : inv B s -> s_stack s = [] -> s_pend s = None -> life s ->
  inv B (set_observe c o ep s) /\ life (set_observe c o ep s).
Proof.
  intros H Hk Hp Hl. unfold set_observe.
  assert (H1 : inv B (update (c_id c) (set_obs o) s)).
  { apply inv_update; [exact H|apply keeps_obs| | | |].
    - congruence.
    - intros _ d Hb. exact Hb.
    - intros Hi. rewrite Hk in Hi. destruct Hi.
    - intros d Hb. left. exact Hb. }
  assert (H2 : life (update (c_id c) (set_obs o) s)) by (apply life_update; [apply keeps_obs|exact Hl]).
  destruct (o =? REGISTER)%Z; [|exact (conj H1 H2)].
  destruct (find (duplicate c ep) (s_cbs (update (c_id c) (set_obs o) s))) as [d|]; [|exact (conj H1 H2)]. split.
  - apply inv_remove; [exact H1| | |]; cbn [update set_cbs s_pend s_stack].
    + congruence.
    + intros [e [r Hi]]. cbn [update set_cbs s_stack] in Hi. rewrite Hk in Hi. destruct Hi.
    + rewrite Hk. exact (fun f => f).
  - apply life_remove, life_weak, H2.
Qed.

Section Build.
Variables oscore tcp : bool.

Lemma finish_inv B s i d r stop s' t : inv (and_busy i B) s -> s_stack s = [] -> s_pend s = None -> life s ->
  (forall c, lookup s i = Some c -> c_disc c = d) ->
  finish tcp i d r stop s = Some (s', t) -> inv B s' /\ life s'.
Proof.
  intros H Hk Hp Hl Hd. unfold finish. change (find (is_id i) (s_cbs s)) with (lookup s i). destruct (lookup s i) as [c|] eqn:Hc.
  2:{ destruct (tcp || d && stop); [discriminate|]. intros [= <- _]. split; [|exact Hl]. apply (inv_weaken (and_busy i B)); [|exact H].
      intros j c Hj _ [->|Hb]; [congruence|exact Hb]. }
  destruct (c_disc c && match a_body r with Payload _ => true | _ => false end && stop).
  { intros [= He].
    split; [eapply cancel_inv; [exact (inv_unbusy B s i H Hk Hp)|exact Hp| |exact He]|eapply life_cancel; [|exact He]; apply life_update; [apply keeps_busy|exact Hl]].
    intros j e Hi. cbn [update set_cbs s_stack] in Hi. rewrite Hk in Hi. destruct Hi. }
  set (s1 := if tcp && list_eqb (c_uri c) ping_uri then drop_timer i TPing s else s).
  assert (H1 : inv (and_busy i B) s1 /\ life s1 /\ s_stack s1 = [] /\ s_pend s1 = None).
  { unfold s1. destruct (tcp && list_eqb (c_uri c) ping_uri); [|auto]. split; [apply inv_drop_timer, H|]. split; [apply life_drop_ping, Hl|]. split; [exact Hk|exact Hp]. }
  clearbody s1. destruct H1 as [H1 [Hl1 [Hk1 Hp1]]].
  assert (H2 : inv B (update i (set_busy false) s1)) by (apply inv_unbusy; assumption).
  assert (Hl2 : life (update i (set_busy false) s1)) by (apply life_update; [apply keeps_busy|exact Hl1]).
  destruct ((a_obs r =? NOT_SET)%Z && negb match a_body r with Empty true => true | _ => false end && negb (c_disc c)).
  - destruct (c_multi c).
    + destruct (c_stop c); [|intros [= <- _]; exact (conj H2 Hl2)]. intros [= He]. split; [eapply cancel_inv; [exact H2|exact Hp1| |exact He]|exact (life_cancel _ _ _ _ _ Hl2 He)].
      intros j e Hi. cbn [update set_cbs s_stack] in Hi. rewrite Hk1 in Hi. destruct Hi.
    + intros [= <- _]. split; [|apply life_remove, life_weak, Hl2]. apply inv_remove; [exact H2| | |]; cbn [update set_cbs s_pend s_stack].
      * congruence.
      * intros [e [r' Hi]]. cbn [update set_cbs s_stack] in Hi. rewrite Hk1 in Hi. destruct Hi.
      * rewrite Hk1. exact (fun f => f).
  - intros [= <- _]. apply set_observe_inv; [exact H2|exact Hk1|exact Hp1|exact Hl2].
Qed.

Lemma finish_some s i d r stop c : lookup s i = Some c -> finish tcp i d r stop s <> None.
Proof.
  intros Hc. unfold finish. change (find (is_id i) (s_cbs s)) with (lookup s i). rewrite Hc.
  destruct (c_disc c && _ && stop); [discriminate|]. destruct ((a_obs r =? NOT_SET)%Z && _ && _); [|discriminate].
  destruct (c_multi c); [|discriminate]. destruct (c_stop c); discriminate.
Qed.

Notation B := (fun _ : N => oscore = true).

Lemma inv_push_answer s i r c : inv (and_busy i B) s -> s_stack s = [] -> lookup s i = Some c -> c_busy c = true ->
  inv B (push s (FAnswer i (c_disc c) r)).
Proof.
  intros H Hk Hc Hb. destruct H. constructor; try assumption.
  - cbn [push s_stack]. rewrite Hk. exists c. split; [exact Hc|]. split; [exact Hb|reflexivity].
  - cbn [push s_stack]. rewrite Hk. intros j x code e [Hj|[]]. discriminate.
  - intros j e He Hbe. destruct (i_busy j e He Hbe) as [[->|Hj]|[d [r' Hj]]].
    + right. exists (c_disc c), r. left. reflexivity.
    + left. exact Hj.
    + rewrite Hk in Hj. destruct Hj.
Qed.

Lemma invoke_inv s c r s' t : inv B s -> life s -> s_stack s = [] -> s_pend s = None -> lookup s (c_id c) = Some c ->
  invoke oscore tcp c r s = Some (s', t) -> inv B s' /\ life s'.
Proof.
  intros H Hl Hk Hp Hc. unfold invoke. set (i := c_id c) in *.
  assert (H1 : inv (and_busy i B) (update i (set_busy true) s)).
  { apply inv_update; [|apply keeps_busy| | | |].
    - apply (inv_weaken B); [|exact H]. intros j d _ _ Hj. right. exact Hj.
    - congruence.
    - intros _ d Hb. reflexivity.
    - intros Hi. rewrite Hk in Hi. destruct Hi.
    - intros d _. right. left. left. reflexivity. }
  assert (Hl1 : life (update i (set_busy true) s)) by (apply life_update; [apply keeps_busy|exact Hl]).
  assert (Hc1 : lookup (update i (set_busy true) s) i = Some (set_busy true c)).
  { rewrite lookup_update by (apply keeps_id, keeps_busy). rewrite N.eqb_refl, Hc. reflexivity. }
  destruct (oscore && (SEQ_START <=? a_obs r)%Z && (a_num r <? c_num c)) eqn:Hold.
  { intros [= <- _]. split; [|exact Hl1]. apply (inv_weaken (and_busy i B)); [|exact H1]. intros _ _ _ _ _.
    destruct oscore; [reflexivity|discriminate]. }
  set (s2 := if oscore && (SEQ_START <=? a_obs r)%Z then update i (set_num (a_num r)) (update i (set_busy true) s) else update i (set_busy true) s).
  assert (H2 : inv (and_busy i B) s2 /\ life s2 /\ s_stack s2 = [] /\ s_pend s2 = None /\ exists c2, lookup s2 i = Some c2 /\ c_kind c2 = c_kind c /\ c_busy c2 = true).
  { unfold s2. destruct (oscore && (SEQ_START <=? a_obs r)%Z).
    - split; [|split; [apply life_update; [apply keeps_num|exact Hl1]|split; [exact Hk|split; [exact Hp|]]]].
      + apply inv_update; [exact H1|apply keeps_num| | | |].
        * cbn [update set_cbs s_pend]. congruence.
        * intros _ d Hb. exact Hb.
        * intros _ d _. split; reflexivity.
        * intros d Hb. left. exact Hb.
      + exists (set_num (a_num r) (set_busy true c)). rewrite lookup_update by (apply keeps_id, keeps_num). rewrite N.eqb_refl, Hc1. auto.
    - split; [exact H1|]. split; [exact Hl1|]. split; [exact Hk|]. split; [exact Hp|]. exists (set_busy true c). auto. }
  clearbody s2. destruct H2 as [H2 [Hl2 [Hk2 [Hp2 [c2 [Hc2 [Hkd Hb2]]]]]]].
  assert (Hd : c_disc c = c_disc c2) by (unfold c_disc; rewrite Hkd; reflexivity).
  assert (Hfin : finish tcp i (c_disc c) r false s2 = Some (s', t) -> inv B s' /\ life s').
  { apply finish_inv; try assumption. intros e He. congruence. }
  assert (Hh : Some (push s2 (FAnswer i (c_disc c) r), [tell c Answered]) = Some (s', t) -> inv B s' /\ life s').
  { intros [= <- _]. rewrite Hd. split; [exact (inv_push_answer s2 i r c2 H2 Hk2 Hc2 Hb2)|exact Hl2]. }
  destruct (a_body r) as [ack|parses].
  - destruct ack; [exact Hfin|]. destruct (c_disc c); [exact Hfin|exact Hh].
  - destruct (c_disc c); [exact Hh|]. destruct parses; [exact Hh|exact Hfin].
Qed.

Lemma invoke_some s c r : lookup s (c_id c) = Some c -> invoke oscore tcp c r s <> None.
Proof.
  intros Hc. unfold invoke. destruct (oscore && (SEQ_START <=? a_obs r)%Z && (a_num r <? c_num c)); [discriminate|].
  set (s2 := if oscore && (SEQ_START <=? a_obs r)%Z then _ else _).
  assert (H2 : exists c2, lookup s2 (c_id c) = Some c2).
  { unfold s2. destruct (oscore && (SEQ_START <=? a_obs r)%Z).
    - rewrite lookup_update by (apply keeps_id, keeps_num). rewrite N.eqb_refl, lookup_update by (apply keeps_id, keeps_busy). rewrite N.eqb_refl, Hc. eexists. reflexivity.
    - rewrite lookup_update by (apply keeps_id, keeps_busy). rewrite N.eqb_refl, Hc. eexists. reflexivity. }
  destruct H2 as [c2 Hc2]. destruct (a_body r) as [ack|parses].
  - destruct ack; [exact (finish_some _ _ _ _ _ c2 Hc2)|]. destruct (c_disc c); [exact (finish_some _ _ _ _ _ c2 Hc2)|discriminate].
  - destruct (c_disc c); [discriminate|]. destruct parses; [discriminate|exact (finish_some _ _ _ _ _ c2 Hc2)].
Qed.
End Build.
