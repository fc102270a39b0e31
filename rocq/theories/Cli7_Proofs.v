From Verif Require Import Common Cli_Model Cli_Spec Cli_Proofs Cli2_Proofs Cli3_Proofs Cli4_Proofs Cli5_Proofs Cli6_Proofs.
From Coq Require Import Lia.
Local Open Scope N_scope.

Section Build.
Variables oscore tcp : bool.

Lemma gone_remove s i j c : lookup s j = Some c -> lookup (remove i s) j = None -> j = i.
Proof. intros Hc. rewrite lookup_remove. destruct (N.eqb_spec j i) as [He|_]; [intros _; exact He|congruence]. Qed.
Lemma stays_update s i f j c : keeps f -> lookup s j = Some c -> lookup (update i f s) j <> None.
Proof. intros Hk Hc. rewrite lookup_update by (apply keeps_id, Hk). rewrite Hc. destruct (j =? i); discriminate. Qed.

Lemma cancel_ends s x code s' t j c : base s -> cancel x code s = (s', t) -> lookup s j = Some c -> lookup s' j = None ->
  t = [Called j (c_kind c) (Cancelled code)].
Proof.
  intros Hb. unfold cancel. destruct (find (cancellable x) (s_cbs s)) as [d|] eqn:Hf; intros [= <- <-] Hc Hn; [|congruence].
  pose proof (gone_remove s (c_id d) j c Hc Hn) as ->. apply find_some in Hf as [Hd _]. pose proof (find_in _ d (proj1 Hb) Hd) as Hl.
  change (find (is_id (c_id d)) (s_cbs s)) with (lookup s (c_id d)) in Hl. assert (d = c) by congruence. subst d. reflexivity.
Qed.

Lemma update_base s i f : keeps f -> base s -> base (update i f s).
Proof. intros Hk Hb. exact (proj1 (shrinks_grows s _ Hb (shrinks_update s i f Hk))). Qed.

Definition gone_how (s : st) (i : N) (r : resp) (t : list call) (j : N) (c : cb) : Prop :=
  (exists code, t = [Called j (c_kind c) (Cancelled code)]) \/
  (j = i /\ a_obs r = NOT_SET /\ a_body r <> Empty true /\ c_disc c = false /\ t = []) \/
  (exists e, lookup s i = Some e /\ i <> j /\ c_tok e = c_tok c /\ c_uri e = c_uri c /\ c_obs c <> NOT_SET /\ a_obs r = REGISTER /\ a_ep r = c_ep c).

Lemma set_observe_ends s e o ep j c : base s -> lookup s j = Some c -> lookup (set_observe e o ep s) j = None ->
  c_id e <> j /\ c_tok e = c_tok c /\ c_uri e = c_uri c /\ c_obs c <> NOT_SET /\ o = REGISTER /\ ep = c_ep c.
Proof.
  intros Hb Hc. unfold set_observe. destruct (Z.eqb_spec o REGISTER) as [Ho|Ho].
  2:{ intros Hn. destruct (stays_update s (c_id e) (set_obs o) j c (keeps_obs o) Hc Hn). }
  destruct (find (duplicate e ep) (s_cbs (update (c_id e) (set_obs o) s))) as [d|] eqn:Hf.
  2:{ intros Hn. destruct (stays_update s (c_id e) (set_obs o) j c (keeps_obs o) Hc Hn). }
  intros Hn. destruct (lookup (update (c_id e) (set_obs o) s) j) as [c1|] eqn:Hc1.
  2:{ destruct (stays_update s (c_id e) (set_obs o) j c (keeps_obs o) Hc Hc1). }
  pose proof (gone_remove _ _ j c1 Hc1 Hn) as Hj. apply find_some in Hf as [Hd Hdup]. unfold duplicate in Hdup.
  repeat (apply andb_true_iff in Hdup as [Hdup ?]).
  assert (Hne : c_id d <> c_id e) by (intros Hx; rewrite Hx, N.eqb_refl in Hdup; discriminate).
  unfold update, set_cbs in Hd. cbn [s_cbs] in Hd. apply in_map_iff in Hd as [d0 [Hd0 Hin]]. rewrite is_id_eq in Hd0. destruct (N.eqb_spec (c_id d0) (c_id e)) as [Hx|Hx].
  { subst d. cbn [set_obs c_id] in Hne. contradiction. }
  subst d0.
  pose proof (find_in _ d (proj1 Hb) Hin) as Hl. rewrite <- Hj in Hl. change (find (is_id j) (s_cbs s)) with (lookup s j) in Hl. assert (d = c) by congruence. subst d.
  repeat match goal with
  | H : list_eqb _ _ = true |- _ => apply list_eqb_spec in H
  | H : (c_ep _ =? _) = true |- _ => apply N.eqb_eq in H
  end.
  split; [congruence|]. split; [congruence|]. split; [congruence|]. split; [|split; [exact Ho|congruence]].
  intros Hy. match goal with H : negb (c_obs c =? NOT_SET)%Z = true |- _ => rewrite Hy in H; discriminate end.
Qed.

Lemma finish_ends s i d r stop s' t j c : base s -> finish tcp i d r stop s = Some (s', t) -> lookup s j = Some c -> lookup s' j = None -> gone_how s i r t j c.
Proof.
  intros Hb Hf Hc Hn. unfold finish in Hf. change (find (is_id i) (s_cbs s)) with (lookup s i) in Hf. destruct (lookup s i) as [e|] eqn:He.
  2:{ destruct (tcp || d && stop); [discriminate|]. injection Hf as <- _. congruence. }
  assert (Hcan : forall s0 x code c0, base s0 -> lookup s0 j = Some c0 -> c_kind c0 = c_kind c -> Some (cancel x code s0) = Some (s', t) -> gone_how s i r t j c).
  { intros s0 x code c0 Hb0 Hc0 Hk [= Hx]. left. exists code. rewrite <- Hk. exact (cancel_ends s0 x code s' t j c0 Hb0 Hx Hc0 Hn). }
  set (s1 := if tcp && list_eqb (c_uri e) ping_uri then drop_timer i TPing s else s) in Hf.
  assert (H1 : base s1 /\ (forall k, lookup s1 k = lookup s k) /\ s_cbs s1 = s_cbs s) by (unfold s1; destruct (tcp && _); split; [exact Hb|split; reflexivity|exact Hb|split; reflexivity]).
  clearbody s1. destruct H1 as [Hb1 [Hl1 Hcb]].
  assert (Hup : forall s0, base s0 -> lookup s0 j = Some c -> exists c0, lookup (update i (set_busy false) s0) j = Some c0 /\ c_kind c0 = c_kind c /\ (c0 = c \/ (j = i /\ c0 = set_busy false c))).
  { intros s0 _ H0. rewrite lookup_update by (apply keeps_id, keeps_busy). rewrite H0. destruct (N.eqb_spec j i); [exists (set_busy false c)|exists c]; auto. }
  destruct (c_disc e && _ && stop).
  { destruct (Hup s Hb Hc) as [c0 [Hc0 [Hk0 _]]]. exact (Hcan _ _ _ c0 (update_base s i _ (keeps_busy false) Hb) Hc0 Hk0 Hf). }
  destruct (Hup s1 Hb1 (eq_trans (Hl1 j) Hc)) as [c0 [Hc0 [Hk0 Hor]]]. pose proof (update_base s1 i _ (keeps_busy false) Hb1) as Hb2.
  destruct ((a_obs r =? NOT_SET)%Z && _ && _) eqn:Hx.
  - apply andb_true_iff in Hx as [Hx Hd]. apply andb_true_iff in Hx as [Ho Hsep]. apply Z.eqb_eq in Ho.
    destruct (c_multi e).
    + destruct (c_stop e); [exact (Hcan _ _ _ c0 Hb2 Hc0 Hk0 Hf)|]. injection Hf as <- <-. congruence.
    + injection Hf as <- <-. pose proof (gone_remove _ i j c0 Hc0 Hn) as ->. right. left. split; [reflexivity|]. split; [exact Ho|].
      split; [intros Hbd; rewrite Hbd in Hsep; discriminate|]. assert (e = c) by congruence. subst e. split; [destruct (c_disc c); [discriminate|reflexivity]|reflexivity].
  - injection Hf as <- <-. right. right. exists e. split; [exact He|].
    pose proof (lookup_id s i e He) as [_ Hid]. destruct (set_observe_ends (update i (set_busy false) s1) e (a_obs r) (a_ep r) j c0 Hb2 Hc0 Hn) as [Hne [Ht [Hu [Hob [Ho Hep]]]]].
    destruct Hor as [->|[-> _]]; [|congruence]. rewrite Hid in Hne. auto 10.
Qed.

Definition alike (c d : cb) : Prop := c_id d = c_id c /\ c_kind d = c_kind c /\ c_tok d = c_tok c /\ c_uri d = c_uri c /\ c_obs d = c_obs c /\ c_ep d = c_ep c.

Lemma invoke_ends s d r s' t c o : base s -> In d (s_cbs s) -> lookup s (c_id c) = Some c -> invoke oscore tcp d r s = Some (s', t) -> lookup s' (c_id c) = None ->
  (o = Deliver r \/ o = Buffered (c_id d) r) -> ends s o t c.
Proof.
  intros Hb Hd Hc Hi Hn Ho. pose proof (find_in _ d (proj1 Hb) Hd) as Hld. change (find (is_id (c_id d)) (s_cbs s)) with (lookup s (c_id d)) in Hld.
  assert (Hup : forall f s0 k, keeps f -> (forall e, alike e (f e)) -> base s0 -> (forall e, lookup s k = Some e -> exists e2, lookup s0 k = Some e2 /\ alike e e2) ->
    base (update (c_id d) f s0) /\ (forall e, lookup s k = Some e -> exists e2, lookup (update (c_id d) f s0) k = Some e2 /\ alike e e2)).
  { intros f s0 k Hk Ha Hb0 H0. split; [apply update_base; assumption|]. intros e He. destruct (H0 e He) as [e2 [He2 Ha2]]. rewrite lookup_update by (apply keeps_id, Hk). rewrite He2.
    destruct (k =? c_id d); [|exists e2; auto]. exists (f e2). split; [reflexivity|]. destruct (Ha e2) as [A1 [A2 [A3 [A4 [A5 A6]]]]]. destruct Ha2 as [C1 [C2 [C3 [C4 [C5 C6]]]]]. unfold alike. repeat split; congruence. }
  assert (Hs0 : forall k e, lookup s k = Some e -> exists e2, lookup s k = Some e2 /\ alike e e2) by (intros k e He; exists e; split; [exact He|repeat split]).
  assert (Hs1 : forall k, base (update (c_id d) (set_busy true) s) /\ (forall e, lookup s k = Some e -> exists e2, lookup (update (c_id d) (set_busy true) s) k = Some e2 /\ alike e e2)).
  { intros k. apply Hup; [apply keeps_busy|intros e; repeat split|exact Hb|exact (Hs0 k)]. }
  unfold invoke in Hi. destruct (oscore && (SEQ_START <=? a_obs r)%Z && (a_num r <? c_num d)).
  { injection Hi as <- <-. destruct (proj2 (Hs1 (c_id c)) c Hc) as [e [He _]]. congruence. }
  set (s2 := if oscore && (SEQ_START <=? a_obs r)%Z then _ else _) in Hi.
  assert (Hs2 : forall k, base s2 /\ (forall e, lookup s k = Some e -> exists e2, lookup s2 k = Some e2 /\ alike e e2)).
  { intros k. unfold s2. destruct (oscore && (SEQ_START <=? a_obs r)%Z); [|exact (Hs1 k)]. apply Hup; [apply keeps_num|intros e; repeat split|apply Hs1, 0|exact (proj2 (Hs1 k))]. }
  clearbody s2. clear Hup Hs0 Hs1. destruct (proj2 (Hs2 (c_id c)) c Hc) as [c2 [Hc2 Ha]]. destruct (proj2 (Hs2 (c_id d)) d Hld) as [d2 [Hd2 Hda]].
  assert (Hpush : Some (push s2 (FAnswer (c_id d) (c_disc d) r), [tell d Answered]) = Some (s', t) -> ends s o t c).
  { intros [= <- <-]. change (lookup s2 (c_id c) = None) in Hn. congruence. }
  assert (Hfin : (c_disc d = true \/ a_body r = Empty true \/ a_body r = Payload false) -> finish tcp (c_id d) (c_disc d) r false s2 = Some (s', t) -> ends s o t c).
  { intros Hbody Hf. destruct (finish_ends s2 (c_id d) (c_disc d) r false s' t (c_id c) c2 (proj1 (Hs2 0)) Hf Hc2 Hn) as [[code Ht]|[[Hid [Hob [Hne [Hdc Ht]]]]|[e [He [Hne [Htk [Hu [Hob [Hor Hep]]]]]]]]].
    - apply (E_told s o t c code). destruct Ha as [_ [Hk _]]. rewrite <- Hk. exact Ht.
    - assert (d = c) by congruence. subst d. apply (E_unreadable s o t c r); [exact Ho| |exact Hob|exact Ht].
      destruct Ha as [_ [Hk _]]. unfold c_disc in *. rewrite Hk in Hdc. destruct Hbody as [Hx|[Hx|Hx]]; [congruence|contradiction|exact Hx].
    - assert (e = d2) by congruence. subst e. destruct Ha as [A1 [A2 [A3 [A4 [A5 A6]]]]]. destruct Hda as [C1 [C2 [C3 [C4 [C5 C6]]]]].
      apply (E_replaced s o t c d); try congruence. exists r. split; [exact Hor|]. split; [congruence|]. destruct Ho as [->| ->]; auto. }
  destruct (a_body r) as [ack|parses].
  - destruct ack; [apply (Hfin (or_intror (or_introl eq_refl))); exact Hi|]. destruct (c_disc d); [apply (Hfin (or_introl eq_refl)); exact Hi|exact (Hpush Hi)].
  - destruct (c_disc d); [exact (Hpush Hi)|]. destruct parses; [exact (Hpush Hi)|apply (Hfin (or_intror (or_intror eq_refl))); exact Hi].
Qed.

Lemma ends_for_a_reason ok s t0 o s' t c : history oscore tcp ok s t0 -> step oscore tcp s o = Some (s', t) -> In c (s_cbs s) -> lookup s' (c_id c) = None -> ends s o t c.
Proof.
  intros Hh Hs Hin Hn. pose proof (proj1 (history_hist oscore tcp ok s t0 Hh)) as Hb. pose proof (find_in _ c (proj1 Hb) Hin) as Hc.
  change (find (is_id (c_id c)) (s_cbs s)) with (lookup s (c_id c)) in Hc.
  assert (Hlt := proj2 Hb _ c Hc).
  assert (Hal : forall q, lookup (alloc q s) (c_id c) = Some c).
  { intros q. rewrite lookup_alloc by (intros d; apply (proj2 Hb)). destruct (N.eqb_spec (c_id c) (s_next s)); [lia|exact Hc]. }
  assert (Halr : forall q, lookup (remove (s_next s) (alloc q s)) (c_id c) = Some c).
  { intros q. rewrite lookup_remove. destruct (N.eqb_spec (c_id c) (s_next s)); [lia|exact (Hal q)]. }
  assert (Harm : forall i ob tm s0 k, lookup (arm i ob tm s0) k = lookup s0 k).
  { intros i ob tm s0 k. unfold lookup. rewrite (proj1 (arm_same i ob tm s0)). reflexivity. }
  assert (Hsp : forall s0 p k, lookup (set_pend s0 p) k = lookup s0 k) by reflexivity.
  destruct o as [q r|q ok'|tm ok'|u e m r|i|x code|stop|r|i r|i tm]; cbn [step] in Hs.
  - injection Hs as <- <-. exfalso. unfold request in Hn. destruct (q_kind q), r; rewrite ?Harm, ?Hsp in Hn;
      try (rewrite (Hal q) in Hn; discriminate); try (rewrite (Halr q) in Hn; discriminate).
    change (lookup (alloc q s) (c_id c) = None) in Hn. rewrite (Hal q) in Hn. discriminate.
  - injection Hs as <- <-. exfalso. unfold init_request in Hn. destruct ok'; [rewrite Hsp, (Hal q) in Hn|rewrite (Halr q) in Hn]; discriminate.
  - unfold do_request in Hs. destruct (s_pend s) as [i|] eqn:Hp.
    + destruct (find (is_id i) (s_cbs s)) as [d|]; [|discriminate]. destruct ok'; cbn [option_map] in Hs; injection Hs as <- <-.
      * rewrite Harm, Hsp in Hn. congruence.
      * rewrite Hsp in Hn. pose proof (gone_remove s i _ c Hc Hn) as <-. exact (E_unsent s _ _ c tm eq_refl Hp).
    + destruct tm; [|discriminate]. injection Hs as <- <-. congruence.
  - injection Hs as <- <-. unfold stop_observe in Hn. destruct (find (same_get u e) (s_cbs s)) as [d|] eqn:Hf; [|congruence].
    assert (Hkf : keeps (fun c => set_obs UNREGISTER (set_mid m c))) by (intros z; repeat split).
    destruct r; [destruct (stays_update s (c_id d) _ _ c Hkf Hc Hn)| |destruct (stays_update s (c_id d) _ _ c Hkf Hc Hn)].
    rewrite Hsp in Hn. destruct (lookup (update (c_id d) (fun c => set_obs UNREGISTER (set_mid m c)) s) (c_id c)) as [c1|] eqn:Hc1; [|destruct (stays_update s (c_id d) _ _ c Hkf Hc Hc1)].
    pose proof (gone_remove _ _ _ c1 Hc1 Hn) as Hid. apply find_some in Hf as [Hd Hm]. pose proof (find_in _ d (proj1 Hb) Hd) as Hl. rewrite <- Hid in Hl.
    change (find (is_id (c_id c)) (s_cbs s)) with (lookup s (c_id c)) in Hl. assert (d = c) by congruence. subst d. unfold same_get in Hm.
    apply andb_true_iff in Hm as [Hm _]. apply andb_true_iff in Hm as [Hu He]. apply list_eqb_spec in Hu. apply N.eqb_eq in He. exact (E_unsent_stop s _ _ c u e m eq_refl Hu He).
  - injection Hs as <- <-. destruct (stays_update s i set_stop _ c keeps_stop Hc Hn).
  - injection Hs as Hs. exact (E_told s _ _ c code (cancel_ends s x code s' t _ c Hb Hs Hc Hn)).
  - destruct (s_stack s) as [|f k] eqn:Hk; [injection Hs as <- <-; congruence|].
    change (mk_st (s_cbs s) (s_tm s) (s_next s) (s_pend s) k) with (pop s k) in Hs. assert (Hbp : base (pop s k)) by exact Hb. assert (Hcp : lookup (pop s k) (c_id c) = Some c) by exact Hc.
    destruct f as [i d r|[[x code]|]|i].
    + destruct (finish_ends (pop s k) i d r stop s' t _ c Hbp Hs Hcp Hn) as [[code Ht]|[[Hi [Ho [_ [_ Ht]]]]|[e [He [Hne [Htk [Hu [Hob [Ho Hep]]]]]]]]].
      * exact (E_told s _ _ c code Ht).
      * apply (E_answered s _ _ c d r stop k); [reflexivity|rewrite Hk, Hi; reflexivity|exact Ho].
      * change (lookup s i = Some e) in He. pose proof (lookup_id s i e He) as [_ Hid]. apply (E_replaced s _ _ c e); try assumption; [rewrite Hid; exact He|congruence|].
        exists r. split; [exact Ho|]. split; [exact Hep|]. left. exists stop, k, d. rewrite Hid. split; [reflexivity|exact Hk].
    + injection Hs as Hs. exact (E_told s _ _ c code (cancel_ends (pop s k) x code s' t _ c Hbp Hs Hcp Hn)).
    + injection Hs as <- <-. change (lookup s (c_id c) = None) in Hn. congruence.
    + destruct (live (pop s k) i); [|discriminate]. injection Hs as <- <-. pose proof (gone_remove (pop s k) i _ c Hcp Hn) as Hi.
      apply (E_lost_ping s _ _ c stop k); [reflexivity|rewrite Hk, Hi; reflexivity].
  - destruct (find (fun c => list_eqb (c_tok c) (a_tok r)) (s_cbs s)) as [d|] eqn:Hf; [|injection Hs as <- <-; congruence]. apply find_some in Hf as [Hd _].
    exact (invoke_ends s d r s' t c _ Hb Hd Hc Hs Hn (or_introl eq_refl)).
  - destruct (find (is_id i) (s_cbs s)) as [d|] eqn:Hf; [|discriminate]. apply find_id in Hf as [Hd Hid]. rewrite <- Hid.
    exact (invoke_ends s d r s' t c _ Hb Hd Hc Hs Hn (or_intror eq_refl)).
  - destruct (find (is_id i) (s_cbs s)) as [d|] eqn:Hf; [|discriminate]. destruct tm; injection Hs as <- <-.
    + pose proof (gone_remove s i _ c Hc Hn) as <-. exact (E_lifetime s _ _ c eq_refl).
    + pose proof (gone_remove s i _ c Hc Hn) as <-. change (lookup s (c_id c) = Some d) in Hf. assert (d = c) by congruence. subst d. exact (E_told s _ _ c REQUEST_TIMEOUT eq_refl).
    + change (lookup s (c_id c) = None) in Hn. congruence.
Qed.
End Build.
