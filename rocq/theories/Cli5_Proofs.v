From Verif Require Import Common Cli_Model Cli_Spec Cli_Proofs Cli2_Proofs Cli3_Proofs Cli4_Proofs.
From Coq Require Import Lia.
Local Open Scope N_scope.

Definition proper (r : resp) : Prop := a_obs r = NOT_SET /\ a_body r <> Empty true.
(* the handler of the request runs, for the last time *)
Definition last_run (s : st) (i : N) : Prop := In (FPing i) (s_stack s) \/ exists d r, In (FAnswer i d r) (s_stack s) /\ proper r.

Section Build.
Variables oscore tcp : bool.
Notation B := (fun _ : N => oscore = true).
Definition good (s : st) (o : op) : bool := careful s o && plain s o.

Definition once_ok (s : st) (t : list call) : Prop :=
  (forall x, In x t -> once (k_kind x) = true -> lookup s (k_id x) = None \/ last_run s (k_id x)) /\
  NoDup (map k_id (filter (fun x => once (k_kind x)) t)).

(* effect of a step on the handlers that run *)
Lemma cancel_stack s x code s' t : cancel x code s = (s', t) -> (s_stack s' = s_stack s /\ t = []) \/
  exists c, find (cancellable x) (s_cbs s) = Some c /\ s_stack s' = FCancel (Some (x, code)) :: s_stack s /\ t = [tell c (Cancelled code)].
Proof.
  unfold cancel. destruct (find (cancellable x) (s_cbs s)) as [c|]; intros [= <- <-]; [right; exists c; auto|left; auto].
Qed.

Lemma finish_last s i d r stop s' t : base s -> proper r -> (forall c, lookup s i = Some c -> once (c_kind c) = true) ->
  finish tcp i d r stop s = Some (s', t) -> lookup s' i = None /\ t = [].
Proof.
  intros Hb [Ho He] Hk. unfold finish. change (find (is_id i) (s_cbs s)) with (lookup s i). destruct (lookup s i) as [c|] eqn:Hc.
  2:{ destruct (tcp || d && stop); [discriminate|]. intros [= <- <-]. auto. }
  specialize (Hk c eq_refl). assert (Hd : c_disc c = false /\ c_multi c = false) by (unfold c_disc, c_multi; destruct (c_kind c); try discriminate; auto).
  destruct Hd as [Hd Hm]. rewrite Hd, Hm, Ho. cbn [andb negb]. change (NOT_SET =? NOT_SET)%Z with true. cbn [andb].
  destruct (a_body r) as [[|]|]; try contradiction; cbn [andb negb]; intros [= <- <-]; (split; [|reflexivity]); rewrite lookup_remove, N.eqb_refl; reflexivity.
Qed.

Lemma finish_call s i d r stop s' t : base s -> finish tcp i d r stop s = Some (s', t) -> t <> [] -> exists c, lookup s i = Some c /\ once (c_kind c) = false.
Proof.
  intros Hb. unfold finish. change (find (is_id i) (s_cbs s)) with (lookup s i). destruct (lookup s i) as [c|] eqn:Hc.
  2:{ destruct (tcp || d && stop); [discriminate|]. intros [= <- <-] Hn. destruct (Hn eq_refl). }
  destruct (c_disc c) eqn:Hd.
  { intros _ _. exists c. split; [reflexivity|]. unfold c_disc in Hd. destruct (c_kind c); try discriminate; reflexivity. }
  destruct (c_multi c) eqn:Hm.
  { intros _ _. exists c. split; [reflexivity|]. unfold c_multi in Hm. destruct (c_kind c); try discriminate; reflexivity. }
  cbn [andb]. destruct ((a_obs r =? NOT_SET)%Z && _ && _); intros [= <- <-] Hn; destruct (Hn eq_refl).
Qed.

Lemma lookup_unique (P : st -> Prop) s i c d : lookup s i = Some c -> lookup s i = Some d -> c = d.
Proof. congruence. Qed.

Lemma once_new s t x : once_ok s t -> (once (k_kind x) = true -> lookup s (k_id x) <> None /\ ~ last_run s (k_id x)) ->
  NoDup (map k_id (filter (fun x => once (k_kind x)) (t ++ [x]))).
Proof.
  intros [H1 H2] Hx. rewrite filter_app. cbn [filter]. destruct (once (k_kind x)) eqn:Ho; [|rewrite app_nil_r; exact H2].
  rewrite map_app. cbn [map]. apply NoDup_app_snoc; [exact H2|]. intros Hi. apply in_map_iff in Hi as [y [He Hy]]. apply filter_In in Hy as [Hy Hoy].
  destruct (Hx eq_refl) as [Ha Hb]. destruct (H1 y Hy Hoy) as [Hn|Hn]; rewrite He in Hn; [exact (Ha Hn)|exact (Hb Hn)].
Qed.

Lemma cancelled_not_last s x c : inv B s -> find (cancellable x) (s_cbs s) = Some c ->
  (forall i d, In (FPing i) (s_stack s) -> lookup s i = Some d -> concerns x d = false) -> ~ last_run s (c_id c).
Proof.
  intros H Hf Hx. apply find_some in Hf as [Hc Hm]. rewrite cancellable_spec in Hm. apply andb_true_iff in Hm as [Hm Hcn]. apply andb_true_iff in Hm as [_ Hb].
  pose proof (in_lookup B s c H Hc) as Hl. intros [Hi|[d [r [Hi _]]]].
  - rewrite (Hx _ c Hi Hl) in Hcn. discriminate.
  - rewrite (running_busy B s _ c H (ex_intro _ d (ex_intro _ r Hi)) Hl) in Hb. discriminate.
Qed.

Lemma once_cancel s t x code s' t' : inv B s -> hist_ok s t -> hist_ok s' (t ++ t') -> once_ok s t ->
  (forall i d, In (FPing i) (s_stack s) -> lookup s i = Some d -> concerns x d = false) ->
  cancel x code s = (s', t') -> once_ok s' (t ++ t').
Proof.
  intros H [Hb [Hn _]] Hh' Ho Hx Hcan. destruct (cancel_effect s x code s' t' (proj1 Hb) Hcan) as [Hsh Hco].
  assert (Hdead : forall i, lookup s i = None -> lookup s' i = None).
  { intros i He. destruct (lookup s' i) as [c|] eqn:Hl; [|reflexivity]. destruct (proj2 (proj2 Hsh) i c Hl) as [c0 [Hc0 _]]. congruence. }
  destruct (cancel_stack s x code s' t' Hcan) as [[Hk ->]|[c [Hf [Hk ->]]]].
  - rewrite app_nil_r. destruct Ho as [H1 H2]. split; [|exact H2]. intros y Hy Hoy. destruct (H1 y Hy Hoy) as [Hl|Hl]; [left; auto|right]. unfold last_run. rewrite Hk. exact Hl.
  - split.
    + intros y Hy Hoy. apply in_app_iff in Hy as [Hy|[<-|[]]].
      * destruct (proj1 Ho y Hy Hoy) as [Hl|Hl]; [left; auto|right]. unfold last_run. rewrite Hk. destruct Hl as [Hl|[d [r [Hl Hp]]]]; [left; right; exact Hl|].
        right. exists d, r. split; [right; exact Hl|exact Hp].
      * left. destruct Hh' as [_ [_ [_ [Hd _]]]]. apply (Hd (tell c (Cancelled code)) code); [apply in_app_iff; right; left; reflexivity|reflexivity].
    + apply (once_new s t); [exact Ho|]. intros _. split; [|exact (cancelled_not_last s x c H Hf Hx)].
      apply find_some in Hf as [Hc _]. cbn [tell k_id]. rewrite (in_lookup B s c H Hc). discriminate.
Qed.

Lemma invoke_cases s c r s' t : invoke oscore tcp c r s = Some (s', t) ->
  (t = [] /\ s_stack s' = s_stack s /\ oscore = true /\ (SEQ_START <= a_obs r)%Z) \/
  (exists s2, shrinks s s2 /\ s_stack s2 = s_stack s /\ finish tcp (c_id c) (c_disc c) r false s2 = Some (s', t)) \/
  (s_stack s' = FAnswer (c_id c) (c_disc c) r :: s_stack s /\ t = [tell c Answered] /\ a_body r <> Empty true).
Proof.
  unfold invoke. pose proof (shrinks_update s (c_id c) (set_busy true) (keeps_busy true)) as H1.
  destruct (oscore && (SEQ_START <=? a_obs r)%Z && (a_num r <? c_num c)) eqn:Hold.
  { intros [= <- <-]. left. apply andb_true_iff in Hold as [Hold _]. apply andb_true_iff in Hold as [Ho Hs]. apply Z.leb_le in Hs. auto. }
  set (s2 := if oscore && (SEQ_START <=? a_obs r)%Z then _ else _).
  assert (H2 : shrinks s s2 /\ s_stack s2 = s_stack s).
  { unfold s2. destruct (oscore && (SEQ_START <=? a_obs r)%Z); [|split; [exact H1|reflexivity]]. split; [eapply shrinks_trans; [exact H1|apply shrinks_update, keeps_num]|reflexivity]. }
  clearbody s2. destruct H2 as [H2 Hk].
  assert (Hfin : finish tcp (c_id c) (c_disc c) r false s2 = Some (s', t) -> exists s2, shrinks s s2 /\ s_stack s2 = s_stack s /\ finish tcp (c_id c) (c_disc c) r false s2 = Some (s', t)).
  { intros He. exists s2. auto. }
  assert (Hh : a_body r <> Empty true -> Some (push s2 (FAnswer (c_id c) (c_disc c) r), [tell c Answered]) = Some (s', t) ->
     s_stack s' = FAnswer (c_id c) (c_disc c) r :: s_stack s /\ t = [tell c Answered] /\ a_body r <> Empty true).
  { intros Hb [= <- <-]. cbn [push s_stack]. rewrite Hk. auto. }
  destruct (a_body r) as [ack|parses].
  - destruct ack; [intros He; right; left; exact (Hfin He)|]. destruct (c_disc c); [intros He; right; left; exact (Hfin He)|intros He; right; right; apply Hh; [discriminate|exact He]].
  - destruct (c_disc c); [intros He; right; right; apply Hh; [discriminate|exact He]|]. destruct parses; [intros He; right; right; apply Hh; [discriminate|exact He]|intros He; right; left; exact (Hfin He)].
Qed.

Lemma once_invoke s t c r s' t' : inv B s -> hist_ok s t -> hist_ok s' (t ++ t') -> once_ok s t -> s_stack s = [] -> In c (s_cbs s) ->
  (once (c_kind c) = true -> a_obs r = NOT_SET) -> grows s s' -> calls_ok s s' t' -> invoke oscore tcp c r s = Some (s', t') -> once_ok s' (t ++ t').
Proof.
  intros H [Hb [Hn [Hkd _]]] Hh' Ho Hk Hc Hpl [_ [_ Hg]] Hco Hi.
  assert (Hnl : forall i, ~ last_run s i) by (intros i [Hx|[d [r' [Hx _]]]]; rewrite Hk in Hx; destruct Hx).
  assert (Hold : forall y, In y t -> once (k_kind y) = true -> lookup s' (k_id y) = None).
  { intros y Hy Hoy. destruct (proj1 Ho y Hy Hoy) as [Hl|Hl]; [|destruct (Hnl _ Hl)]. destruct (lookup s' (k_id y)) as [d|] eqn:Hd; [|reflexivity].
    destruct (Hg _ d Hd (Hn y Hy)) as [d0 [Hd0 _]]. congruence. }
  assert (Hlc := in_lookup B s c H Hc).
  destruct (invoke_cases s c r s' t' Hi) as [[-> [Hk' _]]|[[s2 [Hsh [Hk2 Hf]]]|[Hk' [-> Hbd]]]].
  - rewrite app_nil_r. split; [intros y Hy Hoy; left; auto|exact (proj2 Ho)].
  - destruct t' as [|x t''].
    { rewrite app_nil_r. split; [intros y Hy Hoy; left; auto|exact (proj2 Ho)]. }
    destruct Hco as [He|[i [d [w [He [Hd Hw]]]]]]; [discriminate|]. injection He as -> ->.
    split.
    + intros y Hy Hoy. apply in_app_iff in Hy as [Hy|[<-|[]]]; [left; auto|]. left. cbn [k_id]. apply (Hw CANCELLED).
      clear - Hf. unfold finish in Hf. destruct (find (is_id (c_id c)) (s_cbs s2)) as [c2|]; [|destruct (tcp || c_disc c && false); discriminate].
      destruct (c_disc c2 && _ && false).
      { injection Hf as Hf. destruct (cancel_stack _ _ _ _ _ Hf) as [[_ He]|[e [_ [_ He]]]]; [discriminate|]. injection He as _ _ ->. reflexivity. }
      destruct ((a_obs r =? NOT_SET)%Z && _ && _); [|discriminate]. destruct (c_multi c2); [|discriminate]. destruct (c_stop c2); [|discriminate].
      injection Hf as Hf. destruct (cancel_stack _ _ _ _ _ Hf) as [[_ He]|[e [_ [_ He]]]]; [discriminate|]. injection He as _ _ ->. reflexivity.
    + apply (once_new s t); [exact Ho|]. intros _. split; [cbn [k_id]; congruence|apply Hnl].
  - split.
    + intros y Hy Hoy. apply in_app_iff in Hy as [Hy|[<-|[]]]; [left; auto|]. right. right. exists (c_disc c), r. rewrite Hk'. cbn [tell k_id k_kind] in *.
      split; [left; reflexivity|]. split; [exact (Hpl Hoy)|exact Hbd].
    + apply (once_new s t); [exact Ho|]. intros _. split; [cbn [tell k_id]; congruence|apply Hnl].
Qed.

Lemma once_step s t o s' t' : inv B s -> hist_ok s t -> once_ok s t -> may s o = true -> careful s o = true -> plain s o = true ->
  step oscore tcp s o = Some (s', t') -> once_ok s' (t ++ t').
Proof.
  intros H Hh Ho Hm Hcf Hpl Hs. pose proof (hist_step oscore tcp s t o s' t' Hh Hs) as Hh'.
  destruct (step_effect oscore tcp s o s' t' (proj1 Hh) Hs) as [Hg Hco].
  assert (Hdead : forall i, i < s_next s -> lookup s i = None -> lookup s' i = None).
  { intros i Hi He. destruct (lookup s' i) as [c|] eqn:Hx; [|reflexivity]. destruct (proj2 (proj2 Hg) i c Hx Hi) as [c0 [Hc0 _]]. congruence. }
  assert (Hlt : forall y, In y t -> k_id y < s_next s) by exact (proj1 (proj2 Hh)).
  assert (Hq : t' = [] -> s_stack s' = s_stack s -> once_ok s' (t ++ t')).
  { intros -> Hk. rewrite app_nil_r. split; [|exact (proj2 Ho)]. intros y Hy Hoy. destruct (proj1 Ho y Hy Hoy) as [Hl|Hl]; [left; auto|right]. unfold last_run. rewrite Hk. exact Hl. }
  destruct o as [q r|q ok|tm ok|u e m r|i|x code|stop|r|i r|i tm]; cbn [step] in Hs.
  - injection Hs as <- <-. apply Hq; [reflexivity|]. unfold request, arm. destruct (q_kind q), r, (q_timeout q); reflexivity.
  - injection Hs as <- <-. apply Hq; [reflexivity|]. unfold init_request. destruct ok; reflexivity.
  - unfold do_request in Hs. destruct (s_pend s) as [i|].
    + destruct (find (is_id i) (s_cbs s)) as [c|]; [|discriminate]. destruct ok; cbn [option_map] in Hs; injection Hs as <- <-; apply Hq; try reflexivity.
      unfold arm. destruct (c_obs c =? NOT_SET)%Z, tm; reflexivity.
    + destruct tm; [|discriminate]. injection Hs as <- <-. apply Hq; reflexivity.
  - injection Hs as <- <-. apply Hq; [reflexivity|]. unfold stop_observe. destruct (find (same_get u e) (s_cbs s)); [|reflexivity]. destruct r; reflexivity.
  - injection Hs as <- <-. apply Hq; reflexivity.
  - assert (Hcan : cancel x code s = (s', t')) by congruence. apply (once_cancel s t x code s' t' H Hh Hh' Ho); [|exact Hcan]. intros i c Hi Hc.
    unfold careful in Hcf. destruct (s_pend s); [discriminate|]. rewrite forallb_forall in Hcf. specialize (Hcf _ Hi). cbv beta iota in Hcf. rewrite forallb_forall in Hcf.
    destruct (lookup_id s i c Hc) as [Hin Hid]. specialize (Hcf c Hin). rewrite Hid, N.eqb_refl in Hcf. destruct (concerns x c); [discriminate|reflexivity].
  - destruct (s_stack s) as [|f k] eqn:Hk; [injection Hs as <- <-; apply Hq; [reflexivity|exact Hk]|].
    change (mk_st (s_cbs s) (s_tm s) (s_next s) (s_pend s) k) with (pop s k) in Hs.
    assert (Hhp : hist_ok (pop s k) t) by exact Hh. assert (Hbp : base (pop s k)) by exact (proj1 Hh).
    destruct f as [i d r|x|i].
    + pose proof (i_stack _ s H) as Hst. rewrite Hk in Hst. destruct k; [|destruct Hst]. destruct Hst as [c [Hc [Hb Hd]]].
      assert (Hrun : forall y, In y t -> once (k_kind y) = true -> lookup s (k_id y) <> None -> k_id y = i /\ proper r).
      { intros y Hy Hoy Hl. destruct (proj1 Ho y Hy Hoy) as [Hn|[Hn|[d' [r' [Hn Hp]]]]]; [contradiction| |]; rewrite Hk in Hn; destruct Hn as [Hn|[]]; [discriminate|].
        injection Hn as <- _ <-. split; [reflexivity|exact Hp]. }
      assert (Hold : forall y, In y t -> once (k_kind y) = true -> lookup s' (k_id y) = None).
      { intros y Hy Hoy. destruct (lookup s (k_id y)) as [e|] eqn:He; [|apply Hdead; auto].
        destruct (Hrun y Hy Hoy ltac:(congruence)) as [Hi Hp]. rewrite Hi in *. refine (proj1 (finish_last (pop s []) i d r stop s' t' Hbp Hp _ Hs)).
        intros e' He'. change (lookup s i = Some e') in He'. destruct Hh as [_ [_ [Hkd _]]]. rewrite (Hkd y e' Hy); [exact Hoy|]. rewrite Hi. exact He'. }
      destruct t' as [|z t'']; [rewrite app_nil_r; split; [intros y Hy Hoy; left; auto|exact (proj2 Ho)]|].
      destruct (finish_call (pop s []) i d r stop s' (z :: t'') Hbp Hs ltac:(discriminate)) as [c' [Hc' Hoc]].
      change (lookup s i = Some c') in Hc'. assert (c' = c) by congruence. subst c'.
      destruct Hco as [He|[j [e [w [He [Hj Hw]]]]]]; [discriminate|]. injection He as -> ->.
      assert (Hwc : w = Cancelled CANCELLED).
      { clear - Hs. unfold finish in Hs. destruct (find (is_id i) (s_cbs (pop s []))) as [c2|]; [|destruct (tcp || d && stop); discriminate].
        destruct (c_disc c2 && _ && stop).
        { injection Hs as Hs. destruct (cancel_stack _ _ _ _ _ Hs) as [[_ He]|[e' [_ [_ He]]]]; [discriminate|]. injection He as _ _ ->. reflexivity. }
        destruct ((a_obs r =? NOT_SET)%Z && _ && _); [|discriminate]. destruct (c_multi c2); [|discriminate]. destruct (c_stop c2); [|discriminate].
        injection Hs as Hs. destruct (cancel_stack _ _ _ _ _ Hs) as [[_ He]|[e' [_ [_ He]]]]; [discriminate|]. injection He as _ _ ->. reflexivity. }
      split.
      * intros y Hy Hoy. apply in_app_iff in Hy as [Hy|[<-|[]]]; [left; auto|]. left. exact (Hw CANCELLED Hwc).
      * apply (once_new s t); [exact Ho|]. cbn [k_kind k_id]. intros Hoe. split; [congruence|]. intros [Hl|[d' [r' [Hl _]]]]; rewrite Hk in Hl; destruct Hl as [Hl|[]]; [discriminate|].
        injection Hl as <- _ _. rewrite Hc in Hj. injection Hj as ->. congruence.
    + pose proof (pop_cancel oscore s x k H Hk) as Hpop.
      assert (Hop : once_ok (pop s k) t).
      { split; [|exact (proj2 Ho)]. intros y Hy Hoy. destruct (proj1 Ho y Hy Hoy) as [Hl|[Hl|[d [r [Hl Hp]]]]]; [left; exact Hl| |]; rewrite Hk in Hl; (destruct Hl as [Hl|Hl]; [discriminate|]);
          right; [left; exact Hl|right; exists d, r; split; [exact Hl|exact Hp]]. }
      destruct x as [[x code]|].
      * assert (Hcan : cancel x code (pop s k) = (s', t')) by congruence. apply (once_cancel (pop s k) t x code s' t' Hpop Hhp Hh' Hop); [|exact Hcan].
        intros i c Hi Hc. apply (i_spare _ s H i x code c); [rewrite Hk; right; exact Hi|rewrite Hk; left; reflexivity|exact Hc].
      * injection Hs as <- <-. rewrite app_nil_r. exact Hop.
    + pose proof (i_stack _ s H) as Hst. rewrite Hk in Hst. destruct k; [|destruct Hst]. destruct (live (pop s []) i); [|discriminate]. injection Hs as <- <-.
      rewrite app_nil_r. split; [|exact (proj2 Ho)]. intros y Hy Hoy. left. rewrite lookup_remove. destruct (N.eqb_spec (k_id y) i) as [|Hne]; [reflexivity|].
      destruct (proj1 Ho y Hy Hoy) as [Hl|[Hl|[d [r [Hl _]]]]]; [exact Hl| |]; rewrite Hk in Hl; destruct Hl as [Hl|[]]; [|discriminate]. injection Hl as ->. destruct (Hne eq_refl).
  - assert (Hk : s_stack s = []) by (cbn [may] in Hm; unfold main_loop in Hm; destruct (s_stack s); [reflexivity|discriminate]).
    destruct (find (fun c => list_eqb (c_tok c) (a_tok r)) (s_cbs s)) as [c|] eqn:Hf; [|injection Hs as <- <-; apply Hq; reflexivity].
    apply find_some in Hf as [Hc Htk]. apply (once_invoke s t c r s' t' H Hh Hh' Ho Hk Hc); [|exact Hg|exact Hco|exact Hs].
    intros Hoc. cbn [plain] in Hpl. rewrite forallb_forall in Hpl. specialize (Hpl c Hc). rewrite Htk, Hoc in Hpl. cbn [negb orb] in Hpl. apply Z.eqb_eq in Hpl. exact Hpl.
  - assert (Hk : s_stack s = []) by (cbn [may] in Hm; unfold main_loop in Hm; destruct (s_stack s); [reflexivity|discriminate]).
    destruct (find (is_id i) (s_cbs s)) as [c|] eqn:Hf; [|discriminate].
    apply find_id in Hf as [Hc Hid]. apply (once_invoke s t c r s' t' H Hh Hh' Ho Hk Hc); [|exact Hg|exact Hco|exact Hs].
    intros Hoc. cbn [plain] in Hpl. rewrite forallb_forall in Hpl. specialize (Hpl c Hc). rewrite Hid, N.eqb_refl, Hoc in Hpl. cbn [negb orb] in Hpl. apply Z.eqb_eq in Hpl. exact Hpl.
  - assert (Hk : s_stack s = []) by (cbn [may] in Hm; unfold main_loop in Hm; destruct (s_stack s); [reflexivity|discriminate]).
    destruct (find (is_id i) (s_cbs s)) as [c|] eqn:Hf; [|discriminate]. pose proof (find_id _ _ _ Hf) as [_ Hid].
    assert (Hnl : forall i, ~ last_run s i) by (intros j [Hx|[d [r' [Hx _]]]]; rewrite Hk in Hx; destruct Hx).
    assert (Hold : forall y, In y t -> once (k_kind y) = true -> lookup s' (k_id y) = None).
    { intros y Hy Hoy. destruct (proj1 Ho y Hy Hoy) as [Hl|Hl]; [|destruct (Hnl _ Hl)]. apply Hdead; auto. }
    destruct tm; injection Hs as <- <-.
    + rewrite app_nil_r. split; [intros y Hy Hoy; left; auto|exact (proj2 Ho)].
    + split.
      * intros y Hy Hoy. left. apply in_app_iff in Hy as [Hy|[<-|[]]]; [auto|]. cbn [tell k_id]. rewrite Hid.
        exact (eq_trans (lookup_remove s i i) ltac:(rewrite N.eqb_refl; reflexivity)).
      * apply (once_new s t); [exact Ho|]. intros _. split; [|apply Hnl]. cbn [tell k_id]. rewrite Hid. change (lookup s i = Some c) in Hf. congruence.
    + split.
      * intros y Hy Hoy. apply in_app_iff in Hy as [Hy|[<-|[]]]; [left; exact (Hold y Hy Hoy)|]. right. left. cbn [tell k_id push s_stack]. rewrite Hid. left. reflexivity.
      * apply (once_new s t); [exact Ho|]. intros _. split; [|apply Hnl]. cbn [tell k_id]. rewrite Hid. change (lookup s i = Some c) in Hf. congruence.
Qed.

Lemma once_history s t : history oscore tcp good s t -> inv B s /\ once_ok s t.
Proof.
  intros Hh. assert (Hgc : forall s o, good s o = true -> careful s o = true) by (intros s0 o Hg; apply andb_true_iff in Hg; apply Hg).
  split; [exact (proj1 (history_inv oscore tcp good s t Hgc Hh))|].
  induction Hh as [|s t o s' t' Hh IH Hm Hg Hs]; [split; [easy|constructor]|].
  destruct (history_inv oscore tcp good s t Hgc Hh) as [Hi _]. apply andb_true_iff in Hg as [Hc Hp].
  exact (once_step s t o s' t' Hi (history_hist oscore tcp good s t Hh) IH Hm Hc Hp Hs).
Qed.
End Build.
