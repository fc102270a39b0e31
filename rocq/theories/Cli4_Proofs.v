From Verif Require Import Common Cli_Model Cli_Spec Cli_Proofs Cli2_Proofs Cli3_Proofs.
From Coq Require Import Lia.
Local Open Scope N_scope.

(* ---------- what a step can do to the list ---------- *)
Definition shrinks (s s' : st) : Prop :=
  (NoDup (map c_id (s_cbs s)) -> NoDup (map c_id (s_cbs s'))) /\ s_next s' = s_next s /\
  forall i c, lookup s' i = Some c -> exists c0, lookup s i = Some c0 /\ c_kind c0 = c_kind c.

Lemma shrinks_same s s' : s_cbs s' = s_cbs s -> s_next s' = s_next s -> shrinks s s'.
Proof. intros Hc Hn. unfold shrinks, lookup. rewrite Hc. split; [auto|]. split; [exact Hn|]. intros i c Hi. exists c. auto. Qed.
Lemma shrinks_trans s1 s2 s3 : shrinks s1 s2 -> shrinks s2 s3 -> shrinks s1 s3.
Proof.
  intros [A1 [B1 C1]] [A2 [B2 C2]]. split; [auto|]. split; [congruence|]. intros i c Hc. destruct (C2 i c Hc) as [c2 [Hc2 Hk2]]. destruct (C1 i c2 Hc2) as [c1 [Hc1 Hk1]].
  exists c1. split; [exact Hc1|congruence].
Qed.
Lemma shrinks_remove s i : shrinks s (remove i s).
Proof.
  split; [apply nodup_filter_ids|]. split; [reflexivity|]. intros j c. rewrite lookup_remove. destruct (j =? i); [discriminate|]. intros Hc. exists c. auto.
Qed.
Lemma shrinks_update s i f : keeps f -> shrinks s (update i f s).
Proof.
  intros Hk. split; [rewrite ids_update by (apply keeps_id, Hk); auto|]. split; [reflexivity|]. intros j c. rewrite lookup_update by (apply keeps_id, Hk).
  destruct (j =? i); [|intros Hc; exists c; auto]. destruct (lookup s j) as [d|]; [|discriminate]. intros [= <-]. exists d. split; [reflexivity|]. symmetry. apply Hk.
Qed.
Lemma shrinks_refl s : shrinks s s. Proof. apply shrinks_same; reflexivity. Qed.
Lemma shrinks_drop s i t : shrinks s (drop_timer i t s). Proof. apply shrinks_same; reflexivity. Qed.
Lemma shrinks_push s f : shrinks s (push s f). Proof. apply shrinks_same; reflexivity. Qed.

(* calls made by a step *)
Definition calls_ok (s s' : st) (t : list call) : Prop :=
  t = [] \/ exists i c w, t = [Called i (c_kind c) w] /\ lookup s i = Some c /\ (forall code, w = Cancelled code -> lookup s' i = None).

Lemma calls_from s0 s s' t : shrinks s0 s -> calls_ok s s' t -> calls_ok s0 s' t.
Proof.
  intros [_ [_ H]] [->|[i [c [w [-> [Hc Hw]]]]]]; [left; reflexivity|]. right. destruct (H i c Hc) as [c0 [Hc0 Hk]]. exists i, c0, w. rewrite Hk. auto.
Qed.

Lemma cancel_effect s x code s' t : NoDup (map c_id (s_cbs s)) -> cancel x code s = (s', t) -> shrinks s s' /\ calls_ok s s' t.
Proof.
  intros Hn. unfold cancel. destruct (find (cancellable x) (s_cbs s)) as [c|] eqn:Hf; intros [= <- <-].
  - split; [eapply shrinks_trans; [apply shrinks_remove|apply shrinks_push]|]. right. exists (c_id c), c, (Cancelled code). split; [reflexivity|].
    apply find_some in Hf as [Hc _]. split; [exact (find_in _ c Hn Hc)|]. intros _ _. exact (eq_trans (lookup_remove s (c_id c) (c_id c)) ltac:(rewrite N.eqb_refl; reflexivity)).
  - split; [apply shrinks_refl|left; reflexivity].
Qed.

Lemma set_observe_shrinks s c o ep : shrinks s (set_observe c o ep s).
Proof.
  unfold set_observe. destruct (o =? REGISTER)%Z; [|apply shrinks_update, keeps_obs].
  destruct (find (duplicate c ep) (s_cbs (update (c_id c) (set_obs o) s))); [|apply shrinks_update, keeps_obs].
  eapply shrinks_trans; [apply shrinks_update, keeps_obs|apply shrinks_remove].
Qed.

Section Build.
Variables oscore tcp : bool.

Lemma finish_effect s i d r stop s' t : NoDup (map c_id (s_cbs s)) -> finish tcp i d r stop s = Some (s', t) -> shrinks s s' /\ calls_ok s s' t.
Proof.
  intros Hn. unfold finish. destruct (find (is_id i) (s_cbs s)) as [c|].
  2:{ destruct (tcp || d && stop); [discriminate|]. intros [= <- <-]. split; [apply shrinks_refl|left; reflexivity]. }
  destruct (c_disc c && match a_body r with Payload _ => true | _ => false end && stop).
  { intros [= He]. pose proof (shrinks_update s i (set_busy false) (keeps_busy false)) as Hu.
    destruct (cancel_effect _ _ _ _ _ (proj1 Hu Hn) He) as [H1 H2]. split; [exact (shrinks_trans _ _ _ Hu H1)|exact (calls_from _ _ _ _ Hu H2)]. }
  set (s1 := if tcp && list_eqb (c_uri c) ping_uri then drop_timer i TPing s else s).
  assert (H1 : shrinks s s1) by (unfold s1; destruct (tcp && list_eqb (c_uri c) ping_uri); [apply shrinks_drop|apply shrinks_refl]). clearbody s1.
  assert (H2 : shrinks s (update i (set_busy false) s1)) by (eapply shrinks_trans; [exact H1|apply shrinks_update, keeps_busy]).
  destruct ((a_obs r =? NOT_SET)%Z && negb match a_body r with Empty true => true | _ => false end && negb (c_disc c)).
  - destruct (c_multi c).
    + destruct (c_stop c); [|intros [= <- <-]; split; [exact H2|left; reflexivity]]. intros [= He].
      destruct (cancel_effect _ _ _ _ _ (proj1 H2 Hn) He) as [H3 H4]. split; [exact (shrinks_trans _ _ _ H2 H3)|exact (calls_from _ _ _ _ H2 H4)].
    + intros [= <- <-]. split; [eapply shrinks_trans; [exact H2|apply shrinks_remove]|left; reflexivity].
  - intros [= <- <-]. split; [eapply shrinks_trans; [exact H2|apply set_observe_shrinks]|left; reflexivity].
Qed.

Lemma invoke_effect s c r s' t : NoDup (map c_id (s_cbs s)) -> In c (s_cbs s) -> invoke oscore tcp c r s = Some (s', t) -> shrinks s s' /\ calls_ok s s' t.
Proof.
  intros Hn Hc. unfold invoke. pose proof (shrinks_update s (c_id c) (set_busy true) (keeps_busy true)) as H1.
  destruct (oscore && (SEQ_START <=? a_obs r)%Z && (a_num r <? c_num c)); [intros [= <- <-]; split; [exact H1|left; reflexivity]|].
  set (s2 := if oscore && (SEQ_START <=? a_obs r)%Z then _ else _).
  assert (H2 : shrinks s s2).
  { unfold s2. destruct (oscore && (SEQ_START <=? a_obs r)%Z); [|exact H1]. eapply shrinks_trans; [exact H1|apply shrinks_update, keeps_num]. }
  clearbody s2.
  assert (Hfin : finish tcp (c_id c) (c_disc c) r false s2 = Some (s', t) -> shrinks s s' /\ calls_ok s s' t).
  { intros He. destruct (finish_effect _ _ _ _ _ _ _ (proj1 H2 Hn) He) as [H3 H4]. split; [exact (shrinks_trans _ _ _ H2 H3)|exact (calls_from _ _ _ _ H2 H4)]. }
  assert (Hh : Some (push s2 (FAnswer (c_id c) (c_disc c) r), [tell c Answered]) = Some (s', t) -> shrinks s s' /\ calls_ok s s' t).
  { intros [= <- <-]. split; [eapply shrinks_trans; [exact H2|apply shrinks_push]|]. right. exists (c_id c), c, Answered. split; [reflexivity|].
    split; [exact (find_in _ c Hn Hc)|discriminate]. }
  destruct (a_body r) as [ack|parses].
  - destruct ack; [exact Hfin|]. destruct (c_disc c); [exact Hfin|exact Hh].
  - destruct (c_disc c); [exact Hh|]. destruct parses; [exact Hh|exact Hfin].
Qed.

Definition base (s : st) : Prop := NoDup (map c_id (s_cbs s)) /\ forall i c, lookup s i = Some c -> i < s_next s.

Definition grows (s s' : st) : Prop :=
  base s' /\ s_next s <= s_next s' /\ forall i c, lookup s' i = Some c -> i < s_next s -> exists c0, lookup s i = Some c0 /\ c_kind c0 = c_kind c.

Lemma shrinks_grows s s' : base s -> shrinks s s' -> grows s s'.
Proof.
  intros [Hn Hb] [H1 [H2 H3]]. split; [|split; [lia|intros i c Hc _; exact (H3 i c Hc)]]. split; [auto|]. intros i c Hc. destruct (H3 i c Hc) as [c0 [Hc0 _]]. rewrite H2. exact (Hb i c0 Hc0).
Qed.
Lemma alloc_grows s q : base s -> grows s (alloc q s).
Proof.
  intros [Hn Hb]. assert (Hl : forall i, lookup (alloc q s) i = if i =? s_next s then Some (new_cb (s_next s) q) else lookup s i) by (intros i; apply lookup_alloc; intros c; apply Hb).
  split; [split|split].
  - cbn [alloc s_cbs]. rewrite map_app. cbn [map new_cb c_id]. apply NoDup_app_snoc; [exact Hn|].
    intros Hi. apply in_map_iff in Hi as [c [He Hc]]. pose proof (find_in _ c Hn Hc) as Hf. apply Hb in Hf. lia.
  - intros i c. rewrite Hl. cbn [alloc s_next]. destruct (N.eqb_spec i (s_next s)); [lia|]. intros Hc. apply Hb in Hc. lia.
  - cbn [alloc s_next]. lia.
  - intros i c Hc Hi. rewrite Hl in Hc. destruct (N.eqb_spec i (s_next s)); [lia|]. exists c. auto.
Qed.
Lemma grows_shrinks s s1 s2 : grows s s1 -> shrinks s1 s2 -> grows s s2.
Proof.
  intros [Hb [Hn Hl]] [H1 [H2 H3]]. split; [split|split].
  - apply H1, Hb.
  - intros i c Hc. destruct (H3 i c Hc) as [c0 [Hc0 _]]. rewrite H2. exact (proj2 Hb i c0 Hc0).
  - lia.
  - intros i c Hc Hi. destruct (H3 i c Hc) as [c1 [Hc1 Hk1]]. destruct (Hl i c1 Hc1 Hi) as [c0 [Hc0 Hk0]]. exists c0. split; [exact Hc0|congruence].
Qed.

Lemma arm_same i o tm s : s_cbs (arm i o tm s) = s_cbs s /\ s_next (arm i o tm s) = s_next s.
Proof. unfold arm. destruct (o =? NOT_SET)%Z, tm; split; reflexivity. Qed.

Lemma step_effect s o s' t : base s -> step oscore tcp s o = Some (s', t) -> grows s s' /\ calls_ok s s' t.
Proof.
  intros Hb. destruct o as [q r|q ok|tm ok|u e m r|i|x code|stop|r|i r|i tm]; cbn [step].
  - intros [= <- <-]. split; [|left; reflexivity]. eapply grows_shrinks; [exact (alloc_grows s q Hb)|]. unfold request.
    destruct (q_kind q), r; try apply shrinks_remove; try (apply shrinks_same; apply arm_same || reflexivity);
      try (eapply shrinks_trans; [apply shrinks_remove|apply shrinks_same; reflexivity]);
      try (match goal with |- shrinks _ (arm ?i ?o ?t ?s) => apply shrinks_same; [exact (proj1 (arm_same i o t s))|exact (proj2 (arm_same i o t s))] end).
  - intros [= <- <-]. split; [|left; reflexivity]. eapply grows_shrinks; [exact (alloc_grows s q Hb)|]. unfold init_request. destruct ok; [apply shrinks_same; reflexivity|apply shrinks_remove].
  - unfold do_request. destruct (s_pend s) as [i|].
    + destruct (find (is_id i) (s_cbs s)) as [c|]; [|discriminate]. destruct ok; cbn [option_map]; intros [= <- <-]; (split; [apply (shrinks_grows s _ Hb)|left; reflexivity]).
      * destruct (arm_same i (c_obs c) tm (set_pend s None)) as [H1 H2]. apply shrinks_same; [exact H1|exact H2].
      * eapply shrinks_trans; [apply shrinks_remove|apply shrinks_same; reflexivity].
    + destruct tm; [|discriminate]. cbn [option_map]. intros [= <- <-]. split; [apply (shrinks_grows s _ Hb), shrinks_refl|left; reflexivity].
  - intros [= <- <-]. split; [|left; reflexivity]. apply (shrinks_grows s _ Hb). unfold stop_observe. destruct (find (same_get u e) (s_cbs s)) as [c|]; [|apply shrinks_refl].
    assert (Hu : shrinks s (update (c_id c) (fun c => set_obs UNREGISTER (set_mid m c)) s)) by (apply shrinks_update; intros d; repeat split).
    destruct r; [exact Hu| |].
    + eapply shrinks_trans; [exact Hu|]. eapply shrinks_trans; [apply shrinks_remove|apply shrinks_same; reflexivity].
    + eapply shrinks_trans; [exact Hu|apply shrinks_same; reflexivity].
  - intros [= <- <-]. split; [|left; reflexivity]. apply (shrinks_grows s _ Hb), shrinks_update, keeps_stop.
  - intros [= He]. destruct (cancel_effect _ _ _ _ _ (proj1 Hb) He) as [H1 H2]. split; [exact (shrinks_grows s _ Hb H1)|exact H2].
  - destruct (s_stack s) as [|f k]; [intros [= <- <-]; split; [apply (shrinks_grows s _ Hb), shrinks_refl|left; reflexivity]|].
    set (s0 := mk_st (s_cbs s) (s_tm s) (s_next s) (s_pend s) k). assert (H0 : shrinks s s0) by (apply shrinks_same; reflexivity).
    destruct f as [i d r|[[x code]|]|i].
    + intros He. destruct (finish_effect s0 i d r stop s' t (proj1 Hb) He) as [H1 H2]. split; [exact (shrinks_grows s _ Hb (shrinks_trans _ _ _ H0 H1))|exact (calls_from _ _ _ _ H0 H2)].
    + intros [= He]. destruct (cancel_effect s0 x code s' t (proj1 Hb) He) as [H1 H2]. split; [exact (shrinks_grows s _ Hb (shrinks_trans _ _ _ H0 H1))|exact (calls_from _ _ _ _ H0 H2)].
    + intros [= <- <-]. split; [exact (shrinks_grows s _ Hb H0)|left; reflexivity].
    + destruct (live s0 i); [|discriminate]. intros [= <- <-]. split; [|left; reflexivity]. apply (shrinks_grows s _ Hb). eapply shrinks_trans; [exact H0|apply shrinks_remove].
  - destruct (find (fun c => list_eqb (c_tok c) (a_tok r)) (s_cbs s)) as [c|] eqn:Hf; [|intros [= <- <-]; split; [apply (shrinks_grows s _ Hb), shrinks_refl|left; reflexivity]].
    apply find_some in Hf as [Hc _]. intros He. destruct (invoke_effect s c r s' t (proj1 Hb) Hc He) as [H1 H2]. split; [exact (shrinks_grows s _ Hb H1)|exact H2].
  - destruct (find (is_id i) (s_cbs s)) as [c|] eqn:Hf; [|discriminate].
    apply find_id in Hf as [Hc _]. intros He. destruct (invoke_effect s c r s' t (proj1 Hb) Hc He) as [H1 H2]. split; [exact (shrinks_grows s _ Hb H1)|exact H2].
  - destruct (find (is_id i) (s_cbs s)) as [c|] eqn:Hf; [|discriminate]. pose proof (find_id _ _ _ Hf) as [_ Hid].
    destruct tm; intros [= <- <-].
    + split; [apply (shrinks_grows s _ Hb), shrinks_remove|left; reflexivity].
    + split; [apply (shrinks_grows s _ Hb); eapply shrinks_trans; [apply shrinks_remove|apply shrinks_push]|]. right. exists (c_id c), c, (Cancelled REQUEST_TIMEOUT).
      split; [reflexivity|]. rewrite Hid. split; [exact Hf|]. intros _ _. exact (eq_trans (lookup_remove s i i) ltac:(rewrite N.eqb_refl; reflexivity)).
    + split; [apply (shrinks_grows s _ Hb); eapply shrinks_trans; [apply shrinks_drop|apply shrinks_push]|]. right. exists (c_id c), c, PingLost.
      split; [reflexivity|]. rewrite Hid. split; [exact Hf|discriminate].
Qed.

Lemma base_start : base start.
Proof. split; [constructor|discriminate]. Qed.

(* ---------- a cancelled request hears nothing more ---------- *)
Definition hist_ok (s : st) (t : list call) : Prop :=
  base s /\
  (forall x, In x t -> k_id x < s_next s) /\
  (forall x c, In x t -> lookup s (k_id x) = Some c -> c_kind c = k_kind x) /\
  (forall x code, In x t -> k_why x = Cancelled code -> lookup s (k_id x) = None) /\
  (forall t1 x t2 code, t = t1 ++ x :: t2 -> k_why x = Cancelled code -> ~ In (k_id x) (map k_id t2)).

Lemma app_one {A} (t : list A) y t1 x t2 : t ++ [y] = t1 ++ x :: t2 -> (t2 = [] /\ x = y /\ t1 = t) \/ exists t2', t2 = t2' ++ [y] /\ t = t1 ++ x :: t2'.
Proof.
  revert t1. induction t as [|a t IH]; intros t1 He.
  - destruct t1 as [|b t1]; cbn [app] in He; [|destruct t1; discriminate]. injection He as -> <-. left. auto.
  - destruct t1 as [|b t1]; cbn [app] in He.
    + injection He as <- <-. right. exists t. auto.
    + injection He as <- He. destruct (IH t1 He) as [[-> [-> ->]]|[t2' [-> ->]]]; [left; auto|]. right. exists t2'. auto.
Qed.

Lemma hist_step s t o s' t' : hist_ok s t -> step oscore tcp s o = Some (s', t') -> hist_ok s' (t ++ t').
Proof.
  intros [Hb [Hn [Hk [Hd Hf]]]] Hs. destruct (step_effect s o s' t' Hb Hs) as [[Hb' [Hm Hl]] Hc].
  assert (Hdead : forall i, i < s_next s -> lookup s i = None -> lookup s' i = None).
  { intros i Hi He. destruct (lookup s' i) as [c|] eqn:Hx; [|reflexivity]. destruct (Hl i c Hx Hi) as [c0 [Hc0 _]]. congruence. }
  assert (Hkind : forall x c, In x t -> lookup s' (k_id x) = Some c -> c_kind c = k_kind x).
  { intros x c Hx Hlx. destruct (Hl _ c Hlx (Hn x Hx)) as [c0 [Hc0 Hk0]]. rewrite <- Hk0. exact (Hk x c0 Hx Hc0). }
  destruct Hc as [->|[i [c [w [-> [Hi Hw]]]]]].
  - rewrite app_nil_r. split; [exact Hb'|]. split; [intros x Hx; specialize (Hn x Hx); lia|]. split; [exact Hkind|]. split; [|exact Hf].
    intros x code Hx Hwx. exact (Hdead _ (Hn x Hx) (Hd x code Hx Hwx)).
  - pose proof (proj2 Hb i c Hi) as Hin. split; [exact Hb'|]. split; [|split; [|split]].
    + intros x Hx. apply in_app_iff in Hx as [Hx|[<-|[]]]; [specialize (Hn x Hx); lia|]. cbn [k_id]. lia.
    + intros x d Hx. apply in_app_iff in Hx as [Hx|[<-|[]]]; [exact (Hkind x d Hx)|]. cbn [k_id k_kind]. intros Hd'.
      destruct (Hl i d Hd' Hin) as [c0 [Hc0 Hk0]]. congruence.
    + intros x code Hx Hwx. apply in_app_iff in Hx as [Hx|[<-|[]]]; [exact (Hdead _ (Hn x Hx) (Hd x code Hx Hwx))|]. exact (Hw code Hwx).
    + intros t1 x t2 code He Hwx. apply app_one in He as [[-> _]|[t2' [-> He]]]; [exact (fun h => h)|].
      rewrite map_app, in_app_iff. intros [Hx|[Hx|[]]]; [exact (Hf t1 x t2' code He Hwx Hx)|]. cbn [k_id] in Hx.
      assert (Hxt : In x t) by (rewrite He; apply in_elt). pose proof (Hd x code Hxt Hwx). congruence.
Qed.

Lemma history_hist ok s t : history oscore tcp ok s t -> hist_ok s t.
Proof.
  intros Hh. induction Hh as [|s t o s' t' Hh IH Hm Ho Hs].
  - split; [exact base_start|]. split; [easy|]. split; [easy|]. split; [easy|]. intros [|] x t2 code He; discriminate.
  - exact (hist_step s t o s' t' IH Hs).
Qed.

Lemma told_last ok s t1 x t2 code : history oscore tcp ok s (t1 ++ x :: t2) -> k_why x = Cancelled code -> ~ In (k_id x) (map k_id t2).
Proof. intros Hh. destruct (history_hist ok s _ Hh) as [_ [_ [_ [_ Hf]]]]. exact (Hf t1 x t2 code eq_refl). Qed.
End Build.
