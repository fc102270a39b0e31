(* Every operation keeps the manager of a registered device going. *)
From Coq Require Import List Bool Arith ZArith Lia.
Import ListNotations.
From Verif Require Import Cm_Model Cm_Spec Cm_Proofs Cm2_Proofs Cm3_Proofs Cm4_Proofs.

Lemma MS_J : forall b s, J b s -> mgr s = true -> subs s = true.
Proof. intros b s (_ & B & _). exact B. Qed.

Lemma Inv_unreg : forall s, s_reg (st s) = false -> J true s -> Inv s.
Proof.
  intros s R HJ. split; [apply T_unreg; exact R |]. split; [exact HJ |].
  intros _ _ X. congruence.
Qed.

Lemma Inv_clear : forall ces x, (mgr x = true -> subs x = true) ->
  Inv (ctx_clear (close ces) x).
Proof.
  intros ces x H. apply Inv_unreg.
  - rewrite (proj1 (clear_fields _ x (frame_close ces))). reflexivity.
  - apply J_clear; [apply frame_close | exact H].
Qed.

Lemma Inv_busy : forall s, T s -> J true s -> busy s = true -> Inv s.
Proof. intros s HT HJ B. split; [exact HT |]. split; [exact HJ |]. intros _ _ _. auto. Qed.

Lemma progress_keeps : forall s s', keeps s s' ->
  (s_reg (st s') = true -> s_reg (st s) = true) ->
  (s_log (st s) = true -> s_log (st s') = true) -> progress s -> progress s'.
Proof.
  intros s s' K R LG H M O X. unfold keeps in K.
  destruct K as (K1 & K2 & K3 & K4 & K5 & K6 & K7 & K8 & K9 & K10).
  rewrite K1 in M. rewrite K2 in O. destruct (H M O (R X)) as [B | B]; [auto |].
  right. unfold online in *. rewrite !andb_true_iff in B.
  destruct B as ((((B1 & B2) & B3) & B4) & B5).
  rewrite (LG B1), K5, (K6 B3), (K7 B3 B4), K3, B2, B5. reflexivity.
Qed.

Lemma Inv_keeps : forall s s', keeps s s' -> st s' = st s -> tok s' = tok s ->
  Inv s -> Inv s'.
Proof.
  intros s s' K A B (HT & HJ & HP). split; [eapply T_eq; eassumption |].
  split; [eapply J_keeps; eassumption |].
  eapply progress_keeps; [exact K | | | exact HP]; rewrite A; auto.
Qed.

(* ---- API calls ---- *)

Definition quiet (s s' : ctx) : Prop := keeps s s' /\ st s' = st s /\ tok s' = tok s.

Lemma quiet_refl : forall s, quiet s s.
Proof. intros s. split; [apply keeps_refl | auto]. Qed.
Lemma quiet_trans : forall a b c, quiet a b -> quiet b c -> quiet a c.
Proof.
  intros a b c (A & B & C) (A' & B' & C'). split; [eapply keeps_trans; eassumption |].
  split; congruence.
Qed.
Lemma quiet_free : forall p s, quiet s (free_param p s).
Proof. intros p s. apply keeps_free. Qed.
Lemma quiet_use : forall p s, quiet s (use_param p s).
Proof. intros p s. apply keeps_use. Qed.
Lemma quiet_cps : forall c s, quiet s (w_cps c s).
Proof. intros c s. split; [apply keeps_cps | auto]. Qed.
Lemma quiet_emit : forall c s, quiet s (emit c s).
Proof. intros c s. split; [apply keeps_fields; reflexivity | auto]. Qed.
Lemma quiet_new : forall c s, quiet s (snd (new_param c s)).
Proof. intros c s. split; [apply keeps_new | auto]. Qed.
Lemma Inv_quiet : forall s s', quiet s s' -> Inv s -> Inv s'.
Proof. intros s s' (A & B & C). apply Inv_keeps; assumption. Qed.

Lemma quiet_send : forall e need q s, local need ->
  quiet s (snd (send_req e need q s))
  /\ (fst (send_req e need q s) = true -> busy_req q = true ->
      busy (snd (send_req e need q s)) = true).
Proof.
  intros e need q s L. pose proof (keeps_send e need q s L) as K.
  pose proof (send_shape e need q s L) as Q.
  destruct (send_req e need q s) as [ok s1]. cbn [fst snd] in *. unfold sent_ok in Q.
  decompose [and] Q. split; [split; [exact K | auto] |].
  intros -> B. rewrite (busy_grow s s1 q) by tauto. rewrite B. apply orb_true_r.
Qed.

(* The common form of an API call: parameters are made, the request is sent, the
   parameters are freed again if it cannot be. *)
Lemma quiet_call : forall e need a c s, local need ->
  let p := Param (nxt s) c in
  let x := send_req e need (QApi a p) (snd (new_param c s)) in
  quiet s (snd x) /\ quiet s (free_param p (snd x))
  /\ (fst x = true -> for_reset c = true -> busy (snd x) = true).
Proof.
  intros e need a c s L p x.
  destruct (quiet_send e need (QApi a p) (snd (new_param c s)) L) as (A & B).
  fold x in A, B.
  assert (Q : quiet s (snd x)) by (eapply quiet_trans; [apply quiet_new | exact A]).
  split; [exact Q |]. split; [eapply quiet_trans; [exact Q | apply quiet_free] |].
  intros O R. apply B; [exact O |]. unfold busy_req. cbn. unfold reset_param, p. cbn.
  exact R.
Qed.

Lemma q_register : forall e s, quiet s (snd (do_register e KUser s)).
Proof.
  intros e s. unfold do_register. destruct (s_reg (st s)); [apply quiet_emit |].
  destruct (is_init (st s) && en_alloc e); [| apply quiet_refl].
  destruct (quiet_call e need_reg AReg KUser s local_reg) as (A & B & _).
  unfold new_param in *. cbn [snd] in A, B. cbv zeta in A, B.
  destruct (send_req _ _ _ _) as [ok s2]. cbn [snd] in *.
  destruct ok; cbn [snd]; [eapply quiet_trans; [exact A | apply quiet_cps] | exact B].
Qed.

Lemma q_login : forall cl e al c s,
  (s_log (st s) = true /\ do_login cl e al c s = (true, call_cb cl e (nxt s) c s))
  \/ (s_log (st s) = false /\ quiet s (snd (do_login cl e al c s))
      /\ (fst (do_login cl e al c s) = true -> for_reset c = true ->
          busy (snd (do_login cl e al c s)) = true)).
Proof.
  intros cl e al c s. unfold do_login. destruct (s_log (st s)); [left; auto |].
  right. split; [reflexivity |].
  destruct (s_reg (st s) && al); [| split; [apply quiet_refl | discriminate]].
  destruct (quiet_call e need_login ALogin c s local_login) as (A & B & C).
  unfold new_param in *. cbn [snd] in A, B, C. cbv zeta in A, B, C.
  destruct (send_req _ _ _ _) as [ok s2]. cbn [fst snd] in *.
  destruct ok; cbn [fst snd]; [split; assumption | split; [exact B | discriminate]].
Qed.

Lemma q_logout : forall e c s, quiet s (snd (do_logout e c s)).
Proof.
  intros e c s. unfold do_logout.
  destruct (s_log (st s) && en_alloc e); [| apply quiet_refl].
  destruct (quiet_call e need_login ALogout c s local_login) as (A & B & _).
  unfold new_param in *. cbn [snd] in A, B. cbv zeta in A, B.
  destruct (send_req _ _ _ _) as [ok s2]. cbn [snd] in *.
  destruct ok; cbn [snd]; assumption.
Qed.

Lemma q_refresh : forall e al c s,
  quiet s (snd (do_refresh e al c s))
  /\ (fst (do_refresh e al c s) = true -> for_reset c = true ->
      busy (snd (do_refresh e al c s)) = true).
Proof.
  intros e al c s. unfold do_refresh.
  destruct (s_reg (st s) && al); [| split; [apply quiet_refl | discriminate]].
  destruct (quiet_call e need_refresh ARefresh c s local_refresh) as (A & B & C).
  unfold new_param in *. cbn [snd] in A, B, C. cbv zeta in A, B, C.
  destruct (send_req _ _ _ _) as [ok s2]. cbn [fst snd] in *.
  destruct ok; cbn [fst snd]; [split; assumption | split; [exact B | discriminate]].
Qed.

Lemma busy_free : forall p s, busy (free_param p s) = busy s.
Proof.
  intros p s. destruct (free_shape p s) as (lv & b & E). rewrite E. reflexivity.
Qed.

Lemma q_dereg : forall cl e y c s,
  quiet s (snd (do_deregister cl e y c s))
  /\ (fst (do_deregister cl e y c s) = DStarted -> for_reset c = true ->
      busy (snd (do_deregister cl e y c s)) = true)
  /\ (fst (do_deregister cl e y c s) = DAlready -> cps s = CDeregistering).
Proof.
  intros cl e y c s. unfold do_deregister.
  destruct (s_reg (st s)); [| split; [apply quiet_refl | split; discriminate]].
  destruct (cps_eqb (cps s) CDeregistering) eqn:D.
  { split; [apply quiet_refl |]. split; [discriminate |]. intros _.
    destruct (cps s); discriminate || reflexivity. }
  destruct (en_alloc e); [| split; [apply quiet_refl | split; discriminate]].
  unfold new_param. cbv zeta.
  set (p := Param (nxt s) c).
  match goal with |- context [w_cps CDeregistering ?x] =>
    set (s2 := w_cps CDeregistering x) end.
  assert (Q2 : quiet s s2).
  { eapply quiet_trans; [apply (quiet_new c) | apply quiet_cps]. }
  clearbody s2.
  set (fin := fun x : bool * ctx =>
    let (ok, s3) := x in if ok then (DStarted, s3) else (DFailed, free_param p s3)).
  assert (FIN : forall x, quiet s2 (snd x) ->
    (fst x = true -> for_reset c = true -> busy (snd x) = true) ->
    quiet s (snd (fin x))
    /\ (fst (fin x) = DStarted -> for_reset c = true -> busy (snd (fin x)) = true)
    /\ (fst (fin x) = DAlready -> cps s = CDeregistering)).
  { intros [ok s3] A B. cbn [fst snd] in *. unfold fin. destruct ok; cbn [fst snd].
    - split; [eapply quiet_trans; eassumption |]. split; [auto | discriminate].
    - split; [| split; discriminate].
      eapply quiet_trans; [exact Q2 |]. eapply quiet_trans; [exact A | apply quiet_free]. }
  destruct (en_short e || s_log (st s2)) eqn:SL.
  - apply FIN; unfold by_request;
      destruct (quiet_send e need_none (QApi ADereg p) s2 local_none) as (A & B);
      [exact A |].
    intros O R. apply B; [exact O |]. unfold busy_req, p. cbn. unfold reset_param. exact R.
  - destruct y.
    { cbn [fst snd]. split; [| split; discriminate].
      eapply quiet_trans; [exact Q2 | apply quiet_free]. }
    destruct (k_rfr (tok s2) && negb (permanent s2)).
    + destruct (q_refresh e (en_alloc2 e) (KTryRefreshed p) s2) as (A & B).
      apply FIN; [exact A |]. intros O R. apply B; [exact O |]. exact R.
    + apply orb_false_iff in SL. destruct SL as [_ SL].
      destruct (q_login cl e (en_alloc2 e) (KTryLogin p) s2) as [(X & _) | (_ & A & B)];
        [congruence |].
      apply FIN; [exact A |]. intros O R. apply B; [exact O |]. exact R.
Qed.

(* ---- the delayed callbacks ---- *)

Lemma J_tm : forall b f s, t_start (f (tm s)) = t_start (tm s) ->
  t_restart (f (tm s)) = t_restart (tm s) -> J b s -> J b (uptm f s).
Proof. intros b f s A B H. eapply J_weaken; [.. | exact H]; try reflexivity; assumption. Qed.

Lemma J_quiet : forall b s s', quiet s s' -> J b s -> J b s'.
Proof. intros b s s' (A & _). apply J_keeps; exact A. Qed.
Lemma T_quiet : forall s s', quiet s s' -> T s -> T s'.
Proof. intros s s' (_ & A & B). apply T_eq; assumption. Qed.

Lemma MS_quiet : forall s s', quiet s s' -> (mgr s = true -> subs s = true) ->
  mgr s' = true -> subs s' = true.
Proof.
  intros s s' ((A & _ & B & _) & _) H M. rewrite A in M. rewrite B. auto.
Qed.

Lemma Inv_start : forall e s, T s -> J true s ->
  T (start_process e s) /\ J true (start_process e s)
  /\ (oper s = true -> s_reg (st s) = true -> busy (start_process e s) = true)
  /\ s_reg (st (start_process e s)) = s_reg (st s)
  /\ oper (start_process e s) = oper s /\ mgr (start_process e s) = mgr s
  /\ conn (start_process e s) = conn s
  /\ tm (start_process e s) = tm (start_process e s).
Proof.
  intros e s HT HJ. unfold start_process.
  assert (FRC : T (fail_reconnect s) /\ J true (fail_reconnect s)).
  { split; [exact HT | apply (J_keeps true s); [apply keeps_failrec | exact HJ]]. }
  destruct FRC as [FT FJ].
  destruct (oper s) eqn:O; [| repeat (split; [auto || congruence |]); auto].
  destruct (s_reg (st s)) eqn:R.
  - destruct (HT R) as [RF _]. rewrite RF.
    destruct (permanent s), (en_sched e);
      (split; [first [exact FT | exact HT] |]);
      (split; [first [exact FJ | jw HJ] |]);
      (split; [intros _ _; first [apply busy_login; reflexivity
         | apply busy_rfr; reflexivity | apply busy_reconn; reflexivity] |]);
      cbn; auto.
  - destruct (is_init (st s) && cps_eqb (cps s) CReady).
    + destruct (en_sched e);
        (split; [first [exact FT | exact HT] |]);
        (split; [first [exact FJ | jw HJ] |]);
        (split; [intros _ X; discriminate |]); cbn; auto.
    + split; [exact HT |]. split; [exact HJ |]. split; [intros _ X; discriminate | auto].
Qed.

Lemma Inv_restart : forall ces s, T s -> J true s ->
  (mgr s = true -> Inv (manager_restart ces s))
  /\ (mgr s = false -> manager_restart ces s = s).
Proof.
  intros ces s HT HJ. unfold manager_restart. split; intros M; rewrite M; [| reflexivity].
  destruct (conn s) eqn:C.
  - destruct HJ as (A & B & D). destruct (A C) as (E & PE & SB).
    rewrite E. cbv zeta. cbn [andb].
    destruct (close_inv ces s) as ((T1 & J1 & P1) & C1);
      [split; auto | exact HT | auto | auto |].
    destruct (tcp s).
    + split; [exact T1 |]. split; [exact J1 | exact P1].
    + apply Inv_busy; [exact T1 | | apply busy_restart; reflexivity].
      destruct J1 as (X & Y & Z). unfold J. cbn. rewrite C1.
      split; [discriminate | auto].
  - apply Inv_busy; [exact HT | | apply busy_restart; reflexivity].
    destruct HJ as (X & Y & Z). unfold J. cbn. rewrite C. split; [discriminate | auto].
Qed.

Lemma progress_unmgr : forall s, mgr s = false -> progress s.
Proof. intros s H M. congruence. Qed.

Lemma Inv_fire : forall t e ces s, Inv s -> pending t (tm s) = true ->
  Inv (fire t e ces s).
Proof.
  intros t e ces s (HT & HJ & HP) PE. destruct t; cbn [fire].
  - (* register *)
    unfold f_register. cbv zeta.
    set (s0 := uptm (w_t_reg false) s).
    assert (K0 : quiet s s0) by (split; [apply keeps_tm; tg | auto]).
    assert (I0 : Inv s0).
    { eapply Inv_quiet; [exact K0 |]. split; [exact HT |]. split; [exact HJ | exact HP]. }
    clearbody s0. destruct (is_init (st s0)) eqn:II; [| exact I0].
    destruct (quiet_send e need_reg QReg s0 local_reg) as (A & _).
    destruct (send_req _ _ _ _) as [ok s1]. cbn [fst snd] in A.
    assert (I1 : Inv s1) by (eapply Inv_quiet; eassumption).
    destruct ok; [eapply Inv_quiet; [apply quiet_cps | exact I1] |].
    destruct (en_sched e); (eapply Inv_quiet; [| exact I1]).
    + split; [apply keeps_tm; tg | auto].
    + apply quiet_cps.
  - (* login *)
    unfold f_login. cbv zeta. set (s0 := uptm (w_t_login false) s).
    assert (J0 : J true s0) by (jw HJ). assert (T0 : T s0) by exact HT.
    clearbody s0. destruct (s_reg (st s0)) eqn:R; [| apply Inv_unreg; assumption].
    destruct (quiet_send e need_login QLogin s0 local_login) as (A & B).
    destruct (send_req _ _ _ _) as [ok s1]. cbn [fst snd] in A, B.
    assert (J1 : J true s1) by (eapply J_quiet; eassumption).
    assert (T1 : T s1) by (eapply T_quiet; eassumption).
    destruct ok; [apply Inv_busy; auto |].
    destruct (en_sched e); (apply Inv_busy; [exact T1 | jw J1 |]);
      [apply busy_login | apply busy_reconn]; reflexivity.
  - (* ping *)
    unfold f_ping. cbv zeta. set (s0 := uptm (w_t_ping false) s).
    assert (K0 : quiet s s0) by (split; [apply keeps_tm; tg | auto]).
    assert (I0 : Inv s0).
    { eapply Inv_quiet; [exact K0 |]. split; [exact HT |]. split; [exact HJ | exact HP]. }
    clearbody s0. destruct (_ && en_send e); [| exact I0].
    eapply Inv_quiet; [| exact I0]. split; [| auto]. unfold keeps.
    repeat (split; [cbn; auto |]). intros X.
    rewrite (busy_grow s0 _ QPing) by reflexivity. rewrite X. reflexivity.
  - (* refresh *)
    unfold f_refresh. cbv zeta. set (s0 := uptm (w_t_rfr false) s).
    assert (J0 : J true s0) by (jw HJ). assert (T0 : T s0) by exact HT.
    clearbody s0. destruct (s_reg (st s0)) eqn:R; [| apply Inv_unreg; assumption].
    set (sp := uptm (w_t_ping false) s0).
    assert (Jp : J true sp) by (jw J0). assert (Tp : T sp) by exact T0.
    clearbody sp.
    destruct (quiet_send e need_refresh QRefresh sp local_refresh) as (A & B).
    destruct (send_req _ _ _ _) as [ok s1]. cbn [fst snd] in A, B.
    assert (J1 : J true s1) by (eapply J_quiet; eassumption).
    assert (T1 : T s1) by (eapply T_quiet; eassumption).
    destruct ok; [apply Inv_busy; auto |].
    destruct (en_sched e); (apply Inv_busy; [exact T1 | jw J1 |]);
      [apply busy_rfr | apply busy_reconn]; reflexivity.
  - (* reconnect *)
    unfold f_reconnect.
    set (s0 := uptm (w_t_cb true) (uptm (w_t_reconn false) s)).
    assert (J0 : J true s0) by (jw HJ). assert (T0 : T s0) by exact HT.
    destruct (Inv_restart ces s0 T0 J0) as (A & B).
    destruct (mgr s0) eqn:M; [auto |]. rewrite B by reflexivity.
    split; [exact T0 |]. split; [exact J0 | apply progress_unmgr; exact M].
  - (* callback *)
    unfold f_callback. cbv zeta. split; [exact HT |]. split; [jw HJ |].
    eapply progress_keeps; [| | | exact HP]; [| auto | auto].
    eapply keeps_trans; [| apply keeps_st].
    apply (keeps_trans s (uptm (w_t_cb false) s)); [apply keeps_tm; tg |].
    apply keeps_fields; reflexivity.
  - (* restart *)
    cbn in PE. assert (C : conn s = false).
    { destruct HJ as (_ & _ & D). apply D. rewrite PE. apply orb_true_r. }
    unfold restart_manager. set (s0 := uptm (w_t_restart false) s).
    destruct (mgr s0) eqn:M.
    + apply Inv_busy; [| | apply busy_cm_restart].
      * eapply T_eq; [apply eq_restart | apply eq_restart | exact HT].
      * apply J_cm_restart; [exact C | exact (MS_J _ _ HJ)].
    + split; [exact HT |]. split; [| apply progress_unmgr; exact M].
      unfold J. cbn. rewrite C. split; [discriminate |].
      split; [exact (MS_J _ _ HJ) | auto].
  - (* start *)
    cbn in PE. assert (C : conn s = false).
    { destruct HJ as (_ & _ & D). apply D. rewrite PE. reflexivity. }
    unfold start_manager. cbv zeta.
    match goal with |- context [start_process e ?x] => set (s0 := x) end.
    assert (T0 : T s0) by exact HT.
    assert (J0 : J true s0).
    { unfold J, s0. cbn. rewrite C. split; [discriminate |].
      split; [exact (MS_J _ _ HJ) | auto]. }
    destruct (Inv_start e s0 T0 J0) as (A & B & D & E & F & _).
    set (z := start_process e s0) in *. clearbody z.
    split; [exact A |]. split; [jw B |].
    intros M O R. left. rewrite (busy_eq z) by reflexivity.
    change (oper (emit EStatus z)) with (oper z) in O.
    change (st (emit EStatus z)) with (st z) in R.
    apply D; congruence.
  - (* clear *)
    apply Inv_clear. exact (MS_J _ _ HJ).
Qed.

Lemma drop_in : forall (A : Type) (f : A -> bool) l i x, nth_error l i = Some x ->
  existsb f l = f x || existsb f (drop i l).
Proof.
  induction l as [| a l IH]; intros [| i] x E; cbn in E; try discriminate.
  - inversion E; subst. reflexivity.
  - cbn [drop existsb]. rewrite (IH i x E). rewrite !orb_assoc, (orb_comm (f a)).
    reflexivity.
Qed.

Lemma busy_drop : forall s i q, nth_error (reqs s) i = Some q ->
  busy s = busy_req q || busy (w_reqs (drop i (reqs s)) s).
Proof.
  intros s i q E. rewrite busy_split, (drop_in _ busy_req _ _ _ E).
  rewrite (busy_split (w_reqs (drop i (reqs s)) s)).
  change (w_reqs [] (w_reqs (drop i (reqs s)) s)) with (w_reqs [] s).
  change (reqs (w_reqs (drop i (reqs s)) s)) with (drop i (reqs s)).
  destruct (busy (w_reqs [] s)), (busy_req q), (existsb busy_req (drop i (reqs s)));
    reflexivity.
Qed.

Lemma Inv_resp : forall i r e ces s, Inv s ->
  tolerable s (OResp i r e ces) = true -> Inv (step s (OResp i r e ces)).
Proof.
  intros i r e ces s (HT & HJ & HP) TL. cbn [step].
  destruct (nth_error (reqs s) i) as [q |] eqn:NE;
    [| split; [exact HT |]; split; [exact HJ | exact HP]].
  set (s0 := w_reqs (drop i (reqs s)) s).
  assert (J0 : J true s0) by (jw HJ). assert (T0 : T s0) by exact HT.
  assert (RO : resp_ok (close ces) r q s0).
  { intros d ER RD QQ z RZ FZ. subst r. cbn [tolerable] in TL. rewrite NE in TL.
    assert (X : existsb is_api (drop i (reqs s)) = false).
    { destruct QQ as [-> | [p ->]].
      - rewrite RD in TL. rewrite (drop_in _ is_api _ _ _ NE) in TL. cbn [is_api orb andb] in TL.
        apply negb_true_iff in TL. exact TL.
      - rewrite RD in TL. apply andb_true_iff in TL. destruct TL as [_ TL].
        cbn [andb] in TL. apply negb_true_iff in TL. exact TL. }
    unfold full. rewrite plain_close; [exact FZ |]. rewrite RZ. exact X. }
  pose proof (FR_handle (close ces) e r q s0 (frame_close ces)) as FH.
  pose proof (good_handle true (close ces) e r q s0 (frame_close ces) RO J0 T0)
    as (GJ & GT & GO).
  assert (BD : busy s = busy_req q || busy s0) by (apply busy_drop; exact NE).
  set (y := handle (close ces) e r q s0) in *. clearbody y.
  split; [exact GT |]. split; [exact GJ |]. intros M O R.
  destruct FH as (FM & _ & FO & _). rewrite FM in M. rewrite FO in O.
  change (mgr s = true) in M. change (oper s = true) in O.
  destruct GO as [X | [X | [(BQ & K & X & LG) | [(EQ & [pl ER] & LG & C) | ([d ER] & [p EQ] & MM)]]]].
  - congruence.
  - auto.
  - assert (UA : user_api q = true -> mgr s = false).
    { intros UA. cbn [tolerable] in TL. rewrite NE in TL.
      destruct q as [| | | | a p]; try discriminate. cbn in UA.
      destruct a; try (cbn in UA; rewrite andb_false_r in UA; discriminate);
        destruct r as [[d |] | | | |]; rewrite ?UA in TL; cbn [andb] in TL;
        try (apply andb_true_iff in TL; destruct TL as [TL _]);
        apply negb_true_iff in TL; exact TL. }
    destruct (HP M O (X R)) as [B | B].
    + left. rewrite BD, BQ in B. cbn [orb] in B. unfold keeps in K. apply K. exact B.
    + right. unfold online in *. rewrite !andb_true_iff in B.
      destruct B as ((((B1 & B2) & B3) & B4) & B5).
      destruct (LG B1) as [LG' | LG']; [| apply UA in LG'; congruence].
      destruct K as (K1 & K2 & K3 & K4 & K5 & K6 & K7 & _).
      rewrite LG', K5, (K6 B3), (K7 B3 B4), K3.
      change (conn s0) with (conn s). change (subs s0) with (subs s).
      rewrite B2, B5. reflexivity.
  - right. subst q r. cbn [tolerable] in TL. rewrite NE in TL.
    change (conn s0) with (conn s) in C. rewrite TL in C.
    destruct GJ as (A & _). destruct (A C) as (E & PE & SB). unfold online.
    rewrite LG, C, E, (PE eq_refl), SB. reflexivity.
  - subst q r. cbn [tolerable] in TL. rewrite NE in TL.
    apply andb_true_iff in TL. destruct TL as [TL _]. apply negb_true_iff in TL. congruence.
Qed.

Lemma busy_refd : forall s i p, nth_error (t_refd (tm s)) i = Some p ->
  reset_param p = false ->
  busy s = busy (uptm (fun t => w_t_refd (drop i (t_refd t)) t) s).
Proof.
  intros s i p E R. unfold busy, resetting. cbn.
  rewrite (drop_in _ reset_param _ _ _ E), R. reflexivity.
Qed.

Lemma Inv_refd : forall i e ces s, Inv s -> Inv (step s (ORefd i e ces)).
Proof.
  intros i e ces s (HT & HJ & HP). cbn [step].
  destruct (nth_error (t_refd (tm s)) i) as [p |] eqn:NE;
    [| split; [exact HT |]; split; [exact HJ | exact HP]].
  set (sx := uptm (fun t => w_t_refd (drop i (t_refd t)) t) s).
  assert (X : T sx /\ J true sx /\ (reset_param p = false -> progress sx)).
  { split; [exact HT |]. split; [jw HJ |]. intros R M O Q.
    destruct (HP M O Q) as [B | B]; [left | right; exact B].
    rewrite (busy_refd s i p NE R) in B. exact B. }
  clearbody sx. clear HT HJ HP. destruct X as (HT & HJ & HP).
  unfold f_refreshed. cbv zeta.
  pose proof (quiet_use p sx) as QU. set (u := use_param p sx) in *. clearbody u.
  assert (JU : J true u) by (eapply J_quiet; eassumption).
  assert (TU : T u) by (eapply T_quiet; eassumption).
  assert (PU : reset_param p = false -> progress u).
  { intros R. destruct QU as (A & B & _).
    eapply progress_keeps; [exact A | | | auto]; rewrite B; auto. }
  assert (FAIL : forall v, quiet u v ->
    Inv (ctx_clear (close ces) (use_param p (free_param p v)))).
  { intros v Q. apply Inv_clear. eapply MS_quiet; [| exact (MS_J _ _ JU)].
    eapply quiet_trans; [exact Q |].
    eapply quiet_trans; [apply quiet_free | apply quiet_use]. }
  assert (OK : forall v, quiet u v -> (reset_param p = true -> busy v = true) -> Inv v).
  { intros v Q B. split; [eapply T_quiet; eassumption |].
    split; [eapply J_quiet; eassumption |].
    destruct (reset_param p); [intros _ _ _; auto |].
    destruct Q as (K & S & _).
    eapply progress_keeps; [exact K | | | auto]; rewrite S; auto. }
  destruct (en_short e).
  - unfold by_request.
    destruct (quiet_send e need_none (QApi ADereg p) u local_none) as (A & B).
    destruct (send_req _ _ _ _) as [ok s1]. cbn [fst snd] in A, B.
    destruct ok; [apply OK; [exact A | exact (B eq_refl)] | apply FAIL; exact A].
  - destruct (q_login (close ces) e (en_alloc e) (KTryLogin p) u) as [(LG & E) | (LG & A & B)].
    + rewrite E.
      destruct (call_cb_cases (close ces) e (nxt u) (KTryLogin p) u)
        as [(x & E2 & KX) | (S2 & T2 & K2 & B2)].
      * rewrite E2. apply Inv_clear. destruct KX as (K1 & _ & K3 & _).
        rewrite K1, K3. exact (MS_J _ _ JU).
      * apply OK; [split; [exact K2 | split; assumption] |].
        intros R. apply B2. destruct p as [j c]. exact R.
    + destruct (do_login _ _ _ _ _) as [ok s1]. cbn [fst snd] in A, B.
      destruct ok; [| apply FAIL; exact A].
      apply OK; [exact A |]. intros R. apply B; [reflexivity |].
      destruct p as [j c]. exact R.
Qed.

Lemma Inv_reset_end : forall ces e y s, T s -> J true s ->
  cps s <> CDeregistering ->
  Inv (let (r, s2) := do_deregister (close ces) e y (KReset y) s in
       match r with DFailed => ctx_clear (close ces) s2 | _ => s2 end).
Proof.
  intros ces e y s HT HJ CP.
  destruct (q_dereg (close ces) e y (KReset y) s) as (A & B & C).
  destruct (do_deregister _ _ _ _ _) as [r s2]. cbn [fst snd] in A, B, C.
  destruct r.
  - apply Inv_busy; [eapply T_quiet; eassumption | eapply J_quiet; eassumption |].
    apply B; reflexivity.
  - exfalso. apply CP, C. reflexivity.
  - apply Inv_clear. eapply MS_quiet; [exact A | exact (MS_J _ _ HJ)].
Qed.

Lemma ncps : forall s, negb (cps_eqb (cps s) CDeregistering) = true ->
  cps s <> CDeregistering.
Proof. intros s H E. rewrite E in H. discriminate. Qed.

Lemma Inv_step : forall o s, Inv s -> tolerable s o = true -> Inv (step s o).
Proof.
  intros o s HI TL. pose proof HI as (HT & HJ & HP).
  destruct o as [t e ces | i e ces | i e ces | i r e ces | | ces | | e | rs ces | ces
    | ces | fo y e ces | e ces | e | e ces | e | e].
  - cbn [step]. destruct (pending t (tm s)) eqn:PE; [| exact HI].
    apply Inv_fire; assumption.
  - apply Inv_refd. exact HI.
  - cbn [step tolerable] in *. destruct (nth_error (t_rst (tm s)) i) as [p |]; [| exact HI].
    unfold f_on_reset. cbv zeta.
    set (sx := uptm (fun t => w_t_rst (drop i (t_rst t)) t) s).
    assert (Q : quiet sx (free_param p (use_param p sx))).
    { eapply quiet_trans; [apply quiet_use | apply quiet_free]. }
    apply Inv_reset_end.
    + eapply T_quiet; [exact Q | exact HT].
    + eapply J_quiet; [exact Q | jw HJ].
    + destruct (use_shape p sx) as (lv & b & E1). rewrite E1.
      match goal with |- context [free_param p ?x] =>
        destruct (free_shape p x) as (lv2 & b2 & E2) end.
      rewrite E2. apply ncps. exact TL.
  - apply Inv_resp; assumption.
  - cbn [step tolerable] in *. unfold session_up.
    destruct (ep s && peer s && subs s) eqn:E; [| exact HI].
    rewrite !andb_true_iff in E. destruct E as ((E1 & E2) & E3).
    apply negb_true_iff in TL.
    split; [exact HT |]. split.
    + unfold J. cbn. rewrite E1, E2, E3, TL. split; [auto |].
      split; [auto | discriminate].
    + intros M O R. destruct (HP M O R) as [B | B]; [left | right].
      * rewrite (busy_eq s) by reflexivity. exact B.
      * unfold online in *. cbn. rewrite !andb_true_iff in *. tauto.
  - cbn [step]. destruct (ep s) eqn:E; [| exact HI].
    destruct (peer s) eqn:PE; [| unfold close; rewrite PE; exact HI].
    apply close_inv; [exact HJ | exact HT | exact PE |].
    destruct (busy s) eqn:B; [auto |]. destruct (conn s) eqn:C; [auto |].
    right; right. intros M O R. destruct (HP M O R) as [X | X]; [congruence |].
    unfold online in X. rewrite C in X. rewrite andb_false_r in X. discriminate.
  - cbn [step tolerable] in *. unfold interface_up.
    destruct (is_init (st s) && mgr s) eqn:E; [| exact HI].
    apply negb_true_iff in TL.
    apply Inv_busy; [| | apply busy_cm_restart].
    + eapply T_eq; [apply eq_restart | apply eq_restart | exact HT].
    + apply J_cm_restart; [exact TL | exact (MS_J _ _ HJ)].
  - cbn [step]. unfold manager_start.
    destruct (Inv_start e s HT HJ) as (A & B & D & E & F & _).
    set (z := start_process e s) in *. clearbody z.
    split; [exact A |]. split.
    + destruct B as (B1 & B2 & B3). unfold J. cbn.
      split; [intros X; apply B1 in X; tauto |]. split; [auto | exact B3].
    + intros _ O R. left. cbn in O, R. rewrite (busy_eq z) by reflexivity.
      apply D; congruence.
  - cbn [step]. unfold manager_stop. cbv zeta.
    match goal with |- context [reset_endpoint (close ces) ?x] => set (s1 := x) end.
    assert (T1 : T s1) by exact HT. clearbody s1.
    assert (T2 : T (reset_endpoint (close ces) s1)).
    { unfold reset_endpoint. destruct (ep s1); [| exact T1].
      exact (TK_T _ _ (TK_close ces s1) T1). }
    assert (C2 : conn (reset_endpoint (close ces) s1) = false) by reflexivity.
    set (s2 := reset_endpoint (close ces) s1) in *. clearbody s2.
    assert (E3 : forall x, T x -> conn x = false -> Inv (w_mgr false x)).
    { intros x TX CX. split; [exact TX |]. split; [| intros M; discriminate].
      unfold J. cbn. rewrite CX. split; [discriminate |]. split; [discriminate | auto]. }
    apply E3.
    + destruct (rs || negb (k_acc (tok s2))); [unfold T; cbn; discriminate |].
      destruct (s_reg (st (upst (w_s_log false) s2))); exact T2.
    + destruct (rs || negb (k_acc (tok s2))); [exact C2 |].
      destruct (s_reg (st (upst (w_s_log false) s2))); exact C2.
  - cbn [step]. destruct (Inv_restart ces s HT HJ) as (A & B).
    destruct (mgr s) eqn:M; [auto |]. rewrite B by reflexivity. exact HI.
  - cbn [step]. unfold update_conf. cbv zeta.
    match goal with |- context [dereg_stop ?x] =>
      destruct (dereg_stop_shape x) as (lv & b & E); rewrite E; clear E end.
    match goal with |- context [w_cps CReady ?x] => set (s2 := w_cps CReady x) end.
    assert (C2 : conn s2 = false) by reflexivity.
    assert (R2 : s_reg (st s2) = false) by reflexivity.
    assert (M2 : mgr s2 = true -> subs s2 = true).
    { assert (X : FR s (reset_endpoint (close ces) s)).
      { apply FR_ep; [apply frame_close | apply FR_refl]. }
      destruct X as (X1 & X2 & _). intros M. change (mgr (reset_endpoint (close ces) s) = true) in M.
      change (subs (reset_endpoint (close ces) s) = true). rewrite X2.
      apply (MS_J _ _ HJ). congruence. }
    clearbody s2.
    assert (J2 : J true s2).
    { unfold J. rewrite C2. split; [discriminate | auto]. }
    destruct (mgr s2) eqn:M; [| apply Inv_unreg; assumption].
    apply Inv_restart; [apply T_unreg; exact R2 | exact J2 | exact M].
  - cbn [step tolerable] in *. unfold cloud_reset.
    destruct (_ && en_tls e); [| apply Inv_clear; exact (MS_J _ _ HJ)].
    cbv zeta. assert (J1 : J true (mgr_stop s)) by (jw HJ).
    assert (T1 : T (mgr_stop s)) by exact HT.
    assert (C1 : cps (mgr_stop s) <> CDeregistering) by (apply ncps; exact TL).
    set (s1 := mgr_stop s) in *. clearbody s1.
    destruct y; [apply Inv_reset_end; assumption |].
    destruct (en_alloc e); [| apply Inv_clear; exact (MS_J _ _ J1)].
    unfold new_param. apply Inv_busy; [exact T1 | jw J1 |].
    apply busy_resetting. unfold resetting. cbn.
    destruct (t_rst (tm s1)); cbn; rewrite !orb_true_r; reflexivity.
  - cbn [step]. destruct (q_dereg (close ces) e true KUser s) as (A & _).
    eapply Inv_quiet; eassumption.
  - cbn [step]. eapply Inv_quiet; [apply q_register | exact HI].
  - cbn [step].
    destruct (q_login (close ces) e (en_alloc e) KUser s) as [(_ & E) | (_ & A & _)].
    + rewrite E. cbn [snd]. eapply Inv_quiet; [apply quiet_emit | exact HI].
    + eapply Inv_quiet; eassumption.
  - cbn [step]. eapply Inv_quiet; [apply q_logout | exact HI].
  - cbn [step]. eapply Inv_quiet; [apply q_refresh | exact HI].
Qed.

Lemma Inv_run : forall l s, Inv s -> along tolerable s l = true -> Inv (run s l).
Proof.
  induction l as [| o l IH]; intros s HI H; [exact HI |].
  cbn [along] in H. apply andb_true_iff in H. destruct H as [H1 H2].
  cbn [run fold_left]. apply IH; [apply Inv_step; assumption | exact H2].
Qed.

Lemma Inv_boot : forall o t r c k,
  (r = true -> k_rfr k = true /\ k_uid k = true) -> Inv (boot o t r c k).
Proof.
  intros o t r c k H. unfold boot. destruct (cps_eqb c CDeregistering).
  - split; [unfold T; cbn; discriminate |]. split; [unfold J; cbn; repeat split; discriminate |].
    intros M; discriminate.
  - split; [unfold T; cbn; exact H |]. split; [unfold J; cbn; repeat split; discriminate |].
    intros M; discriminate.
Qed.
