(* The closing of the session to the cloud. *)
From Coq Require Import List Bool Arith ZArith Lia.
Import ListNotations.
From Verif Require Import Cm_Model Cm_Spec Cm_Proofs Cm2_Proofs Cm3_Proofs.

Definition FR (s s' : ctx) : Prop :=
  mgr s' = mgr s /\ subs s' = subs s /\ oper s' = oper s /\ tcp s' = tcp s.

Lemma FR_refl : forall s, FR s s.
Proof. intros s. unfold FR. auto. Qed.
Lemma FR_trans : forall a b c, FR a b -> FR b c -> FR a c.
Proof.
  unfold FR. intros a b c (A & B & C & D) (A' & B' & C' & D').
  repeat split; congruence.
Qed.
Lemma FR_keeps : forall s s', keeps s s' -> FR s s'.
Proof. unfold keeps, FR. tauto. Qed.
Lemma FR_tm : forall s f x, FR s x -> FR s (uptm f x).
Proof. auto. Qed.
Lemma FR_st : forall s f x, FR s x -> FR s (upst f x).
Proof. auto. Qed.
Lemma FR_wst : forall s f x, FR s x -> FR s (w_st f x).
Proof. auto. Qed.
Lemma FR_tok : forall s f x, FR s x -> FR s (uptok f x).
Proof. auto. Qed.
Lemma FR_cps : forall s f x, FR s x -> FR s (w_cps f x).
Proof. auto. Qed.
Lemma FR_emit : forall s f x, FR s x -> FR s (emit f x).
Proof. auto. Qed.
Lemma FR_failrec : forall s x, FR s x -> FR s (fail_reconnect x).
Proof. auto. Qed.
Lemma FR_exp : forall s z x, FR s x -> FR s (set_exp z x).
Proof.
  intros s z x H. eapply FR_trans; [exact H | apply FR_keeps, keeps_exp].
Qed.
Lemma FR_free : forall s p x, FR s x -> FR s (free_param p x).
Proof.
  intros s p x H. eapply FR_trans; [exact H | apply FR_keeps, keeps_free].
Qed.
Lemma FR_use : forall s p x, FR s x -> FR s (use_param p x).
Proof.
  intros s p x H. eapply FR_trans; [exact H | apply FR_keeps, keeps_use].
Qed.
Lemma FR_clear : forall cl s x, frame cl -> FR s x -> FR s (ctx_clear cl x).
Proof.
  intros cl s x F H. eapply FR_trans; [exact H |].
  destruct (clear_fields cl x F) as (_ & _ & _ & _ & _ & _ & A & B & C & D & _).
  unfold FR. auto.
Qed.
Lemma FR_ep : forall cl s x, frame cl -> FR s x -> FR s (reset_endpoint cl x).
Proof.
  intros cl s x F H. eapply FR_trans; [exact H |]. unfold reset_endpoint, FR. cbn.
  destruct (ep x); [apply F | auto].
Qed.
Lemma FR_cb : forall cl e i c s x, frame cl -> FR s x -> FR s (call_cb cl e i c x).
Proof.
  intros cl e i c s x F H. eapply FR_trans; [exact H |].
  destruct (call_cb_cases cl e i c x) as [(y & E & K) | (_ & _ & K & _)].
  - rewrite E. apply FR_clear; [exact F | apply FR_keeps; exact K].
  - apply FR_keeps. exact K.
Qed.

Ltac fr := repeat match goal with
  | |- FR ?s ?s => apply FR_refl
  | |- FR _ (uptm _ _) => apply FR_tm
  | |- FR _ (upst _ _) => apply FR_st
  | |- FR _ (w_st _ _) => apply FR_wst
  | |- FR _ (uptok _ _) => apply FR_tok
  | |- FR _ (w_cps _ _) => apply FR_cps
  | |- FR _ (emit _ _) => apply FR_emit
  | |- FR _ (fail_reconnect _) => apply FR_failrec
  | |- FR _ (set_exp _ _) => apply FR_exp
  | |- FR _ (free_param _ _) => apply FR_free
  | |- FR _ (use_param _ _) => apply FR_use
  | |- FR _ (ctx_clear _ _) => apply FR_clear; [assumption |]
  | |- FR _ (reset_endpoint _ _) => apply FR_ep; [assumption |]
  | |- FR _ (call_cb _ _ _ _ _) => apply FR_cb; [assumption |]
  | |- FR _ (if ?b then _ else _) => destruct b
  | |- FR _ (match ?b with _ => _ end) => destruct b
  end.

Lemma FR_reg_core : forall cl r s, frame cl -> FR s (snd (reg_core cl r s)).
Proof.
  intros cl r s F. unfold reg_core. cbv zeta.
  destruct r as [[d |] | | | |]; try (destruct (is_init (st s)));
    cbn [snd]; fr.
Qed.
Lemma FR_login_core : forall r s, FR s (snd (login_core r s)).
Proof.
  intros r s. unfold login_core. cbv zeta.
  destruct r as [[d |] | | | |]; try (destruct (s_reg (st s))); cbn [snd]; fr.
Qed.
Lemma FR_refresh_core : forall r s, FR s (snd (refresh_core r s)).
Proof.
  intros r s. unfold refresh_core. cbv zeta.
  destruct r as [[d |] | | | |]; try (destruct (s_reg (st s))); cbn [snd]; fr.
Qed.

Lemma FR_handle : forall cl e r q s, frame cl -> FR s (handle cl e r q s).
Proof.
  intros cl e r q s F. destruct q as [| | | | a p]; cbn [handle].
  - unfold h_register. pose proof (FR_reg_core cl r (uptm (w_t_reg false) s) F) as C.
    destruct (reg_core _ _ _) as [er s1]. cbn [snd] in C.
    assert (C1 : FR s s1) by exact C. clear C.
    eapply FR_trans; [exact C1 |]. cbv zeta. fr.
  - unfold h_login. cbv zeta. destruct (s_reg _); [| fr].
    pose proof (FR_login_core r (uptm (w_t_login false) s)) as C.
    destruct (login_core _ _) as [[er c] s1]. cbn [snd] in C.
    assert (C1 : FR s s1) by exact C. clear C.
    eapply FR_trans; [exact C1 |]. fr.
  - unfold h_refresh.
    pose proof (FR_refresh_core r (uptm (w_t_rfr false) s)) as C.
    destruct (refresh_core _ _) as [er s1]. cbn [snd] in C.
    assert (C1 : FR s s1) by exact C. clear C.
    eapply FR_trans; [exact C1 |]. fr.
  - unfold h_ping. fr.
  - cbv zeta. set (u := use_param p s).
    assert (U : FR s u) by (unfold u; fr). clearbody u.
    eapply FR_trans; [exact U |]. destruct a.
    + unfold h_api_register. pose proof (FR_reg_core cl r u F) as C.
      destruct (reg_core _ _ _) as [er s1]. cbn [snd] in C.
      eapply FR_trans; [exact C |]. unfold finish_api. cbv zeta. fr.
    + unfold h_api_login. pose proof (FR_login_core r u) as C.
      destruct (login_core _ _) as [[er c] s1]. cbn [snd] in C.
      eapply FR_trans; [exact C |]. unfold finish_api. cbv zeta. fr.
    + unfold h_api_logout, finish_api. cbv zeta. fr.
    + unfold h_api_refresh. pose proof (FR_refresh_core r u) as C.
      destruct (refresh_core _ _) as [er s1]. cbn [snd] in C.
      eapply FR_trans; [exact C |]. unfold finish_api. cbv zeta. fr.
    + unfold h_api_dereg, finish_api. cbv zeta. fr.
Qed.

Lemma FR_pass : forall rs ces s, FR s (pass rs ces s).
Proof.
  induction rs as [| q rs IH]; intros ces s; cbn [pass]; [apply FR_refl |].
  cbv zeta. eapply FR_trans; [| apply IH].
  destruct (en_hit _); [apply FR_handle, frame_id | unfold FR; cbn; auto].
Qed.

Lemma FR_closed : forall ces s, FR s (closed_requests ces s).
Proof.
  intros ces s. unfold closed_requests. cbv zeta.
  eapply FR_trans; [| apply FR_pass].
  match goal with |- FR _ (w_reqs [] ?x) => assert (FR s x); [| auto] end.
  eapply FR_trans; [| apply FR_pass]. unfold FR. cbn. auto.
Qed.

Lemma FR_restart : forall s, FR s (cm_restart s).
Proof.
  intros s. unfold cm_restart. apply FR_tm.
  destruct (dereg_stop_shape (mgr_stop s)) as (lv & b & E). rewrite E.
  unfold FR. cbn. auto.
Qed.

Lemma FR_down : forall s, FR s (session_down s).
Proof.
  intros s. unfold session_down. cbv zeta.
  destruct (subs s && ep s && conn s); [| apply FR_refl].
  destruct (_ && _); [| unfold FR; cbn; auto].
  eapply FR_trans; [| apply FR_restart]. unfold FR; cbn; auto.
Qed.

Lemma frame_close : forall ces, frame (close ces).
Proof.
  intros ces s. unfold close. destruct (peer s); [| auto].
  assert (H : FR s (session_down (closed_requests ces (w_peer false s)))).
  { eapply FR_trans; [| apply FR_down]. eapply FR_trans; [| apply FR_closed].
    unfold FR. cbn. auto. }
  exact H.
Qed.

(* ---- tokens of a closed session ---- *)

Definition TK (s s' : ctx) : Prop :=
  s_reg (st s') = false
  \/ (tok s' = tok s /\ (s_reg (st s') = true -> s_reg (st s) = true)).

Lemma TK_refl : forall s, TK s s.
Proof. intros s. right. auto. Qed.
Lemma TK_trans : forall a b c, TK a b -> TK b c -> TK a c.
Proof.
  intros a b c [H | [H1 H2]] [K | [K1 K2]]; try (left; exact K).
  - left. destruct (s_reg (st c)); [rewrite K2 in H by reflexivity; discriminate | reflexivity].
  - right. split; [congruence | auto].
Qed.
Lemma TK_T : forall s s', TK s s' -> T s -> T s'.
Proof.
  intros s s' [H | [H1 H2]] K; [apply T_unreg; exact H |].
  unfold T in *. rewrite H1. auto.
Qed.
Lemma TK_clear : forall cl s x, TK s (ctx_clear cl x).
Proof. intros cl s x. left. unfold ctx_clear, emit, reinit_store. cbn. reflexivity. Qed.
Lemma TK_eq : forall s s', st s' = st s -> tok s' = tok s -> TK s s'.
Proof. intros s s' A B. right. rewrite A. auto. Qed.
Lemma TK_cb : forall cl e i c s, TK s (call_cb cl e i c s).
Proof.
  intros cl e i c s.
  destruct (call_cb_cases cl e i c s) as [(y & E & K) | (A & B & _)].
  - rewrite E. apply TK_clear.
  - apply TK_eq; assumption.
Qed.
Lemma TK_finish : forall cl e p f s,
  (forall x, s_reg (f x) = s_reg x) -> TK s (upst f (finish_api cl e p s)).
Proof.
  intros cl e p f s FF. unfold finish_api.
  pose proof (TK_cb cl e (pid p) (pcont p) s) as C.
  set (y := call_cb _ _ _ _ _) in *. clearbody y.
  eapply TK_trans; [exact C |]. destruct (keeps_free p y) as (_ & A & B).
  right. cbn. rewrite FF, A, B. auto.
Qed.

Lemma TK_handle : forall cl e q s, TK s (handle cl e RConn q s).
Proof.
  intros cl e q s. destruct q as [| | | | a p]; cbn [handle].
  - unfold h_register, reg_core. cbv zeta.
    destruct (_ && _); [destruct (en_sched e); [| destruct (en_next e)] |]; right; auto.
  - unfold h_login, login_core. cbv zeta.
    destruct (s_reg _); [destruct (en_sched e) |]; right; auto.
  - unfold h_refresh, refresh_core. cbv zeta.
    destruct (s_reg _); [destruct (en_sched e) |]; right; auto.
  - unfold h_ping. destruct (s_log _); [destruct (en_keep e) |]; right; auto.
  - cbv zeta. set (u := use_param p s).
    assert (U : TK s u).
    { destruct (keeps_use p s) as (_ & A & B). apply TK_eq; assumption. }
    clearbody u. eapply TK_trans; [exact U |]. destruct a.
    + unfold h_api_register, reg_core. cbv zeta.
      eapply TK_trans; [| apply TK_finish; reflexivity]. right; auto.
    + unfold h_api_login, login_core. cbv zeta.
      eapply TK_trans; [| apply TK_finish; reflexivity]. right; auto.
    + unfold h_api_logout. cbv zeta.
      eapply TK_trans; [| apply TK_finish; reflexivity]. right; auto.
    + unfold h_api_refresh, refresh_core. cbv zeta.
      eapply TK_trans; [| apply TK_finish; reflexivity]. right; auto.
    + unfold h_api_dereg. cbv zeta.
      eapply TK_trans; [| apply TK_finish; reflexivity]. left; reflexivity.
Qed.

Lemma TK_pass : forall rs ces s, TK s (pass rs ces s).
Proof.
  induction rs as [| q rs IH]; intros ces s; cbn [pass]; [apply TK_refl |].
  cbv zeta. eapply TK_trans; [| apply IH].
  destruct (en_hit _); [apply TK_handle | apply TK_eq; reflexivity].
Qed.

Lemma TK_closed : forall ces s, TK s (closed_requests ces s).
Proof.
  intros ces s. unfold closed_requests. cbv zeta.
  eapply TK_trans; [| apply TK_pass].
  match goal with |- TK _ (w_reqs [] ?x) => assert (TK s x); [| auto] end.
  eapply TK_trans; [| apply TK_pass]. apply TK_eq; reflexivity.
Qed.

Lemma eq_restart : forall s, st (cm_restart s) = st s /\ tok (cm_restart s) = tok s.
Proof.
  intros s. unfold cm_restart. 
  destruct (dereg_stop_shape (mgr_stop s)) as (lv & b & E). rewrite E.
  split; reflexivity.
Qed.

Lemma eq_down : forall s, st (session_down s) = st s /\ tok (session_down s) = tok s.
Proof.
  intros s. unfold session_down. cbv zeta.
  destruct (subs s && ep s && conn s); [| auto].
  destruct (_ && _); [| auto]. destruct (eq_restart (w_conn false s)) as [A B].
  rewrite A, B. auto.
Qed.

Lemma TK_close : forall ces s, TK s (close ces s).
Proof.
  intros ces s. unfold close. destruct (peer s); [| apply TK_refl].
  eapply TK_trans; [| apply TK_eq; apply eq_down].
  eapply TK_trans; [| apply TK_closed]. apply TK_eq; reflexivity.
Qed.

(* Without API calls the tokens stay. *)
Lemma plain_handle : forall e q s, is_api q = false ->
  tok (handle (fun x => x) e RConn q s) = tok s
  /\ reqs (handle (fun x => x) e RConn q s) = reqs s.
Proof.
  intros e q s A. destruct q as [| | | | a p]; [| | | | discriminate]; cbn [handle].
  - unfold h_register, reg_core. cbv zeta.
    destruct (_ && _); [destruct (en_sched e); [| destruct (en_next e)] |]; auto.
  - unfold h_login, login_core. cbv zeta.
    destruct (s_reg _); [destruct (en_sched e) |]; auto.
  - unfold h_refresh, refresh_core. cbv zeta.
    destruct (s_reg _); [destruct (en_sched e) |]; auto.
  - unfold h_ping. destruct (s_log _); [destruct (en_keep e) |]; auto.
Qed.

Lemma plain_pass : forall rs ces s, existsb is_api rs = false ->
  existsb is_api (reqs s) = false ->
  tok (pass rs ces s) = tok s /\ existsb is_api (reqs (pass rs ces s)) = false.
Proof.
  induction rs as [| q rs IH]; intros ces s A B; cbn [pass]; [auto |].
  cbn [existsb] in A. apply orb_false_iff in A. destruct A as [A1 A2]. cbv zeta.
  destruct (en_hit _).
  - destruct (plain_handle (hd env0 ces) q s A1) as [E1 E2].
    set (y := handle _ _ _ _ _) in *. clearbody y.
    destruct (IH (tl ces) y A2) as [C D]; [rewrite E2; exact B |].
    split; [congruence | exact D].
  - destruct (IH (tl ces) (w_reqs (reqs s ++ [q]) s) A2) as [C D].
    { cbn. rewrite existsb_app, B. cbn. rewrite A1. reflexivity. }
    split; [exact C | exact D].
Qed.

Lemma plain_close : forall ces s, existsb is_api (reqs s) = false ->
  tok (close ces s) = tok s.
Proof.
  intros ces s A. unfold close. destruct (peer s); [| reflexivity].
  rewrite (proj2 (eq_down _)). unfold closed_requests. cbv zeta.
  destruct (plain_pass (reqs s) ces (w_reqs [] (w_peer false s)) A eq_refl) as [B C].
  cbn [reqs w_peer]. 
  change (reqs (w_peer false s)) with (reqs s).
  set (y := pass (reqs s) _ _) in *. clearbody y.
  destruct (plain_pass (reqs y) (skipn (length (reqs s)) ces) (w_reqs [] y) C eq_refl)
    as [D _].
  rewrite D. exact B.
Qed.

(* ---- progress over the closing of a session ---- *)

Definition P (rest : list req) (s : ctx) : Prop :=
  mgr s = true -> oper s = true -> s_reg (st s) = true ->
  busy s || existsb busy_req rest || conn s = true.

Lemma J_false : forall b s, J b s -> J false s.
Proof.
  intros b s (A & B & C). split; [| auto]. intros X. apply A in X.
  split; [tauto |]. split; [discriminate | tauto].
Qed.

Lemma P_pass : forall rs ces s, J false s -> T s -> P rs s ->
  J false (pass rs ces s) /\ T (pass rs ces s) /\ P [] (pass rs ces s).
Proof.
  induction rs as [| q rs IH]; intros ces s HJ HT HP; cbn [pass].
  { split; [exact HJ |]. split; [exact HT | exact HP]. }
  cbv zeta. destruct (en_hit _).
  - set (e := hd env0 ces).
    pose proof (FR_handle (fun x => x) e RConn q s frame_id) as FH.
    assert (G : good false RConn q s (handle (fun x => x) e RConn q s)).
    { apply good_handle; [exact frame_id | | exact HJ | exact HT].
      intros d X. discriminate. }
    set (y := handle _ _ _ _ _) in *. clearbody y. destruct G as (GJ & GT & GO).
    apply IH; [exact GJ | exact GT |]. destruct FH as (FM & _ & FO & _).
    intros M O R. rewrite FM in M. rewrite FO in O.
    destruct GO as [X | [X | [(BQ & K & X & _) | [(_ & [pl X] & _) | ([d X] & _)]]]];
      try discriminate; [congruence | rewrite X; reflexivity |].
    apply X in R. specialize (HP M O R). cbn [existsb] in HP. rewrite BQ in HP.
    cbn [orb] in HP. unfold keeps in K. decompose [and] K.
    match goal with H : conn y = conn s |- _ => rewrite H end.
    destruct (busy s); [rewrite H9 by reflexivity; reflexivity |].
    cbn [orb] in HP. rewrite <- orb_assoc, HP. apply orb_true_r.
  - apply IH.
    + jw HJ.
    + exact HT.
    + intros M O R. specialize (HP M O R). cbn [existsb] in HP.
      rewrite (busy_grow s _ q) by reflexivity. cbn [conn w_reqs].
      rewrite <- HP.
      change (conn (w_reqs (reqs s ++ [q]) s)) with (conn s).
      rewrite !orb_assoc. reflexivity.
Qed.

Lemma busy_split : forall s, busy s = busy (w_reqs [] s) || existsb busy_req (reqs s).
Proof.
  intros s. unfold busy, resetting. cbn.
  assert (X : existsb busy_req (reqs s) = existsb is_login (reqs s)
    || existsb is_refresh (reqs s) || existsb reset_req (reqs s)).
  { induction (reqs s) as [| q l IH]; [reflexivity |]. cbn [existsb]. rewrite IH.
    unfold busy_req. destruct (is_login q), (is_refresh q), (reset_req q); cbn;
      rewrite ?orb_true_r; try reflexivity;
      destruct (existsb is_login l), (existsb is_refresh l); reflexivity. }
  rewrite X. rewrite !orb_false_r.
  destruct (t_login (tm s)), (t_rfr (tm s)), (t_reconn (tm s)), (t_restart (tm s)),
    (t_start (tm s)), (t_clear (tm s)); cbn [orb]; rewrite ?orb_true_r; try reflexivity.
  destruct (existsb is_login (reqs s)), (existsb is_refresh (reqs s)),
    (existsb reset_param (t_refd (tm s))), (match t_rst (tm s) with [] => true | _ => false end),
    (existsb reset_req (reqs s)); reflexivity.
Qed.

Lemma P_split : forall s, P [] s -> P (reqs s) (w_reqs [] s).
Proof.
  intros s H M O R. specialize (H M O R). cbn [existsb] in H.
  rewrite orb_false_r in H. rewrite busy_split in H. exact H.
Qed.

Lemma P_closed : forall ces s, J false s -> T s -> P [] s ->
  J false (closed_requests ces s) /\ T (closed_requests ces s)
  /\ P [] (closed_requests ces s).
Proof.
  intros ces s HJ HT HP. unfold closed_requests. cbv zeta.
  destruct (P_pass (reqs s) ces (w_reqs [] s)) as (J1 & T1 & P1);
    [jw HJ | exact HT | apply P_split; exact HP |].
  set (y := pass (reqs s) _ _) in *. clearbody y.
  apply P_pass; [jw J1 | exact T1 | apply P_split; exact P1].
Qed.

Definition Inv (s : ctx) : Prop := T s /\ J true s /\ progress s.

Lemma busy_cm_restart : forall s, busy (cm_restart s) = true.
Proof. intros s. apply busy_start. reflexivity. Qed.

Lemma J_cm_restart : forall b s, conn s = false -> (mgr s = true -> subs s = true) ->
  J b (cm_restart s).
Proof.
  intros b s C M. unfold cm_restart.
  destruct (dereg_stop_shape (mgr_stop s)) as (lv & bb & E). rewrite E.
  unfold J. cbn. rewrite C. split; [discriminate |]. split; [exact M | auto].
Qed.

Lemma close_inv : forall ces s, J true s -> T s -> peer s = true ->
  (busy s = true \/ conn s = true \/ (mgr s = true -> oper s = true -> s_reg (st s) = true -> False)) ->
  Inv (close ces s) /\ conn (close ces s) = false.
Proof.
  intros ces s HJ HT HP HB. unfold close. rewrite HP.
  destruct (P_closed ces (w_peer false s)) as (J1 & T1 & P1).
  - apply J_false in HJ. destruct HJ as (A & B & C). unfold J. cbn.
    split; [intros X; apply A in X; repeat split; try tauto; discriminate | auto].
  - exact HT.
  - intros M O R. cbn [existsb]. rewrite orb_false_r.
    rewrite (busy_eq s (w_peer false s)) by reflexivity.
    change (conn (w_peer false s)) with (conn s).
    destruct HB as [X | [X | X]]; [rewrite X; reflexivity | rewrite X; apply orb_true_r |].
    exfalso. apply X; assumption.
  - set (m := closed_requests ces (w_peer false s)) in *. clearbody m.
    unfold session_down. cbv zeta.
    destruct J1 as (A & B & C). destruct (conn m) eqn:CM.
    + destruct (A eq_refl) as (E1 & _ & E2). rewrite E1, E2. cbn [andb].
      destruct (s_reg (st (w_conn false m)) && mgr (w_conn false m)) eqn:RM.
      * split; [| unfold cm_restart; destruct (dereg_stop_shape (mgr_stop (w_conn false m)))
                    as (lv & bb & E); rewrite E; reflexivity].
        split; [| split].
        -- eapply T_eq; [apply eq_restart | apply eq_restart |]. exact T1.
        -- apply J_cm_restart; [reflexivity | exact B].
        -- intros _ _ _. left. apply busy_cm_restart.
      * split; [| reflexivity]. split; [exact T1 |]. split.
        -- unfold J. cbn. split; [discriminate | auto].
        -- intros M _ R. cbn in RM, M, R. rewrite M, R in RM. discriminate.
    + rewrite andb_false_r. split; [| exact CM]. split; [exact T1 |]. split.
      * unfold J. rewrite CM. split; [discriminate | auto].
      * intros M O R. left. specialize (P1 M O R). cbn [existsb] in P1.
        rewrite !orb_false_r, CM, orb_false_r in P1. exact P1.
Qed.
