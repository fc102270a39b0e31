(* The manager of a registered device does not come to a standstill. *)
From Coq Require Import List Bool Arith ZArith Lia.
Import ListNotations.
From Verif Require Import Cm_Model Cm_Spec Cm_Proofs.

Global Arguments ctx_clear : simpl never.
Global Arguments set_exp : simpl never.
Global Arguments call_cb : simpl never.
Global Arguments close : simpl never.
Global Arguments finish_api : simpl never.

Definition busy_req (q : req) : bool := is_login q || is_refresh q || reset_req q.

(* The parts of the state that matter, kept or grown. *)
Definition keeps (s s' : ctx) : Prop :=
  mgr s' = mgr s /\ oper s' = oper s /\ subs s' = subs s /\ tcp s' = tcp s
  /\ conn s' = conn s
  /\ (ep s = true -> ep s' = true) /\ (ep s = true -> peer s = true -> peer s' = true)
  /\ t_start (tm s') = t_start (tm s) /\ t_restart (tm s') = t_restart (tm s)
  /\ (busy s = true -> busy s' = true).

Lemma keeps_refl : forall s, keeps s s.
Proof. intros s. unfold keeps. tauto. Qed.

Lemma keeps_trans : forall a b c, keeps a b -> keeps b c -> keeps a c.
Proof.
  unfold keeps. intros a b c H K. decompose [and] H. decompose [and] K.
  repeat (split; [congruence || tauto |]). tauto.
Qed.

Lemma busy_eq : forall s s', tm s' = tm s -> reqs s' = reqs s -> busy s' = busy s.
Proof. intros s s' A B. unfold busy, resetting. rewrite A, B. reflexivity. Qed.

Lemma busy_grow : forall s s' q, tm s' = tm s -> reqs s' = reqs s ++ [q] ->
  busy s' = busy s || busy_req q.
Proof.
  intros s s' q A B. unfold busy, resetting, busy_req. rewrite A, B, !existsb_app.
  cbn [existsb]. rewrite !orb_false_r.
  repeat match goal with |- context [existsb ?f ?l] => destruct (existsb f l) end;
  destruct (t_login (tm s)), (t_rfr (tm s)), (t_reconn (tm s)), (t_restart (tm s)),
    (t_start (tm s)), (t_clear (tm s)); cbn [orb]; try reflexivity;
  destruct (match t_rst (tm s) with [] => true | _ => false end); cbn [orb negb];
    try reflexivity;
  destruct (is_login q), (is_refresh q), (reset_req q); reflexivity.
Qed.

Lemma keeps_send : forall e need q s, local need ->
  keeps s (snd (send_req e need q s)).
Proof.
  intros e need q s L. pose proof (send_shape e need q s L) as Q.
  destruct (send_req e need q s) as [ok s1]. cbn [fst snd] in *. unfold sent_ok in Q.
  decompose [and] Q. unfold keeps.
  repeat (split; [congruence || tauto |]). intros B.
  destruct ok.
  - rewrite (busy_grow s s1 q) by tauto. rewrite B. reflexivity.
  - rewrite (busy_eq s s1) by tauto. exact B.
Qed.

Ltac btimers := unfold busy, resetting; cbn; rewrite ?orb_true_r; cbn; reflexivity.

Lemma busy_login : forall s, t_login (tm s) = true -> busy s = true.
Proof. intros s H. unfold busy. rewrite H. reflexivity. Qed.
Lemma busy_rfr : forall s, t_rfr (tm s) = true -> busy s = true.
Proof. intros s H. unfold busy. rewrite H, !orb_true_r. reflexivity. Qed.
Lemma busy_reconn : forall s, t_reconn (tm s) = true -> busy s = true.
Proof. intros s H. unfold busy. rewrite H, !orb_true_r. reflexivity. Qed.
Lemma busy_restart : forall s, t_restart (tm s) = true -> busy s = true.
Proof. intros s H. unfold busy. rewrite H, !orb_true_r. reflexivity. Qed.
Lemma busy_start : forall s, t_start (tm s) = true -> busy s = true.
Proof. intros s H. unfold busy. rewrite H, !orb_true_r. reflexivity. Qed.
Lemma busy_resetting : forall s, resetting s = true -> busy s = true.
Proof. intros s H. unfold busy. rewrite H, !orb_true_r. reflexivity. Qed.
Lemma busy_clear : forall s, t_clear (tm s) = true -> busy s = true.
Proof. intros s H. apply busy_resetting. unfold resetting. rewrite H. reflexivity. Qed.

(* Timers other than the ones that count may change, others only be set. *)
Definition tgrow (t t' : timers) : Prop :=
  (t_login t = true -> t_login t' = true) /\ (t_rfr t = true -> t_rfr t' = true)
  /\ (t_reconn t = true -> t_reconn t' = true) /\ t_restart t' = t_restart t
  /\ t_start t' = t_start t /\ (t_clear t = true -> t_clear t' = true)
  /\ (existsb reset_param (t_refd t) = true -> existsb reset_param (t_refd t') = true)
  /\ t_rst t' = t_rst t.

Lemma keeps_tm : forall f s, tgrow (tm s) (f (tm s)) -> keeps s (uptm f s).
Proof.
  intros f s G. unfold tgrow in G. decompose [and] G. unfold keeps.
  repeat (split; [cbn; tauto |]).
  unfold busy, resetting. cbn. rewrite !orb_true_iff.
  intros B.
  match goal with H : t_rst _ = _ |- _ => rewrite H end.
  match goal with H : t_restart _ = _ |- _ => rewrite H end.
  match goal with H : t_start _ = _ |- _ => rewrite H end.
  tauto.
Qed.

Lemma keeps_fields : forall s s', mgr s' = mgr s -> oper s' = oper s ->
  subs s' = subs s -> tcp s' = tcp s -> conn s' = conn s -> ep s' = ep s ->
  peer s' = peer s -> tm s' = tm s -> reqs s' = reqs s -> keeps s s'.
Proof.
  intros s s' A B C D E F G H I. unfold keeps.
  repeat (split; [congruence |]). rewrite (busy_eq s s') by assumption. auto.
Qed.

Lemma keeps_new : forall c s, keeps s (snd (new_param c s)).
Proof. intros c s. apply keeps_fields; reflexivity. Qed.

Lemma keeps_free : forall p s, keeps s (free_param p s) /\ st (free_param p s) = st s
  /\ tok (free_param p s) = tok s.
Proof.
  intros p s. destruct (free_shape p s) as (lv & b & E). rewrite E.
  split; [apply keeps_fields; reflexivity | split; reflexivity].
Qed.

Lemma keeps_use : forall p s, keeps s (use_param p s) /\ st (use_param p s) = st s
  /\ tok (use_param p s) = tok s.
Proof.
  intros p s. destruct (use_shape p s) as (lv & b & E). rewrite E.
  split; [apply keeps_fields; reflexivity | split; reflexivity].
Qed.

(* Where a callback of an API call leads. *)
Lemma call_cb_cases : forall cl e i c s,
  (exists x, call_cb cl e i c s = ctx_clear cl x /\ keeps s x)
  \/ (st (call_cb cl e i c s) = st s /\ tok (call_cb cl e i c s) = tok s
      /\ keeps s (call_cb cl e i c s)
      /\ (for_reset c = true -> busy (call_cb cl e i c s) = true)).
Proof.
  intros cl e i c s. unfold call_cb. destruct c as [| [|] | p | p].
  - right. split; [reflexivity |]. split; [reflexivity |].
    split; [apply keeps_fields; reflexivity | discriminate].
  - left. eexists. split; [reflexivity | apply keeps_refl].
  - right. split; [reflexivity |]. split; [reflexivity |]. split.
    + apply keeps_tm. unfold tgrow. cbn. tauto.
    + intros _. apply busy_clear. reflexivity.
  - cbv zeta. destruct (keeps_use p s) as (KU & SU & TU).
    set (s0 := use_param p s) in *.
    destruct (s_log (st s0)).
    + unfold by_request.
      pose proof (keeps_send e need_none (QApi ADereg p) s0 local_none) as K.
      pose proof (send_shape e need_none (QApi ADereg p) s0 local_none) as Q.
      destruct (send_req e need_none (QApi ADereg p) s0) as [ok s1].
      cbn [fst snd] in *. unfold sent_ok in Q. decompose [and] Q.
      destruct ok.
      * right. split; [congruence |]. split; [congruence |].
        split; [eapply keeps_trans; eassumption |].
        intros R. rewrite (busy_grow s0 s1 (QApi ADereg p)) by tauto.
        unfold busy_req. cbn [is_login is_refresh reset_req orb].
        destruct p as [j c']. cbn in R. unfold reset_param. cbn. rewrite R.
        apply orb_true_r.
      * left. destruct (keeps_free p s1) as (KF & _). eexists. split; [reflexivity |].
        eapply keeps_trans; [| exact KF]. eapply keeps_trans; eassumption.
    + left. destruct (keeps_free p s0) as (KF & _). eexists. split; [reflexivity |].
      eapply keeps_trans; eassumption.
  - cbv zeta. destruct (keeps_use p s) as (KU & SU & TU).
    set (s0 := use_param p s) in *.
    destruct (s_rfr (st s0)).
    + right. split; [exact SU |]. split; [exact TU |]. split.
      * eapply keeps_trans; [exact KU |]. apply keeps_tm. unfold tgrow. cbn.
        rewrite existsb_app. repeat (split; [tauto |]).
        split; [intros X; rewrite X; reflexivity | reflexivity].
      * intros R. apply busy_resetting. unfold resetting. cbn. rewrite existsb_app.
        cbn [existsb]. destruct p as [j c']. unfold reset_param at 2. cbn. cbn in R.
        rewrite R. cbn. rewrite !orb_true_r. reflexivity.
    + left. destruct (keeps_free p s0) as (KF & _). eexists. split; [reflexivity |].
      eapply keeps_trans; eassumption.
Qed.

(* ---- sessions and restarts ---- *)

(* b: the session is still there *)
Definition J (b : bool) (s : ctx) : Prop :=
  (conn s = true -> ep s = true /\ (b = true -> peer s = true) /\ subs s = true)
  /\ (mgr s = true -> subs s = true)
  /\ (t_start (tm s) || t_restart (tm s) = true -> conn s = false).

Lemma J_keeps : forall b s s', keeps s s' -> J b s -> J b s'.
Proof.
  intros b s s' K (A & B & C). unfold keeps in K. decompose [and] K. unfold J.
  repeat match goal with H : ?x = _ |- context [?x] => rewrite H end.
  split; [| tauto]. intros X. apply A in X. tauto.
Qed.

Lemma J_clear : forall b cl s, frame cl -> (mgr s = true -> subs s = true) ->
  J b (ctx_clear cl s).
Proof.
  intros b cl s F H. destruct (clear_fields cl s F) as
    (_ & _ & _ & _ & _ & C & M & S & _).
  unfold J. rewrite C, M, S. split; [discriminate |]. split; [exact H |]. auto.
Qed.

(* ---- tokens ---- *)

Notation T := registered_has_tokens.

Lemma T_eq : forall s s', st s' = st s -> tok s' = tok s -> T s -> T s'.
Proof. intros s s' A B H. unfold T in *. rewrite A, B. exact H. Qed.

Lemma T_clear : forall cl s, T (ctx_clear cl s).
Proof. intros cl s. unfold ctx_clear, T, emit, reinit_store. cbn. discriminate. Qed.

Lemma T_unreg : forall s, s_reg (st s) = false -> T s.
Proof. intros s H. unfold T. rewrite H. discriminate. Qed.

Definition full (s : ctx) : Prop := k_rfr (tok s) = true /\ k_uid (tok s) = true.

(* ---- the outcome of a response ---- *)

(* The conditions under which a response is tolerable. *)
Definition resp_ok (cl : ctx -> ctx) (r : resp) (q : req) (s0 : ctx) : Prop :=
  forall d, r = ROk (Some d) -> pl_redirect d = true ->
  (q = QReg \/ exists p, q = QApi AReg p) ->
  forall s, reqs s = reqs s0 -> full s -> full (cl s).

Definition user_api (q : req) : bool :=
  match q with QApi a p => api_user a p | _ => false end.

Definition outcome (r : resp) (q : req) (s s' : ctx) : Prop :=
  s_reg (st s') = false
  \/ busy s' = true
  \/ (busy_req q = false /\ keeps s s' /\ (s_reg (st s') = true -> s_reg (st s) = true)
      /\ (s_log (st s) = true -> s_log (st s') = true \/ user_api q = true))
  \/ (q = QLogin /\ (exists p, r = ROk p) /\ s_log (st s') = true /\ conn s' = conn s)
  \/ ((exists d, r = ROk (Some d)) /\ (exists p, q = QApi AReg p) /\ mgr s' = mgr s).

Lemma keeps_st : forall f s, keeps s (upst f s).
Proof. intros f s. apply keeps_fields; reflexivity. Qed.
Lemma keeps_tok : forall f s, keeps s (uptok f s).
Proof. intros f s. apply keeps_fields; reflexivity. Qed.
Lemma keeps_cps : forall c s, keeps s (w_cps c s).
Proof. intros f s. apply keeps_fields; reflexivity. Qed.
Lemma keeps_exp : forall z s, keeps s (set_exp z s).
Proof.
  intros z s. unfold set_exp. cbv zeta. destruct (0 <? z)%Z; apply keeps_fields; reflexivity.
Qed.
Lemma tok_exp : forall z s, k_rfr (tok (set_exp z s)) = k_rfr (tok s)
  /\ k_uid (tok (set_exp z s)) = k_uid (tok s).
Proof. intros z s. unfold set_exp. cbv zeta. destruct (0 <? z)%Z; cbn; auto. Qed.
Lemma tm_exp : forall z s, tm (set_exp z s) = tm s /\ reqs (set_exp z s) = reqs s.
Proof. intros z s. unfold set_exp. cbv zeta. destruct (0 <? z)%Z; cbn; auto. Qed.
