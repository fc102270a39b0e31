(* The outcome of the responses to the requests of the manager. *)
From Coq Require Import List Bool Arith ZArith Lia.
Import ListNotations.
From Verif Require Import Cm_Model Cm_Spec Cm_Proofs Cm2_Proofs.

Lemma J_reset_endpoint : forall b cl s, frame cl -> J b s ->
  J b (reset_endpoint cl s).
Proof.
  intros b cl s F (_ & B & _). unfold reset_endpoint, J. cbn.
  destruct (F s) as (M & S & _).
  destruct (ep s); [rewrite M, S |]; (split; [discriminate |]); split; auto.
Qed.

Lemma reg_core_cases : forall b cl r s q, frame cl -> resp_ok cl r q s ->
  (q = QReg \/ exists p, q = QApi AReg p) -> J b s ->
  let (er, s1) := reg_core cl r s in
  (er = EOk /\ (exists d, r = ROk (Some d)) /\ J b s1 /\ full s1 /\ mgr s1 = mgr s)
  \/ (er <> EOk /\ s1 = upst (w_s_fail true) s).
Proof.
  intros b cl r s q F RO Q HJ. unfold reg_core. cbv zeta.
  destruct r as [[d |] | | | |]; try (destruct (is_init (st s)));
    try (right; split; [discriminate | reflexivity]).
  left. split; [reflexivity |]. split; [eauto |].
  match goal with |- context [set_exp ?z ?x] => set (s1 := set_exp z x) end.
  assert (J1 : J b s1).
  { eapply J_keeps; [| exact HJ]. eapply keeps_trans; [| apply keeps_exp].
    apply keeps_tok. }
  assert (F1 : full s1).
  { unfold full, s1. split; [rewrite (proj1 (tok_exp _ _)) |
      rewrite (proj2 (tok_exp _ _))]; reflexivity. }
  assert (RQ : reqs s1 = reqs s).
  { unfold s1. rewrite (proj2 (tm_exp _ _)). reflexivity. }
  destruct (pl_redirect d) eqn:R.
  - split; [| split].
    + eapply J_keeps; [apply keeps_st |]. apply J_reset_endpoint; assumption.
    + unfold full. cbn. destruct (ep s1); [| exact F1].
      exact (RO d eq_refl R Q s1 RQ F1).
    + cbn. destruct (F s1) as (M & _). destruct (ep s1); [rewrite M |];
        unfold s1, set_exp; cbv zeta; destruct (0 <? pl_exp d)%Z; reflexivity.
  - split; [eapply J_keeps; [apply keeps_st | exact J1] |].
    split; [exact F1 |].
    unfold s1, set_exp; cbv zeta; destruct (0 <? pl_exp d)%Z; reflexivity.
Qed.

Lemma keeps_failrec : forall s, keeps s (fail_reconnect s).
Proof.
  intros s. unfold fail_reconnect.
  eapply keeps_trans; [apply keeps_cps |].
  eapply keeps_trans; [apply keeps_st |].
  apply keeps_tm. unfold tgrow. cbn. tauto.
Qed.

Ltac tg := unfold tgrow; cbn; tauto.

Ltac ks := repeat first
  [ apply keeps_refl
  | match goal with
    | |- keeps ?s (uptm ?f ?x) =>
        apply (keeps_trans s x); [| apply keeps_tm; tg]
    | |- keeps ?s (upst ?f ?x) => apply (keeps_trans s x); [| apply keeps_st]
    | |- keeps ?s (uptok ?f ?x) => apply (keeps_trans s x); [| apply keeps_tok]
    | |- keeps ?s (w_cps ?f ?x) => apply (keeps_trans s x); [| apply keeps_cps]
    | |- keeps ?s (set_exp ?f ?x) => apply (keeps_trans s x); [| apply keeps_exp]
    | |- keeps ?s (fail_reconnect ?x) => apply (keeps_trans s x); [| apply keeps_failrec]
    end ].

Lemma J_weaken : forall b s s', mgr s' = mgr s -> subs s' = subs s ->
  conn s' = conn s -> ep s' = ep s -> peer s' = peer s ->
  t_start (tm s') = t_start (tm s) -> t_restart (tm s') = t_restart (tm s) ->
  J b s -> J b s'.
Proof.
  intros b s s' A B C D E F G H. unfold J in *. rewrite A, B, C, D, E, F, G. exact H.
Qed.

Definition good (b : bool) (r : resp) (q : req) (s s' : ctx) : Prop :=
  J b s' /\ T s' /\ outcome r q s s'.

Ltac jw H := eapply J_weaken; [.. | exact H]; reflexivity.

Lemma good_register : forall b cl e r s, frame cl -> resp_ok cl r QReg s -> J b s ->
  T s -> good b r QReg s (h_register cl e r s).
Proof.
  intros b cl e r s F RO HJ HT. unfold h_register.
  assert (J0 : J b (uptm (w_t_reg false) s)) by (jw HJ).
  pose proof (reg_core_cases b cl r (uptm (w_t_reg false) s) QReg F RO
    (or_introl eq_refl) J0) as C.
  destruct (reg_core _ _ _) as [er s1]. destruct C as [(-> & _ & J1 & F1 & _) | (N & ->)].
  - destruct (en_sched e).
    + split; [jw J1 |]. split; [intros _; exact F1 |].
      right; left. apply busy_login. reflexivity.
    + split; [jw J1 |]. split; [intros _; exact F1 |].
      right; left. apply busy_reconn. reflexivity.
  - assert (KK : forall x, keeps s x -> s_reg (st x) = s_reg (st s) ->
      s_log (st x) = s_log (st s) -> tok x = tok s -> good b r QReg s x).
    { intros x KX A B D. split; [eapply J_keeps; eassumption |]. split.
      - unfold T in *. rewrite A, D. exact HT.
      - right; right; left. split; [reflexivity |]. split; [exact KX |].
        rewrite A, B. split; auto. }
    destruct er; try congruence; ifs; apply KK; try reflexivity; ks.
Qed.

Lemma good_cleared0 : forall b r q s y, J b y -> s_reg (st y) = false ->
  good b r q s (uptm (w_t_cb true) y).
Proof.
  intros b r q s y JC S.
  split; [jw JC |].
  split; [apply T_unreg; exact S | left; exact S].
Qed.

Lemma good_cleared : forall b cl r q s x, frame cl ->
  (mgr x = true -> subs x = true) ->
  good b r q s (uptm (w_t_cb true) (ctx_clear cl x)).
Proof.
  intros b cl r q s x F MX.
  apply good_cleared0; [exact (J_clear b cl x F MX) |].
  rewrite (proj1 (clear_fields cl x F)). reflexivity.
Qed.

Lemma good_login : forall b cl e r s, frame cl -> J b s -> T s ->
  good b r QLogin s (h_login cl e r s).
Proof.
  intros b cl e r s F HJ HT. unfold h_login. cbv zeta.
  set (s0 := uptm (w_t_login false) s).
  assert (J0 : J b s0) by (jw HJ).
  assert (T0 : T s0) by exact HT.
  assert (C0 : conn s0 = conn s) by reflexivity.
  clearbody s0.
  destruct (s_reg (st s0)) eqn:R.
  2: { split; [jw J0 |]. split; [exact T0 |]. left. exact R. }
  assert (MS : mgr s0 = true -> subs s0 = true) by apply J0.
  unfold login_core. cbv zeta.
  set (okc := if cps_eqb (cps s0) CDeregistering then CDeregistering else CRegistered).
  destruct r as [[d |] | | | |].
  - rewrite R.
    set (s1 := upst (w_s_log true) (set_exp (pl_exp d) s0)).
    assert (K1 : tm s1 = tm s0) by (unfold s1; cbn; apply tm_exp).
    assert (J1 : J b s1).
    { eapply J_keeps; [| exact J0]. unfold s1. ks. }
    assert (T1 : T s1).
    { intros _. unfold s1. cbn. rewrite (proj1 (tok_exp _ _)), (proj2 (tok_exp _ _)).
      apply T0. exact R. }
    assert (C1 : conn s1 = conn s0).
    { unfold s1, set_exp. cbv zeta. destruct (0 <? pl_exp d)%Z; reflexivity. }
    assert (L1 : s_log (st s1) = true) by reflexivity.
    clearbody s1.
    destruct (0 <? k_exp _)%Z.
    + split; [jw J1 |]. split; [exact T1 |]. right; left. apply busy_rfr. reflexivity.
    + split; [jw J1 |]. split; [exact T1 |].
      right; right; right; left. split; [reflexivity |]. split; [eauto |].
      split; [exact L1 |]. cbn. congruence.
  - rewrite R. split; [jw J0 |]. split; [exact T0 |].
    right; left. apply busy_reconn. reflexivity.
  - destruct (en_sched e); (split; [jw J0 |]); (split; [exact T0 |]); right; left;
      [apply busy_login | apply busy_reconn]; reflexivity.
  - destruct (en_sched e); (split; [jw J0 |]); (split; [exact T0 |]); right; left;
      [apply busy_login | apply busy_reconn]; reflexivity.
  - match goal with |- context [if ?c then uptm (w_t_rfr true) ?x else _] =>
      destruct c eqn:C end.
    + split; [jw J0 |]. split; [| right; left; apply busy_rfr; reflexivity].
      intros _. apply T0. exact R.
    + match goal with |- context [ctx_clear cl ?x] => set (x0 := x) end.
      assert (MX : mgr x0 = true -> subs x0 = true) by exact MS.
      clearbody x0. apply good_cleared; assumption.
  - split; [jw J0 |]. split; [exact T0 |].
    right; left. apply busy_reconn. reflexivity.
Qed.

Lemma good_refresh : forall b cl e r s, frame cl -> J b s -> T s ->
  good b r QRefresh s (h_refresh cl e r s).
Proof.
  intros b cl e r s F HJ HT. unfold h_refresh, refresh_core. cbv zeta.
  set (s0 := uptm (w_t_rfr false) s).
  assert (J0 : J b s0) by (jw HJ).
  assert (T0 : T s0) by exact HT.
  assert (MS : mgr s0 = true -> subs s0 = true) by apply J0.
  clearbody s0.
  assert (X1 : forall x, s_reg (st x) = false -> J b x -> good b r QRefresh s x).
  { intros x A B. split; [exact B |]. split; [apply T_unreg; exact A | left; exact A]. }
  destruct r as [[d |] | | | |].
  - destruct (s_reg (st s0)) eqn:R; [| apply X1; [reflexivity | jw J0]].
    match goal with |- context [set_exp ?z ?x] => set (s1 := set_exp z x) end.
    assert (J1 : J b s1). { eapply J_keeps; [| exact J0]. unfold s1. ks. }
    assert (T1 : full s1).
    { unfold full, s1. rewrite (proj1 (tok_exp _ _)), (proj2 (tok_exp _ _)).
      cbn. split; [reflexivity |]. apply T0. exact R. }
    clearbody s1. destruct (en_sched e); (split; [jw J1 |]); (split; [intros _; exact T1 |]);
      right; left; [apply busy_login | apply busy_reconn]; reflexivity.
  - destruct (s_reg (st s0)) eqn:R; apply X1; try reflexivity; jw J0.
  - match goal with |- context [if s_reg ?x then _ else _] => destruct (s_reg x) eqn:R end.
    + destruct (en_sched e); (split; [jw J0 |]); (split; [exact T0 |]); right; left;
        [apply busy_rfr | apply busy_reconn]; reflexivity.
    + apply X1; [exact R | jw J0].
  - match goal with |- context [if s_reg ?x then _ else _] => destruct (s_reg x) eqn:R end.
    + destruct (en_sched e); (split; [jw J0 |]); (split; [exact T0 |]); right; left;
        [apply busy_rfr | apply busy_reconn]; reflexivity.
    + apply X1; [exact R | jw J0].
  - match goal with |- context [ctx_clear cl ?x] => set (x0 := x) end.
    assert (MX : mgr x0 = true -> subs x0 = true) by exact MS.
    clearbody x0. apply good_cleared; assumption.
  - apply X1; [reflexivity | jw J0].
Qed.

Lemma good_ping : forall b e r s, J b s -> T s -> good b r QPing s (h_ping e s).
Proof.
  intros b e r s HJ HT. unfold h_ping.
  assert (KK : forall x, keeps s x -> s_reg (st x) = s_reg (st s) ->
      s_log (st x) = s_log (st s) -> tok x = tok s -> good b r QPing s x).
  { intros x KX A B D. split; [eapply J_keeps; eassumption |]. split.
    - unfold T in *. rewrite A, D. exact HT.
    - right; right; left. split; [reflexivity |]. split; [exact KX |].
      rewrite A, B. split; auto. }
  ifs; apply KK; try reflexivity; try assumption; ks.
Qed.

(* The end of the handler of an API call: the flags that it clears do not
   matter. *)
Lemma good_finish : forall b cl e r a p f s s0, frame cl -> J b s0 -> T s0 ->
  keeps s s0 ->
  (forall x, s_reg (f x) = s_reg x /\ s_log (f x) = s_log x) ->
  (s_reg (st s0) = true -> s_reg (st s) = true) ->
  (s_log (st s) = true -> s_log (st s0) = true \/ s_reg (st s0) = false
     \/ api_user a p = true \/ reset_param p = true) ->
  good b r (QApi a p) s (upst f (finish_api cl e p s0)).
Proof.
  intros b cl e r a p f s s0 F HJ HT KP FF R1 R2. unfold finish_api.
  match goal with |- context [free_param p ?x] =>
    set (s1 := x); destruct (keeps_free p s1) as (KF & SF & TF) end.
  destruct (FF (st (free_param p s1))) as [FR FL].
  destruct (call_cb_cases cl e (pid p) (pcont p) s0) as [(x & E & KX) | (SE & TE & KE & BE)].
  - fold s1 in E. destruct (clear_fields cl x F) as (S & _ & _ & _ & _ & CN & M & SB & _).
    assert (U : s_reg (st (upst f (free_param p s1))) = false).
    { cbn. rewrite FR, SF, E, S. reflexivity. }
    split; [| split; [apply T_unreg; exact U | left; exact U]].
    eapply J_keeps; [apply keeps_st |]. eapply J_keeps; [exact KF |].
    rewrite E. apply J_clear; [exact F |].
    destruct KX as (KX1 & _ & KX2 & _). destruct HJ as (_ & MS & _).
    intros Q. assert (mgr s0 = true) by congruence. apply MS in H. congruence.
  - fold s1 in SE, TE, KE, BE.
    assert (KA : keeps s0 (upst f (free_param p s1))).
    { eapply keeps_trans; [exact KE |]. eapply keeps_trans; [exact KF | apply keeps_st]. }
    split; [eapply J_keeps; eassumption |]. split.
    + unfold T. cbn. rewrite FR, SF, SE, TF, TE. exact HT.
    + destruct (reset_param p) eqn:RP.
      * right; left. unfold keeps in KF. decompose [and] KF.
        rewrite (busy_eq (free_param p s1)) by reflexivity.
        match goal with H : busy _ = true -> busy _ = true |- _ => apply H end.
        apply BE. exact RP.
      * assert (E1 : s_reg (st (upst f (free_param p s1))) = s_reg (st s0))
          by (cbn; rewrite FR, SF, SE; reflexivity).
        assert (E2 : s_log (st (upst f (free_param p s1))) = s_log (st s0))
          by (cbn; rewrite FL, SF, SE; reflexivity).
        destruct (s_reg (st s0)) eqn:RR; [| left; exact E1].
        right; right; left. split; [exact RP |].
        split; [eapply keeps_trans; eassumption |].
        rewrite E1, E2. cbn [user_api]. split; [exact R1 |].
        intros LG. destruct (R2 LG) as [|[X|[|]]]; try tauto; congruence.
Qed.

Lemma good_finish_reg : forall b cl e r p f s s0, frame cl -> J b s0 -> full s0 ->
  mgr s0 = mgr s -> (exists d, r = ROk (Some d)) ->
  (forall x, s_reg (f x) = s_reg x /\ s_log (f x) = s_log x) ->
  good b r (QApi AReg p) s (upst f (finish_api cl e p s0)).
Proof.
  intros b cl e r p f s s0 F HJ HT M RR FF. unfold finish_api.
  match goal with |- context [free_param p ?x] =>
    set (s1 := x); destruct (keeps_free p s1) as (KF & SF & TF) end.
  destruct (FF (st (free_param p s1))) as [FR FL].
  destruct (call_cb_cases cl e (pid p) (pcont p) s0) as [(x & E & KX) | (SE & TE & KE & BE)].
  - fold s1 in E. destruct (clear_fields cl x F) as (S & _ & _ & _ & _ & CN & M' & SB & _).
    assert (U : s_reg (st (upst f (free_param p s1))) = false).
    { cbn. rewrite FR, SF, E, S. reflexivity. }
    split; [| split; [apply T_unreg; exact U | left; exact U]].
    eapply J_keeps; [apply keeps_st |]. eapply J_keeps; [exact KF |].
    rewrite E. apply J_clear; [exact F |].
    destruct KX as (KX1 & _ & KX2 & _). destruct HJ as (_ & MS & _).
    intros Q. assert (mgr s0 = true) by congruence. apply MS in H. congruence.
  - fold s1 in SE, TE, KE, BE.
    assert (KA : keeps s0 (upst f (free_param p s1))).
    { eapply keeps_trans; [exact KE |]. eapply keeps_trans; [exact KF | apply keeps_st]. }
    split; [eapply J_keeps; eassumption |]. split.
    + intros _. cbn. rewrite TF, TE. exact HT.
    + right; right; right; right. split; [exact RR |]. split; [eauto |].
      unfold keeps in KA. decompose [and] KA. congruence.
Qed.

Ltac fl := intros ?; split; reflexivity.


Lemma good_api : forall b cl e r a p s, frame cl -> resp_ok cl r (QApi a p) s -> J b s ->
  T s -> good b r (QApi a p) s (handle cl e r (QApi a p) s).
Proof.
  intros b cl e r a p s F RO HJ HT. cbn [handle]. cbv zeta.
  destruct (keeps_use p s) as (KU & SU & TU). set (u := use_param p s) in *.
  assert (JU : J b u) by (eapply J_keeps; eassumption).
  assert (TUu : T u) by (eapply T_eq; eassumption).
  assert (ROu : resp_ok cl r (QApi a p) u).
  { intros d A B C z RZ. apply (RO d A B C z). rewrite RZ. unfold u.
    destruct (use_shape p s) as (lv & bb & E). rewrite E. reflexivity. }
  destruct a.
  - unfold h_api_register.
    pose proof (reg_core_cases b cl r u (QApi AReg p) F ROu
      (or_intror (ex_intro _ p eq_refl)) JU) as C.
    destruct (reg_core cl r u) as [er s1].
    destruct C as [(-> & RR & J1 & F1 & M1) | (N & ->)]; cbv zeta.
    + apply good_finish_reg; [exact F | jw J1 | exact F1 | | exact RR | fl].
      unfold keeps in KU. cbn. destruct KU as (KM & _). congruence.
    + apply good_finish; [exact F | | | | fl | |].
      * jw JU.
      * exact TUu.
      * eapply keeps_trans; [exact KU |]. ks.
      * cbn. rewrite SU. auto.
      * cbn. rewrite SU. auto.
  - unfold h_api_login.
    assert (X : forall er c x, login_core r u = (er, c, x) ->
      keeps u x /\ T x /\ s_reg (st x) = s_reg (st u)
      /\ (s_log (st u) = true -> s_log (st x) = true)).
    { intros er c x E. unfold login_core in E. cbv zeta in E.
      destruct r as [[d |] | | | |]; try (destruct (s_reg (st u)) eqn:R);
        inversion E; subst; clear E;
        try (split; [apply keeps_refl |]; split; [exact TUu |]; split; auto; congruence).
      all: split; [ks |]; split; [| split].
      all: try (cbn; rewrite ?(proj1 (st_set_exp _ _)), ?(proj2 (st_set_exp _ _)); auto).
      all: intros _; cbn; rewrite (proj1 (tok_exp _ _)), (proj2 (tok_exp _ _));
        apply TUu; exact R. }
    destruct (login_core r u) as [[er c] x]. destruct (X er c x eq_refl) as (K1 & T1 & R1 & L1).
    assert (G : forall y, keeps x y -> st y = st x \/ st y = w_s_fail true (st x) ->
      tok y = tok x ->
      good b r (QApi ALogin p) s
        (upst (fun x0 => w_s_fail false (w_s_exp false x0)) (finish_api cl e p y))).
    { intros y KY SY TY.
      assert (A : s_reg (st y) = s_reg (st x)) by (destruct SY as [-> | ->]; reflexivity).
      assert (B : s_log (st y) = s_log (st x)) by (destruct SY as [-> | ->]; reflexivity).
      apply good_finish; [exact F | | | | fl | |].
      - eapply J_keeps; [exact KY |]. eapply J_keeps; [exact K1 | exact JU].
      - unfold T. rewrite A, TY. exact T1.
      - eapply keeps_trans; [exact KU |]. eapply keeps_trans; eassumption.
      - rewrite A, R1, SU. auto.
      - rewrite B, <- SU. auto. }
    cbv zeta. destruct er; apply G; try reflexivity; try ks; cbn; auto.
  - unfold h_api_logout. cbv zeta.
    apply good_finish; [exact F | | | | fl | |].
    + destruct r; jw JU.
    + destruct r; exact TUu.
    + eapply keeps_trans; [exact KU |]. destruct r; ks.
    + destruct r; cbn; rewrite SU; auto.
    + destruct (reset_param p) eqn:RP; [auto |].
      right; right; left. unfold api_user. rewrite RP. reflexivity.
  - unfold h_api_refresh.
    assert (X : forall er x, refresh_core r u = (er, x) ->
      keeps u x /\ T x /\ (s_reg (st x) = true -> s_reg (st u) = true)).
    { intros er x E. unfold refresh_core in E. cbv zeta in E.
      destruct r as [[d |] | | | |]; try (destruct (s_reg (st u)) eqn:R);
        inversion E; subst; clear E; (split; [ks |]); (split; [| solve [auto | cbn; auto | cbn; congruence]]);
        try (apply T_unreg; reflexivity); try exact TUu.
      intros _. cbn. rewrite (proj1 (tok_exp _ _)), (proj2 (tok_exp _ _)). cbn.
      split; [reflexivity |]. apply TUu. exact R. }
    destruct (refresh_core r u) as [er x]. destruct (X er x eq_refl) as (K1 & T1 & R1).
    cbv zeta.
    assert (G : forall y, keeps x y -> st y = st x -> tok y = tok x ->
      good b r (QApi ARefresh p) s
        (upst (fun x0 => w_s_fail false (w_s_exp false (w_s_rfr false x0)))
           (finish_api cl e p y))).
    { intros y KY SY TY.
      apply good_finish; [exact F | | | | fl | |].
      - eapply J_keeps; [exact KY |]. eapply J_keeps; [exact K1 | exact JU].
      - eapply T_eq; eassumption.
      - eapply keeps_trans; [exact KU |]. eapply keeps_trans; eassumption.
      - rewrite SY, <- SU. auto.
      - destruct (reset_param p) eqn:RP; [auto |].
        right; right; left. unfold api_user. rewrite RP. reflexivity. }
    destruct er; apply G; try reflexivity; ks.
  - unfold h_api_dereg. cbv zeta.
    apply good_finish; [exact F | | | | fl | |].
    + destruct r; jw JU.
    + destruct r; try exact TUu; apply T_unreg; reflexivity.
    + eapply keeps_trans; [exact KU |].
      destruct r; try ks; apply keeps_fields; reflexivity.
    + destruct r; cbn; rewrite ?SU; auto; discriminate.
    + destruct r; cbn; rewrite ?SU; auto.
Qed.

Lemma good_handle : forall b cl e r q s, frame cl -> resp_ok cl r q s -> J b s ->
  T s -> good b r q s (handle cl e r q s).
Proof.
  intros b cl e r q s F RO HJ HT. destruct q as [| | | | a p].
  - apply good_register; assumption.
  - apply good_login; assumption.
  - apply good_refresh; assumption.
  - apply good_ping; assumption.
  - apply good_api; assumption.
Qed.
