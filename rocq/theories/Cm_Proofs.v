(* Frames of the operations of the cloud manager, and the consistency of its
   status. *)
From Coq Require Import List Bool Arith ZArith Lia.
Import ListNotations.
From Verif Require Import Cm_Model Cm_Spec.

Lemma free_shape : forall p s, exists lv b,
  free_param p s = w_bad b (w_live lv s).
Proof.
  intros p s. unfold free_param. destruct (mem (pid p) (live s)).
  - exists (remove Nat.eq_dec (pid p) (live s)), (bad s). destruct s; reflexivity.
  - exists (live s), true. destruct s; reflexivity.
Qed.

Lemma use_shape : forall p s, exists lv b,
  use_param p s = w_bad b (w_live lv s).
Proof.
  intros p s. unfold use_param. destruct (mem (pid p) (live s)).
  - exists (live s), (bad s). destruct s; reflexivity.
  - exists (live s), true. destruct s; reflexivity.
Qed.

Lemma frees_shape : forall l s, exists lv b,
  fold_left (fun a p => free_param p a) l s = w_bad b (w_live lv s).
Proof.
  induction l as [| p l IH]; intros s; cbn [fold_left].
  - exists (live s), (bad s). destruct s; reflexivity.
  - destruct (free_shape p s) as (lv & b & E). rewrite E.
    destruct (IH (w_bad b (w_live lv s))) as (lv2 & b2 & E2). rewrite E2.
    exists lv2, b2. reflexivity.
Qed.

Definition dstop_t (t : timers) : timers :=
  w_t_rst [] (w_t_clear false (w_t_refd [] t)).

Lemma dereg_stop_shape : forall s, exists lv b,
  dereg_stop s = w_bad b (w_live lv (uptm dstop_t s)).
Proof.
  intros s. unfold dereg_stop. cbv zeta.
  destruct (frees_shape (t_refd (tm s)) s) as (lv & b & E). rewrite E.
  match goal with |- context [fold_left _ ?l ?x] =>
    destruct (frees_shape l x) as (lv2 & b2 & E2) end.
  rewrite E2. exists lv2, b2. reflexivity.
Qed.

Global Opaque dereg_stop free_param use_param.

Ltac shape := repeat
  match goal with
  | |- context [dereg_stop ?x] =>
      let E := fresh in destruct (dereg_stop_shape x) as (? & ? & E); rewrite E; clear E
  | |- context [free_param ?p ?x] =>
      let E := fresh in destruct (free_shape p x) as (? & ? & E); rewrite E; clear E
  | |- context [use_param ?p ?x] =>
      let E := fresh in destruct (use_shape p x) as (? & ? & E); rewrite E; clear E
  end.

Ltac ifs := repeat
  match goal with
  | |- context [if ?b then _ else _] => destruct b eqn:?
  | |- context [match ?b with pair _ _ => _ end] => destruct b eqn:?
  end.

(* What closing leaves alone. *)
Definition frame (cl : ctx -> ctx) : Prop :=
  forall s, mgr (cl s) = mgr s /\ subs (cl s) = subs s /\ oper (cl s) = oper s
            /\ tcp (cl s) = tcp s.

Lemma frame_id : frame (fun x => x).
Proof. intros s. auto. Qed.

Lemma clear_fields : forall cl s, frame cl ->
  st (ctx_clear cl s) = status0 /\ tok (ctx_clear cl s) = tokens0
  /\ cps (ctx_clear cl s) = CUninit /\ ep (ctx_clear cl s) = false
  /\ peer (ctx_clear cl s) = false /\ conn (ctx_clear cl s) = false
  /\ mgr (ctx_clear cl s) = mgr s /\ subs (ctx_clear cl s) = subs s
  /\ oper (ctx_clear cl s) = oper s /\ tcp (ctx_clear cl s) = tcp s
  /\ t_refd (tm (ctx_clear cl s)) = [] /\ t_rst (tm (ctx_clear cl s)) = []
  /\ t_clear (tm (ctx_clear cl s)) = false.
Proof.
  intros cl s F. unfold ctx_clear.
  match goal with |- context [dereg_stop ?x] =>
    destruct (dereg_stop_shape x) as (lv & b & E); rewrite E; clear E end.
  unfold reset_endpoint, mgr_stop. specialize (F s).
  destruct (ep s); cbn; tauto.
Qed.


Definition local (need : ctx -> bool) : Prop :=
  forall a b, tok a = tok b -> oper a = oper b -> need a = need b.

Lemma local_reg : local need_reg.
Proof. intros a b H K. unfold need_reg. rewrite H, K. reflexivity. Qed.
Lemma local_login : local need_login.
Proof. intros a b H K. unfold need_login. rewrite H. reflexivity. Qed.
Lemma local_refresh : local need_refresh.
Proof. intros a b H K. unfold need_refresh. rewrite H. reflexivity. Qed.
Lemma local_none : local need_none.
Proof. intros a b H K. reflexivity. Qed.

(* What sending changes. *)
Definition sent_ok (need : ctx -> bool) (q : req) (s : ctx) (ok : bool) (s1 : ctx)
  : Prop :=
  st s1 = st s /\ tok s1 = tok s /\ tm s1 = tm s /\ cps s1 = cps s
  /\ mgr s1 = mgr s /\ subs s1 = subs s /\ oper s1 = oper s /\ tcp s1 = tcp s
  /\ conn s1 = conn s /\ live s1 = live s /\ nxt s1 = nxt s /\ bad s1 = bad s
  /\ (ep s = true -> ep s1 = true)
  /\ (ep s = true -> peer s = true -> peer s1 = true)
  /\ (ok = true -> reqs s1 = reqs s ++ [q] /\ out s1 = out s ++ [ESent q]
        /\ need s = true /\ ep s1 = true /\ peer s1 = true)
  /\ (ok = false -> reqs s1 = reqs s /\ out s1 = out s).

Lemma send_shape : forall e need q s, local need ->
  sent_ok need q s (fst (send_req e need q s)) (snd (send_req e need q s)).
Proof.
  intros e need q s L.
  assert (X : forall s', tok s' = tok s -> oper s' = oper s -> need s' = need s).
  { intros s' A B. apply L; assumption. }
  unfold send_req, set_endpoint, sent_ok.
  destruct (ep s) eqn:E.
  - cbn [andb]. destruct (need s) eqn:N; cbn [andb]; [destruct (en_send e) |];
      cbn; repeat (split; [tauto || congruence |]); try tauto; congruence.
  - destruct (en_addr e); cbn [andb].
    + rewrite (X (w_peer (en_peer e) (w_ep true s))) by reflexivity.
      destruct (need s) eqn:N; cbn [andb]; [destruct (en_send e) |];
        cbn; repeat (split; [tauto || congruence |]); try tauto; congruence.
    + cbn. repeat (split; [tauto || congruence |]). tauto.
Qed.

Ltac send_ :=
  match goal with
  | |- context [send_req ?e ?n ?q ?s] =>
      let L := fresh in
      assert (L : local n) by (first [apply local_reg | apply local_login
        | apply local_refresh | apply local_none]);
      let Q := fresh "SND" in pose proof (send_shape e n q s L) as Q; clear L;
      let ok := fresh "ok" in let s1 := fresh "s1" in
      destruct (send_req e n q s) as [ok s1]; cbn [fst snd] in Q; unfold sent_ok in Q;
      destruct Q as (?&?&?&?&?&?&?&?&?&?&?&?&?&?&?&?)
  end.

(* ---- a login needs a registration ---- *)

Notation L := login_needs_registration.

Lemma L_status : forall s s', st s' = st s -> L s -> L s'.
Proof. intros s s' E H. unfold L in *. rewrite E. exact H. Qed.

Lemma L_clear : forall cl s, L (ctx_clear cl s).
Proof.
  intros cl s. unfold ctx_clear, L, emit, reinit_store. cbn. discriminate.
Qed.

Lemma L_call_cb : forall cl e i c s, L s -> L (call_cb cl e i c s).
Proof.
  intros cl e i c s H. unfold call_cb. destruct c as [| [|] | p | p].
  - exact H.
  - apply L_clear.
  - exact H.
  - cbv zeta. unfold by_request.
    destruct (use_shape p s) as (lv & b & E). rewrite E. clear E.
    destruct (s_log (st _)); [| apply L_clear].
    send_. destruct ok; [| apply L_clear].
    eapply L_status; [| exact H]. cbn in *. congruence.
  - cbv zeta. destruct (use_shape p s) as (lv & b & E). rewrite E. clear E.
    destruct (s_rfr (st _)); [exact H | apply L_clear].
Qed.

Lemma L_flags : forall f s, (forall x, s_log (f x) = s_log x /\ s_reg (f x) = s_reg x)
  -> L s -> L (upst f s).
Proof.
  intros f s F H. unfold L in *. cbn. destruct (F (st s)) as [A B]. rewrite A, B. exact H.
Qed.

Lemma L_finish : forall cl e p s, L s -> L (finish_api cl e p s).
Proof.
  intros cl e p s H. unfold finish_api. shape.
  eapply L_status; [| apply (L_call_cb cl e (pid p) (pcont p)); exact H].
  reflexivity.
Qed.

Lemma st_set_exp : forall z s, s_log (st (set_exp z s)) = s_log (st s)
  /\ s_reg (st (set_exp z s)) = s_reg (st s).
Proof. intros z s. unfold set_exp. cbv zeta. destruct (0 <? z)%Z; cbn; auto. Qed.

Lemma L_reg_core : forall cl r s, L s -> L (snd (reg_core cl r s)).
Proof.
  intros cl r s H. unfold reg_core. cbv zeta.
  destruct r as [[d |] | | | |]; ifs; unfold L in *; cbn in *; auto.
Qed.

Lemma L_login_core : forall r s, L s -> L (snd (login_core r s)).
Proof.
  intros r s H. unfold login_core. cbv zeta.
  destruct r as [[d |] | | | |]; cbn [snd]; try exact H;
    destruct (s_reg (st s)) eqn:R; cbn [snd]; try exact H.
  unfold L. cbn. intros _. destruct (st_set_exp (pl_exp d) s) as [_ E].
  rewrite E. exact R.
Qed.

Lemma L_refresh_core : forall r s, L s -> L (snd (refresh_core r s)).
Proof.
  intros r s H. unfold refresh_core. cbv zeta.
  destruct r as [[d |] | | | |]; ifs; unfold L in *; cbn in *;
    try congruence; auto.
  destruct (st_set_exp (pl_exp d)
    (uptok (fun k => w_k_acc true (w_k_rfr true k)) s)) as [A B].
  cbn in A, B. congruence.
Qed.

Lemma L_same : forall s f, L s -> L (uptm f s).
Proof. intros s f H. exact H. Qed.
Lemma L_cps : forall s c, L s -> L (w_cps c s).
Proof. intros s f H. exact H. Qed.
Lemma L_tok : forall s f, L s -> L (uptok f s).
Proof. intros s f H. exact H. Qed.
Lemma L_emit : forall s e, L s -> L (emit e s).
Proof. intros s f H. exact H. Qed.
Lemma L_fail : forall s b, L s -> L (upst (w_s_fail b) s).
Proof. intros s b H. exact H. Qed.
Lemma L_failrec : forall s, L s -> L (fail_reconnect s).
Proof. intros s H. exact H. Qed.

Ltac Lstep := repeat match goal with
  | H : L ?x |- L ?x => exact H
  | |- L (ctx_clear _ _) => apply L_clear
  | |- L (uptm _ _) => apply L_same
  | |- L (w_cps _ _) => apply L_cps
  | |- L (uptok _ _) => apply L_tok
  | |- L (emit _ _) => apply L_emit
  | |- L (upst (w_s_fail _) _) => apply L_fail
  | |- L (fail_reconnect _) => apply L_failrec
  end.

Lemma L_handle : forall cl e r q s, L s -> L (handle cl e r q s).
Proof.
  intros cl e r q s H. destruct q as [| | | | a p]; cbn [handle].
  - unfold h_register.
    pose proof (L_reg_core cl r (uptm (w_t_reg false) s) H) as K.
    destruct (reg_core _ _ _) as [er s1]. cbn [snd] in K. cbv zeta.
    destruct er; ifs; Lstep.
  - unfold h_login. cbv zeta.
    pose proof (L_login_core r (uptm (w_t_login false) s) H) as K.
    destruct (login_core _ _) as [[er c] s1]. cbn [snd] in K.
    destruct (s_reg _); [| Lstep]. destruct er; ifs; Lstep.
  - unfold h_refresh.
    pose proof (L_refresh_core r (uptm (w_t_rfr false) s) H) as K.
    destruct (refresh_core _ _) as [er s1]. cbn [snd] in K. cbv zeta.
    destruct er; ifs; Lstep.
  - unfold h_ping. ifs; Lstep.
  - cbv zeta. destruct (use_shape p s) as (lv & b & E). rewrite E. clear E.
    assert (H' : L (w_bad b (w_live lv s))) by exact H.
    destruct a.
    + unfold h_api_register.
      pose proof (L_reg_core cl r _ H') as K.
      destruct (reg_core _ _ _) as [er s1]. cbn [snd] in K. cbv zeta.
      apply L_flags; [intros x; cbn; auto |]. apply L_finish. Lstep.
    + unfold h_api_login.
      pose proof (L_login_core r _ H') as K.
      destruct (login_core _ _) as [[er c] s1]. cbn [snd] in K. cbv zeta.
      apply L_flags; [intros x; cbn; auto |]. apply L_finish.
      destruct er; Lstep.
    + unfold h_api_logout. cbv zeta.
      apply L_flags; [intros x; cbn; auto |]. apply L_finish.
      destruct r; try (apply L_flags; [intros x; cbn; split; reflexivity | exact H']).
      unfold L. cbn. discriminate.
    + unfold h_api_refresh.
      pose proof (L_refresh_core r _ H') as K.
      destruct (refresh_core _ _) as [er s1]. cbn [snd] in K. cbv zeta.
      apply L_flags; [intros x; cbn; auto |]. apply L_finish.
      destruct er; Lstep.
    + unfold h_api_dereg. cbv zeta.
      apply L_flags; [intros x; cbn; auto |]. apply L_finish. apply L_cps.
      destruct r; try (apply L_flags; [intros x; cbn; split; reflexivity | exact H']);
        unfold L; cbn; discriminate.
Qed.

Lemma L_pass : forall rs ces s, L s -> L (pass rs ces s).
Proof.
  induction rs as [| q rs IH]; intros ces s H; cbn [pass]; [exact H |].
  cbv zeta. apply IH. destruct (en_hit _); [apply L_handle |]; exact H.
Qed.

Lemma st_cm_restart : forall s, st (cm_restart s) = st s.
Proof. intros s. unfold cm_restart. shape. reflexivity. Qed.

Lemma L_close : forall ces s, L s -> L (close ces s).
Proof.
  intros ces s H. unfold close. destruct (peer s); [| exact H].
  assert (K : L (closed_requests ces (w_peer false s))).
  { unfold closed_requests. cbv zeta. apply L_pass. cbn. apply L_pass. exact H. }
  unfold session_down. cbv zeta. ifs; try exact K.
  eapply L_status; [apply st_cm_restart | exact K].
Qed.

Lemma L_reset_endpoint : forall cl s, (L s -> L (cl s)) -> L s ->
  L (reset_endpoint cl s).
Proof.
  intros cl s C H. unfold reset_endpoint.
  eapply (L_status (if ep s then cl s else s)); [reflexivity |].
  destruct (ep s); auto.
Qed.

Lemma L_restart : forall ces s, L s -> L (manager_restart ces s).
Proof.
  intros ces s H. unfold manager_restart. cbv zeta.
  pose proof (L_close ces s H) as K. ifs; Lstep.
Qed.

Lemma L_start_process : forall e s, L s -> L (start_process e s).
Proof. intros e s H. unfold start_process. ifs; Lstep. Qed.

Lemma L_do_login : forall cl e a c s, L s -> L (snd (do_login cl e a c s)).
Proof.
  intros cl e a c s H. unfold do_login. destruct (s_log (st s)).
  - cbn [snd]. apply L_call_cb. exact H.
  - destruct (s_reg (st s) && a); [| exact H]. unfold new_param. cbv beta iota zeta.
    send_. destruct ok; cbn [snd]; shape; (eapply L_status; [| exact H]); cbn in *; congruence.
Qed.

Lemma L_do_refresh : forall e a c s, L s -> L (snd (do_refresh e a c s)).
Proof.
  intros e a c s H. unfold do_refresh.
  destruct (s_reg (st s) && a); [| exact H]. unfold new_param. cbv beta iota zeta.
  send_. destruct ok; cbn [snd]; shape; (eapply L_status; [| exact H]); cbn in *; congruence.
Qed.

Lemma L_dereg : forall cl e y c s, L s -> L (snd (do_deregister cl e y c s)).
Proof.
  intros cl e y c s H. unfold do_deregister.
  destruct (s_reg (st s)); [| exact H]. destruct (cps_eqb _ _); [exact H |].
  destruct (en_alloc e); [| exact H]. unfold new_param. cbv beta iota zeta.
  match goal with |- context [w_cps CDeregistering ?x] =>
    set (s2 := w_cps CDeregistering x) end.
  assert (H2 : L s2) by exact H.
  destruct (en_short e || s_log (st s2)).
  - unfold by_request. send_. destruct ok; cbn [snd]; shape;
      (eapply L_status; [| exact H2]); cbn in *; congruence.
  - destruct y; cbn [snd]; [shape; exact H2 |].
    destruct (_ && _).
    + pose proof (L_do_refresh e (en_alloc2 e) (KTryRefreshed (Param (nxt s) c)) s2 H2) as K.
      destruct (do_refresh _ _ _ _) as [ok s3]. cbn [snd] in K.
      destruct ok; cbn [snd]; shape; exact K.
    + pose proof (L_do_login cl e (en_alloc2 e) (KTryLogin (Param (nxt s) c)) s2 H2) as K.
      destruct (do_login _ _ _ _ _) as [ok s3]. cbn [snd] in K.
      destruct ok; cbn [snd]; shape; exact K.
Qed.

Lemma L_fire : forall t e ces s, L s -> L (fire t e ces s).
Proof.
  intros t e ces s H. destruct t; cbn [fire].
  - unfold f_register. cbv zeta. destruct (is_init _); [| exact H].
    send_. assert (K : L s1) by (eapply L_status; [| exact H]; cbn in *; congruence).
    ifs; Lstep.
  - unfold f_login. cbv zeta. destruct (s_reg _); [| exact H].
    send_. assert (K : L s1) by (eapply L_status; [| exact H]; cbn in *; congruence).
    ifs; Lstep.
  - unfold f_ping. cbv zeta. ifs; exact H.
  - unfold f_refresh. cbv zeta. destruct (s_reg _); [| exact H].
    send_. assert (K : L s1) by (eapply L_status; [| exact H]; cbn in *; congruence).
    ifs; Lstep.
  - unfold f_reconnect. apply L_restart. exact H.
  - unfold f_callback. cbv zeta. apply L_flags; [intros x; cbn; auto | exact H].
  - unfold restart_manager. destruct (mgr _); [| exact H].
    eapply L_status; [apply st_cm_restart | exact H].
  - unfold start_manager. cbv zeta. apply L_emit. apply L_start_process.
    unfold L. cbn. discriminate.
  - apply L_clear.
Qed.

Lemma L_step : forall o s, L s -> L (step s o).
Proof.
  intros o s H. destruct o as [t e ces | i e ces | i e ces | i r e ces | | ces | | e
    | reset ces | ces | ces | force sync e ces | e ces | e | e ces | e | e];
    cbn [step].
  - destruct (pending t (tm s)); [apply L_fire |]; exact H.
  - destruct (nth_error _ i) as [p |]; [| exact H]. unfold f_refreshed. cbv zeta.
    match goal with |- context [use_param p ?x] =>
      destruct (use_shape p x) as (lv & b & E); rewrite E; clear E end.
    match goal with |- context [do_login _ _ _ _ ?x] => set (s1 := x) end.
    assert (H1 : L s1) by exact H.
    assert (K : L (snd (if en_short e then by_request e p s1
       else do_login (close ces) e (en_alloc e) (KTryLogin p) s1))).
    { destruct (en_short e); [| apply L_do_login; exact H1].
      unfold by_request. send_. cbn [snd]. eapply L_status; [| exact H1]. congruence. }
    destruct (if en_short e then _ else _) as [ok s2]. cbn [snd] in K.
    destruct ok; [exact K | apply L_clear].
  - destruct (nth_error _ i) as [p |]; [| exact H]. unfold f_on_reset. cbv zeta.
    shape.
    match goal with |- context [do_deregister ?cl ?e ?y ?c ?x] =>
      pose proof (L_dereg cl e y c x H) as K; destruct (do_deregister cl e y c x) as [r s2] end.
    cbn [snd] in K. destruct r; try exact K. apply L_clear.
  - destruct (nth_error _ i) as [q |]; [| exact H]. apply L_handle. exact H.
  - unfold session_up. ifs; exact H.
  - destruct (ep s); [apply L_close |]; exact H.
  - unfold interface_up. destruct (_ && _); [| exact H].
    eapply L_status; [apply st_cm_restart | exact H].
  - unfold manager_start. apply (L_start_process e s) in H. exact H.
  - unfold manager_stop. cbv zeta.
    match goal with |- context [reset_endpoint ?c ?x] =>
      assert (K : L (reset_endpoint c x))
        by (apply L_reset_endpoint; [apply L_close | exact H]);
      set (s2 := reset_endpoint c x) in * end.
    destruct (reset || negb (k_acc (tok s2))).
    + unfold L. cbn. discriminate.
    + unfold L. cbn. discriminate.
  - apply L_restart. exact H.
  - unfold update_conf. cbv zeta.
    assert (K : forall x, L (w_cps CReady (w_st status0 x))) by (intros x; unfold L; cbn; discriminate).
    destruct (mgr _); [apply L_restart |]; apply K.
  - unfold cloud_reset. destruct (_ && _); [| apply L_clear]. cbv zeta.
    destruct sync.
    + match goal with |- context [do_deregister ?cl ?e ?y ?c ?x] =>
        pose proof (L_dereg cl e y c x H) as K; destruct (do_deregister cl e y c x) as [r s2] end.
      cbn [snd] in K. destruct r; try exact K. apply L_clear.
    + destruct (en_alloc e); [| apply L_clear]. exact H.
  - apply L_dereg. exact H.
  - unfold do_register. ifs; cbn [snd]; try exact H.
    all: inversion Heqp; subst; clear Heqp.
    all: match goal with K : send_req ?e ?n ?q ?x = _ |- _ =>
        pose proof (send_shape e n q x local_reg) as Q; rewrite K in Q end.
    all: unfold sent_ok in Q; cbn [fst snd] in Q; destruct Q as (Q & _).
    all: shape; (eapply L_status; [| exact H]); cbn in *; congruence.
  - apply L_do_login. exact H.
  - unfold do_logout. ifs; cbn [snd]; try exact H.
    all: inversion Heqp; subst; clear Heqp.
    all: match goal with K : send_req ?e ?n ?q ?x = _ |- _ =>
        pose proof (send_shape e n q x local_login) as Q; rewrite K in Q end.
    all: unfold sent_ok in Q; cbn [fst snd] in Q; destruct Q as (Q & _).
    all: shape; (eapply L_status; [| exact H]); cbn in *; congruence.
  - apply L_do_refresh. exact H.
Qed.

Lemma L_run : forall l s, L s -> L (run s l).
Proof.
  induction l as [| o l IH]; intros s H; cbn [run fold_left]; [exact H |].
  apply IH. apply L_step. exact H.
Qed.
