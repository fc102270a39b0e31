(* A device without cloud sends nothing; a stopped manager sends nothing. *)
From Coq Require Import List Bool Arith ZArith Lia.
Import ListNotations.
From Verif Require Import Cm_Model Cm_Spec Cm_Proofs Cm2_Proofs Cm3_Proofs Cm4_Proofs
  Cm5_Proofs.

Definition SI (s s' : ctx) : Prop :=
  cloudless s -> cloudless s' /\ sent s' = sent s.

Lemma SI_refl : forall s, SI s s.
Proof. intros s H. auto. Qed.
Lemma SI_trans : forall a b c, SI a b -> SI b c -> SI a c.
Proof.
  intros a b c A B H. destruct (A H) as (H1 & E1). destruct (B H1) as (H2 & E2).
  split; [exact H2 | congruence].
Qed.

Lemma sent_emit : forall s e, sent (emit e s)
  = sent s ++ match e with ESent q => [q] | _ => [] end.
Proof.
  intros s e. unfold sent, emit. cbn. rewrite flat_map_app. cbn. rewrite app_nil_r.
  reflexivity.
Qed.

Lemma SI_emit : forall s e, (forall q, e <> ESent q) -> SI s (emit e s).
Proof.
  intros s e N H. split; [exact H |]. rewrite sent_emit.
  destruct e; try apply app_nil_r. exfalso. apply (N q). reflexivity.
Qed.

(* Nothing of importance changes. *)
Lemma SI_eq : forall s s', out s' = out s -> reqs s' = reqs s ->
  t_refd (tm s') = t_refd (tm s) ->
  (s_reg (st s) = false -> s_reg (st s') = false) ->
  (s_log (st s) = false -> s_log (st s') = false) ->
  (k_acc (tok s) = false -> k_acc (tok s') = false) -> SI s s'.
Proof.
  intros s s' A B C D E F (H1 & H2 & H3 & H4 & H5). unfold cloudless, sent.
  rewrite A, B, C. split; [| reflexivity].
  split; [auto |]. split; [auto |]. split; [auto |]. split; assumption.
Qed.

Ltac sieq := apply SI_eq; first [reflexivity | (cbn; auto; fail) | (cbn; tauto)].

Lemma SI_free : forall p s, SI s (free_param p s).
Proof.
  intros p s. destruct (free_shape p s) as (lv & b & E). rewrite E. sieq.
Qed.
Lemma SI_use : forall p s, SI s (use_param p s).
Proof.
  intros p s. destruct (use_shape p s) as (lv & b & E). rewrite E. sieq.
Qed.
Lemma SI_dstop : forall s, SI s (dereg_stop s).
Proof.
  intros s. destruct (dereg_stop_shape s) as (lv & b & E). rewrite E.
  intros (H1 & H2 & H3 & H4 & H5). split; [| reflexivity].
  unfold cloudless. cbn. auto.
Qed.

(* Requests that need a registration or an access token are not sent. *)
Lemma SI_send : forall e need q s, (cloudless s -> forall x, tok x = tok s -> need x = false) ->
  SI s (snd (send_req e need q s)).
Proof.
  intros e need q s N H. specialize (N H). unfold send_req, set_endpoint.
  destruct (ep s).
  - rewrite (N s eq_refl), andb_false_r. cbn. auto.
  - destruct (en_addr e).
    + rewrite (N (w_peer (en_peer e) (w_ep true s)) eq_refl), andb_false_r. cbn.
      split; [exact H | reflexivity].
    + cbn. auto.
Qed.

Lemma need_reg_no : forall s, cloudless s -> forall x, tok x = tok s -> need_reg x = false.
Proof.
  intros s (_ & _ & H & _) x E. unfold need_reg. rewrite E, H. reflexivity.
Qed.

(* ---- closing ---- *)

Lemma SI_reset_endpoint : forall cl s, (forall x, SI x (cl x)) -> SI s (reset_endpoint cl s).
Proof.
  intros cl s C. unfold reset_endpoint.
  apply (SI_trans s (if ep s then cl s else s)); [destruct (ep s); [apply C | apply SI_refl] |].
  sieq.
Qed.

Lemma SI_reinit : forall s, SI s (reinit_store s).
Proof. intros s. unfold reinit_store. sieq. Qed.

Lemma SI_clear : forall cl s, (forall x, SI x (cl x)) -> SI s (ctx_clear cl s).
Proof.
  intros cl s C. unfold ctx_clear.
  eapply SI_trans; [apply (SI_reset_endpoint cl s C) |].
  set (y := reset_endpoint cl s). clearbody y.
  apply (SI_trans y (mgr_stop y)); [sieq |].
  set (z := mgr_stop y). clearbody z.
  eapply SI_trans; [apply SI_dstop |].
  set (w := dereg_stop z). clearbody w.
  eapply SI_trans; [apply SI_reinit |].
  apply SI_emit. discriminate.
Qed.

Lemma SI_handle : forall cl e r q s, (forall x, SI x (cl x)) -> harmless q = true ->
  SI s (handle cl e r q s).
Proof.
  intros cl e r q s C HQ. destruct q as [| | | | a p]; try discriminate; cbn [handle].
  - unfold h_login. cbv zeta. intros H. destruct (s_reg _) eqn:R.
    { exfalso. destruct H as (H1 & _). cbn in R. congruence. }
    revert H. change (SI s (uptm (w_t_cb true) (w_cps CFailed (uptm (w_t_login false) s)))).
    sieq.
  - unfold h_refresh, refresh_core. cbv zeta. intros H.
    assert (R : s_reg (st (uptm (w_t_rfr false) s)) = false) by apply H.
    assert (X : forall y, SI s y -> SI s (uptm (w_t_cb true) y)).
    { intros y Y. eapply SI_trans; [exact Y | sieq]. }
    destruct r as [[d |] | | | |]; try rewrite R; revert H.
    + match goal with |- cloudless s -> cloudless ?x /\ sent ?x = sent s =>
        change (SI s x) end. apply X. sieq.
    + match goal with |- cloudless s -> cloudless ?x /\ sent ?x = sent s =>
        change (SI s x) end. apply X. sieq.
    + cbn [st upst w_st uptm w_tm]. cbn in R. intros H. cbn. rewrite R.
      revert H.
      match goal with |- cloudless s -> cloudless ?x /\ sent ?x = sent s =>
        change (SI s x) end. sieq.
    + cbn [st upst w_st uptm w_tm]. cbn in R. intros H. cbn. rewrite R.
      revert H.
      match goal with |- cloudless s -> cloudless ?x /\ sent ?x = sent s =>
        change (SI s x) end. sieq.
    + match goal with |- cloudless s -> cloudless ?x /\ sent ?x = sent s =>
        change (SI s x) end. apply X. eapply SI_trans; [| apply SI_clear; exact C]. sieq.
    + match goal with |- cloudless s -> cloudless ?x /\ sent ?x = sent s =>
        change (SI s x) end. apply X. sieq.
  - unfold h_ping. intros H. assert (R : s_log (st s) = false) by apply H.
    rewrite R. auto.
Qed.

Lemma SI_pass : forall rs ces s, forallb harmless rs = true -> SI s (pass rs ces s).
Proof.
  induction rs as [| q rs IH]; intros ces s H; cbn [pass]; [apply SI_refl |].
  cbn [forallb] in H. apply andb_true_iff in H. destruct H as [H1 H2]. cbv zeta.
  eapply SI_trans; [| apply IH; exact H2].
  destruct (en_hit _).
  - apply SI_handle; [intros x; apply SI_refl | exact H1].
  - intros (A & B & C & D & E). split; [| reflexivity]. unfold cloudless. cbn.
    rewrite forallb_app, E. cbn. rewrite H1. auto.
Qed.

Lemma SI_take : forall s, SI s (w_reqs [] s).
Proof.
  intros s (A & B & C & D & E). split; [| reflexivity]. unfold cloudless. cbn. auto.
Qed.

Lemma SI_restart : forall s, SI s (cm_restart s).
Proof.
  intros s. unfold cm_restart. apply (SI_trans s (mgr_stop s)); [sieq |].
  set (m := mgr_stop s). clearbody m.
  eapply SI_trans; [apply SI_dstop |]. set (w := dereg_stop m). clearbody w. sieq.
Qed.

Lemma SI_close : forall ces s, SI s (close ces s).
Proof.
  intros ces s H. revert H. unfold close.
  destruct (peer s); [| intros H; apply SI_refl; exact H].
  intros H.
  assert (H0 : forallb harmless (reqs s) = true) by apply H.
  assert (X1 : SI s (pass (reqs s) ces (w_reqs [] (w_peer false s)))).
  { eapply SI_trans; [| apply SI_pass; exact H0].
    apply (SI_trans s (w_peer false s)); [sieq | apply SI_take]. }
  unfold closed_requests. cbv zeta. change (reqs (w_peer false s)) with (reqs s).
  set (y := pass (reqs s) _ _) in *. clearbody y.
  destruct (X1 H) as (HY & EY).
  assert (X2 : SI y (pass (reqs y) (skipn (length (reqs s)) ces) (w_reqs [] y))).
  { eapply SI_trans; [apply SI_take | apply SI_pass]. apply HY. }
  set (z := pass (reqs y) _ _) in *. clearbody z.
  destruct (X2 HY) as (HZ & EZ).
  assert (X3 : SI z (session_down z)).
  { unfold session_down. cbv zeta. destruct (subs z && ep z && conn z); [| apply SI_refl].
    destruct (_ && _); [| sieq].
    apply (SI_trans z (w_conn false z)); [sieq | apply SI_restart]. }
  destruct (X3 HZ) as (HW & EW). split; [exact HW | congruence].
Qed.

Lemma SI_mrestart : forall ces s, SI s (manager_restart ces s).
Proof.
  intros ces s. unfold manager_restart. cbv zeta.
  destruct (mgr s); [| apply SI_refl]. destruct (conn s); [| sieq].
  assert (X : SI s (if ep s then close ces s else s)).
  { destruct (ep s); [apply SI_close | apply SI_refl]. }
  destruct (ep s && tcp s); [exact X |]. eapply SI_trans; [exact X | sieq].
Qed.

Lemma SI_start : forall e s, SI s (start_process e s).
Proof. intros e s. unfold start_process, fail_reconnect. ifs; sieq. Qed.

Lemma SI_fire : forall t e ces s, SI s (fire t e ces s).
Proof.
  intros t e ces s. destruct t; cbn [fire].
  - unfold f_register. cbv zeta.
    apply (SI_trans s (uptm (w_t_reg false) s)); [sieq |].
    set (y := uptm (w_t_reg false) s). clearbody y.
    destruct (is_init (st y)); [| apply SI_refl].
    pose proof (SI_send e need_reg QReg y (need_reg_no y)) as A.
    destruct (send_req _ _ _ _) as [ok s1]. cbn [snd] in A.
    eapply SI_trans; [exact A |]. destruct ok; [sieq | destruct (en_sched e); sieq].
  - unfold f_login. cbv zeta. intros H.
    assert (R : s_reg (st (uptm (w_t_login false) s)) = false) by apply H.
    rewrite R. revert H. change (SI s (uptm (w_t_login false) s)). sieq.
  - unfold f_ping. cbv zeta. intros H.
    assert (R : s_log (st (uptm (w_t_ping false) s)) = false) by apply H.
    rewrite R. cbn [andb]. revert H. change (SI s (uptm (w_t_ping false) s)). sieq.
  - unfold f_refresh. cbv zeta. intros H.
    assert (R : s_reg (st (uptm (w_t_rfr false) s)) = false) by apply H.
    rewrite R. revert H. change (SI s (uptm (w_t_rfr false) s)). sieq.
  - unfold f_reconnect. eapply SI_trans; [| apply SI_mrestart]. sieq.
  - unfold f_callback. cbv zeta.
    apply (SI_trans s (uptm (w_t_cb false) s)); [sieq |].
    eapply SI_trans; [apply (SI_emit _ EStatus); discriminate |]. sieq.
  - unfold restart_manager.
    apply (SI_trans s (uptm (w_t_restart false) s)); [sieq |].
    destruct (mgr _); [apply SI_restart | apply SI_refl].
  - unfold start_manager. cbv zeta.
    match goal with |- context [start_process e ?x] =>
      apply (SI_trans s x); [destruct (s_reg _); sieq |]; set (y := x); clearbody y end.
    eapply SI_trans; [apply SI_start |]. apply SI_emit. discriminate.
  - eapply SI_trans; [| apply SI_clear; apply SI_close]. sieq.
Qed.

Lemma SI_dereg : forall cl e y c s, cloudless s -> do_deregister cl e y c s = (DFailed, s).
Proof.
  intros cl e y c s (H & _). unfold do_deregister. rewrite H. reflexivity.
Qed.

Lemma drop_incl : forall (A : Type) (f : A -> bool) l i, forallb f l = true ->
  forallb f (drop i l) = true.
Proof.
  induction l as [| a l IH]; intros i H; [destruct i; reflexivity |].
  cbn [forallb] in H. apply andb_true_iff in H. destruct H as [H1 H2].
  destruct i as [| i]; cbn [drop]; [exact H2 |].
  cbn [forallb]. rewrite H1. cbn [andb]. apply IH. exact H2.
Qed.

Lemma SI_step : forall o s, is_update o = false -> SI s (step s o).
Proof.
  intros o s U.
  destruct o as [t e ces | i e ces | i e ces | i r e ces | | ces | | e | rs ces | ces
    | ces | fo y e ces | e ces | e | e ces | e | e]; try discriminate; cbn [step].
  - destruct (pending t (tm s)); [apply SI_fire | apply SI_refl].
  - intros H. assert (R : t_refd (tm s) = []) by apply H. rewrite R.
    destruct i; cbn; auto.
  - destruct (nth_error (t_rst (tm s)) i) as [p |]; [| apply SI_refl].
    unfold f_on_reset. cbv zeta.
    set (sx := uptm (fun t => w_t_rst (drop i (t_rst t)) t) s).
    assert (X : SI s (free_param p (use_param p sx))).
    { apply (SI_trans s sx); [unfold sx; sieq |].
      eapply SI_trans; [apply SI_use | apply SI_free]. }
    set (z := free_param p (use_param p sx)) in *. clearbody z.
    eapply SI_trans; [exact X |]. intros H. rewrite SI_dereg by exact H.
    apply SI_clear; [apply SI_close | exact H].
  - destruct (nth_error (reqs s) i) as [q |] eqn:NE; [| apply SI_refl].
    intros H. assert (HQ : harmless q = true).
    { destruct H as (_ & _ & _ & _ & H). rewrite forallb_forall in H. apply H.
      eapply nth_error_In. exact NE. }
    revert H. 
    match goal with |- cloudless s -> cloudless ?x /\ sent ?x = sent s =>
        change (SI s x) end.
    eapply SI_trans; [| apply SI_handle; [apply SI_close | exact HQ]].
    intros (A & B & C & D & E). split; [| reflexivity]. unfold cloudless. cbn.
    split; [exact A |]. split; [exact B |]. split; [exact C |]. split; [exact D |].
    apply drop_incl. exact E.
  - unfold session_up. ifs; sieq.
  - destruct (ep s); [apply SI_close | apply SI_refl].
  - unfold interface_up. ifs; [apply SI_restart | apply SI_refl].
  - unfold manager_start. eapply SI_trans; [apply SI_start |]. sieq.
  - unfold manager_stop. cbv zeta.
    match goal with |- context [reset_endpoint (close ces) ?x] =>
      apply (SI_trans s x); [sieq |]; set (s1 := x); clearbody s1 end.
    eapply SI_trans; [apply (SI_reset_endpoint (close ces)); apply SI_close |].
    set (s2 := reset_endpoint (close ces) s1). clearbody s2.
    destruct (rs || negb (k_acc (tok s2))).
    + eapply SI_trans; [apply SI_reinit |]. sieq.
    + destruct (s_reg (st (upst (w_s_log false) s2))); sieq.
  - apply SI_mrestart.
  - unfold cloud_reset. destruct (_ && en_tls e); [| apply SI_clear, SI_close].
    cbv zeta. apply (SI_trans s (mgr_stop s)); [sieq |].
    set (s1 := mgr_stop s). clearbody s1. destruct y.
    + intros H. rewrite SI_dereg by exact H. apply SI_clear; [apply SI_close | exact H].
    + destruct (en_alloc e); [unfold new_param; sieq | apply SI_clear, SI_close].
  - intros H. rewrite SI_dereg by exact H. auto.
  - intros H. unfold do_register. assert (R : s_reg (st s) = false) by apply H.
    rewrite R. destruct (is_init (st s) && en_alloc e); [| auto].
    unfold new_param. cbv zeta.
    match goal with |- context [send_req ?a ?b ?c ?d] =>
      pose proof (SI_send a b c d (need_reg_no d)) as A;
      assert (B : SI s d) by sieq; destruct (send_req a b c d) as [ok s1] end.
    cbn [snd] in A. destruct (SI_trans _ _ _ B A H) as (H1 & E1).
    destruct ok; cbn [snd].
    + split; [exact H1 | exact E1].
    + destruct (SI_free (Param (nxt s) KUser) s1 H1) as (H2 & E2).
      split; [exact H2 | congruence].
  - intros H. unfold do_login. assert (R : s_reg (st s) = false) by apply H.
    assert (LG : s_log (st s) = false) by apply H. rewrite R, LG. auto.
  - intros H. unfold do_logout. assert (LG : s_log (st s) = false) by apply H.
    rewrite LG. auto.
  - intros H. unfold do_refresh. assert (R : s_reg (st s) = false) by apply H.
    rewrite R. auto.
Qed.

Lemma SI_run : forall l s, cloudless s -> existsb is_update l = false ->
  cloudless (run s l) /\ sent (run s l) = sent s.
Proof.
  induction l as [| o l IH]; intros s H U; [auto |].
  cbn [existsb] in U. apply orb_false_iff in U. destruct U as [U1 U2].
  destruct (SI_step o s U1 H) as (H1 & E1).
  destruct (IH (step s o) H1 U2) as (H2 & E2). unfold run in *. cbn [fold_left].
  split; [exact H2 | congruence].
Qed.

(* ---- a stopped manager ---- *)

Lemma st_close : forall ces s, reqs s = [] -> mgr s = false \/ subs s = false ->
  out (close ces s) = out s /\ reqs (close ces s) = [] /\ tm (close ces s) = tm s
  /\ mgr (close ces s) = mgr s.
Proof.
  intros ces s R M. unfold close. destruct (peer s); [| auto].
  unfold closed_requests. cbv zeta. change (reqs (w_peer false s)) with (reqs s).
  rewrite R. cbn [pass reqs w_reqs length skipn].
  unfold session_down. cbv zeta.
  match goal with |- context [subs ?x] => change (subs x) with (subs s) end.
  destruct M as [M | M].
  - match goal with |- context [if ?c then _ else _] => destruct c end; [| auto].
    match goal with |- context [mgr (w_conn false ?x)] =>
      change (mgr (w_conn false x)) with (mgr s) end.
    rewrite M, andb_false_r. cbn. auto.
  - rewrite M. cbn [andb]. auto.
Qed.

Lemma st_reset_endpoint : forall ces s, reqs s = [] -> mgr s = false \/ subs s = false ->
  out (reset_endpoint (close ces) s) = out s
  /\ reqs (reset_endpoint (close ces) s) = []
  /\ tm (reset_endpoint (close ces) s) = tm s
  /\ mgr (reset_endpoint (close ces) s) = mgr s.
Proof.
  intros ces s R M. unfold reset_endpoint. cbn.
  destruct (ep s); [apply st_close; assumption | auto].
Qed.

Definition mgr_stop_t (t : timers) : timers :=
  w_t_reconn false (w_t_reg false (w_t_login false (w_t_ping false (w_t_rfr false
    (w_t_cb false (w_t_start false (w_t_restart false t))))))).

Definition nosend (s s' : ctx) : Prop := stopped s' /\ sent s' = sent s.

Lemma st_clear : forall ces s, stopped s -> nosend s (ctx_clear (close ces) s).
Proof.
  intros ces s (M & R & A1 & A2 & A3 & A4 & A5 & A6 & A7 & A8 & A9).
  destruct (st_reset_endpoint ces s R (or_introl M)) as (B1 & B2 & B3 & B4).
  unfold ctx_clear.
  set (y := reset_endpoint (close ces) s) in *. clearbody y.
  destruct (dereg_stop_shape (mgr_stop y)) as (lv & b & E). rewrite E.
  split.
  - unfold stopped. cbn. rewrite B2, B4, B3. auto 15.
  - rewrite sent_emit, app_nil_r. unfold sent. cbn. rewrite B1. reflexivity.
Qed.

Lemma st_end : forall s z, reqs z = [] -> tm z = mgr_stop_t (tm s) -> out z = out s ->
  t_refd (tm s) = [] -> t_rst (tm s) = [] -> nosend s (w_mgr false z).
Proof.
  intros s z A B C D E. split.
  - unfold stopped. cbn. rewrite A, B. cbn. auto 15.
  - unfold sent. cbn. rewrite C. reflexivity.
Qed.

Lemma st_stop : forall s rs ces, reqs s = [] -> t_refd (tm s) = [] -> t_rst (tm s) = [] ->
  nosend s (manager_stop ces rs s).
Proof.
  intros s rs ces R A B. unfold manager_stop. cbv zeta.
  match goal with |- context [reset_endpoint (close ces) ?x] => set (s1 := x) end.
  assert (E1 : tm s1 = mgr_stop_t (tm s)) by reflexivity.
  assert (E2 : out s1 = out s) by reflexivity.
  assert (E3 : reqs s1 = []) by exact R.
  assert (E4 : subs s1 = false) by reflexivity.
  clearbody s1.
  destruct (st_reset_endpoint ces s1 E3 (or_intror E4)) as (B1 & B2 & B3 & B4).
  set (y := reset_endpoint (close ces) s1) in *. clearbody y.
  apply st_end; [| | | exact A | exact B].
  - destruct (rs || negb (k_acc (tok y))); exact B2.
  - rewrite <- E1, <- B3. destruct (rs || negb (k_acc (tok y))); reflexivity.
  - rewrite <- E2, <- B1. destruct (rs || negb (k_acc (tok y))); reflexivity.
Qed.

Lemma st_update : forall ces s, stopped s -> nosend s (update_conf ces s).
Proof.
  intros ces s (M & R & A1 & A2 & A3 & A4 & A5 & A6 & A7 & A8 & A9).
  unfold update_conf. cbv zeta.
  destruct (st_reset_endpoint ces s R (or_introl M)) as (B1 & B2 & B3 & B4).
  set (y := reset_endpoint (close ces) s) in *. clearbody y.
  match goal with |- context [dereg_stop ?x] =>
    destruct (dereg_stop_shape x) as (lv & b & E); rewrite E; clear E end.
  match goal with |- nosend s (if mgr ?x then _ else _) => set (z := x) end.
  assert (Z1 : mgr z = mgr y) by reflexivity.
  assert (Z2 : reqs z = reqs y) by reflexivity.
  assert (Z3 : out z = out y) by reflexivity.
  assert (Z4 : tm z = dstop_t (tm (mgr_stop y))) by reflexivity.
  clearbody z. rewrite Z1, B4, M. split.
  - unfold stopped. rewrite Z1, Z2, Z4, B2, B4. cbn. rewrite B3. auto 15.
  - unfold sent. rewrite Z3, B1. reflexivity.
Qed.

Lemma st_step : forall o s, stopped s -> passive o = true -> nosend s (step s o).
Proof.
  intros o s HS PA. pose proof HS as (M & R & A1 & A2 & A3 & A4 & A5 & A6 & A7 & A8 & A9).
  assert (ID : nosend s s) by (split; [exact HS | reflexivity]).
  destruct o as [t e ces | i e ces | i e ces | i r e ces | | ces | | e | rs ces | ces
    | ces | fo y e ces | e ces | e | e ces | e | e]; try discriminate; cbn [step].
  - destruct (pending t (tm s)) eqn:PE; [| exact ID].
    destruct t; cbn in PE; try congruence; cbn [fire].
    + unfold f_callback. cbv zeta. split.
      * unfold stopped. cbn. auto 15.
      * match goal with |- sent (upst _ ?x) = _ => change (sent x = sent s) end.
        rewrite sent_emit, app_nil_r. reflexivity.
    + destruct (st_clear ces (uptm (w_t_clear false) s)) as (X & Y).
      { unfold stopped. cbn. auto 15. }
      split; [exact X |]. rewrite Y. reflexivity.
  - rewrite A5. destruct i; exact ID.
  - rewrite A6. destruct i; exact ID.
  - rewrite R. destruct i; exact ID.
  - unfold session_up. destruct (_ && _); [| exact ID].
    split; [unfold stopped; cbn; auto 15 | reflexivity].
  - destruct (ep s); [| exact ID].
    destruct (st_close ces s R (or_introl M)) as (B1 & B2 & B3 & B4).
    set (y := close ces s) in *. clearbody y.
    split; [unfold stopped; rewrite B2, B3, B4; auto 15 |].
    unfold sent. rewrite B1. reflexivity.
  - unfold interface_up. rewrite M, andb_false_r. exact ID.
  - apply st_stop; assumption.
  - unfold manager_restart. rewrite M. exact ID.
  - apply st_update. exact HS.
Qed.

Lemma st_run : forall l s, stopped s -> forallb passive l = true ->
  stopped (run s l) /\ sent (run s l) = sent s.
Proof.
  induction l as [| o l IH]; intros s H U; [auto |].
  cbn [forallb] in U. apply andb_true_iff in U. destruct U as [U1 U2].
  destruct (st_step o s H U1) as (H1 & E1).
  destruct (IH (step s o) H1 U2) as (H2 & E2). unfold run in *. cbn [fold_left].
  split; [exact H2 | congruence].
Qed.
