(* A reset that is under way comes to its end. *)
From Coq Require Import List Bool Arith ZArith Lia.
Import ListNotations.
From Verif Require Import Cm_Model Cm_Spec Cm_Proofs Cm2_Proofs Cm3_Proofs Cm4_Proofs
  Cm5_Proofs.

Notation cc := cleared_count.

(* The configuration has been deleted on the way from s to s', or the resets
   that were under way still are; what has been deleted stays deleted. *)
Definition RK (w : bool) (s s' : ctx) : Prop :=
  (cc s <= cc s')%nat
  /\ (resetting s || w = true -> resetting s' = true \/ (cc s < cc s')%nat)
  /\ ((cc s < cc s')%nat -> forgotten s').

Lemma RK_refl : forall s, RK false s s.
Proof. intros s. split; [lia |]. rewrite orb_false_r. split; [auto | lia]. Qed.

(* A step after which what was forgotten still is. *)
Definition FK (s s' : ctx) : Prop := forgotten s -> forgotten s'.

Lemma RK_trans : forall w a b c, RK w a b -> FK b c -> RK false b c -> RK w a c.
Proof.
  intros w a b c (A & B & C) F (D & E & G). rewrite orb_false_r in E.
  split; [lia |]. split.
  - intros X. destruct (B X) as [Y | Y]; [| right; lia].
    destruct (E Y) as [Z | Z]; [left; exact Z | right; lia].
  - intros X. destruct (Nat.eq_dec (cc b) (cc c)) as [Y | Y]; [| apply G; lia].
    apply F, C. lia.
Qed.

Lemma cc_app : forall l l', length (filter (fun e => match e with ECleared => true | _ => false end) (l ++ l'))
  = (length (filter (fun e => match e with ECleared => true | _ => false end) l)
     + length (filter (fun e => match e with ECleared => true | _ => false end) l'))%nat.
Proof. intros l l'. rewrite filter_app, app_length. reflexivity. Qed.

Lemma cc_emit : forall s e, cc (emit e s) = (cc s + match e with ECleared => 1 | _ => 0 end)%nat.
Proof.
  intros s e. unfold cc, emit. cbn. rewrite cc_app. destruct e; cbn; lia.
Qed.

(* same events, same tokens and registration, and no reset lost *)
Definition SM (s s' : ctx) : Prop :=
  cc s' = cc s /\ (resetting s = true -> resetting s' = true).

Lemma SM_refl : forall s, SM s s.
Proof. intros s. split; auto. Qed.
Lemma SM_trans : forall a b c, SM a b -> SM b c -> SM a c.
Proof. intros a b c (A & B) (C & D). split; [congruence | auto]. Qed.
Lemma SM_RK : forall s s', SM s s' -> RK false s s'.
Proof.
  intros s s' (A & B). split; [lia |]. rewrite orb_false_r. split; [auto | lia].
Qed.

Lemma RK_SM : forall w a b c, SM a b -> RK w b c -> RK w a c.
Proof.
  intros w a b c (A & B) (C & D & E). rewrite A in *. split; [exact C |].
  split; [| exact E]. intros X. apply D. destruct (resetting a); [rewrite B by reflexivity; reflexivity |].
  cbn [orb] in X. rewrite X. apply orb_true_r.
Qed.

Lemma SM_eq : forall s s', out s' = out s -> reqs s' = reqs s ->
  t_clear (tm s') = t_clear (tm s) -> t_refd (tm s') = t_refd (tm s) ->
  t_rst (tm s') = t_rst (tm s) -> SM s s'.
Proof.
  intros s s' A B C D E. split; [unfold cc; rewrite A; reflexivity |].
  unfold resetting. rewrite B, C, D, E. auto.
Qed.

Lemma SM_free : forall p s, SM s (free_param p s).
Proof.
  intros p s. destruct (free_shape p s) as (lv & b & E). rewrite E. apply SM_eq; reflexivity.
Qed.
Lemma SM_use : forall p s, SM s (use_param p s).
Proof.
  intros p s. destruct (use_shape p s) as (lv & b & E). rewrite E. apply SM_eq; reflexivity.
Qed.
Lemma SM_exp : forall z s, SM s (set_exp z s).
Proof.
  intros z s. unfold set_exp. cbv zeta. destruct (0 <? z)%Z; apply SM_eq; reflexivity.
Qed.

Lemma SM_send : forall e need q s, local need ->
  SM s (snd (send_req e need q s))
  /\ (fst (send_req e need q s) = true -> reset_req q = true ->
      resetting (snd (send_req e need q s)) = true).
Proof.
  intros e need q s L. pose proof (send_shape e need q s L) as Q.
  destruct (send_req e need q s) as [ok s1]. cbn [fst snd] in *. unfold sent_ok in Q.
  destruct Q as (_ & _ & A & _ & _ & _ & _ & _ & _ & _ & _ & _ & _ & _ & B & C).
  destruct ok.
  - destruct (B eq_refl) as (B1 & B2 & _). split.
    + split.
      * unfold cc. rewrite B2, cc_app. cbn. lia.
      * unfold resetting. rewrite A, B1, existsb_app. rewrite !orb_true_iff. tauto.
    + intros _ R. unfold resetting. rewrite B1, existsb_app. cbn [existsb].
      rewrite R. rewrite !orb_true_r. reflexivity.
  - destruct (C eq_refl) as (C1 & C2). split; [| discriminate].
    apply SM_eq; rewrite ?A; auto.
Qed.

(* ---- closing functions ---- *)

Definition cl_ok (cl : ctx -> ctx) : Prop :=
  frame cl /\ (forall s, (cc s <= cc (cl s))%nat).

Lemma cl_id : cl_ok (fun x => x).
Proof. split; [exact frame_id | auto]. Qed.

Lemma clear_out : forall cl s, cl_ok cl -> (cc s < cc (ctx_clear cl s))%nat.
Proof.
  intros cl s (_ & C). unfold ctx_clear. rewrite cc_emit. unfold reinit_store.
  match goal with |- context [dereg_stop ?x] =>
    destruct (dereg_stop_shape x) as (lv & b & E); rewrite E end.
  match goal with |- (_ < cc ?x + 1)%nat =>
    change (cc x) with (cc (reset_endpoint cl s)) end.
  unfold reset_endpoint.
  match goal with |- (_ < cc ?x + 1)%nat =>
    change (cc x) with (cc (if ep s then cl s else s)) end.
  destruct (ep s); [specialize (C s); lia | lia].
Qed.

Lemma forgot_clear : forall cl s, forgotten (ctx_clear cl s).
Proof. intros cl s. split; unfold ctx_clear, emit, reinit_store; reflexivity. Qed.

Lemma RK_clear : forall w cl s x, cl_ok cl -> (cc s <= cc x)%nat ->
  RK w s (ctx_clear cl x).
Proof.
  intros w cl s x C H. pose proof (clear_out cl x C). split; [lia |].
  split; [right; lia | intros _; apply forgot_clear].
Qed.

Lemma FK_clear : forall cl s x, FK s (ctx_clear cl x).
Proof. intros cl s x _. apply forgot_clear. Qed.

Lemma FK_eq : forall s s', s_reg (st s') = s_reg (st s) -> tok s' = tok s -> FK s s'.
Proof. intros s s' A B (C & D). split; congruence. Qed.
Lemma FK_trans : forall a b c, FK a b -> FK b c -> FK a c.
Proof. unfold FK. auto. Qed.
Lemma FK_quiet : forall s s', quiet s s' -> FK s s'.
Proof. intros s s' (_ & A & B). apply FK_eq; congruence. Qed.

Lemma cb_cases : forall cl e i c s,
  (exists x, call_cb cl e i c s = ctx_clear cl x /\ SM s x /\ quiet s x)
  \/ (SM s (call_cb cl e i c s) /\ quiet s (call_cb cl e i c s)
      /\ (for_reset c = true -> resetting (call_cb cl e i c s) = true)).
Proof.
  intros cl e i c s. unfold call_cb. destruct c as [| [|] | p | p].
  - right. split; [| split; [apply quiet_emit | discriminate]].
    split; [rewrite cc_emit; lia | auto].
  - left. eexists. split; [reflexivity |]. split; [apply SM_refl | apply quiet_refl].
  - right. split; [| split].
    + split; [reflexivity |]. intros _. unfold resetting. reflexivity.
    + split; [apply keeps_tm; tg | auto].
    + intros _. reflexivity.
  - cbv zeta. pose proof (SM_use p s) as SU. pose proof (quiet_use p s) as QU.
    set (s0 := use_param p s) in *. clearbody s0.
    destruct (s_log (st s0)).
    + unfold by_request.
      destruct (SM_send e need_none (QApi ADereg p) s0 local_none) as (A & B).
      destruct (quiet_send e need_none (QApi ADereg p) s0 local_none) as (C & _).
      destruct (send_req _ _ _ _) as [ok s1]. cbn [fst snd] in A, B, C. destruct ok.
      * right. split; [eapply SM_trans; eassumption |].
        split; [eapply quiet_trans; eassumption |].
        intros R. apply B; [reflexivity |]. destruct p as [j c']. exact R.
      * left. eexists. split; [reflexivity |]. split.
        -- eapply SM_trans; [exact SU |]. eapply SM_trans; [exact A | apply SM_free].
        -- eapply quiet_trans; [exact QU |]. eapply quiet_trans; [exact C | apply quiet_free].
    + left. eexists. split; [reflexivity |]. split.
      * eapply SM_trans; [exact SU | apply SM_free].
      * eapply quiet_trans; [exact QU | apply quiet_free].
  - cbv zeta. pose proof (SM_use p s) as SU. pose proof (quiet_use p s) as QU.
    set (s0 := use_param p s) in *. clearbody s0.
    destruct (s_rfr (st s0)).
    + right.
      assert (RR : reset_param p = true ->
        resetting (uptm (fun t => w_t_refd (t_refd t ++ [p]) t) s0) = true).
      { intros R. unfold resetting. cbn. rewrite existsb_app. cbn [existsb]. rewrite R.
        cbn [orb]. rewrite !orb_true_r. reflexivity. }
      split; [| split].
      * eapply SM_trans; [exact SU |]. split; [reflexivity |].
        unfold resetting. cbn. rewrite existsb_app, !orb_true_iff. tauto.
      * eapply quiet_trans; [exact QU |]. split; [| auto]. apply keeps_tm. unfold tgrow. cbn.
        rewrite existsb_app. repeat (split; [tauto |]).
        split; [intros X; rewrite X; reflexivity | reflexivity].
      * intros R. apply RR. destruct p as [j c']. exact R.
    + left. eexists. split; [reflexivity |]. split.
      * eapply SM_trans; [exact SU | apply SM_free].
      * eapply quiet_trans; [exact QU | apply quiet_free].
Qed.

(* the end of a handler of an API call *)
Lemma RK_finish : forall cl e p f s, cl_ok cl ->
  (forall x, s_reg (f x) = s_reg x) ->
  RK (reset_param p) s (upst f (finish_api cl e p s)) /\ FK s (upst f (finish_api cl e p s)).
Proof.
  intros cl e p f s C FF. unfold finish_api.
  assert (X : forall y, RK (reset_param p) s y -> FK s y ->
    RK (reset_param p) s (upst f (free_param p y)) /\ FK s (upst f (free_param p y))).
  { intros y A B. assert (F : FK y (upst f (free_param p y))).
    { destruct (quiet_free p y) as (_ & Y & Z). apply FK_eq; cbn; rewrite ?FF; congruence. }
    split; [| eapply FK_trans; eassumption].
    eapply RK_trans; [exact A | exact F |]. apply SM_RK.
    eapply SM_trans; [apply SM_free | apply SM_eq; reflexivity]. }
  destruct (cb_cases cl e (pid p) (pcont p) s) as [(x & E & SX & QX) | (SX & QX & R)].
  - rewrite E. apply X; [| apply FK_clear]. apply RK_clear; [exact C |].
    destruct SX as (A & _). lia.
  - apply X; [| apply FK_quiet; exact QX]. destruct SX as (A & B).
    split; [lia |]. split; [| lia]. intros Z. left. apply orb_true_iff in Z.
    destruct Z as [Z | Z]; [auto |]. apply R. exact Z.
Qed.

(* Responses other than redirections. *)
Definition plain (r : resp) : Prop :=
  match r with ROk (Some d) => pl_redirect d = false | _ => True end.

Ltac smeq := apply SM_eq; reflexivity.

Lemma SM_reg_core : forall cl r s, plain r -> SM s (snd (reg_core cl r s)).
Proof.
  intros cl r s P. unfold reg_core. cbv zeta.
  destruct r as [[d |] | | | |]; try (destruct (is_init (st s))); cbn [snd]; try smeq.
  cbn in P. rewrite P.
  match goal with |- context [set_exp ?z ?x] =>
    pose proof (SM_exp z x) as A; set (y := set_exp z x) in * end.
  eapply SM_trans; [| apply SM_eq; reflexivity]. clearbody y.
  eapply SM_trans; [| exact A]. smeq.
Qed.
Lemma SM_login_core : forall r s, SM s (snd (login_core r s)).
Proof.
  intros r s. unfold login_core. cbv zeta.
  destruct r as [[d |] | | | |]; try (destruct (s_reg (st s))); cbn [snd]; try smeq.
  eapply SM_trans; [apply (SM_exp (pl_exp d)) | smeq].
Qed.
Lemma SM_refresh_core : forall r s, SM s (snd (refresh_core r s)).
Proof.
  intros r s. unfold refresh_core. cbv zeta.
  destruct r as [[d |] | | | |]; try (destruct (s_reg (st s))); cbn [snd]; try smeq.
  match goal with |- context [set_exp ?z ?x] =>
    pose proof (SM_exp z x) as A; set (y := set_exp z x) in * end.
  eapply SM_trans; [| apply SM_eq; reflexivity]. clearbody y.
  eapply SM_trans; [| exact A]. smeq.
Qed.

Lemma RK_cb : forall s y, RK false s y -> RK false s (uptm (w_t_cb true) y).
Proof.
  intros s y R. eapply RK_trans; [exact R | apply FK_eq; reflexivity |].
  apply SM_RK. smeq.
Qed.

Lemma RK_cleared : forall cl s x, cl_ok cl -> (cc s <= cc x)%nat ->
  RK false s (uptm (w_t_cb true) (ctx_clear cl x)).
Proof. intros cl s x C H. apply RK_cb, RK_clear; assumption. Qed.

Lemma RK_handle : forall cl e r q s, cl_ok cl -> plain r ->
  RK (reset_req q) s (handle cl e r q s).
Proof.
  intros cl e r q s C P. destruct q as [| | | | a p]; cbn [handle reset_req].
  - unfold h_register.
    pose proof (SM_reg_core cl r (uptm (w_t_reg false) s) P) as A.
    destruct (reg_core _ _ _) as [er s1]. cbn [snd] in A.
    assert (A1 : SM s s1) by exact A. clear A. apply SM_RK.
    eapply SM_trans; [exact A1 |]. cbv zeta. destruct er; ifs; smeq.
  - unfold h_login. cbv zeta.
    pose proof (SM_login_core r (uptm (w_t_login false) s)) as A.
    destruct (login_core _ _) as [[er c] s1]. cbn [snd] in A.
    assert (A1 : SM s s1) by exact A. clear A.
    destruct (s_reg _); [| apply SM_RK; smeq].
    destruct er;
      try (apply SM_RK; eapply SM_trans; [exact A1 |]; ifs; smeq).
    match goal with |- context [if ?c then uptm (w_t_rfr true) ?x else _] =>
      destruct c end.
    + apply SM_RK; eapply SM_trans; [exact A1 |]. smeq.
    + apply RK_cleared; [exact C |]. destruct A1 as (A1 & _).
      change (cc s <= cc s1)%nat. lia.
  - unfold h_refresh.
    pose proof (SM_refresh_core r (uptm (w_t_rfr false) s)) as A.
    destruct (refresh_core _ _) as [er s1]. cbn [snd] in A.
    assert (A1 : SM s s1) by exact A. clear A. cbv zeta.
    destruct er; try (apply SM_RK; eapply SM_trans; [exact A1 |]; ifs; smeq).
    apply RK_cleared; [exact C |]. destruct A1 as (A1 & _).
    change (cc s <= cc s1)%nat. lia.
  - unfold h_ping. apply SM_RK. ifs; smeq.
  - cbv zeta. pose proof (SM_use p s) as SU. set (u := use_param p s) in *. clearbody u.
    assert (K : forall x f, SM u x -> (forall z, s_reg (f z) = s_reg z) ->
      RK (reset_param p) s (upst f (finish_api cl e p x))).
    { intros x f A B. destruct (RK_finish cl e p f x C B) as (D & E).
      assert (SS : SM s x) by (eapply SM_trans; eassumption).
      eapply RK_SM; eassumption. }
    destruct a.
    + unfold h_api_register. pose proof (SM_reg_core cl r u P) as A.
      destruct (reg_core _ _ _) as [er s1]. cbn [snd] in A. cbv zeta.
      apply K; [eapply SM_trans; [exact A | smeq] | reflexivity].
    + unfold h_api_login. pose proof (SM_login_core r u) as A.
      destruct (login_core _ _) as [[er c] s1]. cbn [snd] in A. cbv zeta.
      apply K; [eapply SM_trans; [exact A | destruct er; smeq] | reflexivity].
    + unfold h_api_logout. cbv zeta. apply K; [destruct r; smeq | reflexivity].
    + unfold h_api_refresh. pose proof (SM_refresh_core r u) as A.
      destruct (refresh_core _ _) as [er s1]. cbn [snd] in A. cbv zeta.
      apply K; [eapply SM_trans; [exact A | destruct er; smeq] | reflexivity].
    + unfold h_api_dereg. cbv zeta. apply K; [destruct r; smeq | reflexivity].
Qed.

(* Nothing comes back when a session is closed. *)
Lemma FK_handle : forall cl e q s, cl_ok cl -> FK s (handle cl e RConn q s).
Proof.
  intros cl e q s C. destruct q as [| | | | a p]; cbn [handle].
  - unfold h_register, reg_core. cbv zeta.
    destruct (_ && _); [destruct (en_sched e); [| destruct (en_next e)] |];
      apply FK_eq; reflexivity.
  - unfold h_login, login_core. cbv zeta.
    destruct (s_reg _); [destruct (en_sched e) |]; apply FK_eq; reflexivity.
  - unfold h_refresh, refresh_core. cbv zeta.
    destruct (s_reg _); [destruct (en_sched e) |]; apply FK_eq; reflexivity.
  - unfold h_ping. destruct (s_log _); [destruct (en_keep e) |]; apply FK_eq; reflexivity.
  - cbv zeta. pose proof (FK_quiet _ _ (quiet_use p s)) as U.
    set (u := use_param p s) in *. clearbody u.
    eapply FK_trans; [exact U |]. destruct a.
    + unfold h_api_register, reg_core. cbv zeta.
      eapply FK_trans; [| apply RK_finish; [exact C | reflexivity]].
      apply FK_eq; reflexivity.
    + unfold h_api_login, login_core. cbv zeta.
      eapply FK_trans; [| apply RK_finish; [exact C | reflexivity]].
      apply FK_eq; reflexivity.
    + unfold h_api_logout. cbv zeta.
      eapply FK_trans; [| apply RK_finish; [exact C | reflexivity]].
      apply FK_eq; reflexivity.
    + unfold h_api_refresh, refresh_core. cbv zeta.
      eapply FK_trans; [| apply RK_finish; [exact C | reflexivity]].
      apply FK_eq; reflexivity.
    + unfold h_api_dereg. cbv zeta.
      eapply FK_trans; [| apply RK_finish; [exact C | reflexivity]].
      intros (_ & B). split; [reflexivity | exact B].
Qed.

Lemma resetting_split : forall s,
  resetting s = resetting (w_reqs [] s) || existsb reset_req (reqs s).
Proof.
  intros s. unfold resetting. cbn. rewrite orb_false_r. reflexivity.
Qed.

Lemma RK_pass : forall rs ces s,
  RK (existsb reset_req rs) s (pass rs ces s) /\ FK s (pass rs ces s).
Proof.
  induction rs as [| q rs IH]; intros ces s; cbn [pass existsb].
  { split; [apply RK_refl | apply FK_eq; reflexivity]. }
  cbv zeta. set (e := hd env0 ces).
  assert (X : RK (reset_req q) s (if en_hit e then handle (fun x => x) e RConn q s
                else w_reqs (reqs s ++ [q]) s)
    /\ FK s (if en_hit e then handle (fun x => x) e RConn q s
                else w_reqs (reqs s ++ [q]) s)).
  { destruct (en_hit e).
    - split; [apply RK_handle; [exact cl_id | exact I] | apply FK_handle; exact cl_id].
    - split; [| apply FK_eq; reflexivity].
      split; [unfold cc; cbn; lia |].
      split; [| unfold cc; cbn; lia].
      intros Z. left. rewrite resetting_split. cbn [reqs w_reqs].
      rewrite resetting_split in Z.
      change (w_reqs [] (w_reqs (reqs s ++ [q]) s)) with (w_reqs [] s).
      change (reqs (w_reqs (reqs s ++ [q]) s)) with (reqs s ++ [q]).
      rewrite existsb_app. cbn [existsb]. rewrite orb_false_r, <- Z.
      rewrite !orb_assoc. reflexivity. }
  set (y := if en_hit e then _ else _) in *. clearbody y.
  destruct (IH (tl ces) y) as (R2 & F2). destruct X as (R1 & F1).
  split; [| eapply FK_trans; eassumption].
  destruct R1 as (A & B & C). destruct R2 as (D & E & G).
  split; [lia |]. split.
  - intros Z. rewrite orb_assoc in Z. apply orb_true_iff in Z. destruct Z as [Z | Z].
    + destruct (B Z) as [Y | Y]; [| right; lia].
      destruct E as [W | W]; [rewrite Y; reflexivity | left; exact W | right; lia].
    + destruct E as [W | W]; [rewrite Z; apply orb_true_r | left; exact W | right; lia].
  - intros X. destruct (Nat.eq_dec (cc y) (cc (pass rs (tl ces) y))) as [Y | Y];
      [| apply G; lia]. apply F2, C. lia.
Qed.

Lemma RK_take : forall s y, RK (existsb reset_req (reqs s)) (w_reqs [] s) y -> RK false s y.
Proof.
  intros s y (A & B & C). change (cc (w_reqs [] s)) with (cc s) in *.
  split; [exact A |]. split; [| exact C]. rewrite orb_false_r. intros Z. apply B.
  rewrite <- resetting_split. exact Z.
Qed.

Lemma RK_closed : forall ces s, RK false s (closed_requests ces s)
  /\ FK s (closed_requests ces s).
Proof.
  intros ces s. unfold closed_requests. cbv zeta.
  destruct (RK_pass (reqs s) ces (w_reqs [] s)) as (A & B).
  set (y := pass (reqs s) _ _) in *. clearbody y.
  destruct (RK_pass (reqs y) (skipn (length (reqs s)) ces) (w_reqs [] y)) as (C & D).
  set (z := pass (reqs y) _ _) in *. clearbody z.
  assert (B' : FK s y) by (intros F; apply B; exact F).
  assert (D' : FK y z) by (intros F; apply D; exact F).
  split; [| eapply FK_trans; eassumption].
  eapply RK_trans; [apply RK_take; exact A | exact D' | apply RK_take; exact C].
Qed.

Lemma cc_restart : forall s, cc (cm_restart s) = cc s.
Proof.
  intros s. unfold cm_restart.
  destruct (dereg_stop_shape (mgr_stop s)) as (lv & b & E). rewrite E. reflexivity.
Qed.

Lemma cc_down : forall s, cc (session_down s) = cc s.
Proof.
  intros s. unfold session_down. cbv zeta. ifs; rewrite ?cc_restart; reflexivity.
Qed.

Lemma FK_down : forall s, FK s (session_down s).
Proof. intros s. destruct (eq_down s) as [A B]. apply FK_eq; congruence. Qed.

Lemma close_ok : forall ces, cl_ok (close ces).
Proof.
  intros ces. split; [apply frame_close |]. intros s. unfold close.
  destruct (peer s); [| lia]. rewrite cc_down.
  destruct (RK_closed ces (w_peer false s)) as ((A & _) & _). exact A.
Qed.

(* The manager is not running, or does not listen to the session. *)
Lemma RK_close : forall ces s, mgr s = false \/ subs s = false ->
  RK false s (close ces s) /\ FK s (close ces s).
Proof.
  intros ces s M. unfold close.
  destruct (peer s); [| split; [apply RK_refl | apply FK_eq; reflexivity]].
  destruct (RK_closed ces (w_peer false s)) as (A & B).
  assert (M' : mgr (closed_requests ces (w_peer false s)) = false
    \/ subs (closed_requests ces (w_peer false s)) = false).
  { destruct (FR_closed ces (w_peer false s)) as (X & Y & _). rewrite X, Y. exact M. }
  set (y := closed_requests ces (w_peer false s)) in *. clearbody y.
  assert (SM y (session_down y)).
  { unfold session_down. cbv zeta. destruct M' as [M' | M'].
    - destruct (subs y && ep y && conn y); [| apply SM_refl].
      change (mgr (w_conn false y)) with (mgr y). rewrite M', andb_false_r. smeq.
    - rewrite M'. apply SM_refl. }
  split; [| intros F; apply FK_down; apply B; exact F].
  eapply RK_trans; [exact A | apply FK_down | apply SM_RK; exact H].
Qed.

(* ---- the operations ---- *)

Lemma SM_out0 : forall s s', cc s' = cc s -> resetting s' = resetting s -> SM s s'.
Proof. intros s s' A B. split; [exact A | rewrite B; auto]. Qed.

Lemma SM_start : forall e s, SM s (start_process e s).
Proof. intros e s. unfold start_process, fail_reconnect. ifs; smeq. Qed.

Lemma SM_quiet_call : forall e need a c s, local need ->
  let p := Param (nxt s) c in
  let x := send_req e need (QApi a p) (snd (new_param c s)) in
  SM s (snd x) /\ SM s (free_param p (snd x))
  /\ (fst x = true -> for_reset c = true -> resetting (snd x) = true).
Proof.
  intros e need a c s L p x.
  destruct (SM_send e need (QApi a p) (snd (new_param c s)) L) as (A & B).
  fold x in A, B.
  assert (Q : SM s (snd x)) by (eapply SM_trans; [| exact A]; smeq).
  split; [exact Q |]. split; [eapply SM_trans; [exact Q | apply SM_free] |].
  intros O R. apply B; [exact O |]. exact R.
Qed.

Lemma SM_register : forall e s, SM s (snd (do_register e KUser s)).
Proof.
  intros e s. unfold do_register.
  destruct (s_reg (st s)); [split; [cbn [snd]; rewrite cc_emit; lia | auto] |].
  destruct (is_init (st s) && en_alloc e); [| apply SM_refl].
  destruct (SM_quiet_call e need_reg AReg KUser s local_reg) as (A & B & _).
  unfold new_param in *. cbn [snd] in A, B. cbv zeta in A, B.
  destruct (send_req _ _ _ _) as [ok s2]. cbn [snd] in *.
  destruct ok; cbn [snd]; [eapply SM_trans; [exact A | smeq] | exact B].
Qed.

Lemma SM_login : forall cl e al c s,
  (s_log (st s) = true /\ do_login cl e al c s = (true, call_cb cl e (nxt s) c s))
  \/ (s_log (st s) = false /\ SM s (snd (do_login cl e al c s))
      /\ (fst (do_login cl e al c s) = true -> for_reset c = true ->
          resetting (snd (do_login cl e al c s)) = true)).
Proof.
  intros cl e al c s. unfold do_login. destruct (s_log (st s)); [left; auto |].
  right. split; [reflexivity |].
  destruct (s_reg (st s) && al); [| split; [apply SM_refl | discriminate]].
  destruct (SM_quiet_call e need_login ALogin c s local_login) as (A & B & C).
  unfold new_param in *. cbn [snd] in A, B, C. cbv zeta in A, B, C.
  destruct (send_req _ _ _ _) as [ok s2]. cbn [fst snd] in *.
  destruct ok; cbn [fst snd]; [split; assumption | split; [exact B | discriminate]].
Qed.

Lemma SM_logout : forall e c s, SM s (snd (do_logout e c s)).
Proof.
  intros e c s. unfold do_logout.
  destruct (s_log (st s) && en_alloc e); [| apply SM_refl].
  destruct (SM_quiet_call e need_login ALogout c s local_login) as (A & B & _).
  unfold new_param in *. cbn [snd] in A, B. cbv zeta in A, B.
  destruct (send_req _ _ _ _) as [ok s2]. cbn [snd] in *.
  destruct ok; cbn [snd]; assumption.
Qed.

Lemma SM_refresh : forall e al c s,
  SM s (snd (do_refresh e al c s))
  /\ (fst (do_refresh e al c s) = true -> for_reset c = true ->
      resetting (snd (do_refresh e al c s)) = true).
Proof.
  intros e al c s. unfold do_refresh.
  destruct (s_reg (st s) && al); [| split; [apply SM_refl | discriminate]].
  destruct (SM_quiet_call e need_refresh ARefresh c s local_refresh) as (A & B & C).
  unfold new_param in *. cbn [snd] in A, B, C. cbv zeta in A, B, C.
  destruct (send_req _ _ _ _) as [ok s2]. cbn [fst snd] in *.
  destruct ok; cbn [fst snd]; [split; assumption | split; [exact B | discriminate]].
Qed.

Lemma SM_dereg : forall cl e y c s,
  SM s (snd (do_deregister cl e y c s))
  /\ (fst (do_deregister cl e y c s) = DStarted -> for_reset c = true ->
      resetting (snd (do_deregister cl e y c s)) = true).
Proof.
  intros cl e y c s. unfold do_deregister.
  destruct (s_reg (st s)); [| split; [apply SM_refl | discriminate]].
  destruct (cps_eqb (cps s) CDeregistering) eqn:D;
    [split; [apply SM_refl | discriminate] |].
  destruct (en_alloc e); [| split; [apply SM_refl | discriminate]].
  unfold new_param. cbv zeta.
  set (p := Param (nxt s) c).
  match goal with |- context [w_cps CDeregistering ?x] =>
    set (s2 := w_cps CDeregistering x) end.
  assert (Q2 : SM s s2) by smeq.
  clearbody s2.
  set (fin := fun x : bool * ctx =>
    let (ok, s3) := x in if ok then (DStarted, s3) else (DFailed, free_param p s3)).
  assert (FIN : forall x, SM s2 (snd x) ->
    (fst x = true -> for_reset c = true -> resetting (snd x) = true) ->
    SM s (snd (fin x))
    /\ (fst (fin x) = DStarted -> for_reset c = true -> resetting (snd (fin x)) = true)).
  { intros [ok s3] A B. cbn [fst snd] in *. unfold fin. destruct ok; cbn [fst snd].
    - split; [eapply SM_trans; eassumption | auto].
    - split; [| discriminate].
      eapply SM_trans; [exact Q2 |]. eapply SM_trans; [exact A | apply SM_free]. }
  destruct (en_short e || s_log (st s2)) eqn:SL.
  - apply FIN; unfold by_request;
      destruct (SM_send e need_none (QApi ADereg p) s2 local_none) as (A & B);
      [exact A |].
    intros O R. apply B; [exact O |]. exact R.
  - destruct y.
    { cbn [fst snd]. split; [| discriminate].
      eapply SM_trans; [exact Q2 | apply SM_free]. }
    destruct (k_rfr (tok s2) && negb (permanent s2)).
    + destruct (SM_refresh e (en_alloc2 e) (KTryRefreshed p) s2) as (A & B).
      apply FIN; [exact A |]. intros O R. apply B; [exact O |]. exact R.
    + apply orb_false_iff in SL. destruct SL as [_ SL].
      destruct (SM_login cl e (en_alloc2 e) (KTryLogin p) s2) as [(X & _) | (_ & A & B)];
        [congruence |].
      apply FIN; [exact A |]. intros O R. apply B; [exact O |]. exact R.
Qed.

Lemma RK_end : forall ces e y s, cps s <> CDeregistering ->
  RK true s (let (r, s2) := do_deregister (close ces) e y (KReset y) s in
       match r with DFailed => ctx_clear (close ces) s2 | _ => s2 end).
Proof.
  intros ces e y s CP.
  destruct (SM_dereg (close ces) e y (KReset y) s) as (A & B).
  destruct (q_dereg (close ces) e y (KReset y) s) as (_ & _ & C).
  destruct (do_deregister _ _ _ _ _) as [r s2]. cbn [fst snd] in A, B, C.
  destruct r.
  - destruct A as (A1 & A2). split; [lia |]. split; [| lia]. intros _. left.
    apply B; reflexivity.
  - exfalso. apply CP, C. reflexivity.
  - apply RK_clear; [apply close_ok | destruct A as (A1 & _); lia].
Qed.

Lemma RK_fire : forall t e ces s, calm s (OFire t e ces) = true -> RK false s (fire t e ces s).
Proof.
  intros t e ces s CL. destruct t; cbn [fire].
  - apply SM_RK. unfold f_register. cbv zeta. destruct (is_init _); [| smeq].
    match goal with |- context [send_req ?a ?b ?c ?d] =>
      destruct (SM_send a b c d local_reg) as (A & _);
      destruct (send_req a b c d) as [ok s1] end.
    cbn [snd] in A. assert (A' : SM s s1) by exact A.
    eapply SM_trans; [exact A' |]. destruct ok; [smeq | destruct (en_sched e); smeq].
  - apply SM_RK. unfold f_login. cbv zeta. destruct (s_reg _); [| smeq].
    match goal with |- context [send_req ?a ?b ?c ?d] =>
      destruct (SM_send a b c d local_login) as (A & _);
      destruct (send_req a b c d) as [ok s1] end.
    cbn [snd] in A. assert (A' : SM s s1) by exact A.
    eapply SM_trans; [exact A' |]. destruct ok; [smeq | destruct (en_sched e); smeq].
  - apply SM_RK. unfold f_ping. cbv zeta. destruct (_ && _); [| smeq].
    split; [rewrite cc_emit; unfold cc; cbn; lia |].
    unfold resetting. cbn. rewrite existsb_app, !orb_true_iff. tauto.
  - apply SM_RK. unfold f_refresh. cbv zeta. destruct (s_reg _); [| smeq].
    match goal with |- context [send_req ?a ?b ?c ?d] =>
      destruct (SM_send a b c d local_refresh) as (A & _);
      destruct (send_req a b c d) as [ok s1] end.
    cbn [snd] in A. assert (A' : SM s s1) by exact A.
    eapply SM_trans; [exact A' |]. destruct ok; [smeq | destruct (en_sched e); smeq].
  - apply SM_RK. unfold f_reconnect, manager_restart. cbn in CL.
    apply negb_true_iff in CL.
    match goal with |- context [mgr ?x] => change (mgr x) with (mgr s) end.
    rewrite CL. smeq.
  - apply SM_RK. unfold f_callback. cbv zeta. split; [| auto].
    match goal with |- cc (upst _ ?x) = _ => change (cc x = cc s) end.
    rewrite cc_emit. unfold cc. cbn. lia.
  - apply SM_RK. unfold restart_manager. cbn in CL. apply negb_true_iff in CL.
    match goal with |- context [mgr ?x] => change (mgr x) with (mgr s) end.
    rewrite CL. smeq.
  - apply SM_RK. unfold start_manager. cbv zeta.
    match goal with |- context [start_process e ?x] =>
      pose proof (SM_start e x) as A; set (y := start_process e x) in * end.
    clearbody y. eapply SM_trans; [exact A |]. split; [rewrite cc_emit; lia | auto].
  - apply RK_clear; [apply close_ok |]. unfold cc. cbn. lia.
Qed.

Lemma RK_step : forall o s, calm s o = true -> RK false s (step s o).
Proof.
  intros o s CL.
  destruct o as [t e ces | i e ces | i e ces | i r e ces | | ces | | e | rs ces | ces
    | ces | fo y e ces | e ces | e | e ces | e | e]; cbn [step].
  - destruct (pending t (tm s)); [apply RK_fire; exact CL | apply RK_refl].
  - destruct (nth_error (t_refd (tm s)) i) as [p |] eqn:NE; [| apply RK_refl].
    set (sx := uptm (fun t => w_t_refd (drop i (t_refd t)) t) s).
    assert (X : resetting s = resetting sx || reset_param p).
    { unfold resetting, sx. cbn. rewrite (drop_in _ reset_param _ _ _ NE).
      destruct (t_clear (tm s)), (reset_param p),
        (existsb reset_param (drop i (t_refd (tm s)))),
        (match t_rst (tm s) with [] => true | _ => false end),
        (existsb reset_req (reqs s)); reflexivity. }
    assert (CX : cc sx = cc s) by reflexivity. clearbody sx.
    assert (OK : forall y, RK (reset_param p) sx y -> RK false s y).
    { intros y (A & B & C). rewrite CX in *. split; [exact A |].
      rewrite orb_false_r. split; [rewrite X; exact B | exact C]. }
    apply OK. clear OK X CX. unfold f_refreshed. cbv zeta.
    pose proof (SM_use p sx) as QU. set (u := use_param p sx) in *. clearbody u.
    assert (FAIL : forall v, SM u v ->
      RK (reset_param p) sx (ctx_clear (close ces) (use_param p (free_param p v)))).
    { intros v Q. apply RK_clear; [apply close_ok |].
      assert (Z : SM sx (use_param p (free_param p v))).
      { eapply SM_trans; [exact QU |]. eapply SM_trans; [exact Q |].
        eapply SM_trans; [apply SM_free | apply SM_use]. }
      destruct Z as (Z & _). lia. }
    assert (OK : forall v, SM u v -> (reset_param p = true -> resetting v = true) ->
      RK (reset_param p) sx v).
    { intros v Q B. assert (Z : SM sx v) by (eapply SM_trans; eassumption).
      destruct Z as (Z1 & Z2). split; [lia |]. split; [| lia].
      intros W. apply orb_true_iff in W. left. destruct W; auto. }
    destruct (en_short e).
    + unfold by_request.
      destruct (SM_send e need_none (QApi ADereg p) u local_none) as (A & B).
      destruct (send_req _ _ _ _) as [ok s1]. cbn [fst snd] in A, B.
      destruct ok; [apply OK; [exact A | exact (B eq_refl)] | apply FAIL; exact A].
    + destruct (SM_login (close ces) e (en_alloc e) (KTryLogin p) u) as [(LG & E) | (LG & A & B)].
      * rewrite E.
        destruct (cb_cases (close ces) e (nxt u) (KTryLogin p) u)
          as [(x & E2 & KX & _) | (K2 & _ & B2)].
        -- rewrite E2. apply RK_clear; [apply close_ok |].
           destruct KX as (K1 & _). destruct QU as (Q1 & _). lia.
        -- apply OK; [exact K2 |]. intros R. apply B2. destruct p as [j c]. exact R.
      * destruct (do_login _ _ _ _ _) as [ok s1]. cbn [fst snd] in A, B.
        destruct ok; [| apply FAIL; exact A].
        apply OK; [exact A |]. intros R. apply B; [reflexivity |].
        destruct p as [j c]. exact R.
  - destruct (nth_error (t_rst (tm s)) i) as [p |]; [| apply RK_refl].
    unfold f_on_reset. cbv zeta. cbn [calm] in CL.
    set (sx := uptm (fun t => w_t_rst (drop i (t_rst t)) t) s).
    assert (Q : SM sx (free_param p (use_param p sx))).
    { eapply SM_trans; [apply SM_use | apply SM_free]. }
    assert (R : RK true (free_param p (use_param p sx))
      (let (r, s2) := do_deregister (close ces) e false (KReset false)
          (free_param p (use_param p sx)) in
       match r with DFailed => ctx_clear (close ces) s2 | _ => s2 end)).
    { apply RK_end.
      destruct (use_shape p sx) as (lv & b & E1). rewrite E1.
      match goal with |- context [free_param p ?x] =>
        destruct (free_shape p x) as (lv2 & b2 & E2) end.
      rewrite E2. apply ncps. exact CL. }
    match type of R with RK true _ ?x => set (z := x) in * end. clearbody z.
    destruct Q as (Q & _). change (cc sx) with (cc s) in Q.
    destruct R as (R1 & R2 & R3). unfold RK. rewrite <- Q. split; [exact R1 |].
    split; [intros _; apply R2; apply orb_true_r | exact R3].
  - destruct (nth_error (reqs s) i) as [q |] eqn:NE; [| apply RK_refl].
    set (sx := w_reqs (drop i (reqs s)) s).
    assert (X : resetting s = resetting sx || reset_req q).
    { unfold resetting, sx. cbn. rewrite (drop_in _ reset_req _ _ _ NE).
      destruct (t_clear (tm s)), (reset_req q),
        (existsb reset_param (t_refd (tm s))),
        (match t_rst (tm s) with [] => true | _ => false end),
        (existsb reset_req (drop i (reqs s))); reflexivity. }
    assert (P : plain r).
    { destruct r as [[d |] | | | |]; try exact I. cbn in *. apply negb_true_iff. exact CL. }
    destruct (RK_handle (close ces) e r q sx (close_ok ces) P) as (A & B & C).
    split; [exact A |]. split; [| exact C]. rewrite orb_false_r, X. exact B.
  - apply SM_RK. unfold session_up. ifs; smeq.
  - cbn in CL. apply negb_true_iff in CL.
    destruct (ep s); [apply RK_close; auto | apply RK_refl].
  - cbn in CL. apply negb_true_iff in CL. unfold interface_up.
    rewrite CL, andb_false_r. apply RK_refl.
  - apply SM_RK. unfold manager_start. eapply SM_trans; [apply SM_start | smeq].
  - unfold manager_stop. cbv zeta.
    match goal with |- context [reset_endpoint (close ces) ?x] => set (s1 := x) end.
    assert (S1 : SM s s1) by smeq.
    assert (SB : subs s1 = false) by reflexivity. clearbody s1.
    assert (R2 : RK false s1 (reset_endpoint (close ces) s1)).
    { unfold reset_endpoint. eapply RK_trans;
        [| apply (FK_eq (if ep s1 then close ces s1 else s1)); reflexivity
         | apply SM_RK; smeq].
      destruct (ep s1); [apply RK_close; auto | apply RK_refl]. }
    set (s2 := reset_endpoint (close ces) s1) in *. clearbody s2.
    assert (R3 : RK false s s2).
    { eapply RK_SM; eassumption. }
    eapply RK_trans; [exact R3 | |].
    + destruct (rs || negb (k_acc (tok s2))).
      * intros _. split; reflexivity.
      * apply FK_eq; [| reflexivity]. destruct (s_reg (st (upst (w_s_log false) s2))); reflexivity.
    + apply SM_RK. destruct (rs || negb (k_acc (tok s2))); [smeq |].
      destruct (s_reg (st (upst (w_s_log false) s2))); smeq.
  - cbn in CL. apply negb_true_iff in CL. unfold manager_restart. rewrite CL.
    apply RK_refl.
  - discriminate.
  - unfold cloud_reset. destruct (_ && en_tls e);
      [| apply RK_clear; [apply close_ok | lia]].
    cbv zeta.
    assert (Q : SM s (mgr_stop s)) by smeq.
    set (s1 := mgr_stop s) in *. clearbody s1. destruct y.
    + destruct (SM_dereg (close ces) e true (KReset true) s1) as (A & B).
      destruct (do_deregister _ _ _ _ _) as [r s2]. cbn [fst snd] in A, B.
      assert (Z : SM s s2) by (eapply SM_trans; eassumption).
      destruct r; try (apply SM_RK; exact Z).
      apply RK_clear; [apply close_ok | destruct Z as (Z & _); lia].
    + destruct (en_alloc e).
      * unfold new_param. apply SM_RK. eapply SM_trans; [exact Q |].
        split; [reflexivity |]. intros _. unfold resetting. cbn.
        destruct (t_rst (tm s1)); cbn; rewrite !orb_true_r; reflexivity.
      * apply RK_clear; [apply close_ok | destruct Q as (Z & _); lia].
  - apply SM_RK. apply SM_dereg.
  - apply SM_RK, SM_register.
  - destruct (SM_login (close ces) e (en_alloc e) KUser s) as [(_ & E) | (_ & A & _)].
    + rewrite E. cbn [snd]. unfold call_cb. apply SM_RK.
      split; [rewrite cc_emit; lia | auto].
    + apply SM_RK. exact A.
  - apply SM_RK, SM_logout.
  - apply SM_RK, SM_refresh.
Qed.

Lemma RK_run : forall l s, along calm s l = true ->
  (cc s <= cc (run s l))%nat
  /\ (resetting s = true -> resetting (run s l) = true \/ (cc s < cc (run s l))%nat).
Proof.
  induction l as [| o l IH]; intros s H; [split; [apply le_n | auto] |].
  cbn [along] in H. apply andb_true_iff in H. destruct H as [H1 H2].
  destruct (RK_step o s H1) as (A & B & _). rewrite orb_false_r in B.
  destruct (IH (step s o) H2) as (C & D). cbn [run fold_left] in *.
  unfold run in C, D |- *. cbn [fold_left]. split; [lia |].
  intros R. destruct (B R) as [X | X]; [| right; lia].
  destruct (D X) as [Y | Y]; [left; exact Y | right; lia].
Qed.

(* A reset starts: the configuration is deleted or on its way. *)
Lemma reset_starts : forall s fo y e ces, cps s <> CDeregistering ->
  let s' := step s (OReset fo y e ces) in
  (erased s' /\ (cc s < cc s')%nat) \/ resetting s' = true.
Proof.
  intros s fo y e ces CP s'. subst s'. cbn [step]. unfold cloud_reset.
  assert (CL : forall x, (cc s <= cc x)%nat ->
    erased (ctx_clear (close ces) x) /\ (cc s < cc (ctx_clear (close ces) x))%nat).
  { intros x X. destruct (clear_fields (close ces) x (frame_close ces))
      as (A & B & C & D & _ & E & _).
    split; [unfold erased; auto |]. pose proof (clear_out (close ces) x (close_ok ces)). lia. }
  destruct (_ && en_tls e); [| left; apply CL; lia].
  cbv zeta. assert (C1 : cps (mgr_stop s) <> CDeregistering) by exact CP.
  assert (Q : SM s (mgr_stop s)) by smeq.
  set (s1 := mgr_stop s) in *. clearbody s1. destruct y.
  - destruct (SM_dereg (close ces) e true (KReset true) s1) as (A & B).
    destruct (q_dereg (close ces) e true (KReset true) s1) as (_ & _ & C).
    destruct (do_deregister _ _ _ _ _) as [r s2]. cbn [fst snd] in A, B, C.
    assert (Z : SM s s2) by (eapply SM_trans; eassumption).
    destruct r; [right; apply B; reflexivity | exfalso; apply C1, C; reflexivity |].
    left. apply CL. destruct Z as (Z & _). lia.
  - destruct (en_alloc e).
    + right. unfold new_param. unfold resetting. cbn.
      destruct (t_rst (tm s1)); cbn; rewrite !orb_true_r; reflexivity.
    + left. apply CL. destruct Q as (Z & _). lia.
Qed.
