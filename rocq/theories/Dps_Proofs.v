(* The events of the provisioning client are in order. *)
From Coq Require Import List Bool Arith Lia.
Import ListNotations.
From Verif Require Import Dps_Model Dps_Spec.

Record J (h g : fl) (f : bool) (n : nat) (t : list ev) : Prop := mkJ {
  J_hist : history t;
  J_has : forall k, fget k h = known t k;
  J_get : forall k, fget k g = asked t k;
  J_force : f = must t;
  J_trc : n = consec t;
  J_le : consec t <= 2 }.

Definition I1 (s : ctx) : Prop :=
  J (hass (st s)) (gets (st s)) (force s) (trc s) (tr s).

Lemma fget_fset : forall k v f j,
  fget j (fset k v f) = if same k j then v else fget j f.
Proof. intros [] v [a b c d e] []; reflexivity. Qed.

Lemma fl_ext : forall f g, (forall k, fget k f = fget k g) -> f = g.
Proof.
  intros [a b c d e] [a' b' c' d' e'] H.
  pose proof (H ST); pose proof (H SO); pose proof (H SL); pose proof (H SC);
    pose proof (H SA); cbn [fget fT fO fL fC fA] in *; congruence.
Qed.

Lemma fl_eqb_spec : forall f g, fl_eqb f g = true -> f = g.
Proof.
  intros [a b c d e] [a' b' c' d' e'].
  unfold fl_eqb; cbn [fT fO fL fC fA].
  rewrite !andb_true_iff, !eqb_true_iff. intuition congruence.
Qed.

Lemma fall_spec : forall f, fall f = true <-> forall k, fget k f = true.
Proof.
  intros [a b c d e]; unfold fall; cbn [fT fO fL fC fA]; split.
  - rewrite !andb_true_iff. intros [[[[-> ->] ->] ->] ->] []; reflexivity.
  - intros H. rewrite (H ST), (H SO), (H SL), (H SC), (H SA)
      || (pose proof (H ST); pose proof (H SO); pose proof (H SL);
          pose proof (H SC); pose proof (H SA);
          cbn [fget fT fO fL fC fA] in *; subst; reflexivity).
Qed.

Lemma upto_spec : forall k j, fget j (upto k) = earlier j k.
Proof. intros [] []; reflexivity. Qed.

Lemma same_sym : forall j k, same j k = same k j.
Proof. intros [] []; reflexivity. Qed.

(* Events that do not concern the flags. *)
Definition plain (e : ev) : bool :=
  match e with ERej | ERenew | ESwitch | EMoved => true | _ => false end.

Lemma J_plain : forall h g f n t e,
  plain e = true -> J h g f n t -> J h g f n (e :: t).
Proof.
  intros h g f n t e P [A B C D E F].
  destruct e; try discriminate P; constructor; cbn; auto.
Qed.

Lemma J_EForce : forall h g f n t, J h g f n t -> J h g true n (EForce :: t).
Proof. intros h g f n t [A B C D E F]; constructor; cbn; auto. Qed.

Lemma J_ENoStart : forall h g f n t, J h g f n t -> J h g true n (ENoStart :: t).
Proof. intros h g f n t [A B C D E F]; constructor; cbn; auto. Qed.

Lemma J_EForget : forall h g n t,
  J h g true n t -> J fnone fnone false n (EForget :: t).
Proof.
  intros h g n t [A B C D E F]; constructor; cbn; auto; intros []; reflexivity.
Qed.

Lemma J_EAttempt : forall h g n t,
  J h g false n t -> J h g false n (EAttempt :: t).
Proof. intros h g n t [A B C D E F]; constructor; cbn; auto. Qed.

Lemma J_EReset : forall h g f n t,
  J h g f n t -> J fnone fnone false n (EReset :: t).
Proof.
  intros h g f n t [A B C D E F]; constructor; cbn; auto; intros []; reflexivity.
Qed.

Lemma J_EFactory : forall h g f n t,
  J h g f n t -> J fnone fnone f 0 (EFactory :: t).
Proof.
  intros h g f n t [A B C D E F]; constructor; cbn; auto; intros []; reflexivity.
Qed.

Lemma found_prefix : forall e j k,
  earlier j k = true -> fget k (found e) = true -> fget j (found e) = true.
Proof.
  intros e j k L G. unfold found in *.
  destruct (e_has e) as [a b c d f], (e_certs e), (e_idc e), a, b, c, f;
    destruct j, k; try discriminate L; try discriminate G; reflexivity.
Qed.

Lemma J_EStart : forall h g f n t e,
  J h g f n t ->
  J (if f then fnone else found e) fnone false 0
    (EStart (if f then fnone else found e) :: t).
Proof.
  intros h g f n t e [A B C D E F]; constructor; try (cbn; auto; fail).
  - cbn [history]. split; [|exact A]. cbn [allowed]. split.
    + intros j k L G. destruct f.
      * destruct k; discriminate G.
      * revert G. apply found_prefix. exact L.
    + intros M k. rewrite D, M. destruct k; reflexivity.
  - cbn [asked]. intros []; reflexivity.
Qed.

Lemma J_EReq : forall h g f n t k,
  J h g f n t ->
  (forall j, earlier j k = true -> fget j h = true) -> fget k h = false ->
  J h (fset k true g) f n (EReq k :: t).
Proof.
  intros h g f n t k [A B C D E F] L N; constructor; try (cbn; auto; fail).
  - cbn [history allowed]. split; [|exact A]. split.
    + intros j X. rewrite <- B. apply L, X.
    + rewrite <- B. exact N.
  - intros j. rewrite fget_fset. cbn [asked]. destruct (same k j); auto.
Qed.

Lemma J_EDone : forall f n t k,
  J (upto k) (fset k true fnone) f n t ->
  J (fset k true (upto k)) (fset k false (fset k true fnone)) f 0 (EDone k :: t).
Proof.
  intros f n t k [A B C D E F]; constructor; try (cbn; auto; fail).
  - cbn [history allowed]. split; [|exact A]. split.
    + intros j. rewrite <- B. apply upto_spec.
    + intros j. rewrite <- C, fget_fset, same_sym.
      destruct (same j k); [reflexivity|]. destruct j; reflexivity.
  - intros j. rewrite fget_fset. cbn [known].
    destruct (same k j); auto.
  - intros j. rewrite fget_fset. cbn [asked].
    destruct (same k j); auto.
Qed.

Lemma J_EFail : forall h g f n t k,
  J h g f n t -> J (fset k false h) g true n (EFail k :: t).
Proof.
  intros h g f n t k [A B C D E F]; constructor; try (cbn; auto; fail).
  intros j. rewrite fget_fset. cbn [known]. destruct (same k j); auto.
Qed.

Lemma J_ETrans : forall h g f n t k,
  J h g f n t ->
  J h g (if Nat.leb 3 (S n) then true else f)
    (if Nat.leb 3 (S n) then 0 else S n) (ETrans k :: t).
Proof.
  intros h g f n t k [A B C D E F]. subst n.
  constructor; try (cbn; auto; fail).
  - cbn [must]. subst f.
    destruct (consec t) as [|[|[|x]]]; cbn; try reflexivity; lia.
  - cbn [consec]. destruct (consec t) as [|[|[|x]]]; cbn; try reflexivity; lia.
  - cbn [consec]. destruct (consec t) as [|[|[|x]]]; lia.
Qed.

Lemma J_EForgetCA : forall h g f n t,
  J h g f n t -> J (fl_noCA h) (fl_noCA g) f n (EForgetCA :: t).
Proof.
  intros h g f n t [A B C D E F]; constructor; try (cbn; auto; fail).
  - intros k. cbn [known]. rewrite <- B. destruct k; reflexivity.
  - intros k. cbn [asked]. rewrite <- C. destruct k; reflexivity.
Qed.

Lemma J_ECloud : forall h g f n t,
  J h g f n t -> (forall k, fget k h = true) -> J h g f 0 (ECloud :: t).
Proof.
  intros h g f n t [A B C D E F] H; constructor; try (cbn; auto; fail).
  cbn [history allowed]. split; [|exact A]. intros j. rewrite <- B. apply H.
Qed.

Lemma J_ERenewed : forall h g f n t, J h g f n t -> J h g f 0 (ERenewed :: t).
Proof. intros h g f n t [A B C D E F]; constructor; cbn; auto. Qed.

(* The functions. *)
Lemma I1_observe : forall s, I1 s -> I1 (observe s).
Proof.
  intros s H. unfold observe. destruct (Nat.eqb (omax s) 0); [exact H|].
  destruct (mem KObs (pend s)); exact H.
Qed.

Lemma I1_mstart : forall s, I1 s -> I1 (mstart s).
Proof. intros s H. unfold mstart. destruct (mgr s); exact H. Qed.

Lemma I1_sched : forall e s, I1 s -> I1 (schedule_renew e s).
Proof. intros e s H. unfold schedule_renew. destruct (e_sched e); exact H. Qed.

Lemma I1_pstart : forall e s, I1 s -> I1 (pstart e s).
Proof.
  intros e s H. unfold pstart.
  destruct (mgr s); [exact H|].
  destruct (negb (e_ep e)); [apply (J_EReset _ _ _ _ _ H)|].
  destruct (negb (e_mfg e)); [exact H|].
  set (h := if force s then fnone else found e).
  set (c := negb (force s) && fA (found e) && e_creg e && cmgr s). clearbody c.
  set (s1 := if force s then s else found_cloud e (found_renew e s)).
  assert (T : tr s1 = tr s).
  { unfold s1, found_cloud, found_renew, schedule_renew.
    destruct (force s); [reflexivity|].
    destruct (fL (found e) && e_certs e), (e_sched e),
      (fA (found e) && e_creg e); reflexivity. }
  clearbody s1.
  set (s2 := w_trc 0 (w_force false
     (w_st (mkStatus true fnone h c false false false) s1))).
  set (s3 := if fall h then w_hbp true s2 else s2).
  assert (X : I1 (emit (EStart h) s3)).
  { pose proof (J_EStart _ _ _ _ _ e H) as Q. fold h in Q.
    unfold I1, s3. destruct (fall h); cbn; rewrite T; exact Q. }
  clearbody s3. cbv zeta.
  change (I1 (mstart (emit (EStart h) s3))). apply I1_mstart, X.
Qed.

Lemma I1_prestart : forall e s, I1 s -> I1 (prestart e s).
Proof. intros e s H. apply I1_pstart. exact H. Qed.

Lemma I1_reprov : forall e s, I1 s -> I1 (reprov_restart e s).
Proof.
  intros e s H. apply I1_prestart. apply (J_EForce _ _ _ _ _ H).
Qed.

Lemma I1_forget : forall s, I1 s -> I1 (forget s) /\ force (forget s) = false.
Proof.
  intros s H. unfold forget. destruct (force s) eqn:E.
  - split; [|reflexivity]. unfold I1 in H. rewrite E in H.
    apply (J_EForget _ _ _ _ H).
  - split; [exact H|exact E].
Qed.

Lemma I1_prov : forall e s, I1 s -> I1 (prov_async e s).
Proof.
  intros e s0 H0. unfold prov_async.
  destruct (I1_forget _ H0) as [H E].
  assert (X : I1 (emit EAttempt (forget s0))).
  { unfold I1 in *. cbn. rewrite E in *. apply (J_EAttempt _ _ _ _ H). }
  assert (F : force (emit EAttempt (forget s0)) = false) by exact E.
  clear H E. set (s := emit EAttempt (forget s0)) in *. clearbody s.
  cbv zeta.
  destruct (pcs s); [apply I1_observe, X|].
  destruct (negb (ini (st s))); [exact X|].
  destruct (negb (e_ep e)).
  { unfold I1. cbn. rewrite F. apply (J_EReset _ _ _ _ _ X). }
  destruct (negb (epset s || e_epinit e)); [exact X|].
  destruct (negb (e_own e)); exact X.
Qed.

Lemma I1_ask : forall e k s,
  I1 s -> (forall j, earlier j k = true -> fget j (hass (st s)) = true) ->
  fget k (hass (st s)) = false -> I1 (ask e k s).
Proof.
  intros e k s H L N. unfold ask. destruct (negb (e_send e)); [exact H|].
  pose proof (J_EReq _ _ _ _ _ k H L N) as X.
  destruct (step5_eqb k SL); destruct (step5_eqb k ST && e_tcp e);
    exact X.
Qed.

Lemma I1_ostart : forall e s, I1 s -> I1 (ostart e s).
Proof.
  intros e s H. unfold ostart. destruct (oini s); [apply I1_observe, H|].
  destruct (e_sel e); [apply I1_observe; exact H|apply I1_reprov, H].
Qed.

Lemma I1_cloud_started : forall e s,
  I1 s -> fall (hass (st s)) = true -> I1 (cloud_started e s).
Proof.
  intros e s H A. unfold cloud_started.
  change (I1 (ostart e (noerr (upd_st (u_cst true) (w_trc 0 (emit ECloud s)))))).
  apply I1_ostart. apply (J_ECloud _ _ _ _ _ H). apply fall_spec, A.
Qed.

Lemma I1_start_cloud : forall e s,
  I1 s -> fall (hass (st s)) = true -> I1 (start_cloud e s).
Proof.
  intros e s H A. unfold start_cloud. cbv zeta.
  destruct (cmgr (del KRetry s)); [apply I1_cloud_started; [exact H|exact A]|].
  destruct (e_cstart e); [apply I1_cloud_started; [exact H|exact A]|].
  apply (J_ENoStart _ _ _ _ _ H).
Qed.

Lemma I1_forget_CA : forall s, I1 s -> I1 (forget_CA s).
Proof. intros s H. apply (J_EForgetCA _ _ _ _ _ H). Qed.

Lemma I1_next : forall e s, I1 s -> I1 (next_step e s).
Proof.
  intros e s H. unfold next_step. cbv zeta.
  destruct (hass (st s)) as [a b c d f] eqn:E. cbn [fT fO fL fC fA].
  destruct a; cbn [negb].
  2: { apply I1_ask; rewrite ?E; [exact H| |reflexivity].
       intros []; discriminate || reflexivity. }
  destruct b; cbn [negb].
  2: { apply I1_ask; rewrite ?E; [exact H| |reflexivity].
       intros []; discriminate || reflexivity. }
  destruct c; cbn [negb].
  2: { apply I1_ask; rewrite ?E; [exact H| |reflexivity].
       intros []; discriminate || reflexivity. }
  destruct d; cbn [negb].
  2: { apply I1_ask; rewrite ?E; [exact H| |reflexivity].
       intros []; discriminate || reflexivity. }
  destruct f; cbn [negb].
  2: { apply I1_ask; rewrite ?E; [exact H| |reflexivity].
       intros []; discriminate || reflexivity. }
  assert (A : fall (hass (st s)) = true) by (rewrite E; reflexivity).
  destruct (negb (provisioned (st s))); [exact H|].
  destruct (pcs s); [exact H|].
  destruct (mem KRenew (pend s)); [apply I1_start_cloud; assumption|].
  destruct (e_certs e).
  - assert (S' : st (schedule_renew e s) = st s)
      by (unfold schedule_renew; destruct (e_sched e); reflexivity).
    apply I1_start_cloud; [apply I1_sched, H|rewrite S'; exact A].
  - apply (I1_forget_CA (upd_st (u_fai true) s)). exact H.
Qed.

(* Failures: the event has been noted and the flags changed, the rest is done by
   handle_failure. *)
Lemma I1_fail : forall b k h g s,
  J h g (force s) (trc s) (tr s) -> hass (st s) = fset k false h ->
  gets (st s) = g -> fai (st s) = true -> tra (st s) = false ->
  I1 (handle_failure b (emit (EFail k) s)).
Proof.
  intros b k h g s H A B C D. unfold handle_failure. cbn [st emit w_tr].
  rewrite C, D.
  pose proof (J_EFail _ _ _ _ _ k H) as X.
  destruct b; unfold I1; cbn; rewrite A, B; exact X.
Qed.

Lemma I1_trans : forall b k s,
  I1 s -> fai (st s) = false -> tra (st s) = true ->
  I1 (handle_failure b (emit (ETrans k) s)).
Proof.
  intros b k s H C D. unfold handle_failure. cbn [st emit w_tr trc].
  rewrite C, D.
  pose proof (J_ETrans _ _ _ _ _ k H) as X.
  destruct (Nat.leb 3 (S (trc s))); destruct b; exact X.
Qed.

Lemma I1_error : forall k s, I1 s -> tra (st s) = false -> I1 (step_error k s).
Proof.
  intros k s H T. unfold step_error.
  destruct (step5_eqb k SL); [apply (J_plain _ _ _ _ _ ERej eq_refl H)|].
  set (y := upd_st (fun t => u_fai true (u_hass (fset k false (hass t)) t)) s).
  apply (I1_fail _ k (hass (st s)) (gets (st s)) y);
    [exact H|reflexivity|reflexivity|reflexivity|exact T].
Qed.

Lemma expected_spec : forall k t, expected k t = true ->
  hass t = upto k /\ gets t = fset k true fnone /\ ini t = true
  /\ cst t = false /\ ren t = false /\ tra t = false /\ fai t = false.
Proof.
  intros k t H. unfold expected in H.
  rewrite !andb_true_iff, !negb_true_iff in H.
  destruct H as [[[[[[A B] C] D] E] F] G].
  apply fl_eqb_spec in B. apply fl_eqb_spec in C. auto 10.
Qed.

Lemma I1_done : forall k s,
  I1 s -> hass (st s) = upto k -> gets (st s) = fset k true fnone ->
  I1 (step_done k s).
Proof.
  intros k s H A B. unfold step_done. cbv zeta.
  set (s1 := w_trc 0 (noerr (emit (EDone k)
    (upd_st (fun t => u_gets (fset k false (gets t))
                        (u_hass (fset k true (hass t)) t)) s)))).
  assert (X : I1 s1).
  { unfold I1 in *. rewrite A, B in H. unfold s1. cbn. rewrite A, B.
    apply (J_EDone _ _ _ _ H). }
  clearbody s1. destruct (goes_on k s1); exact X.
Qed.

Lemma st_redirect : forall e k s, st (redirect e k s) = st s.
Proof.
  intros e k s. unfold redirect.
  destruct (e_redir e && negb (step5_eqb k ST)); reflexivity.
Qed.

Lemma I1_redirect : forall e k s, I1 s -> I1 (redirect e k s).
Proof.
  intros e k s H. unfold redirect.
  destruct (e_redir e && negb (step5_eqb k ST)); exact H.
Qed.

Lemma I1_redirect_renew : forall e s, I1 s -> I1 (redirect_renew e s).
Proof.
  intros e s H. unfold redirect_renew. destruct (e_redir e); [|exact H].
  apply (J_plain _ _ _ _ _ EMoved eq_refl H).
Qed.

Lemma st_sched : forall e s, st (schedule_renew e s) = st s.
Proof. intros e s. unfold schedule_renew. destruct (e_sched e); reflexivity. Qed.

Lemma I1_payload : forall e k ok s,
  I1 s -> expected k (st s) = true -> I1 (step_payload e k ok s).
Proof.
  intros e k ok s0 H X. apply expected_spec in X.
  destruct X as [A [B [_ [_ [_ [D _]]]]]].
  unfold step_payload. cbv zeta.
  pose proof (I1_redirect e k _ H) as Y. pose proof (st_redirect e k s0) as Z.
  set (s := redirect e k s0) in *. clearbody s. rewrite <- Z in *. clear H Z.
  destruct k.
  - destruct ok; [apply I1_done|apply I1_error]; assumption.
  - destruct ok; [apply I1_done|apply I1_error]; assumption.
  - destruct ok.
    + destruct (e_same e); apply I1_done; assumption.
    + destruct (e_late e); apply I1_error; assumption.
  - destruct (ok && e_certs e); [|apply I1_error; assumption].
    pose proof (st_sched e s) as Q.
    destruct (e_idc e); [apply I1_done|apply I1_error]; rewrite ?Q;
      try assumption; apply I1_sched; assumption.
  - destruct ok; [apply I1_done|apply I1_error]; assumption.
Qed.

Lemma fset_upto : forall k, fset k false (upto k) = upto k.
Proof. intros []; reflexivity. Qed.

Lemma I1_handler : forall e k r s, I1 s -> I1 (handler e k r s).
Proof.
  intros e k r s0 H0. unfold handler.
  destruct (fget k (hass (st s0)) && negb (fai (st s0))); [exact H0|].
  cbv zeta. set (s := noerr (del KRetry s0)).
  assert (H : I1 s) by exact H0.
  assert (T : tra (st s) = false) by reflexivity.
  assert (F : fai (st s) = false) by reflexivity.
  clearbody s.
  destruct (expected k (st s)) eqn:X; cbn [negb].
  2: apply I1_error; assumption.
  destruct r.
  - apply I1_payload; assumption.
  - apply I1_payload; assumption.
  - apply (I1_trans _ k (upd_st (u_tra true) s));
      [exact H|exact F|reflexivity].
  - apply expected_spec in X. destruct X as [A [B _]].
    apply (I1_fail _ k (upto k) (fset k true fnone) (upd_st (u_fai true) s));
      [|cbn; rewrite A; symmetry; apply fset_upto|exact B|reflexivity|exact T].
    unfold I1 in H. rewrite A, B in H. exact H.
Qed.

Lemma I1_renew_retry : forall e s, I1 s -> I1 (renew_retry e s).
Proof.
  intros e s H. unfold renew_retry.
  destruct (e_certs e); [apply I1_sched, H|apply I1_reprov, H].
Qed.

Lemma I1_renew : forall e s, I1 s -> I1 (renew_async e s).
Proof.
  intros e s H. unfold renew_async. destruct (negb (pcs s)); [exact H|].
  destruct (e_send e); [|apply I1_renew_retry, H].
  apply (J_plain _ _ _ _ _ ERenew eq_refl H).
Qed.

Lemma I1_renew_handler : forall e r s, I1 s -> I1 (renew_handler e r s).
Proof.
  intros e r s0 H0. unfold renew_handler. cbv zeta.
  assert (H : I1 (del KRenewR s0)) by exact H0.
  set (s := del KRenewR s0) in *. clearbody s. clear H0 s0.
  destruct (negb (pcs s) && negb (ren (st s))); [exact H|].
  pose proof (I1_redirect_renew e _ H) as R.
  destruct r; try (apply I1_renew_retry; assumption).
  set (s1 := redirect_renew e s) in *. clearbody s1.
  destruct (negb (e_certs e)); [apply I1_reprov, R|].
  pose proof (I1_sched e _ R) as Q. set (s2 := schedule_renew e s1) in *.
  clearbody s2.
  destruct (negb (e_idc e)); [apply I1_reprov, Q|].
  apply (J_ERenewed _ _ _ _ _ Q).
Qed.

Lemma I1_server : forall e s, I1 s -> I1 (server_change e s).
Proof.
  intros e s H. unfold server_change. cbv zeta.
  destruct (Nat.eqb (orem s) 0); [exact H|].
  destruct (negb (e_sel e)); [exact H|].
  destruct (e_init e); [exact H|].
  destruct (e_uuid e); [exact H|apply I1_observe; exact H].
Qed.

Lemma I1_obs_restart : forall e s, I1 s -> I1 (obs_restart e s).
Proof.
  intros e s H. unfold obs_restart.
  change (I1 (reprov_restart e (odeinit s))). apply I1_reprov. exact H.
Qed.

Lemma I1_obs_retry : forall e s, I1 s -> I1 (obs_retry e s).
Proof.
  intros e s0 H. unfold obs_retry. cbv zeta.
  assert (X : I1 (w_ocnt (S (ocnt s0)) s0)) by exact H.
  set (s := w_ocnt (S (ocnt s0)) s0) in *. clearbody s.
  destruct (Nat.leb (omax s) (ocnt s)); [|exact X].
  destruct (Nat.eqb (orem s) 0); [apply I1_obs_restart, X|].
  destruct (negb (e_next e)); [apply I1_obs_restart, X|].
  assert (Y : I1 (if oini s then server_change e s else s))
    by (destruct (oini s); [apply I1_server|]; exact X).
  set (y := if oini s then server_change e s else s) in *. clearbody y.
  apply (J_plain _ _ _ _ _ ESwitch eq_refl Y).
Qed.

Lemma I1_obs_note : forall r l s, I1 s -> I1 (obs_note r l s).
Proof.
  intros r l s H. unfold obs_note. cbv zeta.
  destruct (r && negb (oreg s)).
  - destruct (l && negb (olog (w_oreg true (w_ocnt 0 s)))); exact H.
  - destruct (l && negb (olog s)); exact H.
Qed.

Lemma I1_obs : forall e s, I1 s -> I1 (obs_async e s).
Proof.
  intros e s H. unfold obs_async. cbv zeta.
  destruct (negb (cmgr s)); [apply I1_obs_restart, H|].
  destruct (Nat.eqb (omax s) 0); [exact H|].
  destruct (negb (e_cconn e)); [apply I1_obs_retry; exact H|].
  pose proof (I1_obs_note (e_creg e) (e_clog e) _ H) as X.
  set (y := obs_note (e_creg e) (e_clog e) s) in *. clearbody y.
  destruct (oreg y && olog y); [exact X|apply I1_obs_retry, X].
Qed.

Lemma I1_fire : forall e c s, I1 s -> I1 (fire e c s).
Proof.
  intros e c s0 H0. unfold fire. destruct (negb (mem c (pend s0))); [exact H0|].
  assert (H : I1 (del c s0)) by exact H0. cbv zeta.
  set (s := del c s0) in *. clearbody s.
  destruct c.
  - apply I1_prov, H.
  - apply I1_prov. exact H.
  - unfold start_async. destruct (e_wait e); exact H.
  - apply I1_next, H.
  - apply I1_reprov, H.
  - apply I1_mstart. exact H.
  - unfold uuid_async.
    apply (I1_forget_CA (upd_st (u_cst false) (w_cmgr false s))). exact H.
  - apply I1_obs, H0.
  - apply I1_renew, H.
  - apply I1_renew, H.
  - apply I1_prestart, H.
Qed.

Lemma I1_down : forall s, I1 s -> I1 (sess_down s).
Proof.
  intros s H. unfold sess_down. cbv zeta.
  destruct (sreg s && epset s && mgr s && conn s); [|exact H].
  destruct (closing (w_conn false s)).
  - destruct (err (st (w_closing false (w_conn false s)))); exact H.
  - destruct (negb (err (st (w_conn false s))) && negb (pcs (w_conn false s)));
      exact H.
Qed.

Lemma I1_step : forall eo s, I1 s -> I1 (step eo s).
Proof.
  intros [e o] s H. unfold step. destruct o.
  - apply I1_pstart, H.
  - exact H.
  - apply I1_prestart, H.
  - apply (J_EForce _ _ _ _ _ H).
  - apply (J_EFactory _ _ _ _ _ H).
  - destruct (e_redir e); apply (J_EForce _ _ _ _ _ H).
  - apply I1_fire, H.
  - destruct (existsb (step5_eqb k) (reqs s)); [|exact H].
    apply I1_handler. exact H.
  - destruct (rnws s) as [|n]; [exact H|]. apply I1_renew_handler. exact H.
  - unfold sess_up. destruct (sreg s && epset s && mgr s); exact H.
  - apply I1_down, H.
  - destruct (sreg s && cmgr s); [apply I1_observe, H|exact H].
  - destruct (ireg s && only_ini (st s)); exact H.
  - destruct (oini s); [apply I1_server, H|exact H].
  - exact H.
  - exact H.
Qed.

Lemma I1_init : I1 init.
Proof.
  constructor; try reflexivity; try (cbn; auto; fail); intros []; reflexivity.
Qed.

Lemma run_ind : forall P : ctx -> Prop,
  P init -> (forall eo s, P s -> P (step eo s)) -> forall l, P (run l).
Proof.
  intros P A B l. unfold run. revert A. generalize init.
  induction l as [|x l IH]; intros s A; [exact A|]. cbn [fold_left].
  apply IH, B, A.
Qed.

Lemma I1_run : forall l, I1 (run l).
Proof. apply run_ind; [exact I1_init|]. intros; apply I1_step; assumption. Qed.
