(* Events stay in the history. *)
From Coq Require Import List Bool Arith Lia.
Import ListNotations.
From Verif Require Import Dps_Model Dps_Spec Dps_Proofs.

Section Kept.
Variable x : ev.
Definition has_ev (s : ctx) : Prop := In x (tr s).

Lemma K_emit : forall e s, has_ev s -> has_ev (emit e s).
Proof. intros e s H. right. exact H. Qed.

Lemma K_observe : forall s, has_ev s -> has_ev (observe s).
Proof.
  intros s H. unfold observe. destruct (Nat.eqb (omax s) 0); [exact H|].
  destruct (mem KObs (pend s)); exact H.
Qed.

Lemma K_mstart : forall s, has_ev s -> has_ev (mstart s).
Proof. intros s H. unfold mstart. destruct (mgr s); exact H. Qed.

Lemma K_sched : forall e s, has_ev s -> has_ev (schedule_renew e s).
Proof. intros e s H. unfold schedule_renew. destruct (e_sched e); exact H. Qed.

Lemma K_pstart : forall e s, has_ev s -> has_ev (pstart e s).
Proof.
  intros e s H. unfold pstart.
  destruct (mgr s); [exact H|].
  destruct (negb (e_ep e)); [right; exact H|].
  destruct (negb (e_mfg e)); [exact H|].
  set (h := if force s then fnone else found e). clearbody h.
  set (c := negb (force s) && fA (found e) && e_creg e && cmgr s). clearbody c.
  set (s1 := if force s then s else found_cloud e (found_renew e s)).
  assert (T : tr s1 = tr s).
  { unfold s1, found_cloud, found_renew, schedule_renew.
    destruct (force s); [reflexivity|].
    destruct (fL (found e) && e_certs e), (e_sched e),
      (fA (found e) && e_creg e); reflexivity. }
  clearbody s1. cbv zeta.
  set (s3 := if fall h
     then w_hbp true (w_trc 0 (w_force false
       (w_st (mkStatus true fnone h c false false false) s1)))
     else w_trc 0 (w_force false
       (w_st (mkStatus true fnone h c false false false) s1))).
  assert (X : has_ev s3).
  { unfold has_ev, s3. destruct (fall h); cbn; rewrite T; exact H. }
  clearbody s3.
  change (has_ev (mstart (emit (EStart h) s3))). apply K_mstart, K_emit, X.
Qed.

Lemma K_prestart : forall e s, has_ev s -> has_ev (prestart e s).
Proof. intros e s H. apply K_pstart. exact H. Qed.

Lemma K_reprov : forall e s, has_ev s -> has_ev (reprov_restart e s).
Proof. intros e s H. apply K_prestart. right. exact H. Qed.

Lemma K_forget : forall s, has_ev s -> has_ev (forget s).
Proof. intros s H. unfold forget. destruct (force s); [right|]; exact H. Qed.

Lemma K_prov : forall e s, has_ev s -> has_ev (prov_async e s).
Proof.
  intros e s0 H0. unfold prov_async.
  pose proof (K_emit EAttempt _ (K_forget _ H0)) as X.
  set (s := emit EAttempt (forget s0)) in *. clearbody s. cbv zeta.
  destruct (pcs s); [apply K_observe, X|].
  destruct (negb (ini (st s))); [exact X|].
  destruct (negb (e_ep e)); [right; exact X|].
  destruct (negb (epset s || e_epinit e)); [exact X|].
  destruct (negb (e_own e)); exact X.
Qed.

Lemma K_ask : forall e k s, has_ev s -> has_ev (ask e k s).
Proof.
  intros e k s H. unfold ask. destruct (negb (e_send e)); [exact H|].
  destruct (step5_eqb k SL); destruct (step5_eqb k ST && e_tcp e);
    right; exact H.
Qed.

Lemma K_ostart : forall e s, has_ev s -> has_ev (ostart e s).
Proof.
  intros e s H. unfold ostart. destruct (oini s); [apply K_observe, H|].
  destruct (e_sel e); [apply K_observe; exact H|apply K_reprov, H].
Qed.

Lemma K_cloud_started : forall e s, has_ev s -> has_ev (cloud_started e s).
Proof.
  intros e s H. unfold cloud_started.
  change (has_ev (ostart e (noerr (upd_st (u_cst true) (w_trc 0 (emit ECloud s)))))).
  apply K_ostart. right. exact H.
Qed.

Lemma K_start_cloud : forall e s, has_ev s -> has_ev (start_cloud e s).
Proof.
  intros e s H. unfold start_cloud. cbv zeta.
  destruct (cmgr (del KRetry s)); [apply K_cloud_started; exact H|].
  destruct (e_cstart e); [apply K_cloud_started; exact H|]. right. exact H.
Qed.

Lemma K_next : forall e s, has_ev s -> has_ev (next_step e s).
Proof.
  intros e s H. unfold next_step. cbv zeta.
  destruct (negb (fT (hass (st s)))); [apply K_ask, H|].
  destruct (negb (fO (hass (st s)))); [apply K_ask, H|].
  destruct (negb (fL (hass (st s)))); [apply K_ask, H|].
  destruct (negb (fC (hass (st s)))); [apply K_ask, H|].
  destruct (negb (fA (hass (st s)))); [apply K_ask, H|].
  destruct (negb (provisioned (st s))); [exact H|].
  destruct (pcs s); [exact H|].
  destruct (mem KRenew (pend s)); [apply K_start_cloud; assumption|].
  destruct (e_certs e); [apply K_start_cloud, K_sched, H|right; exact H].
Qed.

Lemma K_failure : forall b s, has_ev s -> has_ev (handle_failure b s).
Proof.
  intros b s H. unfold handle_failure. cbv zeta.
  destruct (tra (st s)), (Nat.leb 3 (S (trc s))), (fai (st s)), b; exact H.
Qed.

Lemma K_error : forall k s, has_ev s -> has_ev (step_error k s).
Proof.
  intros k s H. unfold step_error.
  destruct (step5_eqb k SL); [right; exact H|].
  apply K_failure. right. exact H.
Qed.

Lemma K_done : forall k s, has_ev s -> has_ev (step_done k s).
Proof.
  intros k s H. unfold step_done. cbv zeta.
  set (s1 := w_trc 0 (noerr (emit (EDone k)
    (upd_st (fun t => u_gets (fset k false (gets t))
                        (u_hass (fset k true (hass t)) t)) s)))).
  assert (X : has_ev s1) by (right; exact H).
  clearbody s1. destruct (goes_on k s1); exact X.
Qed.

Lemma K_redirect : forall e k s, has_ev s -> has_ev (redirect e k s).
Proof.
  intros e k s H. unfold redirect.
  destruct (e_redir e && negb (step5_eqb k ST)); exact H.
Qed.

Lemma K_payload : forall e k ok s, has_ev s -> has_ev (step_payload e k ok s).
Proof.
  intros e k ok s0 H. unfold step_payload. cbv zeta.
  pose proof (K_redirect e k _ H) as Y.
  set (s := redirect e k s0) in *. clearbody s.
  destruct k.
  - destruct ok; [apply K_done|apply K_error]; assumption.
  - destruct ok; [apply K_done|apply K_error]; assumption.
  - destruct ok.
    + destruct (e_same e); apply K_done; assumption.
    + destruct (e_late e); apply K_error; assumption.
  - destruct (ok && e_certs e); [|apply K_error; assumption].
    destruct (e_idc e); [apply K_done|apply K_error]; apply K_sched; assumption.
  - destruct ok; [apply K_done|apply K_error]; assumption.
Qed.

Lemma K_handler : forall e k r s, has_ev s -> has_ev (handler e k r s).
Proof.
  intros e k r s0 H0. unfold handler.
  destruct (fget k (hass (st s0)) && negb (fai (st s0))); [exact H0|].
  cbv zeta. set (s := noerr (del KRetry s0)).
  assert (H : has_ev s) by exact H0. clearbody s.
  destruct (negb (expected k (st s))); [apply K_error, H|].
  destruct r; try (apply K_payload; exact H); apply K_failure; right; exact H.
Qed.

Lemma K_renew_retry : forall e s, has_ev s -> has_ev (renew_retry e s).
Proof.
  intros e s H. unfold renew_retry.
  destruct (e_certs e); [apply K_sched, H|apply K_reprov, H].
Qed.

Lemma K_renew : forall e s, has_ev s -> has_ev (renew_async e s).
Proof.
  intros e s H. unfold renew_async. destruct (negb (pcs s)); [exact H|].
  destruct (e_send e); [right; exact H|apply K_renew_retry, H].
Qed.

Lemma K_redirect_renew : forall e s, has_ev s -> has_ev (redirect_renew e s).
Proof.
  intros e s H. unfold redirect_renew. destruct (e_redir e); [right|]; exact H.
Qed.

Lemma K_renew_handler : forall e r s, has_ev s -> has_ev (renew_handler e r s).
Proof.
  intros e r s0 H0. unfold renew_handler. cbv zeta.
  assert (H : has_ev (del KRenewR s0)) by exact H0.
  set (s := del KRenewR s0) in *. clearbody s. clear H0 s0.
  destruct (negb (pcs s) && negb (ren (st s))); [exact H|].
  pose proof (K_redirect_renew e _ H) as R.
  destruct r; try (apply K_renew_retry; assumption).
  set (s1 := redirect_renew e s) in *. clearbody s1.
  destruct (negb (e_certs e)); [apply K_reprov, R|].
  pose proof (K_sched e _ R) as Q. set (s2 := schedule_renew e s1) in *.
  clearbody s2.
  destruct (negb (e_idc e)); [apply K_reprov, Q|]. right. exact Q.
Qed.

Lemma K_server : forall e s, has_ev s -> has_ev (server_change e s).
Proof.
  intros e s H. unfold server_change. cbv zeta.
  destruct (Nat.eqb (orem s) 0); [exact H|].
  destruct (negb (e_sel e)); [exact H|].
  destruct (e_init e); [exact H|].
  destruct (e_uuid e); [exact H|apply K_observe; exact H].
Qed.

Lemma K_obs_restart : forall e s, has_ev s -> has_ev (obs_restart e s).
Proof.
  intros e s H. unfold obs_restart.
  change (has_ev (reprov_restart e (odeinit s))). apply K_reprov. exact H.
Qed.

Lemma K_obs_retry : forall e s, has_ev s -> has_ev (obs_retry e s).
Proof.
  intros e s0 H. unfold obs_retry. cbv zeta.
  assert (X : has_ev (w_ocnt (S (ocnt s0)) s0)) by exact H.
  set (s := w_ocnt (S (ocnt s0)) s0) in *. clearbody s.
  destruct (Nat.leb (omax s) (ocnt s)); [|exact X].
  destruct (Nat.eqb (orem s) 0); [apply K_obs_restart, X|].
  destruct (negb (e_next e)); [apply K_obs_restart, X|].
  right. destruct (oini s); [apply K_server|]; exact X.
Qed.

Lemma K_obs : forall e s, has_ev s -> has_ev (obs_async e s).
Proof.
  intros e s H. unfold obs_async. cbv zeta.
  destruct (negb (cmgr s)); [apply K_obs_restart, H|].
  destruct (Nat.eqb (omax s) 0); [exact H|].
  destruct (negb (e_cconn e)); [apply K_obs_retry; exact H|].
  assert (X : has_ev (obs_note (e_creg e) (e_clog e) s)).
  { unfold obs_note. cbv zeta. destruct (e_creg e && negb (oreg s)).
    - destruct (e_clog e && negb (olog (w_oreg true (w_ocnt 0 s)))); exact H.
    - destruct (e_clog e && negb (olog s)); exact H. }
  set (y := obs_note (e_creg e) (e_clog e) s) in *. clearbody y.
  destruct (oreg y && olog y); [exact X|apply K_obs_retry, X].
Qed.

Lemma K_fire : forall e c s, has_ev s -> has_ev (fire e c s).
Proof.
  intros e c s0 H0. unfold fire. destruct (negb (mem c (pend s0))); [exact H0|].
  assert (H : has_ev (del c s0)) by exact H0. cbv zeta.
  set (s := del c s0) in *. clearbody s.
  destruct c.
  - apply K_prov, H.
  - apply K_prov. exact H.
  - unfold start_async. destruct (e_wait e); exact H.
  - apply K_next, H.
  - apply K_reprov, H.
  - apply K_mstart. exact H.
  - right. exact H.
  - apply K_obs, H0.
  - apply K_renew, H.
  - apply K_renew, H.
  - apply K_prestart, H.
Qed.

Lemma K_down : forall s, has_ev s -> has_ev (sess_down s).
Proof.
  intros s H. unfold sess_down. cbv zeta.
  destruct (sreg s && epset s && mgr s && conn s); [|exact H].
  destruct (closing (w_conn false s)).
  - destruct (err (st (w_closing false (w_conn false s)))); exact H.
  - destruct (negb (err (st (w_conn false s))) && negb (pcs (w_conn false s)));
      exact H.
Qed.

Lemma K_step : forall eo s, has_ev s -> has_ev (step eo s).
Proof.
  intros [e o] s H. unfold step. destruct o.
  - apply K_pstart, H.
  - exact H.
  - apply K_prestart, H.
  - right; exact H.
  - right; exact H.
  - destruct (e_redir e); right; exact H.
  - apply K_fire, H.
  - destruct (existsb (step5_eqb k) (reqs s)); [|exact H].
    apply K_handler. exact H.
  - destruct (rnws s) as [|n]; [exact H|]. apply K_renew_handler. exact H.
  - unfold sess_up. destruct (sreg s && epset s && mgr s); exact H.
  - apply K_down, H.
  - destruct (sreg s && cmgr s); [apply K_observe, H|exact H].
  - destruct (ireg s && only_ini (st s)); exact H.
  - destruct (oini s); [apply K_server, H|exact H].
  - exact H.
  - exact H.
Qed.
End Kept.
