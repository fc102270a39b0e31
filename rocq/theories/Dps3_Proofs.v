(* A manager that runs is waiting for something or has finished. *)
From Coq Require Import List Bool Arith Lia.
Import ListNotations.
From Verif Require Import Dps_Model Dps_Spec Dps_Proofs Dps2_Proofs.

Definition X (s : ctx) : Prop := In ERej (tr s) \/ In EMoved (tr s).
Definition G (s : ctx) : Prop :=
  mgr s = true -> ini (st s) = true -> awaiting s \/ finished s.
Definition Q (s : ctx) : Prop :=
  ini (st s) = true -> fall (hass (st s)) = true -> err (st s) = true ->
  force s = true /\ (In KRetry (pend s) \/ (mgr s = false /\ ~ In KMgr (pend s))).
Definition I3 (s : ctx) : Prop := X s \/ (G s /\ Q s).

Definition waits := [KProv; KRetry; KStart; KNext; KReprov; KUuid; KRestart].

Lemma cb_eqb_eq : forall a b, cb_eqb a b = true <-> a = b.
Proof. intros a b. destruct a, b; cbn; split; congruence. Qed.

Lemma in_drop : forall c d l, In d (drop c l) <-> In d l /\ d <> c.
Proof.
  intros c d l. unfold drop. rewrite filter_In, negb_true_iff.
  split; intros [A B]; (split; [exact A|]).
  - intros ->. rewrite (proj2 (cb_eqb_eq c c) eq_refl) in B. discriminate.
  - destruct (cb_eqb c d) eqn:Z; [|reflexivity].
    apply cb_eqb_eq in Z. congruence.
Qed.

Lemma in_del : forall c d s, In d (pend (del c s)) <-> In d (pend s) /\ d <> c.
Proof. intros. apply in_drop. Qed.

Lemma in_add : forall c d s, In d (pend (add c s)) <-> d = c \/ In d (pend s).
Proof.
  intros c d s. change (In d (c :: drop c (pend s)) <-> d = c \/ In d (pend s)).
  cbn [In]. rewrite in_drop.
  split.
  - intros [A|[A _]]; [left; congruence|right; exact A].
  - intros [A|A]; [left; congruence|].
    destruct (cb_eqb d c) eqn:Z; [apply cb_eqb_eq in Z; left; congruence|].
    right. split; [exact A|]. intros ->.
    rewrite (proj2 (cb_eqb_eq c c) eq_refl) in Z. discriminate.
Qed.

Lemma mem_in : forall c l, mem c l = true <-> In c l.
Proof.
  intros c l. unfold mem. rewrite existsb_exists. split.
  - intros (x & A & B). apply cb_eqb_eq in B. congruence.
  - intros A. exists c. split; [exact A|]. apply cb_eqb_eq. reflexivity.
Qed.

(* Nothing that matters is lost. *)
Record frame (s s' : ctx) : Prop := {
  F_mgr : mgr s' = mgr s;
  F_ini : ini (st s') = ini (st s);
  F_has : hass (st s') = hass (st s);
  F_tra : tra (st s') = tra (st s);
  F_fai : fai (st s') = fai (st s);
  F_cst : cst (st s') = cst (st s);
  F_req : forall k, In k (reqs s) -> In k (reqs s');
  F_cl : closing s = true -> conn s = true -> closing s' = true /\ conn s' = true;
  F_pend : forall c, In c waits -> In c (pend s) -> In c (pend s');
  F_kmgr : In KMgr (pend s') -> In KMgr (pend s);
  F_force : force s = true -> force s' = true }.

Lemma frame_refl : forall s, frame s s.
Proof. intros s. constructor; auto. Qed.

Lemma frame_trans : forall a b c, frame a b -> frame b c -> frame a c.
Proof.
  intros a b c [A1 A2 A3 A4 A5 A6 A7 A8 A9 A10 A11]
    [B1 B2 B3 B4 B5 B6 B7 B8 B9 B10 B11].
  constructor; try congruence; auto.
  intros U V. destruct (A8 U V) as [U' V']. auto.
Qed.

Lemma frame_GQ : forall s s', frame s s' -> G s /\ Q s -> G s' /\ Q s'.
Proof.
  intros s s' [F1 F2 F3 F4 F5 F6 F7 F8 F9 F10 F11] [HG HQ]. split.
  - intros M I. rewrite F1 in M. rewrite F2 in I.
    destruct (HG M I) as [A|A].
    + left. destruct A as [(c & A & B)|[(k & A & B)|(A & B)]].
      * left. exists c. auto.
      * right. left. exists k. rewrite F3, F5. auto.
      * right. right. auto.
    + right. unfold finished in *. rewrite F3, F4, F5, F6. exact A.
  - unfold Q in *. unfold err in *. rewrite F1, F2, F3, F4, F5. intros A B C.
    destruct (HQ A B C) as [D [E|[E1 E2]]].
    + split; [auto|]. left. apply F9; [right; left; reflexivity|exact E].
    + split; [auto|]. right. auto.
Qed.

Lemma frame_del : forall c s, ~ In c waits -> frame s (del c s).
Proof.
  intros c s H. constructor; auto.
  - intros d A B. apply in_del. split; [exact B|congruence].
  - intros A. apply in_del in A. apply A.
Qed.

Lemma frame_add : forall c s, c <> KMgr -> frame s (add c s).
Proof.
  intros c s H. constructor; auto.
  - intros d A B. apply in_add. right. exact B.
  - intros A. apply in_add in A. destruct A as [A|A]; [congruence|exact A].
Qed.

Ltac notin := let Y := fresh in intros Y; cbn in Y; repeat destruct Y as [Y|Y]; congruence.

Lemma frame_odeinit : forall s, frame s (odeinit s).
Proof.
  intros s. destruct (frame_del KObs s) as [A1 A2 A3 A4 A5 A6 A7 A8 A9 A10 A11];
    [notin|]. constructor; assumption.
Qed.

Lemma frame_observe : forall s, frame s (observe s).
Proof.
  intros s. unfold observe. destruct (Nat.eqb (omax s) 0); [apply frame_odeinit|].
  destruct (mem KObs (pend s)); [apply frame_refl|apply frame_add; discriminate].
Qed.

Lemma frame_sched : forall e s, frame s (schedule_renew e s).
Proof.
  intros e s. unfold schedule_renew.
  destruct (e_sched e); [apply frame_add; discriminate|apply frame_refl].
Qed.

(* Ways to establish both. *)
Lemma GQ_wait : forall c s, In c waits ->
  Q (add c s) -> G (add c s) /\ Q (add c s).
Proof.
  intros c s H HQ. split; [|exact HQ]. intros _ _. left. left. exists c.
  split; [exact H|]. apply in_add. left. reflexivity.
Qed.

Lemma Q_noerr : forall s, err (st s) = false -> Q s.
Proof. intros s H _ _ A. congruence. Qed.

Lemma Q_missing : forall k s, fget k (hass (st s)) = false -> Q s.
Proof.
  intros k s H _ A _. pose proof (proj1 (fall_spec _) A k). congruence.
Qed.

Lemma Q_retry : forall s, force s = true -> In KRetry (pend s) -> Q s.
Proof. intros s A B _ _ _. auto. Qed.

Lemma Q_add : forall c s, c <> KMgr -> Q s -> Q (add c s).
Proof.
  intros c s H HQ A B C. destruct (HQ A B C) as [D [E|[E1 E2]]];
    (split; [exact D|]).
  - left. apply in_add. right. exact E.
  - right. split; [exact E1|]. intros Z. apply in_add in Z.
    destruct Z as [Z|Z]; [congruence|auto].
Qed.

Lemma Q_del : forall c s, c <> KRetry -> Q s -> Q (del c s).
Proof.
  intros c s H HQ A B C. destruct (HQ A B C) as [D [E|[E1 E2]]];
    (split; [exact D|]).
  - left. apply in_del. split; [exact E|congruence].
  - right. split; [exact E1|]. intros Z. apply in_del in Z. apply E2, Z.
Qed.

Lemma GQ_noini : forall s, ini (st s) = false -> G s /\ Q s.
Proof. intros s H. split; [intros _ A|intros A]; congruence. Qed.

Lemma GQ_stopped : forall s, mgr s = false -> Q s -> G s /\ Q s.
Proof. intros s H A. split; [intros B; congruence|exact A]. Qed.

Lemma GQ_finished : forall s, finished s -> G s /\ Q s.
Proof.
  intros s H. split.
  - intros _ _. right. exact H.
  - apply Q_noerr. destruct H as (_ & A & B & _). unfold err. rewrite A, B.
    reflexivity.
Qed.

Lemma pcs_finished : forall s, pcs s = true -> finished s.
Proof.
  intros s H. unfold pcs, provisioned, err in H.
  apply andb_prop in H. destruct H as [H C].
  apply andb_prop in H. destruct H as [H _].
  apply andb_prop in H. destruct H as [H E].
  apply negb_true_iff, orb_false_iff in E. destruct E as [E1 E2].
  split; [apply fall_spec, H|auto].
Qed.


(* The conditions on the state from which the manager is stopped. *)
Definition Qf (s : ctx) : Prop :=
  ini (st s) = true -> fall (hass (st s)) = true -> err (st s) = true ->
  force s = true.

Lemma Q_Qf : forall s, Q s -> Qf s.
Proof. intros s H A B C. apply (H A B C). Qed.

Lemma not_kmgr : forall s, ~ In KMgr (pend (pstop s)).
Proof.
  intros s A. unfold pstop, disconnect, mstop, odeinit in A.
  change (In KMgr (drop KObs (drop KUuid (drop KRenewR (drop KRenew (drop KNext
    (drop KReprov (drop KRetry (drop KProv (drop KStart
      (drop KMgr (pend s)))))))))))) in A.
  repeat (apply in_drop in A; destruct A as [A ?]). congruence.
Qed.

Lemma Q_pstop : forall s, Qf s -> Q (pstop s).
Proof.
  intros s H A B C. split; [exact (H A B C)|]. right.
  split; [reflexivity|apply not_kmgr].
Qed.

Lemma GQ_mstart_fresh : forall s, mgr s = false -> err (st s) = false ->
  G (mstart s) /\ Q (mstart s).
Proof.
  intros s H E. unfold mstart. rewrite H. apply GQ_wait; [left; reflexivity|].
  apply Q_noerr. exact E.
Qed.

Lemma GQ_pstart : forall e s, G s /\ Q s -> G (pstart e s) /\ Q (pstart e s).
Proof.
  intros e s H. unfold pstart. destruct (mgr s) eqn:M; [exact H|].
  destruct (negb (e_ep e)); [apply GQ_noini; reflexivity|].
  destruct (negb (e_mfg e)); [exact H|].
  set (h := if force s then fnone else found e). clearbody h.
  set (c := negb (force s) && fA (found e) && e_creg e && cmgr s). clearbody c.
  set (s1 := if force s then s else found_cloud e (found_renew e s)).
  assert (T : mgr s1 = false).
  { unfold s1, found_cloud, found_renew, schedule_renew.
    destruct (force s); [exact M|].
    destruct (fL (found e) && e_certs e), (e_sched e),
      (fA (found e) && e_creg e); exact M. }
  clearbody s1. cbv zeta.
  set (s3 := if fall h
     then w_hbp true (w_trc 0 (w_force false
       (w_st (mkStatus true fnone h c false false false) s1)))
     else w_trc 0 (w_force false
       (w_st (mkStatus true fnone h c false false false) s1))).
  assert (Y1 : mgr s3 = false)
    by (unfold s3; destruct (fall h); exact T).
  assert (Y2 : err (st s3) = false)
    by (unfold s3; destruct (fall h); reflexivity).
  clearbody s3.
  pose proof (GQ_mstart_fresh (emit (EStart h) s3) Y1 Y2) as Z.
  set (y := mstart (emit (EStart h) s3)) in *. clearbody y. exact Z.
Qed.

Lemma GQ_prestart : forall e s, Qf s -> G (prestart e s) /\ Q (prestart e s).
Proof.
  intros e s H. apply GQ_pstart, GQ_stopped; [reflexivity|apply Q_pstop, H].
Qed.

Lemma GQ_reprov : forall e s, G (reprov_restart e s) /\ Q (reprov_restart e s).
Proof. intros e s. apply GQ_prestart. intros _ _ _. reflexivity. Qed.

Lemma GQ_prov : forall e s, Qf s -> G (prov_async e s) /\ Q (prov_async e s).
Proof.
  intros e s0 H0. unfold prov_async.
  assert (H : Q (emit EAttempt (forget s0))).
  { unfold forget. destruct (force s0) eqn:F.
    - apply (Q_missing ST). reflexivity.
    - intros A B C. rewrite (H0 A B C) in F. discriminate. }
  assert (N : fall (hass (st (emit EAttempt (forget s0)))) = true ->
              ini (st (emit EAttempt (forget s0))) = true ->
              err (st (emit EAttempt (forget s0))) = false).
  { unfold forget. destruct (force s0) eqn:F; [discriminate|].
    intros A B. destruct (err (st (emit EAttempt s0))) eqn:E; [|reflexivity].
    rewrite (H0 B A E) in F. discriminate. }
  set (s := emit EAttempt (forget s0)) in *. clearbody s. cbv zeta.
  destruct (pcs s) eqn:P.
  { apply (frame_GQ s); [apply frame_observe|].
    apply GQ_finished, pcs_finished, P. }
  destruct (ini (st s)) eqn:I; cbn [negb]; [|apply GQ_noini; exact I].
  assert (QQ : forall x, ini (st x) = ini (st s) -> hass (st x) = hass (st s) ->
     err (st x) = err (st s) -> Q x).
  { intros x X1 X2 X3 A B C. rewrite X2 in B. rewrite X3 in C.
    rewrite (N B eq_refl) in C. discriminate. }
  destruct (negb (e_ep e)); [apply GQ_noini; reflexivity|].
  destruct (negb (epset s || e_epinit e));
    [apply GQ_wait; [right; left; reflexivity|apply QQ; reflexivity]|].
  destruct (negb (e_own e)).
  - apply GQ_wait; [right; left; reflexivity|apply QQ; reflexivity].
  - apply GQ_wait; [right; right; left; reflexivity|apply QQ; reflexivity].
Qed.

Lemma GQ_start : forall e s, Q s -> G (start_async e s) /\ Q (start_async e s).
Proof.
  intros e s H. unfold start_async. destruct (e_wait e).
  - apply GQ_wait; [right; right; left; reflexivity|].
    apply Q_add; [discriminate|exact H].
  - apply GQ_wait; [right; right; right; left; reflexivity|].
    apply Q_add; [discriminate|exact H].
Qed.

Lemma GQ_ask : forall e k s, fget k (hass (st s)) = false ->
  G (ask e k s) /\ Q (ask e k s).
Proof.
  intros e k s H. unfold ask. destruct (negb (e_send e)).
  - apply GQ_wait; [right; left; reflexivity|].
    apply (Q_missing k). exact H.
  - split; [|apply (Q_missing k);
      destruct (step5_eqb k SL), (step5_eqb k ST && e_tcp e); exact H].
    intros _ _. left. right. left. exists k. split.
    + destruct (step5_eqb k SL), (step5_eqb k ST && e_tcp e);
        apply in_or_app; right; left; reflexivity.
    + left. destruct (step5_eqb k SL), (step5_eqb k ST && e_tcp e); exact H.
Qed.

Lemma GQ_ostart : forall e s, finished s -> G (ostart e s) /\ Q (ostart e s).
Proof.
  intros e s H. unfold ostart. destruct (oini s).
  { apply (frame_GQ s); [apply frame_observe|apply GQ_finished, H]. }
  destruct (e_sel e); [|apply GQ_reprov].
  apply (frame_GQ (w_oini true (w_orem (e_nsrv e)
         (w_ocnt 0 (w_oreg false (w_olog false s)))))); [apply frame_observe|].
  apply GQ_finished. exact H.
Qed.

Lemma GQ_cloud_started : forall e s, fall (hass (st s)) = true ->
  G (cloud_started e s) /\ Q (cloud_started e s).
Proof.
  intros e s H. unfold cloud_started.
  pose proof (GQ_ostart e (noerr (upd_st (u_cst true) (w_trc 0 (emit ECloud s)))))
    as Z.
  set (y := ostart e (noerr (upd_st (u_cst true) (w_trc 0 (emit ECloud s))))) in *.
  clearbody y. apply (frame_GQ y); [constructor; auto|]. apply Z.
  split; [apply fall_spec, H|auto].
Qed.

Lemma GQ_start_cloud : forall e s, fall (hass (st s)) = true ->
  G (start_cloud e s) /\ Q (start_cloud e s).
Proof.
  intros e s H. unfold start_cloud. cbv zeta.
  destruct (cmgr (del KRetry s)); [apply GQ_cloud_started; exact H|].
  destruct (e_cstart e); [apply GQ_cloud_started; exact H|].
  apply GQ_wait; [right; left; reflexivity|].
  apply Q_retry; [reflexivity|]. apply in_add. left. reflexivity.
Qed.

Lemma GQ_next : forall e s, Q s -> G (next_step e s) /\ Q (next_step e s).
Proof.
  intros e s H. unfold next_step. cbv zeta.
  destruct (fT (hass (st s))) eqn:HT; cbn [negb]; [|apply GQ_ask; exact HT].
  destruct (fO (hass (st s))) eqn:HO; cbn [negb]; [|apply GQ_ask; exact HO].
  destruct (fL (hass (st s))) eqn:HL; cbn [negb]; [|apply GQ_ask; exact HL].
  destruct (fC (hass (st s))) eqn:HC; cbn [negb]; [|apply GQ_ask; exact HC].
  destruct (fA (hass (st s))) eqn:HA; cbn [negb]; [|apply GQ_ask; exact HA].
  assert (A : fall (hass (st s)) = true)
    by (unfold fall; rewrite HT, HO, HL, HC, HA; reflexivity).
  destruct (provisioned (st s)) eqn:P; cbn [negb].
  - destruct (pcs s) eqn:P2.
    + apply (GQ_finished (w_hbp true s)). apply pcs_finished in P2. exact P2.
    + destruct (mem KRenew (pend s)); [apply GQ_start_cloud, A|].
      destruct (e_certs e).
      * apply GQ_start_cloud. rewrite st_sched. exact A.
      * apply GQ_wait; [right; left; reflexivity|].
        apply (Q_missing SC). reflexivity.
  - split; [|exact H]. intros M I. left. left. exists KRetry.
    split; [right; left; reflexivity|].
    unfold provisioned in P. rewrite A in P. apply negb_false_iff in P.
    destruct (H I A P) as [_ [Z|[Z _]]]; [exact Z|congruence].
Qed.

Lemma GQ_failure : forall b k s,
  b = true \/ (closing s = true /\ conn s = true) ->
  fget k (hass (st s)) = false ->
  G (handle_failure b s) /\ Q (handle_failure b s).
Proof.
  intros b k s H K. unfold handle_failure. cbv zeta.
  set (s1 := if tra (st s)
            then if Nat.leb 3 (S (trc s)) then w_trc 0 (w_force true s)
                 else w_trc (S (trc s)) s
            else s).
  assert (Y : closing s1 = closing s /\ conn s1 = conn s
              /\ fget k (hass (st s1)) = false).
  { unfold s1. destruct (tra (st s)); [|auto].
    destruct (Nat.leb 3 (S (trc s))); auto. }
  clearbody s1.
  set (s2 := if fai (st s) then w_force true s1 else s1).
  assert (Z : closing s2 = closing s /\ conn s2 = conn s
              /\ fget k (hass (st s2)) = false).
  { unfold s2. destruct (fai (st s)); exact Y. }
  clearbody s2. clear Y s1. destruct Z as (Z1 & Z2 & Z3).
  destruct b.
  - apply GQ_wait; [right; left; reflexivity|]. apply (Q_missing k). exact Z3.
  - split; [|apply (Q_missing k); exact Z3]. intros _ _.
    destruct H as [H|[H1 H2]]; [discriminate|].
    left. right. right. split; congruence.
Qed.

Lemma goes_on_or : forall k s, goes_on k s = true
  \/ (closing s = true /\ conn s = true).
Proof.
  intros k s. unfold goes_on. destruct (step5_eqb k ST); [|auto].
  destruct (conn s), (closing s); auto.
Qed.

Lemma I3_error : forall k s, I3 (step_error k s).
Proof.
  intros k s. unfold step_error. destruct (step5_eqb k SL) eqn:K.
  - left. left. left. reflexivity.
  - right. apply (GQ_failure _ k); [exact (goes_on_or k s)|].
    destruct k; reflexivity.
Qed.

Lemma GQ_done : forall k s, G (step_done k s) /\ Q (step_done k s).
Proof.
  intros k s. unfold step_done. cbv zeta.
  set (s1 := w_trc 0 (noerr (emit (EDone k)
    (upd_st (fun t => u_gets (fset k false (gets t))
                        (u_hass (fset k true (hass t)) t)) s)))).
  assert (E : err (st s1) = false) by reflexivity. clearbody s1.
  destruct (goes_on k s1) eqn:Z.
  - apply GQ_wait; [right; right; right; left; reflexivity|].
    apply Q_noerr. exact E.
  - split; [|apply Q_noerr, E]. intros _ _. left. right. right.
    destruct (goes_on_or k s1); [congruence|assumption].
Qed.

Lemma I3_payload : forall e k ok s, I3 (step_payload e k ok s).
Proof.
  intros e k ok s0. unfold step_payload. cbv zeta.
  set (s := redirect e k s0). clearbody s.
  assert (D : forall x, I3 (step_done k x)) by (intros x; right; apply GQ_done).
  assert (E : forall x, I3 (step_error k x)) by (intros x; apply I3_error).
  destruct k.
  - destruct ok; auto.
  - destruct ok; auto.
  - destruct ok; auto.
  - destruct (ok && e_certs e); [|auto]. destruct (e_idc e); auto.
  - destruct ok; auto.
Qed.

Lemma in_rem_first : forall k j l, j <> k -> In j l -> In j (rem_first k l).
Proof.
  intros k j l H. induction l as [|x l IH]; intros A; [destruct A|].
  cbn [rem_first]. destruct (step5_eqb k x) eqn:Z.
  - destruct A as [A|A]; [|exact A]. exfalso. apply H. subst x.
    destruct k, j; cbn in Z; congruence.
  - destruct A as [A|A]; [left; exact A|right; auto].
Qed.

Lemma I3_handler : forall e k r s, I3 s ->
  I3 (handler e k r (w_reqs (rem_first k (reqs s)) s)).
Proof.
  intros e k r s0 H0. unfold handler.
  change (st (w_reqs (rem_first k (reqs s0)) s0)) with (st s0).
  destruct (fget k (hass (st s0)) && negb (fai (st s0))) eqn:S0.
  - apply andb_prop in S0. destruct S0 as [S1 S2]. apply negb_true_iff in S2.
    destruct H0 as [H0|[HG HQ]]; [left; exact H0|]. right. split; [|exact HQ].
    intros M I. destruct (HG M I) as [A|A]; [left|right; exact A].
    destruct A as [A|[(j & A & B)|A]]; [left; exact A| |right; right; exact A].
    right. left. exists j. split; [|exact B].
    apply in_rem_first; [|exact A]. intros ->. destruct B; congruence.
  - cbv zeta. set (s := noerr (del KRetry (w_reqs (rem_first k (reqs s0)) s0))).
    clearbody s.
    destruct (expected k (st s)) eqn:E; cbn [negb]; [|apply I3_error].
    assert (K : fget k (hass (st s)) = false).
    { apply expected_spec in E.
      destruct E as (E & _). rewrite E. destruct k; reflexivity. }
    destruct r; try apply I3_payload; right;
      (apply (GQ_failure _ k); [exact (goes_on_or k s)|exact K]).
Qed.

Lemma GQ_renew_retry : forall e s, G s /\ Q s ->
  G (renew_retry e s) /\ Q (renew_retry e s).
Proof.
  intros e s H. unfold renew_retry. destruct (e_certs e); [|apply GQ_reprov].
  apply (frame_GQ s); [apply frame_sched|exact H].
Qed.

Lemma GQ_renew : forall e s, G s /\ Q s -> G (renew_async e s) /\ Q (renew_async e s).
Proof.
  intros e s H. unfold renew_async. destruct (negb (pcs s)); [exact H|].
  destruct (e_send e); [|apply GQ_renew_retry, H].
  apply (frame_GQ (add KRenewR s)); [constructor; auto|].
  apply (frame_GQ s); [apply frame_add; discriminate|exact H].
Qed.

Lemma I3_renew_handler : forall e r s, G s /\ Q s -> I3 (renew_handler e r s).
Proof.
  intros e r s0 H0. unfold renew_handler. cbv zeta.
  assert (H : G (del KRenewR s0) /\ Q (del KRenewR s0)).
  { apply (frame_GQ s0); [apply frame_del; notin|exact H0]. }
  set (s := del KRenewR s0) in *. clearbody s. clear H0 s0.
  destruct (negb (pcs s) && negb (ren (st s))); [right; exact H|].
  unfold redirect_renew. destruct (e_redir e) eqn:D.
  - assert (M : has_ev EMoved (emit EMoved (disconnect s))) by (left; reflexivity).
    set (s1 := emit EMoved (disconnect s)) in *. clearbody s1.
    destruct r.
    + left. right.
      destruct (negb (e_certs e)); [apply K_reprov, M|].
      pose proof (K_sched _ e _ M) as M2. set (s2 := schedule_renew e s1) in *.
      clearbody s2.
      destruct (negb (e_idc e)); [apply K_reprov, M2|]. right. exact M2.
    + left. right. apply K_renew_retry, M.
    + right. apply GQ_renew_retry, H.
    + right. apply GQ_renew_retry, H.
  - right. destruct r; try (apply GQ_renew_retry; exact H).
    destruct (negb (e_certs e)); [apply GQ_reprov|].
    assert (H2 : G (schedule_renew e s) /\ Q (schedule_renew e s))
      by (apply (frame_GQ s); [apply frame_sched|exact H]).
    set (s2 := schedule_renew e s) in *. clearbody s2.
    destruct (negb (e_idc e)); [apply GQ_reprov|].
    apply (frame_GQ s2); [constructor; auto|exact H2].
Qed.

Lemma frame_server : forall e s, frame s (server_change e s).
Proof.
  intros e s. unfold server_change. cbv zeta.
  destruct (Nat.eqb (orem s) 0); [apply frame_refl|].
  destruct (negb (e_sel e)).
  { apply (frame_trans _ (del KObs s)); [apply frame_del; notin|].
    apply frame_add; discriminate. }
  destruct (e_init e).
  { apply (frame_trans _ (w_orem 0 s)); [constructor; auto|].
    apply (frame_trans _ (del KObs (w_orem 0 s))); [apply frame_del; notin|].
    apply frame_add; discriminate. }
  set (s1 := w_orem (pred (orem s)) (w_ocnt 0 (w_oreg false (w_olog false s)))).
  apply (frame_trans _ s1); [constructor; auto|].
  clearbody s1. destruct (e_uuid e); [|apply frame_observe].
  apply (frame_trans _ (del KObs s1)); [apply frame_del; notin|].
  apply frame_add; discriminate.
Qed.

Lemma GQ_obs_restart : forall e s, G (obs_restart e s) /\ Q (obs_restart e s).
Proof.
  intros e s. unfold obs_restart.
  apply (frame_GQ (reprov_restart e (odeinit s)));
    [apply frame_del; notin|apply GQ_reprov].
Qed.

Lemma GQ_obs_retry : forall e s, G s /\ Q s -> G (obs_retry e s) /\ Q (obs_retry e s).
Proof.
  intros e s0 H. unfold obs_retry. cbv zeta.
  assert (Y : G (w_ocnt (S (ocnt s0)) s0) /\ Q (w_ocnt (S (ocnt s0)) s0))
    by (apply (frame_GQ s0); [constructor; auto|exact H]).
  set (s := w_ocnt (S (ocnt s0)) s0) in *. clearbody s.
  destruct (Nat.leb (omax s) (ocnt s)); [|exact Y].
  destruct (Nat.eqb (orem s) 0); [apply GQ_obs_restart|].
  destruct (negb (e_next e)); [apply GQ_obs_restart|].
  assert (Z : G (if oini s then server_change e s else s)
              /\ Q (if oini s then server_change e s else s)).
  { destruct (oini s); [|exact Y].
    apply (frame_GQ s); [apply frame_server|exact Y]. }
  set (y := if oini s then server_change e s else s) in *. clearbody y.
  apply (frame_GQ (emit ESwitch y)); [apply frame_del; notin|exact Z].
Qed.

Lemma GQ_obs : forall e s, G s /\ Q s -> G (obs_async e s) /\ Q (obs_async e s).
Proof.
  intros e s H. unfold obs_async. cbv zeta.
  destruct (negb (cmgr s)); [apply GQ_obs_restart|].
  destruct (Nat.eqb (omax s) 0);
    [apply (frame_GQ s); [apply frame_del; notin|exact H]|].
  destruct (negb (e_cconn e)).
  { apply GQ_obs_retry. apply (frame_GQ s); [constructor; auto|exact H]. }
  assert (Y : frame s (obs_note (e_creg e) (e_clog e) s)).
  { unfold obs_note. cbv zeta. destruct (e_creg e && negb (oreg s)).
    - destruct (e_clog e && negb (olog (w_oreg true (w_ocnt 0 s))));
        constructor; auto.
    - destruct (e_clog e && negb (olog s)); constructor; auto. }
  apply (frame_GQ _ _ Y) in H.
  set (y := obs_note (e_creg e) (e_clog e) s) in *. clearbody y.
  destruct (oreg y && olog y); [|apply GQ_obs_retry, H].
  apply (frame_GQ y); [apply frame_odeinit|exact H].
Qed.

Lemma GQ_fire : forall e c s, G s /\ Q s -> G (fire e c s) /\ Q (fire e c s).
Proof.
  intros e c s0 H. unfold fire.
  destruct (mem c (pend s0)) eqn:M; cbn [negb]; [|exact H].
  apply mem_in in M. cbv zeta. destruct H as [HG HQ].
  destruct c.
  - apply GQ_prov. exact (Q_Qf _ HQ).
  - apply GQ_prov. exact (Q_Qf _ HQ).
  - apply GQ_start. apply Q_del; [discriminate|exact HQ].
  - apply GQ_next. apply Q_del; [discriminate|exact HQ].
  - apply GQ_reprov.
  - unfold mstart_async, mstart. change (mgr (w_epset false (del KMgr s0))) with (mgr s0).
    destruct (mgr s0) eqn:E.
    + apply (frame_GQ (del KMgr s0)); [constructor; auto|].
      apply (frame_GQ s0); [apply frame_del; notin|auto].
    + apply GQ_wait; [left; reflexivity|]. apply Q_add; [discriminate|].
      intros A B C. destruct (HQ A B C) as [D [Z|[_ Z]]]; [|contradiction].
      split; [exact D|]. left. apply (in_del KMgr KRetry s0).
      split; [exact Z|discriminate].
  - apply GQ_wait; [right; right; right; left; reflexivity|].
    apply (Q_missing SC). reflexivity.
  - apply GQ_obs. auto.
  - apply GQ_renew. apply (frame_GQ s0); [apply frame_del; notin|auto].
  - apply GQ_renew. apply (frame_GQ s0); [apply frame_del; notin|auto].
  - apply GQ_prestart. exact (Q_Qf _ HQ).
Qed.

Lemma Q_mrestart : forall s, err (st s) = false ->
  G (mrestart s) /\ Q (mrestart s).
Proof.
  intros s H. unfold mrestart. apply GQ_stopped; [reflexivity|].
  apply Q_noerr. exact H.
Qed.

Lemma GQ_down : forall s, G s /\ Q s -> G (sess_down s) /\ Q (sess_down s).
Proof.
  intros s H. unfold sess_down. cbv zeta.
  destruct (sreg s && epset s && mgr s && conn s); [|exact H].
  change (closing (w_conn false s)) with (closing s).
  destruct (closing s) eqn:C.
  - destruct H as [_ HQ]. destruct (err (st (w_closing false (w_conn false s)))).
    + apply GQ_wait; [right; left; reflexivity|].
      apply Q_add; [discriminate|exact HQ].
    + apply GQ_wait; [right; right; right; left; reflexivity|].
      apply Q_add; [discriminate|exact HQ].
  - destruct (err (st (w_conn false s))) eqn:E; cbn [negb andb].
    + apply (frame_GQ s); [|exact H]. constructor; auto. congruence.
    + destruct (negb (pcs (w_conn false s))).
      * apply Q_mrestart. exact E.
      * apply (frame_GQ s); [|exact H]. constructor; auto. congruence.
Qed.

Lemma I3_step : forall eo s, I3 s -> I3 (step eo s).
Proof.
  intros eo s [H|H].
  { left. destruct H as [H|H]; [left|right]; apply K_step; exact H. }
  destruct eo as [e o]. unfold step. destruct o.
  - right. apply GQ_pstart, H.
  - right. apply GQ_stopped; [reflexivity|]. apply Q_pstop, Q_Qf, H.
  - right. apply GQ_prestart, Q_Qf, H.
  - right. apply (frame_GQ s); [constructor; auto|exact H].
  - right. apply GQ_noini. reflexivity.
  - right. apply GQ_wait; [do 6 right; left; reflexivity|].
    apply Q_add; [discriminate|]. destruct H as [_ H].
    intros A B C.
    assert (Z : ini (st s) = true /\ fall (hass (st s)) = true
                /\ err (st s) = true)
      by (destruct (e_redir e); auto).
    destruct Z as (Z1 & Z2 & Z3). split; [reflexivity|].
    pose proof (proj2 (H Z1 Z2 Z3)) as Y. destruct (e_redir e); exact Y.
  - right. apply GQ_fire, H.
  - destruct (existsb (step5_eqb k) (reqs s)); [|right; exact H].
    apply I3_handler. right. exact H.
  - destruct (rnws s) as [|n]; [right; exact H|]. apply I3_renew_handler.
    apply (frame_GQ s); [constructor; auto|exact H].
  - right. unfold sess_up. destruct (sreg s && epset s && mgr s); [|exact H].
    apply (frame_GQ s); [constructor; auto|exact H].
  - right. apply GQ_down, H.
  - right. destruct (sreg s && cmgr s); [|exact H].
    apply (frame_GQ s); [apply frame_observe|exact H].
  - right. destruct (ireg s && only_ini (st s)) eqn:Z; [|exact H].
    apply Q_mrestart. apply andb_prop in Z. destruct Z as [_ Z].
    unfold only_ini in Z. rewrite !andb_true_iff, !negb_true_iff in Z.
    unfold err. destruct Z as [[_ Z1] Z2]. rewrite Z1, Z2. reflexivity.
  - right. destruct (oini s); [|exact H].
    apply (frame_GQ s); [apply frame_server|exact H].
  - right. apply (frame_GQ s); [constructor; auto|exact H].
  - right. apply (frame_GQ s); [constructor; auto|exact H].
Qed.

Lemma I3_run : forall l, I3 (run l).
Proof.
  intros l. apply run_ind.
  - right. apply GQ_noini. reflexivity.
  - intros eo s H. apply I3_step, H.
Qed.

Lemma progress : forall l, let s := run l in
  mgr s = true -> ini (st s) = true ->
  awaiting s \/ finished s \/ In ERej (tr s) \/ In EMoved (tr s).
Proof.
  intros l s M I. destruct (I3_run l) as [H|[H _]]; [auto|].
  destruct (H M I); auto.
Qed.
