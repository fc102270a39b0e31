(* The observer of the cloud and a provisioning without end. *)
From Coq Require Import List Bool Arith Lia.
Import ListNotations.
From Verif Require Import Dps_Model Dps_Spec Dps_Proofs Dps2_Proofs Dps3_Proofs
  Dps4_Proofs.

Definition is_done (x : ev) : bool := match x with EDone _ => true | _ => false end.
Definition dones (t : list ev) : nat := length (filter is_done t).

(* No answer can be accepted any more. *)
Record stuck (n : nat) (s : ctx) : Prop := {
  L_st : cst (st s) = true \/ ini (st s) = false;
  L_has : exists k, fget k (hass (st s)) = false;
  L_pend : forall c, In c [KUuid; KReprov; KRestart; KObs] -> ~ In c (pend s);
  L_rnws : rnws s = 0;
  L_oini : oini s = false;
  L_cmgr : cmgr s = false;
  L_tr : dones (tr s) = n }.

Lemma L_frame : forall n s s', stuck n s -> st s' = st s ->
  (forall c, In c (pend s') -> In c (pend s)
     \/ In c [KProv; KRetry; KStart; KNext; KMgr]) ->
  rnws s' = rnws s -> oini s' = oini s \/ oini s' = false -> cmgr s' = cmgr s ->
  dones (tr s') = dones (tr s) -> stuck n s'.
Proof.
  intros n s s' [A1 A2 A3 A4 A5 A6 A7] B1 B2 B3 B4 B5 B6.
  constructor; try congruence.
  - rewrite B1. exact A2.
  - intros c C D. destruct (B2 c D) as [E|E]; [exact (A3 c C E)|].
    cbn in C, E. intuition congruence.
  - destruct B4; congruence.
Qed.

Ltac pd := intros c0; repeat (rewrite in_add || rewrite in_del); cbn [In];
  intuition (subst; auto 10).

Lemma L_add : forall n c s, In c [KProv; KRetry; KStart; KNext; KMgr] ->
  stuck n s -> stuck n (add c s).
Proof.
  intros n c s H A. apply (L_frame n s); auto.
  intros d. rewrite in_add. intros [->|B]; auto.
Qed.

Lemma L_del : forall n c s, stuck n s -> stuck n (del c s).
Proof.
  intros n c s A. apply (L_frame n s); auto.
  intros d. rewrite in_del. intros [B _]; auto.
Qed.

Lemma L_mstop : forall n s, stuck n s -> stuck n (mstop s).
Proof.
  intros n s A. unfold mstop.
  set (y := del KUuid (del KRenewR (del KRenew (del KNext (del KReprov
      (del KRetry (del KProv (del KStart s)))))))).
  assert (Y : stuck n y) by (unfold y; repeat apply L_del; exact A).
  clearbody y. apply (L_frame n y); auto.
  intros c C. left. apply (in_del KObs c y) in C. apply C.
Qed.

Lemma L_pcs : forall n s, stuck n s -> pcs s = false.
Proof.
  intros n s H. unfold pcs. rewrite (L_cmgr _ _ H), andb_false_r. reflexivity.
Qed.

Lemma L_mrestart : forall n s, stuck n s -> stuck n (mrestart s).
Proof.
  intros n s H. unfold mrestart. apply L_add; [cbn; auto 10|apply L_mstop, H].
Qed.

Lemma L_prov : forall n e s, stuck n s -> stuck n (prov_async e s).
Proof.
  intros n e s0 H0. unfold prov_async.
  assert (H : stuck n (emit EAttempt (forget s0))).
  { unfold forget. destruct (force s0).
    - destruct H0 as [A1 A2 A3 A4 A5 A6 A7]. constructor; auto.
      exists ST. reflexivity.
    - apply (L_frame n s0); auto. }
  set (s := emit EAttempt (forget s0)) in *. clearbody s. cbv zeta.
  rewrite (L_pcs _ _ H).
  destruct (negb (ini (st s))); [exact H|].
  destruct (negb (e_ep e)).
  { apply L_mstop. destruct H as [A1 A2 A3 A4 A5 A6 A7].
    constructor; auto. exists ST. reflexivity. }
  destruct (negb (epset s || e_epinit e)); [apply L_add; [cbn; auto|exact H]|].
  assert (H2 : stuck n (w_epset true s)) by (apply (L_frame n s); auto).
  destruct (negb (e_own e)); (apply L_add; [cbn; auto|exact H2]).
Qed.

Lemma L_ask : forall n e k s, stuck n s -> stuck n (ask e k s).
Proof.
  intros n e k s H. unfold ask. destruct H as [A1 A2 A3 A4 A5 A6 A7].
  destruct (negb (e_send e)).
  - apply L_add; [cbn; auto|]. constructor; auto.
  - destruct (step5_eqb k SL), (step5_eqb k ST && e_tcp e); constructor; auto.
Qed.

Lemma L_next : forall n e s, stuck n s -> stuck n (next_step e s).
Proof.
  intros n e s H. unfold next_step. cbv zeta.
  destruct (fT (hass (st s))) eqn:HT; cbn [negb]; [|apply L_ask; exact H].
  destruct (fO (hass (st s))) eqn:HO; cbn [negb]; [|apply L_ask; exact H].
  destruct (fL (hass (st s))) eqn:HL; cbn [negb]; [|apply L_ask; exact H].
  destruct (fC (hass (st s))) eqn:HC; cbn [negb]; [|apply L_ask; exact H].
  destruct (fA (hass (st s))) eqn:HA; cbn [negb]; [|apply L_ask; exact H].
  exfalso. destruct (L_has _ _ H) as [k K]. destruct k; cbn in K; congruence.
Qed.

Lemma L_failure : forall n b s, stuck n s -> stuck n (handle_failure b s).
Proof.
  intros n b s H. unfold handle_failure. cbv zeta.
  set (s1 := if tra (st s)
            then if Nat.leb 3 (S (trc s)) then w_trc 0 (w_force true s)
                 else w_trc (S (trc s)) s
            else s).
  assert (Y : stuck n s1).
  { unfold s1. destruct (tra (st s)); [|exact H].
    destruct (Nat.leb 3 (S (trc s))); apply (L_frame n s); auto. }
  clearbody s1.
  assert (Z : stuck n (if fai (st s) then w_force true s1 else s1)).
  { destruct (fai (st s)); [|exact Y]. apply (L_frame n s1); auto. }
  set (s2 := if fai (st s) then w_force true s1 else s1) in *. clearbody s2.
  destruct b; [apply L_add; [cbn; auto|exact Z]|exact Z].
Qed.

Lemma L_error : forall n k s, stuck n s -> stuck n (step_error k s).
Proof.
  intros n k s H. unfold step_error. destruct H as [A1 A2 A3 A4 A5 A6 A7].
  destruct (step5_eqb k SL); [constructor; auto|].
  apply L_failure. constructor; auto. exists k. destruct k; reflexivity.
Qed.

Lemma L_handler : forall n e k r s, stuck n s -> stuck n (handler e k r s).
Proof.
  intros n e k r s0 H0. unfold handler.
  destruct (fget k (hass (st s0)) && negb (fai (st s0))); [exact H0|].
  cbv zeta.
  assert (H : stuck n (noerr (del KRetry s0))).
  { apply (L_del n KRetry) in H0. destruct H0 as [A1 A2 A3 A4 A5 A6 A7].
    constructor; auto. }
  set (s := noerr (del KRetry s0)) in *. clearbody s.
  destruct (expected k (st s)) eqn:E; [|apply L_error, H].
  exfalso. apply expected_spec in E. destruct E as (_ & _ & E1 & E2 & _).
  destruct (L_st _ _ H); congruence.
Qed.

Lemma L_renew : forall n e s, stuck n s -> stuck n (renew_async e s).
Proof.
  intros n e s H. unfold renew_async. rewrite (L_pcs _ _ H). exact H.
Qed.

Lemma L_step : forall n e o s, stuck n s -> outside o = true ->
  stuck n (step (e, o) s).
Proof.
  intros n e o s H O. unfold step. destruct o; try discriminate O.
  - unfold fire. destruct (mem c (pend s)) eqn:M; cbn [negb]; [|exact H].
    apply mem_in in M. cbv zeta. pose proof (L_del n c s H) as D.
    pose proof (L_pend _ _ H c) as P.
    destruct c.
    + apply L_prov, D.
    + apply L_prov. apply (L_frame n (del KRetry s)); auto.
    + unfold start_async. destruct (e_wait e); (apply L_add; [cbn; auto|exact D]).
    + apply L_next, D.
    + exfalso. apply P; [cbn; auto|exact M].
    + unfold mstart_async, mstart.
      assert (D2 : stuck n (w_epset false (del KMgr s)))
        by (apply (L_frame n (del KMgr s)); auto).
      set (y := w_epset false (del KMgr s)) in *. clearbody y.
      destruct (mgr y); [exact D2|]. apply L_add; [cbn; auto|].
      apply (L_frame n y); auto.
    + exfalso. apply P; [cbn; auto|exact M].
    + exfalso. apply P; [cbn; auto|exact M].
    + apply L_renew, D.
    + apply L_renew, D.
    + exfalso. apply P; [cbn; auto|exact M].
  - destruct (existsb (step5_eqb k) (reqs s)); [|exact H].
    apply L_handler. apply (L_frame n s); auto.
  - rewrite (L_rnws _ _ H). exact H.
  - unfold sess_up. destruct (sreg s && epset s && mgr s); [|exact H].
    apply (L_frame n s); auto.
  - unfold sess_down. cbv zeta.
    destruct (sreg s && epset s && mgr s && conn s); [|exact H].
    assert (D2 : stuck n (w_conn false s)) by (apply (L_frame n s); auto).
    set (y := w_conn false s) in *. clearbody y.
    destruct (closing y).
    + assert (D3 : stuck n (w_closing false y)) by (apply (L_frame n y); auto).
      set (z := w_closing false y) in *. clearbody z.
      destruct (err (st z)); (apply L_add; [cbn; auto|]); [|exact D3].
      apply (L_frame n z); auto.
    + destruct (negb (err (st y)) && negb (pcs y)); [|exact D2].
      apply L_mrestart, D2.
  - rewrite (L_cmgr _ _ H), andb_false_r. exact H.
  - destruct (ireg s && only_ini (st s)) eqn:Z; [|exact H].
    apply L_mrestart, H.
  - rewrite (L_oini _ _ H). exact H.
Qed.

Lemma L_later : forall n l s, stuck n s ->
  (forall eo, In eo l -> outside (snd eo) = true) -> stuck n (later l s).
Proof.
  induction l as [|[e o] l IH]; intros s H A; [exact H|].
  change (later ((e, o) :: l) s) with (later l (step (e, o) s)). apply IH.
  - apply L_step; [exact H|]. apply (A (e, o)). left. reflexivity.
  - intros eo B. apply A. right. exact B.
Qed.

Lemma never_done : forall n s l, stuck n s ->
  (forall eo, In eo l -> outside (snd eo) = true) ->
  forall new k, adds l s new -> ~ In (EDone k) new.
Proof.
  intros n s l H A new k N I.
  pose proof (L_tr _ _ (L_later n l s H A)) as B. rewrite N in B.
  unfold dones in B. rewrite filter_app, app_length in B.
  pose proof (L_tr _ _ H) as C. unfold dones in C.
  assert (F : In (EDone k) (filter is_done new))
    by (apply filter_In; split; [exact I|reflexivity]).
  destruct (filter is_done new); [destruct F|cbn in B; lia].
Qed.

(* ------------------------------------------------------------------ *)
(* The observer *)


Lemma pstart_tr : forall e s, exists new, tr (pstart e s) = new ++ tr s.
Proof.
  intros e s. unfold pstart.
  destruct (mgr s); [exists []; reflexivity|].
  destruct (negb (e_ep e)); [exists [EReset]; reflexivity|].
  destruct (negb (e_mfg e)); [exists []; reflexivity|].
  set (h := if force s then fnone else found e). clearbody h.
  set (c := negb (force s) && fA (found e) && e_creg e && cmgr s). clearbody c.
  set (s1 := if force s then s else found_cloud e (found_renew e s)).
  assert (T : tr s1 = tr s).
  { unfold s1, found_cloud, found_renew, schedule_renew.
    destruct (force s); [reflexivity|].
    destruct (fL (found e) && e_certs e), (e_sched e),
      (fA (found e) && e_creg e); reflexivity. }
  clearbody s1. cbv zeta.
  set (s3 := if fall h
     then w_hbp true (w_trc 0 (w_force false
       (w_st (mkStatus true fnone h c false false false) s1)))
     else w_trc 0 (w_force false
       (w_st (mkStatus true fnone h c false false false) s1))).
  assert (Y : tr s3 = tr s) by (unfold s3; destruct (fall h); exact T).
  clearbody s3. exists [EStart h].
  assert (Z : tr (mstart (emit (EStart h) s3)) = EStart h :: tr s3)
    by (unfold mstart; destruct (mgr (emit (EStart h) s3)); reflexivity).
  cbn [app]. rewrite <- Y, <- Z. reflexivity.
Qed.

Lemma reprov_forces : forall e s, exists new,
  tr (reprov_restart e s) = new ++ EForce :: tr s.
Proof.
  intros e s. unfold reprov_restart, prestart.
  destruct (pstart_tr e (pstop (w_cmgr false (set_force s)))) as (new & N).
  exists new. rewrite N. reflexivity.
Qed.

(* One check that finds no session. *)
Lemma check_one : forall e s, In KObs (pend s) -> cmgr s = true ->
  e_cconn e = false -> ocnt s < omax s ->
  (S (ocnt s) = omax s -> exists new, adds [(e, OFire KObs)] s new
       /\ (In ESwitch new \/ In EForce new))
  /\ (S (ocnt s) < omax s ->
        step (e, OFire KObs) s
        = w_ocnt (S (ocnt s)) (w_oreg false (w_olog false s))).
Proof.
  intros e s H C E L. unfold adds.
  change (later [(e, OFire KObs)] s) with (step (e, OFire KObs) s).
  unfold step, fire.
  rewrite (proj2 (mem_in _ _) H). cbn [negb]. cbv zeta.
  unfold obs_async. rewrite C. cbn [negb].
  destruct (Nat.eqb (omax s) 0) eqn:Z; [apply Nat.eqb_eq in Z; lia|].
  rewrite E. cbn [negb]. unfold obs_retry. cbv zeta.
  set (y := w_oreg false (w_olog false s)).
  set (x := w_ocnt (S (ocnt y)) y).
  assert (X1 : omax x = omax s) by reflexivity.
  assert (X2 : ocnt x = S (ocnt s)) by reflexivity.
  split; intros B.
  - assert (G : Nat.leb (omax x) (ocnt x) = true) by (apply Nat.leb_le; lia).
    rewrite G. assert (X3 : tr x = tr s) by reflexivity.
    clear X1 X2 G B. clearbody x. rewrite <- X3.
    assert (R : exists new, tr (obs_restart e x) = new ++ tr x
              /\ (In ESwitch new \/ In EForce new)).
    { destruct (reprov_forces e (odeinit x)) as (new & N).
      exists (new ++ [EForce]). split.
      - change (tr (obs_restart e x)) with (tr (reprov_restart e (odeinit x))).
        rewrite N, <- app_assoc. reflexivity.
      - right. apply in_or_app. right. left. reflexivity. }
    destruct (Nat.eqb (orem x) 0); [exact R|].
    destruct (negb (e_next e)); [exact R|].
    exists [ESwitch]. split; [|left; left; reflexivity].
    assert (W : tr (if oini x then server_change e x else x) = tr x).
    { destruct (oini x); [|reflexivity]. unfold server_change, observe. cbv zeta.
      destruct (Nat.eqb (orem x) 0); [reflexivity|].
      destruct (negb (e_sel e)); [reflexivity|].
      destruct (e_init e); [reflexivity|].
      destruct (e_uuid e); [reflexivity|].
      set (u := w_orem (pred (orem x)) (w_ocnt 0 (w_oreg false (w_olog false x)))).
      assert (U : tr u = tr x) by reflexivity. clearbody u.
      destruct (Nat.eqb (omax u) 0); [exact U|].
      destruct (mem KObs (pend u)); exact U. }
    set (v := if oini x then server_change e x else x) in *. clearbody v.
    cbn [app]. rewrite <- W. reflexivity.
  - assert (G : Nat.leb (omax x) (ocnt x) = false) by (apply Nat.leb_gt; lia).
    rewrite G. reflexivity.
Qed.

Lemma observer_acts : forall es s, In KObs (pend s) -> cmgr s = true ->
  (forall e, In e es -> e_cconn e = false) ->
  ocnt s < omax s -> length es <= omax s - ocnt s ->
  (length es < omax s - ocnt s -> adds (checks es) s [])
  /\ (length es = omax s - ocnt s -> exists new, adds (checks es) s new
        /\ (In ESwitch new \/ In EForce new)).
Proof.
  induction es as [|e es IH]; intros s H C E L M.
  - split; [reflexivity|]. cbn [length]. lia.
  - destruct (check_one e s H C) as [A B]; [apply E; left; reflexivity|exact L|].
    cbn [length] in M.
    unfold adds, checks in *. cbn [map].
    change (later ((e, OFire KObs) :: ?l) s)
      with (later l (step (e, OFire KObs) s)).
    destruct (Nat.eq_dec (S (ocnt s)) (omax s)) as [Z|Z].
    + destruct es as [|e2 es]; [|cbn [length] in M; lia].
      split; [cbn [length]; lia|]. intros _. exact (A Z).
    + rewrite (B ltac:(lia)).
      set (y := w_ocnt (S (ocnt s)) (w_oreg false (w_olog false s))).
      destruct (IH y) as [I1 I2].
      * exact H.
      * exact C.
      * intros e' I. apply E. right. exact I.
      * change (S (ocnt s) < omax s). lia.
      * change (length es <= omax s - S (ocnt s)). lia.
      * change (omax y - ocnt y) with (omax s - S (ocnt s)) in I1, I2.
        change (tr y) with (tr s) in I1, I2. cbn [length].
        split; intros N; [apply I1; lia|apply I2; lia].
Qed.

(* Observing ends when the device is registered and logged in. *)
Lemma observer_content : forall e s, In KObs (pend s) -> cmgr s = true ->
  0 < omax s -> e_cconn e = true -> e_creg e = true -> e_clog e = true ->
  adds [(e, OFire KObs)] s [] /\ ~ In KObs (pend (step (e, OFire KObs) s))
  /\ mgr (step (e, OFire KObs) s) = mgr s
  /\ cmgr (step (e, OFire KObs) s) = true.
Proof.
  intros e s H C L E1 E2 E3. unfold adds.
  change (later [(e, OFire KObs)] s) with (step (e, OFire KObs) s).
  unfold step, fire. rewrite (proj2 (mem_in _ _) H). cbn [negb]. cbv zeta.
  unfold obs_async. rewrite C. cbn [negb].
  destruct (Nat.eqb (omax s) 0) eqn:Z; [apply Nat.eqb_eq in Z; lia|].
  rewrite E1, E2, E3. cbn [negb].
  assert (Y : oreg (obs_note true true s) = true /\ olog (obs_note true true s) = true
    /\ tr (obs_note true true s) = tr s /\ mgr (obs_note true true s) = mgr s
    /\ cmgr (obs_note true true s) = true).
  { unfold obs_note. cbv zeta. cbn [andb].
    destruct (oreg s) eqn:R; cbn [negb].
    - destruct (olog s) eqn:G; cbn [negb]; auto.
    - change (olog (w_oreg true (w_ocnt 0 s))) with (olog s).
      destruct (olog s) eqn:G; cbn [negb]; auto. }
  set (y := obs_note true true s) in *. clearbody y.
  destruct Y as (Y1 & Y2 & Y3 & Y4 & Y5). rewrite Y1, Y2. cbn [andb].
  split; [exact Y3|]. split; [|auto].
  intros I. apply (in_del KObs KObs y) in I. destruct I as [_ I]. congruence.
Qed.
