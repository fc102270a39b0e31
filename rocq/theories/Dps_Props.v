(* The client of the device provisioning service: properties. *)
From Coq Require Import List Bool Arith Lia.
Import ListNotations.
From Verif Require Import Dps_Model Dps_Spec Dps_Proofs Dps2_Proofs Dps3_Proofs
  Dps4_Proofs Dps5_Proofs Dps6_Proofs.

Ltac none A := repeat (destruct A as [A|A]; [discriminate A|]); destruct A.

(* Runs used as examples. *)
Definition envw (certs sel init uuid next redir tcp : bool) (n : nat) : env :=
  mkEnv true true true false true tcp certs true true true true fnone
    false false false sel n next init uuid true false redir.
Definition fr (c : cb) := (fine, OFire c).
Definition rs (k : step5) := (fine, OResp k ROk).
Definition begun := [(fine, OStart); fr KProv; fr KStart; fr KNext].
Definition almost := begun ++ [rs ST; fr KNext; rs SO; fr KNext; rs SL; fr KNext;
  rs SC; fr KNext; rs SA].
Definition whole := almost ++ [fr KNext].
Definition no_cert := envw false true false false true false false 0.
Definition two := envw true true false false true false false 2.
Definition other_uuid := envw true true false true true false false 2.
Definition over_tcp := envw true true false false true false true 2.
Definition moving := envw true true false false true true false 2.

(* ------------------------------------------------------------------ *)
(* C112 *)
Theorem C112_steps_in_order : forall l, history (tr (run l))
  /\ (forall k, fget k (hass (st (run l))) = known (tr (run l)) k)
  /\ (forall k, fget k (gets (st (run l))) = asked (tr (run l)) k).
Proof.
  intros l. destruct (I1_run l) as [H1 H2 H3 _ _ _]. auto.
Qed.

(* Before the cloud is started all five steps are done; spelled out for the
   events. *)
Theorem C112_cloud_after_all : forall l t1 t2, tr (run l) = t1 ++ ECloud :: t2 ->
  forall k, known t2 k = true.
Proof.
  intros l t1 t2 E. pose proof (J_hist _ _ _ _ _ (I1_run l)) as H. rewrite E in H.
  clear E. induction t1 as [|e t1 IH]; cbn [app history] in H;
    destruct H as [A B]; [exact A|exact (IH B)].
Qed.

(* A step that is asked for again is the next one, unless everything has to be
   repeated. *)
Theorem C112_no_gaps : forall l, must (tr (run l)) = false ->
  (forall j k, earlier j k = true -> known (tr (run l)) k = true ->
     known (tr (run l)) j = true)
  /\ (forall k, asked (tr (run l)) k = true -> known (tr (run l)) k = false
        /\ forall j, earlier j k = true -> known (tr (run l)) j = true).
Proof.
  intros l. apply trace_prefix, (J_hist _ _ _ _ _ (I1_run l)).
Qed.

Example C112_whole : tr (run whole)
  = [ECloud; EDone SA; EReq SA; EDone SC; EReq SC; EDone SL; EReq SL; EDone SO;
     EReq SO; EDone ST; EReq ST; EAttempt; EStart fnone].
Proof. vm_compute. reflexivity. Qed.
Example C112_wrong : ~ history [EReq SO; EStart fnone].
Proof.
  intros [[A _] _]. specialize (A ST eq_refl). discriminate A.
Qed.
Example C112_wrong2 : ~ history [ECloud; EDone ST; EReq ST; EStart fnone].
Proof. intros [A _]. specialize (A SA). discriminate A. Qed.

(* ------------------------------------------------------------------ *)
(* C113 *)
Theorem C113_repeat_when_due : forall l,
  force (run l) = must (tr (run l)) /\ trc (run l) = consec (tr (run l))
  /\ consec (tr (run l)) <= 2.
Proof. intros l. destruct (I1_run l) as [_ _ _ H1 H2 H3]. auto. Qed.

(* An attempt that follows a failure which demands it forgets all steps. *)
Theorem C113_attempt_forgets : forall l t1 t2,
  tr (run l) = t1 ++ EAttempt :: t2 -> must t2 = false.
Proof.
  intros l t1 t2 E. pose proof (J_hist _ _ _ _ _ (I1_run l)) as H. rewrite E in H.
  clear E. induction t1 as [|e t1 IH]; cbn [app history] in H;
    destruct H as [A B]; [exact A|exact (IH B)].
Qed.

(* Steps are forgotten only when that is demanded. *)
Theorem C113_forgets_only_then : forall l t1 t2,
  tr (run l) = t1 ++ EForget :: t2 -> must t2 = true.
Proof.
  intros l t1 t2 E. pose proof (J_hist _ _ _ _ _ (I1_run l)) as H. rewrite E in H.
  clear E. induction t1 as [|e t1 IH]; cbn [app history] in H;
    destruct H as [A B]; [exact A|exact (IH B)].
Qed.

(* A start after a demand finds nothing done. *)
Theorem C113_start_forgets : forall l t1 t2 h,
  tr (run l) = t1 ++ EStart h :: t2 -> must t2 = true ->
  forall k, fget k h = false.
Proof.
  intros l t1 t2 h E. pose proof (J_hist _ _ _ _ _ (I1_run l)) as H.
  rewrite E in H.
  clear E. induction t1 as [|e t1 IH]; cbn [app history] in H;
    destruct H as [A B]; [apply A|exact (IH B)].
Qed.

Definition lost := [(fine, OResp ST RConn); fr KRetry; fr KStart; fr KNext].
Example C113_third : tr (run (begun ++ lost ++ lost ++ firstn 2 lost))
  = [EAttempt; EForget; ETrans ST; EReq ST; EAttempt; ETrans ST; EReq ST;
     EAttempt; ETrans ST; EReq ST; EAttempt; EStart fnone].
Proof. vm_compute. reflexivity. Qed.
Example C113_second : tr (run (begun ++ lost ++ firstn 2 lost))
  = [EAttempt; ETrans ST; EReq ST; EAttempt; ETrans ST; EReq ST; EAttempt;
     EStart fnone].
Proof. vm_compute. reflexivity. Qed.
Example C113_refused : tr (run (begun ++ [(fine, OResp ST RErr); fr KRetry]))
  = [EAttempt; EForget; EFail ST; EReq ST; EAttempt; EStart fnone].
Proof. vm_compute. reflexivity. Qed.

(* ------------------------------------------------------------------ *)
(* C114 *)
Theorem C114_never_idle : forall l, let s := run l in
  mgr s = true -> ini (st s) = true ->
  awaiting s \/ finished s \/ In ERej (tr s) \/ In EMoved (tr s).
Proof. exact progress. Qed.

Example C114_case : mgr (run begun) = true /\ ini (st (run begun)) = true
  /\ reqs (run begun) = [ST] /\ pend (run begun) = [].
Proof. vm_compute. auto. Qed.

(* After a refused cloud configuration nothing happens any more. *)
Definition refused := begun ++ [rs ST; fr KNext; rs SO; fr KNext; (fine, OResp SL RBad)].

Theorem C114_refused_configuration_refuted : exists l,
  l = refused /\ mgr (run l) = true /\ ini (st (run l)) = true
  /\ ~ awaiting (run l) /\ ~ finished (run l)
  /\ forall l', (forall eo, In eo l' -> outside (snd eo) = true) ->
       tr (later l' (run l)) = tr (run l) /\ st (later l' (run l)) = st (run l).
Proof.
  exists refused. split; [reflexivity|]. split; [vm_compute; reflexivity|].
  split; [vm_compute; reflexivity|]. split; [|split].
  - assert (P : pend (run refused) = []) by (vm_compute; reflexivity).
    assert (R : reqs (run refused) = []) by (vm_compute; reflexivity).
    assert (C : closing (run refused) = false) by (vm_compute; reflexivity).
    intros [(c & _ & A)|[(k & A & _)|[A _]]].
    + rewrite P in A. destruct A.
    + rewrite R in A. destruct A.
    + rewrite C in A. discriminate.
  - intros [A _]. specialize (A SL). vm_compute in A. discriminate.
  - intros l' A. apply dead_later; [|exact A].
    constructor; vm_compute; reflexivity.
Qed.

(* An answer to a renewal that redirects the device, while the closing of the
   session of the time request is awaited. *)
Definition moved := almost ++ [(two, OFire KNext); fr KRenew; (other_uuid, OServer);
  fr KUuid; fr KNext; rs SC; fr KRetry; fr KStart; (over_tcp, OFire KNext);
  (fine, OUp); rs ST; (moving, ORenew ROk)].

Theorem C114_moved_refuted : exists l,
  l = moved /\ mgr (run l) = true /\ ini (st (run l)) = true
  /\ ~ awaiting (run l) /\ ~ finished (run l).
Proof.
  exists moved. split; [reflexivity|]. split; [vm_compute; reflexivity|].
  split; [vm_compute; reflexivity|]. split.
  - assert (P : pend (run moved) = [KRenew]) by (vm_compute; reflexivity).
    assert (R : reqs (run moved) = []) by (vm_compute; reflexivity).
    assert (C : conn (run moved) = false) by (vm_compute; reflexivity).
    intros [(c & B & A)|[(k & A & _)|[_ A]]].
    + rewrite P in A. destruct A as [A|[]]. subst c. cbn in B. none B.
    + rewrite R in A. destruct A.
    + rewrite C in A. discriminate.
  - intros [A _]. specialize (A SL). vm_compute in A. discriminate.
Qed.

(* A factory reset while a restart is pending leaves a manager that counts as
   started, waits for nothing and cannot be started again. *)
Definition reset_twice := [(fine, OStart); fr KProv; fr KStart; (fine, OUp);
  (fine, ODown); (fine, OFactory); fr KMgr; fr KProv].

Theorem C114_factory_reset_refuted : exists l,
  l = reset_twice /\ mgr (run l) = true /\ pend (run l) = []
  /\ reqs (run l) = [] /\ ~ finished (run l)
  /\ forall e, step (e, OStart) (run l) = run l.
Proof.
  exists reset_twice. split; [reflexivity|]. repeat (split; [vm_compute; reflexivity|]).
  split.
  - intros [A _]. specialize (A SL). vm_compute in A. discriminate.
  - intros e. unfold step, pstart.
    assert (M : mgr (run reset_twice) = true) by (vm_compute; reflexivity).
    rewrite M. reflexivity.
Qed.

(* ------------------------------------------------------------------ *)
(* C115 *)

(* Some bit of the status other than INITIALIZED is set, or that one is not. *)
Definition under_way (t : status) : Prop :=
  ini t = false \/ (exists k, fget k (gets t) = true \/ fget k (hass t) = true)
  \/ cst t = true \/ ren t = true \/ tra t = true \/ fai t = true.

Lemma under_way_only : forall t, under_way t -> only_ini t = false.
Proof.
  intros t H. destruct (only_ini t) eqn:O; [exfalso|reflexivity].
  unfold only_ini in O. rewrite !andb_true_iff, !negb_true_iff in O.
  destruct O as [[[[[[A B] C] D] E] F] G].
  assert (N : forall f, fl_eqb f fnone = true -> forall k, fget k f = true -> False).
  { intros [[] [] [] [] []] X [] Y; (discriminate X || discriminate Y). }
  destruct H as [H|[[k [H|H]]|[H|[H|[H|H]]]]]; 
    try exact (N _ B k H); try exact (N _ C k H); congruence.
Qed.

Theorem C115_silent_after_stop : forall e s l,
  reqs s = [] -> rnws s = 0 -> ~ In KRestart (pend s) ->
  (forall eo, In eo l -> starts (snd eo) = false) ->
  (under_way (st s) \/ forall eo, In eo l -> is_iface (snd eo) = false) ->
  exists new, adds l (step (e, OStop) s) new /\ forall x, In x new -> acts x = false.
Proof.
  intros e s l A B C D [E|E]; apply silent_after_stop; auto. left. apply under_way_only. exact E.
Qed.

Example C115_case : reqs (run whole) = [] /\ rnws (run whole) = 0
  /\ pend (run whole) = [KObs; KRenew] /\ under_way (st (run whole))
  /\ pend (step (fine, OStop) (run whole)) = [].
Proof.
  repeat split; try (vm_compute; reflexivity). right. left. exists ST. right. vm_compute. reflexivity.
Qed.

(* An answer that comes after the stop goes on with the provisioning. *)
Definition late_answer := begun ++ [(fine, OStop); rs ST; fr KNext].

Theorem C115_answer_after_stop_refuted : exists l,
  l = late_answer /\ mgr (run l) = false
  /\ tr (run l) = [EReq SO; EDone ST] ++ tr (run (begun ++ [(fine, OStop)])).
Proof. exists late_answer. split; [reflexivity|]. vm_compute. auto. Qed.

(* A network interface that comes up starts a stopped manager. *)
Definition interface_up := [(fine, OStart); (fine, OStop); (fine, OIface);
  fr KMgr; fr KProv; fr KStart; fr KNext].

Theorem C115_interface_after_stop_refuted : exists l,
  l = interface_up /\ mgr (run l) = true
  /\ tr (run l) = [EReq ST; EAttempt] ++ tr (run (firstn 2 l)).
Proof. exists interface_up. split; [reflexivity|]. vm_compute. auto. Qed.

(* ------------------------------------------------------------------ *)
(* C116 *)
Theorem C116_completes : forall l c, let s := run l in
  c = KRetry \/ (c = KProv /\ conn s = false) -> In c (pend s) ->
  ini (st s) = true -> cst (st s) = false -> ren (st s) = false ->
  ~ In ERej (tr s) -> ~ In EMoved (tr s) ->
  exists l', length l' <= 13 /\ (forall eo, In eo l' -> helpful eo)
    /\ pcs (later l' s) = true.
Proof. exact completes. Qed.

Theorem C116_provisioned_means : forall s, pcs s = true -> finished s /\ cmgr s = true.
Proof.
  intros s H. split; [apply pcs_finished, H|].
  unfold pcs in H. apply andb_prop in H. destruct H as [H _].
  apply andb_prop in H. apply H.
Qed.

(* After every failed request the retry is pending. *)
Example C116_case : let s := run (begun ++ [(fine, OResp ST RErr)]) in
  In KRetry (pend s) /\ ini (st s) = true /\ cst (st s) = false
  /\ ren (st s) = false /\ tr s = [EFail ST; EReq ST; EAttempt; EStart fnone].
Proof. vm_compute. auto 10. Qed.

(* The bit that says that the cloud has been started is kept when the steps are
   forgotten, and the handlers take it for an error: no answer is ever accepted
   again. *)
Definition endless := whole ++ [(fine, OUp); (fine, OCloudMgr false); (fine, ODown);
  fr KMgr; fr KProv; fr KStart; (no_cert, OFire KNext)].

Theorem C116_endless_refuted : exists l,
  l = endless /\ mgr (run l) = true /\ ini (st (run l)) = true
  /\ In KRetry (pend (run l)) /\ ~ In ERej (tr (run l)) /\ ~ In EMoved (tr (run l))
  /\ ~ finished (run l)
  /\ forall l' new k, (forall eo, In eo l' -> outside (snd eo) = true) ->
       adds l' (run l) new -> ~ In (EDone k) new.
Proof.
  exists endless. split; [reflexivity|]. split; [vm_compute; reflexivity|].
  split; [vm_compute; reflexivity|].
  assert (T : tr (run endless)
    = [EForgetCA; EAttempt; ECloud; EDone SA; EReq SA; EDone SC; EReq SC; EDone SL;
       EReq SL; EDone SO; EReq SO; EDone ST; EReq ST; EAttempt; EStart fnone])
    by (vm_compute; reflexivity).
  split; [vm_compute; auto|].
  split; [rewrite T; intros A; none A|].
  split; [rewrite T; intros A; none A|].
  split; [intros [A _]; specialize (A SC); vm_compute in A; discriminate|].
  intros l' new k A N. refine (never_done 5 _ l' _ A new k N).
  constructor; try (vm_compute; reflexivity).
  - left. vm_compute. reflexivity.
  - exists SC. vm_compute. reflexivity.
  - intros c C D. assert (P : pend (run endless) = [KRetry]) by (vm_compute; reflexivity).
    rewrite P in D. destruct D as [<-|[]]. cbn in C. none C.
Qed.

(* It keeps asking, and every answer is refused. *)
Example C116_endless_case :
  firstn 8 (tr (run (endless ++ [fr KRetry; fr KStart; fr KNext; rs SC; fr KRetry;
    fr KStart; fr KNext; rs ST])))
  = [EFail ST; EReq ST; EAttempt; EForget; EFail SC; EReq SC; EAttempt; EForgetCA].
Proof. vm_compute. reflexivity. Qed.

(* ------------------------------------------------------------------ *)
(* C117 *)
Theorem C117_observer_acts : forall es s, In KObs (pend s) -> cmgr s = true ->
  (forall e, In e es -> e_cconn e = false) ->
  ocnt s < omax s -> length es <= omax s - ocnt s ->
  (length es < omax s - ocnt s -> adds (checks es) s [])
  /\ (length es = omax s - ocnt s -> exists new, adds (checks es) s new
        /\ (In ESwitch new \/ In EForce new)).
Proof. exact observer_acts. Qed.

Theorem C117_observer_content : forall e s, In KObs (pend s) -> cmgr s = true ->
  0 < omax s -> e_cconn e = true -> e_creg e = true -> e_clog e = true ->
  adds [(e, OFire KObs)] s [] /\ ~ In KObs (pend (step (e, OFire KObs) s))
  /\ mgr (step (e, OFire KObs) s) = mgr s
  /\ cmgr (step (e, OFire KObs) s) = true.
Proof. exact observer_content. Qed.

Example C117_case : In KObs (pend (run whole)) /\ cmgr (run whole) = true
  /\ ocnt (run whole) = 0 /\ omax (run whole) = 30.
Proof. vm_compute. auto. Qed.
Example C117_reprovisions :
  firstn 2 (tr (later (checks (repeat fine 30)) (run whole))) = [EStart fnone; EForce].
Proof. vm_compute. reflexivity. Qed.

(* Nobody observes the server to which the observer has switched. *)
Definition switched := almost ++ [(two, OFire KNext); (fine, OObsMax 1);
  (two, OFire KObs)].

Theorem C117_switched_unobserved_refuted : exists l t,
  l = switched /\ tr (run l) = ESwitch :: t /\ omax (run l) = 1
  /\ cmgr (run l) = true /\ pend (run l) = [KRenew].
Proof.
  exists switched. eexists. split; [reflexivity|]. vm_compute.
  split; [reflexivity|]. auto.
Qed.

Print Assumptions C112_steps_in_order.
Print Assumptions C112_cloud_after_all.
Print Assumptions C112_no_gaps.
Print Assumptions C113_repeat_when_due.
Print Assumptions C113_attempt_forgets.
Print Assumptions C113_forgets_only_then.
Print Assumptions C113_start_forgets.
Print Assumptions C114_never_idle.
Print Assumptions C114_refused_configuration_refuted.
Print Assumptions C114_moved_refuted.
Print Assumptions C114_factory_reset_refuted.
Print Assumptions C115_silent_after_stop.
Print Assumptions C115_answer_after_stop_refuted.
Print Assumptions C115_interface_after_stop_refuted.
Print Assumptions C116_completes.
Print Assumptions C116_provisioned_means.
Print Assumptions C116_endless_refuted.
Print Assumptions C117_observer_acts.
Print Assumptions C117_observer_content.
Print Assumptions C117_switched_unobserved_refuted.
