(* C107-C111: the life cycle of the cloud manager. *)
From Coq Require Import List Bool Arith ZArith Lia Permutation.
Import ListNotations.
From Verif Require Import Cm_Model Cm_Spec Cm_Proofs Cm2_Proofs Cm3_Proofs Cm4_Proofs
  Cm5_Proofs Cm6_Proofs Cm7_Proofs Cm8_Proofs.

(* ---- devices and runs used in the examples ---- *)

Definition ok (z : Z) : resp := ROk (Some (mkPay z false)).
Definition moved : resp := ROk (Some (mkPay 3600 true)).
Definition k1 : tokens := mkTokens true true true 3600.
(* a device that was registered before it was switched on, and a new one *)
Definition dev : ctx := boot true true true CRegistered k1.
Definition fresh : ctx := boot true true false CUninit tokens0.
Definition first_login : list op :=
  [OUpdate []; OStart env0; OFire TReg env0 []; OUp; OResp 0 (ok 3600) env0 [];
   OFire TCb env0 []; OFire TLogin env0 []; OResp 0 (ok 3600) env0 [];
   OFire TCb env0 []].
Definition again : list op :=
  [OStart env0; OFire TRfr env0 []; OUp; OResp 0 (ok 3600) env0 [];
   OFire TLogin env0 []; OResp 0 (ok 3600) env0 []; OFire TCb env0 []].
(* nothing can be sent and no retry is left *)
Definition lost : env := mkEnv false false false true false true true true true true true.
(* the access token is too long for the query of a deregistration *)
Definition long : env := mkEnv true true true true false true true false true true true.
Definition long_lost : env :=
  mkEnv true true false true false true true false true true true.

(* ==== C107: the status ==== *)

Theorem C107_logged_in_only_while_registered : forall o t r c k l,
  login_needs_registration (run (boot o t r c k) l).
Proof.
  intros o t r c k l. apply L_run. unfold boot, login_needs_registration.
  destruct (cps_eqb c CDeregistering); cbn; discriminate.
Qed.

Theorem C107_registered_devices_have_tokens : forall o t r c k l,
  (r = true -> k_rfr k = true /\ k_uid k = true) ->
  along tolerable (boot o t r c k) l = true ->
  registered_has_tokens (run (boot o t r c k) l).
Proof.
  intros o t r c k l B A. apply (Inv_run l _ (Inv_boot o t r c k B) A).
Qed.

Example C107_first_login :
  along tolerable fresh first_login = true
  /\ s_log (st (run fresh first_login)) = true
  /\ s_reg (st (run fresh first_login)) = true
  /\ tok (run fresh first_login) = k1
  /\ out (run fresh first_login) = [ESent QReg; EStatus; ESent QLogin; EStatus].
Proof. vm_compute. repeat split. Qed.

(* A redirection closes the session; a refresh that belongs to a reset is answered
   by that, the reset erases the tokens that have just been stored, and the device
   is registered without them. *)
Theorem C107_redirect_meets_reset_refuted : exists ops,
  ops = [OStart env0; OFire TRfr env0 []; OUp; OReset false false env0 [];
         ORst 0 long []; OResp 0 RErr env0 []; OFire TCb env0 []; OIfUp;
         OFire TStart env0 []; OFire TReg env0 []; OResp 1 moved env0 []]
  /\ s_reg (st (run dev ops)) = true /\ tok (run dev ops) = tokens0.
Proof. eexists. split; [reflexivity |]. vm_compute. split; reflexivity. Qed.

(* ==== C108: progress ==== *)

Theorem C108_registered_devices_keep_trying : forall o t r c k l,
  (r = true -> k_rfr k = true /\ k_uid k = true) ->
  along tolerable (boot o t r c k) l = true ->
  progress (run (boot o t r c k) l).
Proof.
  intros o t r c k l B A. apply (Inv_run l _ (Inv_boot o t r c k B) A).
Qed.

(* the session is lost twice, the second time while the token is refreshed *)
Definition rough : list op :=
  again ++ [OFire TPing env0 []; ODown []; OFire TStart env0 []; OFire TRfr env0 [];
            ODown []; OFire TCb env0 []; OFire TRfr lost []; OFire TReconn env0 []].

Example C108_rough_times :
  along tolerable dev rough = true
  /\ s_reg (st (run dev rough)) = true /\ mgr (run dev rough) = true
  /\ online (run dev rough) = false /\ busy (run dev rough) = true
  /\ t_restart (tm (run dev rough)) = true.
Proof. vm_compute. repeat split. Qed.

Example C108_online :
  along tolerable dev again = true /\ online (run dev again) = true.
Proof. vm_compute. split; reflexivity. Qed.

(* A session that comes up between the end of the last one and the restart of the
   manager, and ends unnoticed while the manager has no endpoint, leaves the
   manager connected in its own eyes: the next reconnection waits for the end of a
   session that does not exist. *)
Theorem C108_stale_session_refuted : exists ops,
  ops = again ++ [ODown []; OLogout env0; OUp; OFire TStart env0 [];
                  OFire TRfr lost []; OFire TReconn env0 []; OFire TCb env0 [];
                  OResp 0 RTimeout env0 []]
  /\ mgr (run dev ops) = true /\ oper (run dev ops) = true
  /\ s_reg (st (run dev ops)) = true /\ s_log (st (run dev ops)) = false
  /\ tm (run dev ops) = timers0 /\ reqs (run dev ops) = [].
Proof. eexists. split; [reflexivity |]. vm_compute. repeat split. Qed.

(* The manager does not notice the end of a session that existed before the
   manager was started: with a permanent access token the device stays logged in
   over no session for ever. *)
Theorem C108_session_before_start_refuted : exists ops,
  ops = [ORefresh env0; OUp; OResp 0 (ok (-1)) env0 []; OStart env0;
         OFire TLogin env0 []; OResp 0 (ok (-1)) env0 []; OFire TCb env0 []; ODown [];
         OFire TPing env0 []]
  /\ mgr (run dev ops) = true /\ oper (run dev ops) = true
  /\ s_log (st (run dev ops)) = true /\ peer (run dev ops) = false
  /\ tm (run dev ops) = timers0 /\ reqs (run dev ops) = [].
Proof. eexists. split; [reflexivity |]. vm_compute. repeat split. Qed.

(* A refresh of the application that is not answered logs the device out. *)
Theorem C108_refresh_of_the_application_refuted : exists ops,
  ops = [OStart env0; OFire TLogin env0 []; OUp; OResp 0 (ok (-1)) env0 [];
         OFire TCb env0 []; ORefresh env0; OResp 0 RTimeout env0 [];
         OFire TPing env0 []]
  /\ let s := run (boot true true true CRegistered (mkTokens true true true (-1))) ops in
     mgr s = true /\ oper s = true /\ s_reg (st s) = true /\ s_log (st s) = false
     /\ tm s = timers0 /\ reqs s = [].
Proof. eexists. split; [reflexivity |]. vm_compute. repeat split. Qed.

(* A reset that finds a deregistration which could not be sent stops the
   manager's timers and does nothing else. *)
Theorem C108_failed_deregistration_refuted : exists ops,
  ops = [OStart env0; OFire TRfr env0 []; OUp; OResp 0 (ok 3600) env0 [];
         ODereg lost []; OReset false true env0 []]
  /\ mgr (run dev ops) = true /\ oper (run dev ops) = true
  /\ s_reg (st (run dev ops)) = true /\ s_log (st (run dev ops)) = false
  /\ tm (run dev ops) = timers0 /\ reqs (run dev ops) = [].
Proof. eexists. split; [reflexivity |]. vm_compute. repeat split. Qed.

(* C56: when the attempts at one server are used up while the TCP session with it
   is up, the manager closes the session and does not go on to the next server. *)
Theorem C56_next_server_after_a_session_refuted : exists e ops,
  en_sched e = false /\ en_next e = true
  /\ ops = [OUpdate []; OStart env0; OFire TReg env0 []; OUp; OResp 0 RTimeout e [];
            OFire TReconn env0 []; OFire TCb env0 []]
  /\ mgr (run fresh ops) = true /\ is_init (st (run fresh ops)) = true
  /\ cps (run fresh ops) = CRegistering
  /\ tm (run fresh ops) = timers0 /\ reqs (run fresh ops) = [].
Proof.
  exists (mkEnv false true true true false true true true true true true). eexists.
  split; [reflexivity |]. split; [reflexivity |]. split; [reflexivity |].
  vm_compute. repeat split.
Qed.

(* ==== C109: reset ==== *)

Theorem C109_reset_starts : forall s fo y e ces, cps s <> CDeregistering ->
  let s' := step s (OReset fo y e ces) in
  (erased s' /\ cleared_count s < cleared_count s') \/ resetting s' = true.
Proof. exact reset_starts. Qed.

Theorem C109_reset_is_not_lost : forall l s, along calm s l = true ->
  resetting s = true -> resetting (run s l) = false ->
  cleared_count s < cleared_count (run s l).
Proof.
  intros l s A R Q. destruct (RK_run l s A) as (_ & B). destruct (B R) as [X | X].
  - rewrite X in Q. discriminate.
  - exact X.
Qed.

Theorem C109_deletion_forgets : forall s o, calm s o = true ->
  cleared_count s < cleared_count (step s o) -> forgotten (step s o).
Proof. intros s o A. apply (RK_step o s A). Qed.

(* an asynchronous reset of a device whose token is too long for the query *)
Definition full_reset : list op :=
  [ORst 0 long []; OResp 0 (ok 3600) env0 []; ORefd 0 long [];
   OResp 0 (ok 3600) env0 []; OResp 0 (ROk None) env0 []; OFire TClear env0 []].

Definition before_reset : ctx :=
  run dev [OStart env0; OFire TRfr env0 []; OUp; OResp 0 (ok 3600) env0 [];
           OReset false false env0 []].

Example C109_full_reset :
  resetting before_reset = true /\ along calm before_reset full_reset = true
  /\ resetting (run before_reset full_reset) = false
  /\ forgotten (run before_reset full_reset)
  /\ erased (run before_reset full_reset)
  /\ sent (run before_reset full_reset)
     = [QRefresh; QApi ARefresh (Param 2 (KTryRefreshed (Param 1 (KReset false))));
        QApi ALogin (Param 3 (KTryLogin (Param 1 (KReset false))));
        QApi ADereg (Param 1 (KReset false))].
Proof. vm_compute. repeat split. Qed.

Example C109_forced_reset :
  erased (step (run dev again) (OReset true false env0 []))
  /\ cleared_count (step (run dev again) (OReset true false env0 [])) = 1.
Proof. vm_compute. repeat split. Qed.

(* After an oc_cloud_deregister that could not be sent a reset does nothing. *)
Theorem C109_failed_deregistration_refuted : exists ops s,
  ops = again ++ [ODereg lost []] /\ s = run dev ops
  /\ let s' := step s (OReset false true env0 []) in
     resetting s' = false /\ cleared_count s' = 0
     /\ s_reg (st s') = true /\ tok s' = k1.
Proof.
  eexists. eexists. split; [reflexivity |]. split; [reflexivity |].
  vm_compute. repeat split.
Qed.

(* The end of the session while the manager runs cancels a reset. *)
Theorem C109_lost_session_refuted : exists ops,
  ops = again ++ [OReset false false env0 []; ODown []]
  /\ resetting (run dev ops) = false /\ cleared_count (run dev ops) = 0
  /\ s_reg (st (run dev ops)) = true /\ tok (run dev ops) = k1.
Proof. eexists. split; [reflexivity |]. vm_compute. repeat split. Qed.

(* A network interface that comes up between the deregistration and the deletion
   cancels the deletion; the device registers again. *)
Theorem C109_interface_up_refuted : exists ops,
  ops = again ++ [OReset false false env0 []; ORst 0 env0 [];
                  OResp 0 (ROk None) env0 []; OIfUp; OFire TStart env0 [];
                  OFire TReg env0 []; OResp 0 (ok 3600) env0 []]
  /\ resetting (run dev ops) = false /\ cleared_count (run dev ops) = 0
  /\ s_reg (st (run dev ops)) = true /\ tok (run dev ops) = k1.
Proof. eexists. split; [reflexivity |]. vm_compute. repeat split. Qed.

(* ==== C110: memory ==== *)

Theorem C110_parameters_are_freed_once : forall o t r c k l,
  along goes_on (boot o t r c k) l = true ->
  let s := run (boot o t r c k) l in
  bad s = false /\ NoDup (live s) /\ Permutation (live s) (owned s).
Proof.
  intros o t r c k l A. destruct (M_run l _ (M_boot o t r c k) A) as [B N _ P _ _ _].
  split; [exact B |]. split; [exact N | exact P].
Qed.

Theorem C110_nothing_leaks : forall o t r c k l,
  along goes_on (boot o t r c k) l = true ->
  let s := run (boot o t r c k) l in
  reqs s = [] -> t_refd (tm s) = [] -> t_rst (tm s) = [] -> live s = [].
Proof.
  intros o t r c k l A s E1 E2 E3.
  destruct (C110_parameters_are_freed_once o t r c k l A) as (_ & _ & P). fold s in P.
  unfold owned in P. rewrite E1, E2, E3 in P. cbn in P.
  apply Permutation_sym, Permutation_nil in P. exact P.
Qed.

Definition reset_ops : list op :=
  [OStart env0; OFire TRfr env0 []; OUp; OResp 0 (ok 3600) env0 [];
   OReset false false env0 []] ++ full_reset.

Example C110_full_reset :
  along goes_on dev reset_ops = true
  /\ live (run dev (firstn 6 reset_ops)) = [2; 1]
  /\ live (run dev (firstn 8 reset_ops)) = [3; 1]
  /\ nxt (run dev reset_ops) = 4 /\ live (run dev reset_ops) = [].
Proof. vm_compute. repeat split. Qed.

(* The second half of a deregistration that cannot send its request reads its
   parameters after it has freed them. *)
Theorem C110_use_after_free_refuted : exists ops,
  ops = [OStart env0; OFire TRfr env0 []; OUp; OResp 0 (ok 3600) env0 [];
         OReset false false env0 []; ORst 0 long []; OResp 0 (ok 3600) env0 [];
         ORefd 0 long_lost []]
  /\ bad (run dev ops) = true.
Proof. eexists. split; [reflexivity |]. vm_compute. reflexivity. Qed.

(* ==== C111: silence ==== *)

Theorem C111_without_cloud_nothing_is_sent : forall l s, cloudless s ->
  existsb is_update l = false ->
  cloudless (run s l) /\ sent (run s l) = sent s.
Proof. exact SI_run. Qed.

Theorem C111_nothing_is_sent_after_a_forced_reset : forall s y e ces l,
  let s' := step s (OReset true y e ces) in
  forallb harmless (reqs s') = true -> existsb is_update l = false ->
  sent (run s' l) = sent s'.
Proof.
  intros s y e ces l s' H U. apply SI_run; [| exact U]. unfold s' in *. clear s'.
  cbn [step] in *. unfold cloud_reset in *. cbn [negb andb] in *.
  destruct (clear_fields (close ces) s (frame_close ces))
    as (A & B & _ & _ & _ & _ & _ & _ & _ & _ & C & _).
  unfold cloudless. rewrite A, B, C. cbn. auto.
Qed.

Theorem C111_a_stopped_manager_sends_nothing : forall s rs ces l,
  reqs s = [] -> t_refd (tm s) = [] -> t_rst (tm s) = [] ->
  forallb passive l = true ->
  sent (run (step s (OStop rs ces)) l) = sent s.
Proof.
  intros s rs ces l A B C P. destruct (st_stop s rs ces A B C) as (S1 & E1).
  cbn [step]. destruct (st_run l _ S1 P) as (_ & E2). rewrite E2, E1. reflexivity.
Qed.

Example C111_forced_reset :
  let s := step (run dev (again ++ [ORefresh env0; OFire TPing env0 []]))
             (OReset true false env0 []) in
  forallb harmless (reqs s) = true /\ reqs s = [] /\ cloudless s
  /\ sent (run s [OStart env0; OReg env0; OLogin env0 []; OIfUp; OFire TStart env0 []])
     = sent s.
Proof. vm_compute. repeat split. Qed.

Example C111_stop :
  reqs (run dev again) = [] /\ busy (run dev again) = true
  /\ forallb passive [OFire TRfr env0 []; OFire TPing env0 []; OUp; OUpdate []; OIfUp]
     = true.
Proof. vm_compute. repeat split. Qed.

(* The answer to a registration that is outstanding over a session the manager has
   forgotten survives a forced reset and registers the device again. *)
Theorem C111_answer_after_reset_refuted : exists ops,
  ops = [OUpdate []; OStart env0; OFire TReg env0 []; OIfUp; OFire TStart env0 [];
         OReset true false env0 []; OResp 0 (ok 3600) env0 []; OFire TLogin env0 []]
  /\ s_reg (st (run fresh ops)) = true /\ cleared_count (run fresh ops) = 1
  /\ sent (run fresh ops) = [QReg; QLogin].
Proof. eexists. split; [reflexivity |]. vm_compute. repeat split. Qed.

(* Stopping the manager during a registration schedules the registration again. *)
Theorem C111_stop_while_registering_refuted : exists ops,
  ops = [OUpdate []; OStart env0; OFire TReg env0 []; OUp; OStop false [];
         OFire TCb env0 []; OFire TReg env0 []]
  /\ mgr (run fresh ops) = false /\ sent (run fresh ops) = [QReg; QReg].
Proof. eexists. split; [reflexivity |]. vm_compute. repeat split. Qed.

Print Assumptions C107_logged_in_only_while_registered.
Print Assumptions C107_registered_devices_have_tokens.
Print Assumptions C107_redirect_meets_reset_refuted.
Print Assumptions C108_registered_devices_keep_trying.
Print Assumptions C108_stale_session_refuted.
Print Assumptions C108_session_before_start_refuted.
Print Assumptions C108_refresh_of_the_application_refuted.
Print Assumptions C108_failed_deregistration_refuted.
Print Assumptions C109_reset_starts.
Print Assumptions C109_reset_is_not_lost.
Print Assumptions C109_deletion_forgets.
Print Assumptions C109_failed_deregistration_refuted.
Print Assumptions C109_lost_session_refuted.
Print Assumptions C109_interface_up_refuted.
Print Assumptions C110_parameters_are_freed_once.
Print Assumptions C110_nothing_leaks.
Print Assumptions C110_use_after_free_refuted.
Print Assumptions C111_without_cloud_nothing_is_sent.
Print Assumptions C111_nothing_is_sent_after_a_forced_reset.
Print Assumptions C111_a_stopped_manager_sends_nothing.
Print Assumptions C111_answer_after_reset_refuted.
Print Assumptions C111_stop_while_registering_refuted.
Print Assumptions C56_next_server_after_a_session_refuted.
