(** Properties C128-C131: ownership transfer. *)

From Coq Require Import List Bool Arith Lia.
From Verif Require Import Otm_Model Otm_Spec Otm_Proofs Otm2_Proofs Otm3_Proofs Otm4_Proofs Otm5_Proofs Otm6_Proofs Otm7_Proofs.
Import ListNotations.

(** * C128: every transfer is reported exactly once. *)

(** At any time a transfer either has been reported, once, and has no request
    left, or has not been reported and waits for exactly one request. *)
Theorem C128_reported_once : forall ops c,
  tried c (tr (run ops)) = reported c (tr (run ops)) + pending c (run ops) /\
  tried c (tr (run ops)) <= 1.
Proof. intros. apply counts. apply run_inv. Qed.

(** If the pending requests are answered, or given up, in any order, fifteen
    times as many answers as there are transfers end them all. *)
Theorem C128_all_end : forall ops rs c,
  15 * length (reqs (run ops)) <= length rs ->
  reported c (tr (run (all_answered rs ops))) = tried c (tr (run (all_answered rs ops))).
Proof. exact all_end. Qed.

(** Closing a connection always ends: the nested calls do not run away. *)
Theorem C128_closing_ends : forall ops, ~ In EStuck (tr (run ops)).
Proof. intros. apply i_stuck. apply run_inv. Qed.

(** A call that returns -1 because its first request cannot be sent has all
    the same called the application back, and freed the device. *)
Theorem C128_refused_is_reported_refuted : exists ops,
  ops = [ODiscover 5 1; OEndpoints 0; OCall JustWorks 5 NotSent []] /\
  tr (run ops) = [ERefused 0 0 JustWorks; EReport 0 false; EFree 0].
Proof. eexists. split; [reflexivity|]. vm_compute. reflexivity. Qed.

Definition nice : input := mkin true [0; 1; 2] 7 true.
Definition fine_answers (n : nat) : list op := repeat (OAnswer 0 Fine nice [1]) n.

Definition jw_run : list op :=
  [ODiscover 5 1; OEndpoints 0; OCall JustWorks 5 AllWell []] ++ fine_answers 9 ++
  [OAnswer 0 NotFound nice [1]] ++ fine_answers 5.

Example C128_jw_run :
  tr (run jw_run) =
    [ECall 0 0 JustWorks;
     ESent 0 1 MGet; EAns 0 Fine; ESent 0 1 (MSel 0); EAns 0 Fine; ESent 0 1 MOm; EAns 0 Fine;
     ESent 0 1 MOwner; EAns 0 Fine; ESent 0 1 (MUuid 7); EAns 0 Fine; ESent 0 1 MRowDoxm; EAns 0 Fine;
     ESent 0 1 MRowAcl; EAns 0 Fine; ESent 0 1 MRowPstat; EAns 0 Fine; ESent 0 1 MCred; EAns 0 Fine;
     ESent 0 1 MSdi; EAns 0 NotFound; ESent 0 1 MOwned; EAns 0 Fine; ESent 0 1 MPro; EAns 0 Fine;
     ESent 0 1 MDelAcl; EAns 0 Fine; ESent 0 1 MAcl; EAns 0 Fine; ESent 0 1 MNop; EAns 0 Fine;
     EReport 0 true].
Proof. vm_compute. reflexivity. Qed.

(** Transfers of three devices by three methods at once; the connection to
    the address that two of them share is lost. *)
Definition three_run : list op :=
  [ODiscover 5 1; ODiscover 6 1; ODiscover 8 2; OEndpoints 0; OEndpoints 0; OEndpoints 0;
   OCall RandomPin 5 AllWell []; OCall RandomPin 6 AllWell []; OCall MfgCert 8 AllWell []].

Example C128_three_run :
  length (reqs (run three_run)) = 3 /\
  map (fun c => reported c (tr (run (three_run ++ [OLose 1 []])))) [0; 1; 2] = [1; 1; 0] /\
  (let s := run (all_answered (repeat (mkreply 1 Fine nice []) 45) three_run) in
   map (fun c => reported c (tr s)) [0; 1; 2; 3] = [1; 1; 1; 0]).
Proof. vm_compute. repeat split; reflexivity. Qed.

(** * C129: the requests are made in the order OCF asks for. *)

Theorem C129_story : forall ops c, story c (history c (tr (run ops))).
Proof. exact stories. Qed.

(** A transfer reported as successful made all the requests of its method,
    each after the previous one had been answered well. *)
Theorem C129_success_is_complete : forall ops c,
  In (EReport c true) (tr (run ops)) ->
  exists h k u l,
    history c (tr (run ops)) = ECall c h k :: said c l ++ [EReport c true] /\
    script k u = map what l /\ Forall welcome l.
Proof.
  intros ops c H. apply success_complete; [apply stories|].
  apply in_history; [apply Nat.eqb_refl|exact H].
Qed.

(** The device is told that it is owned only after it has accepted the
    owner's credential. *)
Theorem C129_owned_after_credential : forall ops c a,
  In (ESent c a MOwned) (tr (run ops)) ->
  exists b p q, history c (tr (run ops)) = p ++ [ESent c b MCred; EAns c Fine] ++ q /\
                In (ESent c a MOwned) q.
Proof.
  intros ops c a H. apply (in_history c) in H; [|apply Nat.eqb_refl].
  destruct (owned_after _ _ _ (stories ops c) H) as [b [_ [_ [p [q [E I]]]]]].
  exists b, p, q. split; assumption.
Qed.

(** Nothing is sent for a transfer after its report. *)
Theorem C129_silent_after_report : forall ops c g,
  In (EReport c g) (tr (run ops)) ->
  exists l, history c (tr (run ops)) = l ++ [EReport c g] /\ reported c l = 0.
Proof.
  intros ops c g H. apply report_last; [apply stories|].
  apply in_history; [apply Nat.eqb_refl|exact H].
Qed.

Example C129_orders :
  script JustWorks 7 = MGet :: MSel 0 :: script RandomPin 7 /\
  script MfgCert 7 = MGet :: MSel 2 :: script RandomPin 7 /\
  history 0 (tr (run (three_run ++ [OAnswer 0 Fine nice []; OAnswer 2 Bad nice []]))) =
    [ECall 0 0 RandomPin; ESent 0 1 MOm; EAns 0 Fine; ESent 0 1 MOwner; EAns 0 Bad; EReport 0 false].
Proof. vm_compute. repeat split; reflexivity. Qed.

(** A device that is discovered again during its transfer, at another
    address, gets the rest of the requests there. *)
Theorem C129_one_address_refuted : exists ops,
  ops = [ODiscover 5 1; OEndpoints 0; OCall JustWorks 5 AllWell []; OAnswer 0 Fine nice [];
         OAnswer 0 Fine nice []; ODiscover 5 2; OAnswer 0 Fine nice []] /\
  history 0 (tr (run ops)) =
    [ECall 0 0 JustWorks; ESent 0 1 MGet; EAns 0 Fine; ESent 0 1 (MSel 0); EAns 0 Fine;
     ESent 0 1 MOm; EAns 0 Fine; ESent 0 2 MOwner].
Proof. eexists. split; [reflexivity|]. vm_compute. reflexivity. Qed.

(** * C130: no freed device is used. *)

(** If no device is in two transfers at once, and no discovery of a device
    is pending while it is being transferred, no freed device is used or
    freed again and no null pointer is followed, unless memory runs out for
    the credential made from a PIN. *)
Theorem C130_no_use_after_free : forall ops,
  solo ops -> apart ops -> (forall u up, ~ In (OCall RandomPin u NoCred up) ops) ->
  (forall h, ~ In (EFault h) (tr (run ops))) /\ ~ In ENull (tr (run ops)).
Proof.
  intros ops S A P. assert (K : G True False (run ops)) by (apply run_G; auto; intros []).
  assert (C := g_clean _ _ _ K Logic.I). split; [intros h H|intros H]; apply C in H; discriminate H.
Qed.

Definition careful_run : list op :=
  three_run ++ [OAnswer 0 Fine nice [1; 2]; OAnswer 0 Bad nice [1; 2]; ODiscover 6 3; OEndpoints 0;
                OCall JustWorks 6 AllWell [1; 2]; OLose 2 [1]; OAnswer 0 Fine nice [1]].

Example C130_careful_run :
  solo careful_run /\ apart careful_run /\ (forall u up, ~ In (OCall RandomPin u NoCred up) careful_run) /\
  filter (fun e => match e with EFree _ => true | _ => false end) (tr (run careful_run)) = [EFree 0; EFree 1] /\
  map (fun c => reported c (tr (run careful_run))) [0; 1; 2; 3] = [1; 1; 0; 0].
Proof.
  split; [apply solob_sound; vm_compute; reflexivity|].
  split; [apply apartb_sound; vm_compute; reflexivity|].
  split; [|vm_compute; split; reflexivity].
  intros u up H. vm_compute in H.
  repeat (destruct H as [H|H]; [discriminate H|]). exact H.
Qed.

(** Two transfers of one device: the end of the first frees the device of
    the second. *)
Theorem C130_two_transfers_refuted : exists ops,
  ops = [ODiscover 5 1; OEndpoints 0; OCall JustWorks 5 AllWell []; OCall MfgCert 5 AllWell [];
         OAnswer 0 Bad nice []; OAnswer 0 Fine nice []] /\ apart ops /\
  In (EFault 0) (tr (run ops)).
Proof.
  eexists. split; [reflexivity|]. split; [apply apartb_sound; vm_compute; reflexivity|].
  vm_compute. tauto.
Qed.

(** A transfer that fails while the endpoints of its device are being asked
    for. *)
Theorem C130_pending_discovery_refuted : exists ops,
  ops = [ODiscover 5 1; OCall JustWorks 5 AllWell []; OAnswer 0 Bad nice []; OEndpoints 0] /\ solo ops /\
  tr (run ops) = [ECall 0 0 JustWorks; ESent 0 1 MGet; EAns 0 Bad; EReport 0 false; EFree 0; EFault 0].
Proof.
  eexists. split; [reflexivity|]. split; [apply solob_sound; vm_compute; reflexivity|].
  vm_compute. reflexivity.
Qed.

(** The clean-up of the random PIN method when there is no memory for the
    credential follows the device pointer before it has been set. *)
Theorem C130_no_memory_for_pin_refuted : exists ops,
  ops = [ODiscover 5 1; OEndpoints 0; OCall RandomPin 5 NoCred []] /\ solo ops /\ apart ops /\
  In ENull (tr (run ops)).
Proof.
  eexists. split; [reflexivity|]. split; [apply solob_sound; vm_compute; reflexivity|].
  split; [apply apartb_sound; vm_compute; reflexivity|]. vm_compute. tauto.
Qed.

(** * C131: what a transfer leaves behind. *)

(** The device of a failed transfer, or of a failed request for a PIN, is
    gone for good. *)
Theorem C131_failed_is_freed : forall ops c h k,
  In (ECall c h k) (tr (run ops)) \/ In (ERefused c h k) (tr (run ops)) ->
  In (EReport c false) (tr (run ops)) -> kept h (run ops) = Freed.
Proof.
  intros ops c h k A B. rewrite kept_get. apply (run_dead ops c h); [|exact B]. exists k. exact A.
Qed.

(** The device of a successful transfer is among the owned ones from then
    on, if no device is in two transfers at once. *)
Theorem C131_success_is_owned : forall ops c h k,
  solo ops -> In (ECall c h k) (tr (run ops)) -> k <> AskPin ->
  In (EReport c true) (tr (run ops)) -> kept h (run ops) = Owned.
Proof.
  intros ops c h k S A N B. rewrite kept_get.
  assert (K : G False False (run ops)) by (apply run_G; [exact S|intros []|intros []]).
  apply (g_owned _ _ _ K c h k); assumption.
Qed.

(** And when the success is reported the tool has an owner credential for
    the UUID that it gave to the device, if moreover the UUIDs drawn are
    not those of other devices without owner. *)
Theorem C131_success_has_credential : forall ops o c h k a u,
  solo (ops ++ [o]) -> fresh (ops ++ [o]) ->
  ~ In (EReport c true) (tr (run ops)) -> In (EReport c true) (tr (run (ops ++ [o]))) ->
  In (ECall c h k) (tr (run (ops ++ [o]))) -> k <> AskPin ->
  In (ESent c a (MUuid u)) (tr (run (ops ++ [o]))) ->
  uuid_of h (run (ops ++ [o])) = u /\ In (u, true) (creds (run (ops ++ [o]))).
Proof. exact won. Qed.

Example C131_jw_run :
  solo jw_run /\ fresh jw_run /\
  kept 0 (run jw_run) = Owned /\ uuid_of 0 (run jw_run) = 7 /\ creds (run jw_run) = [(7, true)].
Proof.
  split; [apply solob_sound; vm_compute; reflexivity|].
  split; [apply freshb_sound; vm_compute; reflexivity|].
  vm_compute. repeat split; reflexivity.
Qed.

(** The PIN's credential is gone after a success by that method. *)
Example C131_pin_run :
  let s := run ([ODiscover 5 1; OEndpoints 0; OCall RandomPin 5 AllWell []] ++ fine_answers 13) in
  kept 0 s = Owned /\ uuid_of 0 s = 7 /\ creds s = [(7, true)].
Proof. vm_compute. repeat split; reflexivity. Qed.

(** A failure after the device was told that it is owned leaves a device
    with an owner that has forgotten it. *)
Theorem C131_late_failure_refuted : exists ops,
  ops = [ODiscover 5 1; OEndpoints 0; OCall JustWorks 5 AllWell []] ++ fine_answers 11 ++
        [OAnswer 0 Bad nice [1]] /\ solo ops /\ fresh ops /\ apart ops /\
  (exists p q, history 0 (tr (run ops)) = p ++ [ESent 0 1 MOwned; EAns 0 Fine] ++ q) /\
  In (EReport 0 false) (tr (run ops)) /\ creds (run ops) = [] /\ kept 0 (run ops) = Freed.
Proof.
  eexists. split; [reflexivity|]. split; [apply solob_sound; vm_compute; reflexivity|].
  split; [apply freshb_sound; vm_compute; reflexivity|].
  split; [apply apartb_sound; vm_compute; reflexivity|].
  split; [|vm_compute; tauto].
  eexists [_; _; _; _; _; _; _; _; _; _; _; _; _; _; _; _; _; _; _; _; _], [_; _; _].
  vm_compute. reflexivity.
Qed.

(** A call that fails for want of memory has already removed the credential
    of the device. *)
Theorem C131_failed_call_forgets_refuted : exists ops,
  ops = jw_run ++ [ODiscover 7 1; OEndpoints 0] /\ creds (run ops) = [(7, true)] /\
  creds (run (ops ++ [OCall JustWorks 7 NoContext []])) = [] /\
  tr (run (ops ++ [OCall JustWorks 7 NoContext []])) = tr (run ops) ++ [ENo].
Proof. eexists. split; [reflexivity|]. vm_compute. repeat split; reflexivity. Qed.

(** A second call for a device in the middle of its transfer removes the
    credential, and the transfer is reported as successful without it. *)
Theorem C131_success_without_credential_refuted : exists ops,
  ops = [ODiscover 5 1; OEndpoints 0; OCall JustWorks 5 AllWell []] ++ fine_answers 8 ++
        [OCall JustWorks 7 NoContext []] ++ fine_answers 7 /\
  In (EReport 0 true) (tr (run ops)) /\ kept 0 (run ops) = Owned /\
  uuid_of 0 (run ops) = 7 /\ creds (run ops) = [].
Proof. eexists. split; [reflexivity|]. vm_compute. tauto. Qed.

Print Assumptions C128_reported_once.
Print Assumptions C128_all_end.
Print Assumptions C128_closing_ends.
Print Assumptions C128_refused_is_reported_refuted.
Print Assumptions C129_story.
Print Assumptions C129_success_is_complete.
Print Assumptions C129_owned_after_credential.
Print Assumptions C129_silent_after_report.
Print Assumptions C129_one_address_refuted.
Print Assumptions C130_no_use_after_free.
Print Assumptions C130_two_transfers_refuted.
Print Assumptions C130_pending_discovery_refuted.
Print Assumptions C130_no_memory_for_pin_refuted.
Print Assumptions C131_failed_is_freed.
Print Assumptions C131_success_is_owned.
Print Assumptions C131_success_has_credential.
Print Assumptions C131_late_failure_refuted.
Print Assumptions C131_failed_call_forgets_refuted.
Print Assumptions C131_success_without_credential_refuted.
