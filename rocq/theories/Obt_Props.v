(** Properties C124-C127: the management operations of the onboarding tool. *)

From Coq Require Import List Bool Arith Lia.
From Verif Require Import Obt_Model Obt_Spec Obt_Proofs Obt2_Proofs Obt3_Proofs Obt4_Proofs Obt5_Proofs.
Import ListNotations.

(** * C124: every accepted operation is reported exactly once. *)

(** At any time an accepted operation either has been reported, once, and
    has no request left, or has not been reported and waits for exactly one
    request.  What was not accepted is not reported. *)
Theorem C124_reported_once : forall ops c,
  accepted c (tr (run ops)) = reported c (tr (run ops)) + pending c (run ops) /\
  accepted c (tr (run ops)) <= 1.
Proof. intros. apply counts. apply run_inv. Qed.

(** If the pending requests are answered, or given up, six times as many
    answers as there are operations end them all. *)
Theorem C124_all_end : forall ops rs c,
  6 * length (reqs (run ops)) <= length rs ->
  reported c (tr (run (all_answered rs ops))) = accepted c (tr (run (all_answered rs ops))).
Proof. exact all_end. Qed.

(** Closing a connection always ends: the nested calls do not run away. *)
Theorem C124_closing_ends : forall ops, ~ In EStuck (tr (run ops)).
Proof. intros. apply i_stuck. apply run_inv. Qed.

Definition pair_run : list op :=
  [OOwn 7; OOwn 8; OCall (CPair 7 8) true;
   OAnswer 0 true true 0 0 0 [7; 8]; OAnswer 0 true true 42 0 0 [7; 8];
   OAnswer 0 true true 0 0 0 [7; 8]; OAnswer 0 true true 0 0 0 [7; 8];
   OAnswer 0 true true 0 0 0 [7; 8]; OAnswer 0 true true 0 0 0 [7; 8]].

Example C124_pair_run :
  tr (run pair_run) =
    [ECall 0 (TPair (0, 7) (1, 8));
     ESent 0 7 (MDos DosPro); EAns 0 true; ESent 0 8 (MDos DosPro); EAns 0 true;
     ESent 0 7 (MKey 8 42); EAns 0 true; ESent 0 8 (MKey 7 42); EAns 0 true;
     ESent 0 7 (MDos DosNop); EAns 0 true; ESent 0 8 (MDos DosNop); EAns 0 true;
     EReport 0 true].
Proof. vm_compute. reflexivity. Qed.

(** Two operations under way on two devices, then eighteen answers. *)
Definition two_run : list op :=
  [OOwn 7; OOwn 8; OCall (COsc 7 8) true; OCall (CAce 8 3) true; OCall (CAce 9 3) true].

Example C124_two_run :
  length (reqs (run two_run)) = 2 /\
  map (fun c => accepted c (tr (run two_run))) [0; 1; 2] = [1; 1; 0] /\
  let s := run (all_answered (repeat (mkreply 1 true true 5 6 7 []) 12) two_run) in
  map (fun c => reported c (tr s)) [0; 1; 2] = [1; 1; 0].
Proof. vm_compute. repeat split; reflexivity. Qed.

(** * C125: the requests are made in order, and success means all of them. *)

Theorem C125_story : forall ops c, story c (history c (tr (run ops))).
Proof. exact stories. Qed.

(** An operation reported as successful made all of its requests, each after
    the previous one had been answered with success; the last ones put its
    devices back into normal operation. *)
Theorem C125_success_is_complete : forall ops c,
  In (EReport c true) (tr (run ops)) ->
  exists t k a b,
    history c (tr (run ops)) = ECall c t :: said c (script t k a b) ++ success c t.
Proof.
  intros ops c H. apply success_complete; [apply stories|].
  apply in_history; [cbn; apply Nat.eqb_refl|exact H].
Qed.

(** After success both devices of a pair hold the same key, each for the
    other one. *)
Theorem C125_same_key : forall ops c d e,
  In (EReport c true) (tr (run ops)) -> In (ECall c (TPair d e)) (tr (run ops)) ->
  exists k, In (ESent c (snd d) (MKey (snd e) k)) (tr (run ops)) /\
            In (ESent c (snd e) (MKey (snd d) k)) (tr (run ops)).
Proof.
  intros ops c [h u] [h' v] H K. destruct (C125_success_is_complete ops c H) as [t [k [a [b E]]]].
  assert (T : t = TPair (h, u) (h', v)).
  { rewrite (in_history c) in K by (cbn; apply Nat.eqb_refl). rewrite E in K.
    destruct K as [K|K]; [injection K as K; exact K|]. apply in_app_or in K.
    destruct K as [K|K]; [no_said K|].
    destruct t as [[g w]|g g'|g g'|g y|g y|g y]; cbn [success In] in K;
      repeat (destruct K as [K|K]; [discriminate K|]); destruct K. }
  subst t. exists k.
  split; apply (in_history c); [cbn; apply Nat.eqb_refl| |cbn; apply Nat.eqb_refl|]; rewrite E; cbn; auto 12.
Qed.

(** The same for OSCORE contexts, with the identifiers crossed over. *)
Theorem C125_crossed_ids : forall ops c d e,
  In (EReport c true) (tr (run ops)) -> In (ECall c (TOsc d e)) (tr (run ops)) ->
  exists k a b, In (ESent c (snd d) (MOsc (snd e) k a b)) (tr (run ops)) /\
                In (ESent c (snd e) (MOsc (snd d) k b a)) (tr (run ops)).
Proof.
  intros ops c [h u] [h' v] H K. destruct (C125_success_is_complete ops c H) as [t [k [a [b E]]]].
  assert (T : t = TOsc (h, u) (h', v)).
  { rewrite (in_history c) in K by (cbn; apply Nat.eqb_refl). rewrite E in K.
    destruct K as [K|K]; [injection K as K; exact K|]. apply in_app_or in K.
    destruct K as [K|K]; [no_said K|].
    destruct t as [[g w]|g g'|g g'|g y|g y|g y]; cbn [success In] in K;
      repeat (destruct K as [K|K]; [discriminate K|]); destruct K. }
  subst t. exists k, a, b.
  split; apply (in_history c); [cbn; apply Nat.eqb_refl| |cbn; apply Nat.eqb_refl|]; rewrite E; cbn; auto 12.
Qed.

(** The tool forgets its credentials for a device only when the device has
    confirmed a reset. *)
Theorem C125_forget_only_after_reset : forall ops c u,
  In (EForget c u) (tr (run ops)) ->
  exists d, history c (tr (run ops)) =
    [ECall c (TReset (d, u)); ESent c u (MDos DosReset); EAns c true; EForget c u; EReport c true].
Proof.
  intros ops c u H. apply forget_only_reset; [apply stories|].
  apply in_history; [cbn; apply Nat.eqb_refl|exact H].
Qed.

Example C125_reset_run :
  let s := run [OOwn 7; OCall (CReset 7) true; OAnswer 0 true true 0 0 0 [7]] in
  tr s = [ECall 0 (TReset (0, 7)); ESent 0 7 (MDos DosReset); EAns 0 true;
          EForget 0 7; EReport 0 true; EFree 0] /\ devs s = [] /\ creds s = [].
Proof. vm_compute. repeat split; reflexivity. Qed.

Example C125_osc_run :
  history 0 (tr (run (all_answered (repeat (mkreply 0 true true 5 6 7 []) 6)
     [OOwn 7; OOwn 8; OCall (COsc 7 8) true]))) =
  ECall 0 (TOsc (0, 7) (1, 8)) ::
    said 0 [(7, MDos DosPro); (8, MDos DosPro); (7, MOsc 8 5 6 7); (8, MOsc 7 5 7 6);
            (7, MDos DosNop); (8, MDos DosNop)] ++ [EReport 0 true].
Proof. vm_compute. reflexivity. Qed.

(** * C126: freed devices are not used. *)

(** ... as long as the application keeps hard resets apart from everything
    else on the same device. *)
Theorem C126_no_use_after_free : forall ops, careful ops ->
  forall h, ~ In (EFault h) (tr (run ops)).
Proof. intros ops H. apply (careful_good ops H). Qed.

(** Resets of one device while another one has two operations, of which one
    fails. *)
Definition careful_run : list op :=
  [OOwn 7; OOwn 8; OCall (CReset 7) true; OCall (CAce 8 1) true; OCall (CDelKey 8 2) true;
   OAnswer 1 false true 0 0 0 [7; 8]; OAnswer 0 true true 0 0 0 [7; 8];
   OOwn 7; OCall (CPair 7 8) true].

Example C126_careful_run :
  careful careful_run /\ In (EFree 0) (tr (run careful_run)) /\
  length (ctxs (run careful_run)) = 1.
Proof.
  split; [apply carefulb_sound; vm_compute; reflexivity|].
  vm_compute. split; [auto 20|reflexivity].
Qed.

(** Two resets of the same device: the answer to the first closes the
    connection, which ends the second, which frees the device; the first
    then reads it and frees it again. *)
Theorem C126_double_reset_refuted : exists ops,
  ops = [OOwn 7; OCall (CReset 7) true; OCall (CReset 7) true;
         OAnswer 0 true true 0 0 0 [7]] /\
  tr (run ops) =
    [ECall 0 (TReset (0, 7)); ESent 0 7 (MDos DosReset);
     ECall 1 (TReset (0, 7)); ESent 1 7 (MDos DosReset);
     EAns 0 true; ELost 1; EReport 1 false; EFree 0;
     EForget 0 7; EFault 0; EReport 0 true; EFault 0].
Proof. eexists. split; [reflexivity|]. vm_compute. reflexivity. Qed.

(** A reset requested while an access control entry is being provisioned on
    the device: the end of the provisioning ends the reset, which frees the
    device, whose UUID is then given to the application's callback. *)
Theorem C126_reset_while_provisioning_refuted : exists ops,
  ops = [OOwn 7; OCall (CAce 7 1) true; OCall (CReset 7) true;
         OAnswer 0 false true 0 0 0 [7]] /\
  tr (run ops) =
    [ECall 0 (TAce (0, 7) 1); ESent 0 7 (MDos DosPro);
     ECall 1 (TReset (0, 7)); ESent 1 7 (MDos DosReset);
     EAns 0 false; ELost 1; EReport 1 false; EFree 0; EFault 0; EReport 0 false].
Proof. eexists. split; [reflexivity|]. vm_compute. reflexivity. Qed.

(** A reset of the first device of a pair while the second one is being
    asked: the sequence goes on with the freed device. *)
Theorem C126_reset_of_a_pair_refuted : exists ops,
  ops = [OOwn 7; OOwn 8; OCall (CPair 7 8) true; OAnswer 0 true true 0 0 0 [7; 8];
         OCall (CReset 7) true; OAnswer 1 true true 0 0 0 [7; 8];
         OAnswer 0 true true 42 0 0 [8]] /\
  tr (run ops) =
    [ECall 0 (TPair (0, 7) (1, 8)); ESent 0 7 (MDos DosPro); EAns 0 true; ESent 0 8 (MDos DosPro);
     ECall 1 (TReset (0, 7)); ESent 1 7 (MDos DosReset); EAns 1 true; EForget 1 7; EReport 1 true;
     EFree 0; EAns 0 true; EFault 0; ESent 0 7 (MKey 8 42)].
Proof. eexists. split; [reflexivity|]. vm_compute. reflexivity. Qed.

(** * C127: what an operation leaves behind. *)

(** A device stays known until a hard reset of it is reported. *)
Theorem C127_known_until_reset : forall ops o d,
  In d (devs (run ops)) ->
  In d (devs (run (ops ++ [o]))) \/
  exists c e, in_progress c (TReset e) (tr (run ops)) /\ fst e = fst d /\
              reported c (tr (run (ops ++ [o]))) = 1.
Proof. exact known_until_reset. Qed.

(** A failure has a cause: a request that could not be sent, was refused, or
    lost its connection; and nothing is sent after it. *)
Theorem C127_failure_has_a_cause : forall ops c,
  In (EReport c false) (tr (run ops)) ->
  exists t k a b n,
    history c (tr (run ops)) =
      ECall c t :: said c (firstn n (script t k a b)) ++ [EReport c false] \/
    exists u m e, nth_error (script t k a b) n = Some (u, m) /\
      (e = EAns c false \/ e = ELost c) /\
      history c (tr (run ops)) =
        ECall c t :: said c (firstn n (script t k a b)) ++ [ESent c u m; e; EReport c false].
Proof.
  intros ops c H. rewrite (in_history c) in H by (cbn; apply Nat.eqb_refl).
  destruct (C125_story ops c) as [|t k a b n u m A|t k a b|t k a b n A B|t k a b n u m e A B].
  - destruct H.
  - exfalso. destruct H as [H|H]; [discriminate H|]. apply in_app_or in H.
    destruct H as [H|[H|[]]]; [no_said H|discriminate H].
  - exfalso. destruct H as [H|H]; [discriminate H|]. apply in_app_or in H.
    destruct H as [H|H]; [no_said H|].
    destruct t as [[g w]|g g'|g g'|g y|g y|g y]; cbn [success In] in H;
      repeat (destruct H as [H|H]; [discriminate H|]); destruct H.
  - exists t, k, a, b, n. left. reflexivity.
  - exists t, k, a, b, n. right. exists u, m, e. auto.
Qed.

Example C127_unsent_run :
  history 0 (tr (run [OOwn 7; OCall (CDelKey 7 4) true; OAnswer 0 true false 0 0 0 [7]])) =
    [ECall 0 (TDelKey (0, 7) 4); ESent 0 7 (MDos DosPro); EAns 0 true; EReport 0 false].
Proof. vm_compute. reflexivity. Qed.

(** A failed operation leaves its device ready for provisioning: nothing
    puts it back into normal operation. *)
Theorem C127_failure_leaves_provisioning_refuted : exists ops,
  ops = [OOwn 7; OCall (CAce 7 1) true; OAnswer 0 true true 0 0 0 [7];
         OAnswer 0 false true 0 0 0 [7]] /\
  tr (run ops) =
    [ECall 0 (TAce (0, 7) 1); ESent 0 7 (MDos DosPro); EAns 0 true;
     ESent 0 7 (MAce 1); EAns 0 false; EReport 0 false] /\
  reqs (run ops) = [].
Proof. eexists. split; [reflexivity|]. vm_compute. split; reflexivity. Qed.

(** A failed hard reset makes the tool forget the device, though not its
    credentials: the next call is refused. *)
Theorem C127_failed_reset_keeps_device_refuted : exists ops,
  ops = [OOwn 7; OCall (CReset 7) true; OAnswer 0 false true 0 0 0 [7]; OCall (CAce 7 1) true] /\
  tr (run ops) =
    [ECall 0 (TReset (0, 7)); ESent 0 7 (MDos DosReset); EAns 0 false; EReport 0 false; EFree 0;
     ERefused] /\
  creds (run ops) = [7].
Proof. eexists. split; [reflexivity|]. vm_compute. split; reflexivity. Qed.

(** The end of one operation fails another one on the same device, although
    every request was sent, answered and accepted and the network lost
    nothing. *)
Theorem C127_operations_do_not_disturb_refuted : exists ops,
  ops = [OOwn 7; OCall (CDelKey 7 1) true; OCall (CDelAce 7 2) true;
         OAnswer 0 true true 0 0 0 [7]; OAnswer 0 true true 0 0 0 [7];
         OAnswer 0 true true 0 0 0 [7]; OAnswer 0 true true 0 0 0 [7];
         OAnswer 0 true true 0 0 0 [7]] /\
  history 0 (tr (run ops)) =
    ECall 0 (TDelKey (0, 7) 1) ::
      said 0 [(7, MDos DosPro); (7, MDelKey 1); (7, MDos DosNop)] ++ [EReport 0 true] /\
  history 1 (tr (run ops)) =
    ECall 1 (TDelAce (0, 7) 2) ::
      said 1 [(7, MDos DosPro); (7, MDelAce 2)] ++
      [ESent 1 7 (MDos DosNop); ELost 1; EReport 1 false].
Proof. eexists. split; [reflexivity|]. vm_compute. split; reflexivity. Qed.

Print Assumptions C124_reported_once.
Print Assumptions C124_all_end.
Print Assumptions C124_closing_ends.
Print Assumptions C125_story.
Print Assumptions C125_success_is_complete.
Print Assumptions C125_same_key.
Print Assumptions C125_crossed_ids.
Print Assumptions C125_forget_only_after_reset.
Print Assumptions C126_no_use_after_free.
Print Assumptions C126_double_reset_refuted.
Print Assumptions C126_reset_while_provisioning_refuted.
Print Assumptions C126_reset_of_a_pair_refuted.
Print Assumptions C127_known_until_reset.
Print Assumptions C127_failure_has_a_cause.
Print Assumptions C127_failure_leaves_provisioning_refuted.
Print Assumptions C127_failed_reset_keeps_device_refuted.
Print Assumptions C127_operations_do_not_disturb_refuted.
