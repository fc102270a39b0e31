(** Properties C32, C33 and C50: registrations, their sequence numbers, and confirmable notifications. *)
From Verif Require Import Common Ep_Model Ep_Spec Obs_Model Obs_Spec Obs_Proofs Obs2_Proofs Obs3_Proofs Obs4_Proofs.
Local Open Scope N_scope.

(** * C32 *)
Theorem C32_one_registration_per_client_path_and_interface ri P s l :
  reach ri P s l -> ForallOrdPairs (fun a b => ~ same_relation a b) (s_obs s).
Proof. exact (relations ri P s l). Qed.

Theorem C32_count_of_observers ri P s l r :
  reach ri P s l -> (count r (s_obs s) < 256)%nat -> s_num s r = N.of_nat (count r (s_obs s)).
Proof. intros R C. rewrite (gd_num _ _ (reach_good _ _ _ _ R) r). lia. Qed.

Theorem C32_registering_replaces_only_the_same_relation ri P s l q :
  reach ri P s l -> op_ok ri s (Request q) -> q_obs q = 0 -> r_obsv (ri (q_res q)) = true -> q_mem q = true ->
  (r_per (ri (q_res q)) = true -> q_per q = true) -> (r_coll (ri (q_res q)) = true -> q_coll q = true) ->
  let n := mk_obs (q_res q) (q_url q) (q_ep q) (q_tok q) 0 (q_blk q) (s_cnt s) (q_if q) in
  let '(s', ob, it) := handle_observation ri s q in
  ob = Some 0 /\ it = [IReg (key_of n)] /\ s_cnt s' = s_cnt s /\
  forall o, In o (s_obs s') <-> o = n \/ In o (s_obs s) /\ ~ same_relation o n.
Proof. exact (registered ri P s l q). Qed.

Theorem C32_disconnect_ends_the_registrations_of_that_client ri P s l e o :
  reach ri P s l -> ep_ok e ->
  (In o (s_obs (fst (step ri s (Gone e)))) <-> In o (s_obs s) /\ ~ same_peer (o_ep o) e).
Proof. exact (client_gone ri P s l e o). Qed.

Theorem C32_cancel_ends_the_registration_with_the_token ri P s l q :
  reach ri P s l -> op_ok ri s (Request q) -> q_obs q = 1 -> r_obsv (ri (q_res q)) = true ->
  (forall a b, In a (s_obs s) -> In b (s_obs s) -> same_peer (o_ep a) (q_ep q) -> same_peer (o_ep b) (q_ep q) ->
     o_tok a = q_tok q -> o_tok b = q_tok q -> a = b) ->
  forall o, In o (s_obs (fst (step ri s (Request q)))) <->
            In o (s_obs s) /\ ~ (same_peer (o_ep o) (q_ep q) /\ o_tok o = q_tok q).
Proof. exact (cancelled ri P s l q). Qed.

Theorem C32_reset_ends_the_registration_with_the_message_id ri P s l e m :
  reach ri P s l -> ep_ok e ->
  (forall a b, In a (s_obs s) -> In b (s_obs s) -> same_peer (o_ep a) e -> same_peer (o_ep b) e ->
     o_mid a = m -> o_mid b = m -> a = b) ->
  forall o, In o (s_obs (fst (step ri s (RstMid e m)))) <-> In o (s_obs s) /\ ~ (same_peer (o_ep o) e /\ o_mid o = m).
Proof. exact (reset_mid ri P s l e m). Qed.

Theorem C32_state_change_ends_and_tells_the_denied ri s d b f :
  let '(s', it) := step ri s (DosChange d b f) in
  (forall o, In o (s_obs s') <-> In o (s_obs s) /\ ~ (e_dev (o_ep o) = d /\ (b = true \/ f o = true))) /\
  it = map (fun o => ICancel (key_of o) 163) (filter (fun o => (e_dev (o_ep o) =? d) && (b || f o)) (s_obs s)).
Proof. exact (denied ri s d b f). Qed.

Theorem C32_deletion_ends_and_tells_the_observers ri P s l r :
  reach ri P s l -> (count r (s_obs s) < 256)%nat ->
  s_obs (fst (step ri s (Delete r))) = filter (fun o => negb (o_res o =? r)%nat) (s_obs s) /\
  snd (step ri s (Delete r)) = map (fun o => ICancel (key_of o) 132) (filter (fun o => (o_res o =? r)%nat) (s_obs s)).
Proof. intros R. exact (delete_spec ri s r (reach_good _ _ _ _ R)). Qed.

Theorem C32_no_registration_of_a_deleted_resource ri s l o :
  reach ri few s l -> In o (s_obs s) -> s_live s (o_res o) = true.
Proof. intros R I. pose proof (reach_live ri s l R) as L. unfold live_ok in L. rewrite Forall_forall in L. exact (L o I). Qed.

Theorem C32_a_notification_goes_once_to_each_observer ri P s l r e given fill1 env :
  reach ri P s l -> r_obsv (ri r) = true -> (0 < count r (s_obs s) < 256)%nat ->
  (forall e', e = Some e' -> ep_ok e' /\ (given = true \/ fill1 = true)) ->
  (forall o, In o (s_obs s) -> recipient ri r e o -> fine (env o)) ->
  exists f con, (forall o, In o (s_obs s) -> (f o = true <-> recipient ri r e o)) /\ (forall o, con_fine env o (con o)) /\
  snd (step ri s (Notify r e true given fill1 env)) =
    map (fun o => ISeq (key_of o) (o_cnt o) true (con o)) (filter f (s_obs s)).
Proof. exact (notified_all ri P s l r e given fill1 env). Qed.

(** The count has eight bits: with 256 observers it is zero, nobody is notified, and deleting the resource leaves
    registrations that refer to it. *)
Theorem C32_with_256_observers_refuted : exists ri s l r, reach ri always s l /\ count r (s_obs s) = 256%nat /\
  snd (step ri s (Notify r None true true true all_fine)) = [] /\
  s_live (fst (step ri s (Delete r))) r = false /\ count r (s_obs (fst (step ri s (Delete r)))) = 256%nat /\
  snd (step ri s (Delete r)) = [].
Proof. exact many_refuted. Qed.

(** A cancellation looks at the token alone: it can end the registration for another resource. *)
Theorem C32_cancel_ends_another_resource_refuted : exists ri s l q o o', reach ri always s l /\ op_ok ri s (Request q) /\ q_obs q = 1 /\
  In o (s_obs s) /\ o_res o <> q_res q /\ o_res o' = q_res q /\ o_url o' = q_url q /\ o_ep o' = q_ep q /\ o_tok o' = q_tok q /\
  s_obs (fst (step ri s (Request q))) = [o'].
Proof. exact token_refuted. Qed.

(** Before the first notification the message id is 0: a reset of message 0 ends the registration. *)
Theorem C32_reset_of_message_0_refuted : exists ri s l e o,
  reach ri always s l /\ seqs l = 0%nat /\ s_obs s = [o] /\ o_ep o = e /\ s_obs (fst (step ri s (RstMid e 0))) = [].
Proof. exact mid_refuted. Qed.

(** Without memory for the registration the client is still told that it is registered. *)
Theorem C32_told_registered_without_memory_refuted : exists ri s q,
  op_ok ri s (Request q) /\ reach ri always s [] /\ snd (fst (handle_observation ri s q)) = Some 0 /\
  s_obs (fst (fst (handle_observation ri s q))) = [].
Proof. exact told_refuted. Qed.

(** RFC 7641, section 4.2, asks that an error notification ends the registration; here it stays. *)
Theorem C32_error_notification_keeps_registration_refuted : exists ri s l r o o' env,
  reach ri always s l /\ s_obs s = [o] /\ s_live s r = true /\
  snd (step ri s (Notify r None true true true env)) = [IErr (key_of o) 160] /\
  s_obs (fst (step ri s (Notify r None true true true env))) = [o'] /\ same_relation o o'.
Proof. exact error_refuted. Qed.

(** * C33 *)
Theorem C33_values_in_range ri P s l k v se c : reach ri P s l -> In (ISeq k v se c) l -> 2 <= v <= 2 ^ 24 - 1.
Proof.
  intros R I. apply in_split in I. destruct I as (a & b & ->). destruct (log_split _ _ _ _ _ _ _ _ _ R) as [-> _]. apply val_range.
Qed.

Theorem C33_later_notifications_are_fresher ri P s a k v1 s1 c1 b v2 s2 c2 d :
  reach ri P s (a ++ ISeq k v1 s1 c1 :: b ++ ISeq k v2 s2 c2 :: d) -> no_reg k b -> N.of_nat (seqs_of k b) < 2 ^ 23 - 3 -> fresher v1 v2.
Proof. exact (fresh_within ri P s a k v1 s1 c1 b v2 s2 c2 d). Qed.

Theorem C33_fresher_across_registrations ri P s a k b v1 s1 c1 c v2 s2 c2 d :
  reach ri P s (a ++ IReg k :: b ++ ISeq k v1 s1 c1 :: c ++ ISeq k v2 s2 c2 :: d) -> no_reg k b ->
  N.of_nat (seqs (b ++ c)) < 2 ^ 23 - 3 -> fresher v1 v2.
Proof. exact (fresh_across ri P s a k b v1 s1 c1 c v2 s2 c2 d). Qed.

Theorem C33_only_the_registered_are_notified ri P s a k v se c b : reach ri P s (a ++ ISeq k v se c :: b) -> In (IReg k) a.
Proof. intros R. exact (proj1 (proj2 (log_split _ _ _ _ _ _ _ _ _ R))). Qed.

(** The answer to a registration carries 0: after half the sequence the first notification is not fresher than it,
    nor than the notifications before the client registered again. *)
Theorem C33_first_notification_refuted : exists ri s l q p k v1 v2 con,
  reach ri always s l /\ op_ok ri s (Request q) /\ q_obs q = 0 /\
  snd (fst (handle_observation ri s q)) = Some 0 /\ snd (handle_observation ri s q) = [IReg k] /\
  (exists se c, In (ISeq k v1 se c) l) /\ In (ISeq k v2 true con) (snd (step ri (fst (fst (handle_observation ri s q))) p)) /\
  ~ fresher 0 v2 /\ ~ fresher v1 v2.
Proof. exact seq_refuted. Qed.

(** * C50 *)
Theorem C50_one_of_five_notifications_is_confirmable ri P s a b c k :
  reach ri P s (a ++ b ++ c) -> no_reg k b -> (5 <= seqs_of k b)%nat ->
  N.testbit (k_fl k) 4 = false -> k_if k <> IF_STARTUP_REVERT -> exists v se, In (ISeq k v se true) b.
Proof. exact (confirmable ri P s a b c k). Qed.

(** * Concrete cases *)
Definition demo : list op :=
  [rq 0 0 1000 7; rq 0 0 2000 8; rq 1 0 1000 9; note 0; rq 0 0 1000 10; note 0; note 1; rq 0 1 2000 8; note 0; Delete 1].
Example demo_reached : reach ri0 always (fst (run ri0 init demo)) (snd (run ri0 init demo)).
Proof. apply run0. vm_compute. reflexivity. Qed.
Example demo_left : map (fun o => (o_res o, e_port (o_ep o), o_tok o, o_cnt o)) (s_obs (fst (run ri0 init demo))) = [(0%nat, 1000, [10], 6)].
Proof. vm_compute. reflexivity. Qed.
Example demo_log : map (fun i => match i with IReg k => (0, k_port k, 0) | ISeq k v _ _ => (1, k_port k, v) | IErr k c => (2, k_port k, c) | ICancel k c => (3, k_port k, c) end)
   (snd (run ri0 init demo)) =
  [(0, 1000, 0); (0, 2000, 0); (0, 1000, 0); (1, 1000, 2); (1, 2000, 2); (0, 1000, 0); (1, 2000, 3); (1, 1000, 4); (1, 1000, 2); (1, 1000, 5); (3, 1000, 132)].
Proof. vm_compute. reflexivity. Qed.
Example demo_count : s_num (fst (run ri0 init demo)) 0%nat = 1 /\ s_num (fst (run ri0 init demo)) 1%nat = 0.
Proof. vm_compute. split; reflexivity. Qed.
Example demo_fine : forall o, fine (all_fine o).
Proof. intros o. repeat split; discriminate. Qed.
Example demo_confirmable :
  map (fun i => match i with ISeq k v _ c => (v, c) | _ => (0, false) end) (snd (run ri0 init (rq 0 0 1000 7 :: repeat (note 0) 5))) =
  [(0, false); (2, false); (3, false); (4, false); (5, true); (6, false)].
Proof. vm_compute. reflexivity. Qed.
Example wrap_is_fresher : fresher 16777215 2 /\ ~ fresher 2 16777215.
Proof. unfold fresher. change (2 ^ 23) with 8388608. split; lia. Qed.

Print Assumptions C32_one_registration_per_client_path_and_interface.
Print Assumptions C32_count_of_observers.
Print Assumptions C32_registering_replaces_only_the_same_relation.
Print Assumptions C32_disconnect_ends_the_registrations_of_that_client.
Print Assumptions C32_cancel_ends_the_registration_with_the_token.
Print Assumptions C32_reset_ends_the_registration_with_the_message_id.
Print Assumptions C32_state_change_ends_and_tells_the_denied.
Print Assumptions C32_deletion_ends_and_tells_the_observers.
Print Assumptions C32_no_registration_of_a_deleted_resource.
Print Assumptions C32_a_notification_goes_once_to_each_observer.
Print Assumptions C32_with_256_observers_refuted.
Print Assumptions C32_cancel_ends_another_resource_refuted.
Print Assumptions C32_reset_of_message_0_refuted.
Print Assumptions C32_told_registered_without_memory_refuted.
Print Assumptions C32_error_notification_keeps_registration_refuted.
Print Assumptions C33_values_in_range.
Print Assumptions C33_later_notifications_are_fresher.
Print Assumptions C33_fresher_across_registrations.
Print Assumptions C33_only_the_registered_are_notified.
Print Assumptions C33_first_notification_refuted.
Print Assumptions C50_one_of_five_notifications_is_confirmable.
