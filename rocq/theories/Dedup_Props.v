(** C08: duplicate requests (messaging/coap/engine.c). *)
From Verif Require Import Common Dedup_Model Dedup_Spec Dedup_Proofs.
Local Open Scope N_scope.

(** A request that is not confirmable and repeats the message id and device of one of the last 25
    executed ones is not executed. *)
Theorem C08_duplicate_not_executed :
  forall rs r, r_con r = false -> ~ fresh 25%nat (executed rs (answers init rs) []) r ->
  answers init (rs ++ [r]) = answers init rs ++ [false].
Proof.
  intros rs r Hc Hf. destruct (exact_answer rs r) as [E G]. rewrite E. f_equal. f_equal. unfold good_answer in G.
  destruct (snd (accept (final init rs) r)); [|reflexivity]. destruct G as [G _]. destruct (G eq_refl) as [K|[K _]]; [congruence|contradiction].
Qed.
Print Assumptions C08_duplicate_not_executed.

(** Among the executed requests that are not confirmable, none repeats one of the 25 before it. *)
Theorem C08_no_repetition_in_window :
  forall rs, window_nodup 25%nat (executed rs (answers init rs) []).
Proof. intros rs. apply window_run; [exact ring_init|exact I]. Qed.
Print Assumptions C08_no_repetition_in_window.

(** A request whose message id and device are not among the last 25 executed ones is executed, unless it
    has message id 0 for device 0 and fewer than 25 were executed since the start. *)
Theorem C08_fresh_executed_partial :
  forall rs r, let past := executed rs (answers init rs) [] in
  fresh 25%nat past r -> (r_mid r <> 0 \/ r_dev r <> 0 \/ (25 <= List.length past)%nat) ->
  answers init (rs ++ [r]) = answers init rs ++ [true].
Proof.
  intros rs r past Hf H. destruct (exact_answer rs r) as [E G]. rewrite E. f_equal. f_equal. apply G. right. split; [exact Hf|].
  intros [K1 K2]. injection K1 as K3 K4. fold past in K2. unfold SIZE in K2. lia.
Qed.
Print Assumptions C08_fresh_executed_partial.

(** The first request of all is dropped when it has message id 0 and goes to device 0. *)
Theorem C08_first_mid_zero_dropped_refuted :
  exists r, r_con r = false /\ fresh 25%nat [] r /\ answers init [r] = [false].
Proof. exists (mkR false 0 0 1). split; [reflexivity|]. split; [intros []|vm_compute; reflexivity]. Qed.
Print Assumptions C08_first_mid_zero_dropped_refuted.

(** Two clients that use the same message id: the second client's request is dropped. *)
Theorem C08_other_client_dropped_refuted :
  exists a b, r_peer a <> r_peer b /\ answers init [b] = [true] /\ answers init [a; b] = [true; false].
Proof.
  exists (mkR false 7 0 1), (mkR false 7 0 2). split; [discriminate|]. split; vm_compute; reflexivity.
Qed.
Print Assumptions C08_other_client_dropped_refuted.

(** A retransmitted confirmable request is executed again. *)
Theorem C08_confirmable_duplicate_executed_refuted :
  exists r, r_con r = true /\ answers init [r; r] = [true; true].
Proof. exists (mkR true 7 0 1). split; vm_compute; reflexivity. Qed.
Print Assumptions C08_confirmable_duplicate_executed_refuted.

(** 27 requests with message ids 1..26, then 26 again (dropped) and 1 again (26 executed since: executed). *)
Definition sample : list req := map (fun k => mkR false (N.of_nat k) 0 (N.of_nat k)) (seq 1 26).
Example C08_case :
  answers init (sample ++ [mkR false 26 0 9; mkR false 1 0 9; mkR false 2 1 9]) = repeat true 26 ++ [false; true; true] /\
  ~ fresh 25%nat (executed sample (answers init sample) []) (mkR false 26 0 9) /\
  fresh 25%nat (executed sample (answers init sample) []) (mkR false 1 0 9) /\
  List.length (executed sample (answers init sample) []) = 26%nat.
Proof.
  split; [vm_compute; reflexivity|]. split; [intros H; apply H; vm_compute; left; reflexivity|]. split; [|vm_compute; reflexivity].
  vm_compute. intros H. repeat (destruct H as [H|H]; [discriminate H|]). exact H.
Qed.
