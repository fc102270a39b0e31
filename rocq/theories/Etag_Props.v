(** Properties C35 and C51: ETags and incremental discovery. *)
From Verif Require Import Common Etag_Model Etag_Spec Etag_Proofs Etag2_Proofs.
Local Open Scope N_scope.

Theorem C35_tag_stands_for_one_content crc s seen : reach crc s seen -> consistent seen.
Proof. intros R. exact (i_con _ _ _ (reach_inv _ _ _ R)). Qed.

Theorem C35_changed_resource_gets_a_greater_tag_than_any_before crc s seen r d :
  reach crc s seen -> op_ok crc s seen (Change r d) -> In (key_of r) (map key_of (g_res s)) ->
  exists r', In r' (g_res (step crc s (Change r d))) /\ key_of r' = key_of r /\ e_con r' = e_con r /\
             (forall k t c, In (k, t, c) seen -> t < e_tag r') /\
             (forall x, In x (g_res (step crc s (Change r d))) -> x = r' \/ In x (g_res s) /\ key_of x <> key_of r).
Proof. exact (change_greatest crc s seen r d). Qed.

Theorem C35_new_resource_gets_a_greater_tag_than_any_before crc s seen r d :
  reach crc s seen -> op_ok crc s seen (Create r d) ->
  exists t, g_res (step crc s (Create r d)) = g_res s ++ [set_tag r t] /\ forall k u c, In (k, u, c) seen -> u < t.
Proof. exact (create_greatest crc s seen r d). Qed.

Theorem C35_validated_content_is_current crc s seen r t c :
  reach crc s seen -> In r (g_res s) -> In (key_of r, t, c) seen -> not_modified (e_tag r) (Some t) = true -> crc (e_con r) = c.
Proof. exact (answered_valid crc s seen r t c). Qed.

Theorem C35_restart_keeps_tags crc s seen can inp : reach crc s seen ->
  (forall r, In r (g_res s) -> e_ign r = false /\ e_crc r = true /\ e_tag r <> 0 /\ (e_plat r = true \/ can (e_dev r) = true)) ->
  g_res (step crc (step crc s Dump) (Start can inp (g_res s))) = g_res s.
Proof. exact (restart_keeps crc s seen can inp). Qed.

Definition ra (con : N) : res := mk_res false 0 [47; 97] 0 con false true false.
Definition rb (con : N) : res := mk_res false 0 [47; 98] 0 con false true false.
Definition rd (con : N) : res := mk_res false 0 [47; 111] 0 con false true true.
Lemma room1 : room 1000000 5. Proof. vm_compute. reflexivity. Qed.
Definition s1 : st := step (fun c => c) (step (fun c => c) (mk_st 0 [] []) (Create (ra 1) (100, 0))) Dump.
Definition seen1 : list sight := view (fun c => c) (g_res s1) ++ view (fun c => c) (g_res s1).
Lemma s1_reach : reach (fun c => c) s1 seen1.
Proof.
  assert (R : reach (fun c => c) (step (fun c => c) (mk_st 0 [] []) (Create (ra 1) (100, 0))) (view (fun c => c) (g_res s1))).
  { apply (ReachS (fun c => c) (mk_st 0 [] []) [] (Create (ra 1) (100, 0))); [constructor|]. split; [|intros []]. exists 1000000. repeat split; cbn; lia. }
  exact (ReachS _ _ _ Dump R I).
Qed.

(** A stored ETag is not taken into account when the content changed meanwhile: with a clock behind, the new content
    can get the ETag of the old one. *)
Theorem C35_after_clock_set_back_refuted : exists crc s seen can inp cfg k t c1 c2,
  reach crc s seen /\ NoDup (map key_of cfg) /\ (exists m, g_etag s <= m /\ clock_below inp m /\ room m (2 * List.length cfg + 2)) /\
  (forall d, can d = true) /\
  In (k, t, c1) seen /\ In (k, t, c2) (view crc (g_res (step crc s (Start can inp cfg)))) /\ c1 <> c2.
Proof.
  exists (fun c => c), s1, seen1, (fun _ => true), (fun n => (match n with 3%nat => 100 | _ => 50 end, 0)), [ra 2], (false, 0, [47; 97]), 101, 1, 2.
  split; [exact s1_reach|]. split; [repeat constructor; intros []|]. split.
  - exists 100000. split; [vm_compute; discriminate|]. split; [|vm_compute; reflexivity]. intros n. cbn. do 4 (destruct n as [|n]; [cbn; lia|]). lia.
  - split; [reflexivity|]. split; [left; reflexivity|]. split; [left; reflexivity|discriminate].
Qed.
(** Nor do the resources of a device that is not in normal operation when the ETags are loaded. *)
Theorem C35_before_normal_operation_refuted : exists crc s seen inp cfg k t c1 c2,
  reach crc s seen /\ NoDup (map key_of cfg) /\ (exists m, g_etag s <= m /\ clock_below inp m /\ room m (2 * List.length cfg + 2)) /\
  In (k, t, c1) seen /\ In (k, t, c2) (view crc (g_res (step crc s (Start (fun _ => false) inp cfg)))) /\ c1 <> c2.
Proof.
  exists (fun c => c), s1, seen1, (fun n => (100, 0)), [ra 2], (false, 0, [47; 97]), 101, 1, 2.
  split; [exact s1_reach|]. split; [repeat constructor; intros []|]. split.
  - exists 100000. split; [vm_compute; discriminate|]. split; [|vm_compute; reflexivity]. intros n. cbn. lia.
  - split; [left; reflexivity|]. split; [left; reflexivity|discriminate].
Qed.

(** * C51 *)
Theorem C51_incremental_discovery_returns_what_is_new crc acc s seen (known : list (st * list sight)) e0 cs :
  (forall s1 seen1, In (s1, seen1) known -> reach crc s1 seen1 /\ later crc s1 seen1 s seen) ->
  (forall t, e0 = Some t \/ In t cs -> exists s1 seen1, In (s1, seen1) known /\ t = batch_etag acc (g_res s1)) ->
  (forall l, batch acc (g_res s) e0 cs = Some l -> forall r, In r l -> In r (g_res s) /\ acc r = true) /\
  forall r, In r (g_res s) -> acc r = true -> e_disc r = false ->
    (exists l, batch acc (g_res s) e0 cs = Some l /\ In r l) \/ exists s1 seen1, In (s1, seen1) known /\ In r (g_res s1).
Proof. exact (incremental crc acc s seen known e0 cs). Qed.

(** A removed resource goes unnoticed, even though the discovery resource has changed. *)
Definition three : st := mk_st 303 [set_tag (rd 1) 101; set_tag (ra 1) 202; set_tag (rb 1) 303] [].
Theorem C51_removed_resource_unnoticed_refuted : exists s acc r d,
  let s2 := step (fun c => c) (step (fun c => c) s (Remove r)) (Change d (400, 0)) in
  In r (g_res s) /\ acc r = true /\ ~ In (key_of r) (map key_of (g_res s2)) /\
  batch acc (g_res s2) (Some (batch_etag acc (g_res s))) [] = None.
Proof.
  exists three, (fun _ => true), (set_tag (ra 1) 202), (rd 2). cbn zeta. split; [right; left; reflexivity|]. split; [reflexivity|]. split.
  - vm_compute. intros [H|[H|[]]]; discriminate.
  - vm_compute. reflexivity.
Qed.
(** A resource to which the client has gained access meanwhile is not reported. *)
Theorem C51_newly_accessible_resource_unnoticed_refuted : exists s acc1 acc2 r,
  In r (g_res s) /\ acc1 r = false /\ acc2 r = true /\ e_disc r = false /\
  batch acc2 (g_res s) (Some (batch_etag acc1 (g_res s))) [] = None.
Proof.
  exists three, (fun r => negb (list_eqb (e_uri r) [47; 97])), (fun _ => true), (set_tag (ra 1) 202). split; [right; left; reflexivity|]. vm_compute. repeat split; reflexivity.
Qed.

(** * Concrete cases *)
Definition crc0 : N -> N := fun c => c.
Definition t0 : st := mk_st 0 [] [].
Definition t1 : st := step crc0 t0 (Create (ra 1) (100, 41)).
Definition t2 : st := step crc0 t1 (Create (rb 1) (90, 3)).
Definition t3 : st := step crc0 t2 (Change (ra 2) (95, 0)).
Example tags : map e_tag (g_res t1) = [142] /\ map e_tag (g_res t2) = [142; 146] /\ map e_tag (g_res t3) = [147; 146] /\ map e_con (g_res t3) = [2; 1].
Proof. vm_compute. repeat split; reflexivity. Qed.
Example restart_with_clock_back :
  map e_tag (g_res (step crc0 (step crc0 t3 Dump) (Start (fun _ => true) (fun _ => (10, 7)) [ra 2; rb 5; rd 1]))) = [147; 163; 171].
Proof. vm_compute. reflexivity. Qed.
Example restart_condition : greatest_restored crc0 (step crc0 t3 Dump) (view crc0 (g_res t1) ++ view crc0 (g_res t2) ++ view crc0 (g_res t3)) (fun _ => true) [ra 2; rb 5; rd 1].
Proof.
  split; [auto|]. exists (ra 2), (mk_entry false 0 [47; 97] 147 2). split; [left; reflexivity|]. split; [left; reflexivity|]. split; [reflexivity|]. split; [reflexivity|]. split; [discriminate|]. split; [reflexivity|].
  intros k t c H. vm_compute in H. repeat (destruct H as [H|H]; [injection H as <- <- <-; vm_compute; discriminate|]). destruct H.
Qed.
Example increments : batch (fun _ => true) (g_res t3) (Some (batch_etag (fun _ => true) (g_res t2))) [] = Some [set_tag (ra 2) 147] /\
  batch (fun _ => true) (g_res t3) (Some 1) [] = Some (g_res t3) /\ batch (fun _ => true) (g_res t3) (Some 147) [] = None.
Proof. vm_compute. repeat split; reflexivity. Qed.
Example increments_reach : reach crc0 t1 (view crc0 (g_res t1)).
Proof. apply (ReachS crc0 t0 [] (Create (ra 1) (100, 41))); [constructor|]. split; [|intros []]. exists 1000000. repeat split; cbn; lia. Qed.

Print Assumptions C35_tag_stands_for_one_content.
Print Assumptions C35_changed_resource_gets_a_greater_tag_than_any_before.
Print Assumptions C35_new_resource_gets_a_greater_tag_than_any_before.
Print Assumptions C35_validated_content_is_current.
Print Assumptions C35_restart_keeps_tags.
Print Assumptions C35_after_clock_set_back_refuted.
Print Assumptions C35_before_normal_operation_refuted.
Print Assumptions C51_incremental_discovery_returns_what_is_new.
Print Assumptions C51_removed_resource_unnoticed_refuted.
Print Assumptions C51_newly_accessible_resource_unnoticed_refuted.
