(** C21: fixed pools (util/oc_memb.c). *)
From Verif Require Import Common Memb_Model Memb_Spec Memb_Proofs.
Local Open Scope N_scope.

(** For any pool and any history of calls (frees of wrong pointers and repeated frees included) every answer
    is the promised one: no block is handed out twice, allocation fails exactly when all blocks are in use,
    the free count is capacity minus blocks in use, a new block reads as zeros and every block in use keeps
    what was last written to it. *)
Theorem C21_every_history :
  forall base size num os, 0 < base -> 0 < size ->
  trace_ok base size num [] os (run (fresh_pool base size num) os).
Proof. intros base size num os Hb Hs. apply run_ok; [exact Hb|exact Hs|apply inv_fresh]. Qed.
Print Assumptions C21_every_history.

(** Blocks in use never overlap. *)
Theorem C21_blocks_disjoint :
  forall base size num p s a b, 0 < size -> inv base size num p s ->
  In a (addrs s) -> In b (addrs s) -> a <> b -> a + size <= b \/ b + size <= a.
Proof.
  intros base size num p s a b Hs I Ha Hb Hne.
  assert (Hslot : forall x, In x (addrs s) -> slot base size num x).
  { intros x Hx. rewrite <- (i_num _ _ _ _ _ I). apply used_slot. eapply Permutation.Permutation_in; [exact (i_used _ _ _ _ _ I)|exact Hx]. }
  apply (slots_apart base size num); auto.
Qed.
Print Assumptions C21_blocks_disjoint.

(** oc_memb_init stays inside the pool's memory exactly when blocks are at least pointer-sized. *)
Theorem C21_init_inside_iff :
  forall base size num, (0 < num)%nat ->
  ((forall a, init_clears (fresh_pool base size num) a = true -> memb_inmemb (fresh_pool base size num) a = true) <-> 8 <= size).
Proof.
  intros base size num Hn. unfold init_clears, memb_inmemb. cbn [fresh_pool p_base p_size p_count]. rewrite repeat_length. split.
  - intros H. destruct (N.le_gt_cases 8 size) as [L|L]; [exact L|]. exfalso.
    specialize (H (base + N.of_nat num * 8 - 1)). destruct ((base <=? base + N.of_nat num * 8 - 1) && (base + N.of_nat num * 8 - 1 <? base + N.of_nat num * 8)) eqn:E; [|lia].
    specialize (H eq_refl). nia.
  - intros H a. nia.
Qed.
Print Assumptions C21_init_inside_iff.

(** With smaller blocks it writes past the end: 4-byte blocks. *)
Theorem C21_init_writes_outside_refuted :
  exists base size num a, init_clears (fresh_pool base size num) a = true /\ memb_inmemb (fresh_pool base size num) a = false.
Proof. exists 100, 4, 2%nat, 115. split; vm_compute; reflexivity. Qed.
Print Assumptions C21_init_writes_outside_refuted.

(** Three blocks of two bytes: use up, fail, free the middle one twice, reuse it zeroed, keep the others. *)
Example C21_case :
  run (fresh_pool 100 2 3)
    [OAlloc; OWrite 100 1 7; OAlloc; OWrite 102 0 9; OAlloc; OAlloc; ONumFree; OFree 102; OFree 102; OFree 101;
     OAlloc; ORead 102 0; ORead 100 1; OIn 105; OIn 106]
  = [100; 0; 102; 0; 104; 0; 0; 1; 1; 1; 102; 0; 7; 1; 0].
Proof. vm_compute. reflexivity. Qed.
