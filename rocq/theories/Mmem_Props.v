(** C22: the compacting allocator of the static-memory build (util/oc_mmem.c). *)
From Verif Require Import Common Mmem_Model Mmem_Spec Mmem_Proofs.
Local Open Scope N_scope.

(** For any pool size and any client history: every allocation that fits the free space succeeds (the others
    answer 0), the reported free space is exact, and every handle always reads back what was last written
    through it, whatever was freed and moved in between. *)
Theorem C22_every_history :
  forall ts total os, allowed_all total [] os ->
  exists vs, run ts (init total) os = Some vs /\ trace_ok ts total [] os vs.
Proof. intros ts total os Al. apply run_ok; [apply inv_init|exact Al]. Qed.
Print Assumptions C22_every_history.

(** In every reachable state the live regions are inside the pool, adjacent and disjoint, in order of allocation. *)
Theorem C22_regions_disjoint :
  forall total s bs i j hi hj, inv total s bs -> (i < j)%nat ->
  nth_error (s_list s) i = Some hi -> nth_error (s_list s) j = Some hj ->
  h_ptr hi + h_size hi <= h_ptr hj /\ h_ptr hj + h_size hj <= total.
Proof.
  intros total s bs i j hi hj I Hij Hi Hj.
  assert (G : forall hs bs p k h, packed (s_cells s) p hs bs -> nth_error hs k = Some h -> p <= h_ptr h /\ h_ptr h + h_size h <= p + sum_sizes bs).
  { induction hs as [|x r IH]; intros [|b bs0] p k h P E; [destruct k; discriminate|destruct P|destruct P|].
    destruct P as (P1 & P2 & P3 & _ & P). unfold sum_sizes. cbn [fold_right]. fold (sum_sizes bs0). destruct k as [|k]; cbn [nth_error] in E.
    - injection E as ->. lia.
    - destruct (IH _ _ _ _ P E). lia. }
  assert (O : forall hs bs p i j, packed (s_cells s) p hs bs -> nth_error hs i = Some hi -> nth_error hs j = Some hj ->
     (i < j)%nat -> h_ptr hi + h_size hi <= h_ptr hj).
  { clear I Hij Hi Hj. induction hs as [|x r IH]; intros [|b bs0] p i0 j0 P Hi Hj Hij; [destruct i0; discriminate|destruct P|destruct P|].
    destruct P as (P1 & P2 & P3 & _ & P). destruct j0 as [|j0]; [lia|]. cbn [nth_error] in Hj.
    destruct i0 as [|i0]; cbn [nth_error] in Hi.
    - injection Hi as ->. destruct (G _ _ _ _ _ P Hj). lia.
    - apply (IH _ _ _ _ P Hi Hj). lia. }
  split.
  - exact (O _ _ _ _ _ (i_pack _ _ _ I) Hi Hj Hij).
  - destruct (G _ _ _ _ _ (i_pack _ _ _ I) Hj) as [_ L]. pose proof (i_sum _ _ _ I). lia.
Qed.
Print Assumptions C22_regions_disjoint.

(** A pool of 10: three arrays, the first freed (the others move), a new one that just fits, one that does not. *)
Definition ops : list op :=
  [OAlloc 1 4; OWrite 1 3 11; OAlloc 2 3; OWrite 2 0 20; OWrite 2 2 22; OAlloc 3 2; OWrite 3 1 31; OAvail;
   OFree 1; OAvail; ORead 2 0; ORead 2 2; ORead 3 1; OAlloc 4 6; OAlloc 4 5; OWrite 4 4 44; OFree 2; ORead 3 1; ORead 4 4; OAvail].
Example C22_case : run 1 (init 10) ops = Some [4; 0; 3; 0; 0; 2; 0; 1; 0; 5; 20; 22; 31; 0; 5; 0; 0; 31; 44; 3].
Proof. vm_compute. reflexivity. Qed.
Example C22_case_allowed : allowed_all 10 [] ops.
Proof.
  vm_compute. repeat split; try tauto; try (intros K; intuition discriminate);
    eexists; (split; [reflexivity|reflexivity]).
Qed.
