(** C23: the event queue (util/oc_process.c). *)
From Verif Require Import Common Evq_Model Evq_Spec Evq_Proofs.
Local Open Scope N_scope.

(** Every history of posts, deliveries, drops and queries on the ring buffer, growing (dynamic build) or
    fixed at 10 entries, gives exactly the answers of a first-in first-out list, without any access outside
    the buffer; in particular a post is refused exactly when the fixed queue holds 10 events. *)
Theorem C23_ring_is_fifo_list :
  forall dyn junk os, exists r, run dyn junk ring_init os = Some (r, snd (spec_run dyn [] os)).
Proof.
  intros dyn junk os. destruct (run_ok dyn junk os ring_init [] rep_init) as (r & E & _).
  - destruct dyn; [left|right]; reflexivity.
  - exists r. exact E.
Qed.
Print Assumptions C23_ring_is_fifo_list.

(** Nothing accepted is lost, duplicated or reordered: as long as nothing is dropped on purpose, the events
    accepted are the events delivered so far followed by the ones still queued. *)
Theorem C23_accepted_are_delivered_in_order :
  forall dyn junk os r vs, forallb no_drop os = true -> run dyn junk ring_init os = Some (r, vs) ->
  exists pending, accepted os vs = delivered vs ++ pending /\ N.of_nat (List.length pending) = r_n r.
Proof.
  intros dyn junk os r vs Hd E. destruct (run_ok dyn junk os ring_init [] rep_init) as (r' & E' & R).
  - destruct dyn; [left|right]; reflexivity.
  - rewrite E in E'. injection E' as -> ->. exists (fst (spec_run dyn [] os)). split; [exact (fifo_spec dyn os [] Hd)|].
    symmetry. exact (rp_n _ _ R).
Qed.
Print Assumptions C23_accepted_are_delivered_in_order.

(** In the dynamic build no post is ever refused. *)
Theorem C23_dynamic_accepts_all :
  forall junk os r vs e, run true junk ring_init os = Some (r, vs) -> exists r', exec true junk r (OPost e) = Some (r', ONum 0).
Proof.
  intros junk os r vs e E. destruct (run_ok true junk os ring_init [] rep_init (or_introl eq_refl)) as (r' & E' & R).
  rewrite E in E'. injection E' as -> ->. destruct (exec_ok true junk r' _ (OPost e) R (or_introl eq_refl)) as (r2 & E2 & _).
  exists r2. exact E2.
Qed.
Print Assumptions C23_dynamic_accepts_all.

(** Dropping removes exactly the matching events of the given process and keeps the order of the others. *)
Theorem C23_drop_removes_exactly :
  forall dyn junk r q p m, rep r q -> cap_ok dyn r -> p <> 0 ->
  exists r', exec dyn junk r (ODrop p m) = Some (r', ONum (N.of_nat (List.length (filter (matches p m) q)))) /\
             rep r' (filter (fun e => negb (matches p m e)) q).
Proof.
  intros dyn junk r q p m R C Hp. destruct (exec_ok dyn junk r q (ODrop p m) R C) as (r' & E & R' & _).
  cbn [spec] in E, R'. destruct (p =? 0) eqn:E0; [lia|]. cbn [fst snd] in *. exists r'. split; assumption.
Qed.
Print Assumptions C23_drop_removes_exactly.

(** 7 in, 5 out, 9 in (wraps and, in the dynamic build, grows), drop the even ones of process 1, out again. *)
Definition ev (n : N) : event := mkE (1 + n mod 2) n 0.
Definition evs (a n : nat) : list op := map (fun k => OPost (ev (N.of_nat k))) (seq a n).
Definition sample : list op :=
  evs 0 7 ++ repeat OTake 5 ++ evs 7 9 ++ [OCount; ODrop 1 (fun e => e_ev e <? 12); OAny (fun e => e_ev e =? 15); OTake; OTake; OTake].
Example C23_case :
  option_map (fun x => skipn 12 (snd x)) (run true (fun _ => ev 77) ring_init sample)
  = Some [ONum 0; ONum 0; ONum 0; ONum 0; ONum 0; ONum 0; ONum 0; ONum 0; ONum 0; ONum 11; ONum 3; ONum 1;
          OEv (Some (ev 5)); OEv (Some (ev 7)); OEv (Some (ev 9))] /\
  option_map (fun x => skipn 12 (snd x)) (run false (fun _ => ev 77) ring_init sample)
  = Some [ONum 0; ONum 0; ONum 0; ONum 0; ONum 0; ONum 0; ONum 0; ONum 0; ONum 1; ONum 10; ONum 3; ONum 0;
          OEv (Some (ev 5)); OEv (Some (ev 7)); OEv (Some (ev 9))] /\
  forallb no_drop (evs 0 7 ++ repeat OTake 5) = true.
Proof. split; [vm_compute; reflexivity|]. split; vm_compute; reflexivity. Qed.
