(** C34: delayed responses reach every waiting client exactly once. *)
From Verif Require Import Common Sep_Model Sep_Spec Sep_Proofs.
Local Open Scope N_scope.

(** One message per waiting client, in the order of acceptance, no client waiting twice, and nobody waits afterwards. *)
Theorem C34_every_waiting_client_answered_once h w : reach h w -> w <> [] ->
  exists h' out, step h (Send true) = Some (h', out) /\ Forall2 expected w out /\ NoDup (map rid w) /\ reach h' [].
Proof. exact (send_answers h w). Qed.

Theorem C34_waiting_client_gets_response h w r : reach h w -> In r w -> (q_obs r < 2)%Z ->
  exists h' out, step h (Send true) = Some (h', out) /\ In (Response (q_ep r) (q_tok r)) out.
Proof. exact (client_answered h w r). Qed.

Theorem C34_nobody_else_answered h w h' out ep tok : reach h w -> step h (Send true) = Some (h', out) -> In (Response ep tok) out ->
  exists r, In r w /\ q_ep r = ep /\ q_tok r = tok.
Proof. exact (nobody_else_answered h w h' out ep tok). Qed.

(** With valid response codes the buffer is never used after it was freed. *)
Theorem C34_buffer_never_used_after_free h w : reach h w -> step h (Send true) <> None.
Proof. exact (never_stuck h w). Qed.

Definition good : luck := mk_luck true true true.
Definition h0 : handle := mk_handle false [] BNone 0.
Fixpoint run (h : handle) (l : list op) : option (handle * list msg) :=
  match l with
  | [] => Some (h, [])
  | o :: t => match step h o with
              | None => None
              | Some (h', out) => match run h' t with None => None | Some (h'', out') => Some (h'', out ++ out') end
              end
  end.

(** Two clients with the same token: both were accepted, the first never gets its response and the second answers for
    both. *)
Theorem C34_same_token_two_clients_refuted : exists tok e1 e2 h out, e1 <> e2 /\
  run h0 [Accept good true tok (-1)%Z e1 []; Accept good true tok (-1)%Z e2 []; Send true] = Some (h, out) /\
  snd (accept h0 good true tok (-1)%Z e1 []) = true /\
  snd (accept (fst (accept h0 good true tok (-1)%Z e1 [])) good true tok (-1)%Z e2 []) = true /\
  h_reqs h = [] /\ ~ In (Response e1 tok) out.
Proof.
  exists [1], 1, 2, (mk_handle false [] BFreed 0), [Response 2 [1]]. split; [discriminate|]. split; [vm_compute; reflexivity|].
  split; [vm_compute; reflexivity|]. split; [vm_compute; reflexivity|]. split; [reflexivity|]. intros [E|[]]. discriminate.
Qed.

(** A response with an unknown code answers nobody and leaves the handle active with a freed buffer, so the next use of the
    handle is a use after free. *)
Theorem C34_bad_code_use_after_free_refuted : exists tok e1 e2,
  snd (accept h0 good true tok (-1)%Z e1 []) = true /\
  (exists h, run h0 [Accept good true tok (-1)%Z e1 []; Send false] = Some (h, []) /\ h_reqs h = [] /\ h_active h = true) /\
  run h0 [Accept good true tok (-1)%Z e1 []; Send false; Accept good true tok (-1)%Z e2 []; Send true] = None.
Proof.
  exists [1], 1, 2. split; [vm_compute; reflexivity|]. split; [|vm_compute; reflexivity].
  eexists. split; [vm_compute; reflexivity|]. split; reflexivity.
Qed.

(** Refusing the first request for want of memory loses the buffer allocated for it, every time. *)
Lemma leak_step n : accept (mk_handle false [] BLive n) (mk_luck true false true) true [1] (-1)%Z 1 [] = (mk_handle false [] BLive (n + 1), false).
Proof. reflexivity. Qed.
Theorem C34_refusals_leak_buffers_refuted : forall n, exists ops h out, run h0 ops = Some (h, out) /\ h_reqs h = [] /\ h_active h = false /\ h_leak h = n.
Proof.
  intros n. exists (repeat (Accept (mk_luck true false true) true [1] (-1)%Z 1 []) (S n)).
  assert (G : forall k m, run (mk_handle false [] BLive m) (repeat (Accept (mk_luck true false true) true [1] (-1)%Z 1 []) k) = Some (mk_handle false [] BLive (m + k), [])).
  { induction k as [|k IH]; intros m; [now rewrite <- plus_n_O|]. cbn [repeat run step]. rewrite leak_step. cbn [fst]. rewrite IH. cbn [app]. do 3 f_equal. lia. }
  exists (mk_handle false [] BLive n), []. split; [|auto]. cbn [repeat run step]. 
  change (accept h0 (mk_luck true false true) true [1] (-1)%Z 1 []) with (mk_handle false [] BLive 0, false). cbn [fst]. rewrite G. reflexivity.
Qed.

(** Three clients wait; one of them observes; one is refused for want of memory for its acknowledgement; one asks twice. *)
Example C34_three_clients :
  run h0 [Accept good true [1] (-1)%Z 1 [47]; Accept good false [2] 0%Z 1 [47]; Accept (mk_luck true true false) true [3] (-1)%Z 5 [47];
          Accept good true [1] (-1)%Z 1 [47]; Accept good true [] 2%Z 7 [47]; Send true]
  = Some (mk_handle false [] BFreed 0, [Response 1 [1]; Response 1 [2]; Notification [47] 7]).
Proof. vm_compute. reflexivity. Qed.
Example C34_reachable : exists h, reach h [mk_req [1] (-1)%Z 1 [47]; mk_req [2] 0%Z 1 [47]].
Proof.
  eexists. eapply ReachF with (k := mk_luck true true false) (con := true) (tok := [3]) (obs := (-1)%Z) (ep := 5) (uri := [47]).
  - eapply ReachA with (k := good) (con := false) (tok := [2]) (obs := 0%Z) (ep := 1) (uri := [47]).
    + eapply ReachA with (k := good) (con := true) (tok := [1]) (obs := (-1)%Z) (ep := 1) (uri := [47]); [apply Reach0|intros r []|reflexivity|].
      apply J_new. intros [].
    + intros r [<-|[]] E; discriminate.
    + reflexivity.
    + apply (J_new [mk_req [1] (-1)%Z 1 [47]]). intros [E|[]]; discriminate.
  - intros r [<-|[<-|[]]] E; discriminate.
  - reflexivity.
  - apply L_not. intros [E|[E|[]]]; discriminate.
Qed.

Print Assumptions C34_every_waiting_client_answered_once.
Print Assumptions C34_waiting_client_gets_response.
Print Assumptions C34_nobody_else_answered.
Print Assumptions C34_buffer_never_used_after_free.
Print Assumptions C34_same_token_two_clients_refuted.
Print Assumptions C34_bad_code_use_after_free_refuted.
Print Assumptions C34_refusals_leak_buffers_refuted.
