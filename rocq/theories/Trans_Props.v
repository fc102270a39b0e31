(** C07: retransmission of confirmable messages (messaging/coap/transactions.c, engine.c).
    Every theorem holds for any clock resolution [sec] = OC_CLOCK_SECOND. *)
From Verif Require Import Common Trans_Model Trans_Spec Trans_Proofs.
Local Open Scope N_scope.

(** A message is put on the wire at most four times. *)
Theorem C07_transmission_limit :
  forall sec ops i, Forall peer_known ops -> (List.length (times i (run sec ops init)) <= 4)%nat.
Proof. exact limit. Qed.
Print Assumptions C07_transmission_limit.

(** The first wait is at least 2 s, and each wait at least twice the previous minimum. *)
Theorem C07_backoff_spacing :
  forall sec ops i, Forall peer_known ops -> timed 0 ops ->
  exists w, 2 * sec <= w <= 3 * sec /\ spaced w (times i (run sec ops init)).
Proof. exact spacing. Qed.
Print Assumptions C07_backoff_spacing.

(** The wait a waiting message is in: between 2 and 3 s after the first transmission, doubled for each
    further one, counted from the last transmission. *)
Theorem C07_backoff_exact :
  forall sec ops t, Forall peer_known ops -> timed 0 ops -> In t (txs (run sec ops init)) ->
  let ts := times (t_id t) (run sec ops init) in
  exists w, 2 * sec <= w <= 3 * sec /\
    t_interval t = w * 2 ^ N.of_nat (List.length ts - 1) /\ t_start t = last ts 0 /\ (1 <= List.length ts <= 4)%nat.
Proof. exact exact_wait. Qed.
Print Assumptions C07_backoff_exact.

(** When the wait of a message with less than four transmissions is over, the next check sends it again;
    checks never give it up before.  (Plain endpoint: giving up another message to a secured endpoint
    drops every message to that endpoint.) *)
Theorem C07_retransmission_happens :
  forall sec ops now t, Forall peer_known ops -> timed 0 (ops ++ [Check now]) ->
  let s := run sec ops init in plain (t_ep t) s -> In t (txs s) -> t_count t < 3 ->
  waiting (t_id t) (run sec (ops ++ [Check now]) init) /\
  (t_start t + t_interval t <= now -> In now (times (t_id t) (run sec (ops ++ [Check now]) init))).
Proof. exact progress. Qed.
Print Assumptions C07_retransmission_happens.

(** Once a message with its message id has arrived it is never sent again. *)
Theorem C07_acknowledged_never_resent :
  forall sec ops t from rest, Forall peer_known ops ->
  let s := run sec ops init in In t (txs s) -> (forall u, In u (txs s) -> t_mid u = t_mid t -> u = t) ->
  times (t_id t) (run sec (ops ++ Receive (t_mid t) from :: rest) init) = times (t_id t) s.
Proof. exact acked. Qed.
Print Assumptions C07_acknowledged_never_resent.

(** A message that is not confirmable is sent exactly once. *)
Theorem C07_nonconfirmable_once :
  forall sec ops mid ep rnd now secured peer rest, Forall peer_known ops ->
  times (next_id (run sec ops init)) (run sec (ops ++ Send mid ep secured false peer rnd now :: rest) init) = [now].
Proof. exact non_once. Qed.
Print Assumptions C07_nonconfirmable_once.

(** The walk over the transactions, which restarts when several disappear, ends. *)
Theorem C07_check_terminates :
  forall sec now s, walk sec (S (List.length (txs s))) now s <> None.
Proof. intros. apply walk_ends. apply Nat.lt_succ_diag_r. Qed.
Print Assumptions C07_check_terminates.

(** A message from another endpoint with the same message id stops the retransmission: message 7 went to
    endpoint 1, and a message 7 from endpoint 2 ends it after one transmission. *)
Theorem C07_foreign_message_stops_retransmission_refuted :
  exists ops mid from i,
    times i (run 1000 (ops ++ [Check 3000; Check 9000]) init) = [0; 3000; 9000] /\
    times i (run 1000 (ops ++ Receive mid from :: [Check 3000; Check 9000]) init) = [0] /\
    forallb (fun t => negb (t_ep t =? from)) (txs (run 1000 ops init)) = true.
Proof. exists [Send 7 1 false true false 0 0], 7, 2, 0. vm_compute. repeat split. Qed.
Print Assumptions C07_foreign_message_stops_retransmission_refuted.

(** Without a TLS peer a secured message is never given up: the 8-bit counter goes round and the message
    is sent for a fifth time (checks every second; the connection went away after the first). *)
Theorem C07_limit_without_peer_refuted :
  exists ops i, (4 < List.length (times i (run 1 ops init)))%nat /\ timed 0 ops.
Proof.
  exists (Send 7 1 true true false 0 0 :: map (fun k => Check (100 + N.of_nat k)) (seq 0 400)), 0.
  split; [apply Nat.ltb_lt; vm_compute; reflexivity|].
  assert (H : forall n m now, now <= 100 + N.of_nat m -> timed now (map (fun k => Check (100 + N.of_nat k)) (seq m n))).
  { induction n as [|n IH]; intros m now H; [exact I|]. cbn [seq map timed]. split; [exact H|]. apply IH. lia. }
  split; [lia|]. apply H. lia.
Qed.
Print Assumptions C07_limit_without_peer_refuted.

(** COAP_MAX_RETRANSMIT is 4, but counting the first transmission only three retransmissions are made
    (RFC 7252 section 4.2 allows four), however long one waits. *)
Theorem C07_four_retransmissions_refuted :
  exists ops, Forall peer_known ops /\ timed 0 ops /\
    times 0 (run 1000 ops init) = [0; 3000; 9000; 20000] /\ ~ waiting 0 (run 1000 ops init) /\ In (Check 1000000) ops.
Proof.
  exists [Send 7 1 false true false 0 0; Check 1999; Check 3000; Check 9000; Check 20000; Check 1000000].
  split; [repeat constructor|]. split; [repeat split; lia|]. split; [vm_compute; reflexivity|]. split; [vm_compute; intros []|].
  cbn. tauto.
Qed.
Print Assumptions C07_four_retransmissions_refuted.

(** Two messages in flight, one acknowledged, one plain, one secured with a peer. *)
Definition sample : list op :=
  [Send 7 1 false true false 345 0; Send 8 2 true true true 17 100; Send 9 1 false false false 0 150;
   Check 2000; Check 2500; Check 2600; Receive 8 2; Check 8000].
Example C07_case :
  Forall peer_known sample /\ timed 0 sample /\
  times 0 (run 1000 sample init) = [0; 2500; 8000] /\ times 1 (run 1000 sample init) = [100; 2500] /\
  times 2 (run 1000 sample init) = [150] /\
  map (fun t => (t_id t, t_count t, t_start t, t_interval t)) (txs (run 1000 sample init)) = [(0, 2, 8000, 9380)].
Proof.
  split; [repeat constructor|]. split; [repeat split; lia|]. repeat split; vm_compute; reflexivity.
Qed.
(** [C07_retransmission_happens] and [C07_acknowledged_never_resent] apply to it. *)
Example C07_case_next :
  exists t, In t (txs (run 1000 sample init)) /\ t_count t < 3 /\ plain (t_ep t) (run 1000 sample init) /\
    (forall u, In u (txs (run 1000 sample init)) -> t_mid u = t_mid t -> u = t) /\
    times 0 (run 1000 (sample ++ [Check 17380]) init) = [0; 2500; 8000; 17380].
Proof.
  assert (E : txs (run 1000 sample init) = [mkT 0 7 1 false 2 9380 8000 true]) by (vm_compute; reflexivity).
  exists (mkT 0 7 1 false 2 9380 8000 true). rewrite E. split; [left; reflexivity|]. split; [reflexivity|].
  split; [unfold plain; rewrite E; intros u [<-|[]] _; reflexivity|]. split; [intros u [<-|[]] _; reflexivity|].
  vm_compute. reflexivity.
Qed.
