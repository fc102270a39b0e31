(** C104: messages to secured peers. *)
From Verif Require Import Common Tlsq_Model Tlsq_Spec Tlsq_Proofs Tlsq2_Proofs Tlsq3_Proofs.

(** A handshake with two queued messages; then one that is sent directly. *)
Definition usual : list op :=
  [Send 1 7 true 0 Wait WOk; Send 2 7 true 0 Wait WOk; Send 2 7 true 0 Wait WOk; Recv 7 0; Handle Wait [];
   Recv 7 0; Handle (Done false) []; Handle Wait []; Send 3 7 true 0 Wait WOk].

(** Every message is written, waits or was given up, as often as it was handed over. *)
Theorem C104_kept : forall ops m, let s := run init ops in
  times m (map snd (given ops)) =
    (times m (map snd (sent s)) + times m (waiting s) + times m (lost s ++ early s ++ merged s))%nat.
Proof.
  intros ops m s. destruct (run_moves False ops) as [M _]; [contradiction|]. apply (moves_total False m) in M.
  unfold total, core in M. cbn [c_peers c_sent c_lost c_early c_merged c_given init peers sent lost early merged map flat_map] in M.
  fold s in M. unfold waiting. rewrite !times_app. cbn [times count_occ] in *. unfold times in *. cbn [count_occ] in M. lia.
Qed.

Example C104_kept_ex : let s := run init usual in
  sent s = [(7, 1); (7, 2); (7, 3)]%nat /\ merged s = [2]%nat /\ waiting s = [] /\ lost s = [] /\ early s = [].
Proof. vm_compute. repeat split. Qed.

(** No message is written more often than it was handed over, and only to the endpoint it was
    handed over for. *)
Theorem C104_once : forall ops m, (times m (map snd (sent (run init ops))) <= times m (map snd (given ops)))%nat.
Proof. intros ops m. assert (X := C104_kept ops m). cbv zeta in X. lia. Qed.
Theorem C104_destination : forall ops ep m, In (ep, m) (sent (run init ops)) -> In (ep, m) (given ops).
Proof.
  intros ops ep m I. destruct (run_moves False ops) as [M _]; [contradiction|].
  assert (X : forall c c', moves False c c' -> (forall x, In x (c_sent c) -> In x (c_given c)) ->
    (forall p m, In p (c_peers c) -> In m (q_send p) -> In (q_ep p, m) (c_given c)) -> forall x, In x (c_sent c') -> In x (c_given c')).
  { intros c c' H. induction H; [auto|]. intros S Q. destruct (move_dest _ _ _ H S Q) as [S2 Q2]. auto. }
  apply (X _ _ M); cbn; auto; contradiction.
Qed.

(** Messages leave for an endpoint in the order in which they were handed over, if none is sent
    between the end of the handshake and the write of those that wait. *)
Theorem C104_order : forall ops ep, along prompt_step init ops ->
  sub (to_ep ep (sent (run init ops))) (to_ep ep (given ops)).
Proof.
  intros ops ep P. destruct (run_moves True ops) as [M _]; [auto|].
  assert (X := moves_order True ep _ _ Logic.I M good_init). cbn [core c_sent c_peers c_given init sent peers] in X.
  eapply sub_trans; [|apply X; constructor]. rewrite <- (app_nil_r (to_ep ep (sent (run init ops)))) at 1. apply sub_app; [apply sub_refl|apply sub_nil_l].
Qed.

Fixpoint promptb (s : st) (l : list op) : bool :=
  match l with
  | [] => true
  | o :: r =>
    (match o with
     | Send _ ep _ _ _ _ => forallb (fun p => negb (Nat.eqb (q_ep p) ep && q_over p) || match q_send p with [] => true | _ => false end) (peers s)
     | _ => true
     end && promptb (step s o) r)%bool
  end.
Lemma promptb_ok l : forall s, promptb s l = true -> along prompt_step s l.
Proof.
  induction l as [|o l IH]; intros s H; [exact Logic.I|]. cbn [promptb] in H. apply andb_true_iff in H. destruct H as [H1 H2]. split; [|auto].
  destruct o; cbn [prompt_step]; auto. intros p I E O. rewrite forallb_forall in H1. specialize (H1 p I).
  rewrite E, Nat.eqb_refl, O in H1. cbn in H1. destruct (q_send p); [reflexivity|discriminate].
Qed.
Example C104_order_ex : along prompt_step init usual.
Proof. apply promptb_ok. vm_compute. reflexivity. Qed.

(** After the handshake messages are written at once; before it they wait. *)
Theorem C104_direct : forall ops p m rf a h w, let s := run init ops in In p (peers s) -> q_over p = true -> w <> WFail ->
  sent (step s (Send m (q_ep p) rf a h w)) = sent s ++ [(q_ep p, m)].
Proof.
  intros ops p m rf a h w s I O W. assert (G := run_good ops). fold s in G. clearbody s. cbn [step]. unfold send_message. destruct (of_ep (peers s) (q_ep p)) as [q|] eqn:F.
  - apply ep_in in F. assert (q = p) by (apply (same_ep _ _ _ G); tauto). subst q. rewrite O. destruct w; [reflexivity|reflexivity|now exfalso].
  - exfalso. apply ep_none in F. apply F. now apply in_map.
Qed.
Theorem C104_waits : forall ops p m a w, let s := run init ops in In p (peers s) -> q_over p = false -> q_client p = true ->
  let s' := step s (Send m (q_ep p) true a Wait w) in
  sent s' = sent s /\ exists p', In p' (peers s') /\ q_at p' = q_at p /\ q_ep p' = q_ep p /\ In m (q_send p') /\
    (In m (q_send p) -> q_send p' = q_send p) /\ (~ In m (q_send p) -> q_send p' = q_send p ++ [m]).
Proof.
  intros ops p m a w s I O C s'. subst s'. assert (G := run_good ops). fold s in G. clearbody s. cbn [step]. unfold send_message, init_connection.
  destruct (of_ep (peers s) (q_ep p)) as [q|] eqn:F; [|exfalso; apply ep_none in F; apply F; now apply in_map].
  assert (q = p) by (apply ep_in in F; apply (same_ep _ _ _ G); tauto). subst q. rewrite O, C, F, C. cbv zeta.
  destruct (existsb (Nat.eqb m) (q_send p)) eqn:X.
  - apply existsb_exists in X. destruct X as (y & Y & Ey). apply Nat.eqb_eq in Ey. subst y.
    destruct (q_send p) as [|z l] eqn:Q; [contradiction|]. split; [reflexivity|]. exists p. rewrite Q. repeat split; auto. contradiction.
  - assert (N : ~ In m (q_send p)).
    { intros Y. assert (Z : existsb (Nat.eqb m) (q_send p) = true) by (apply existsb_exists; exists m; split; [exact Y|apply Nat.eqb_refl]). congruence. }
    assert (R : let s3 := send_at s (q_at p) (q_send p ++ [m]) in sent s3 = sent s /\ exists p', In p' (peers s3) /\ q_at p' = q_at p /\ q_ep p' = q_ep p /\ In m (q_send p') /\
      (In m (q_send p) -> q_send p' = q_send p) /\ (~ In m (q_send p) -> q_send p' = q_send p ++ [m])).
    { cbv zeta. split; [reflexivity|]. exists (set_send p (q_send p ++ [m])). split; [cbn; apply in_update; right; exists p; auto|].
      cbn. repeat split; auto; [apply in_or_app; right; now left|contradiction]. }
    cbv zeta in R. destruct (q_send p); [|exact R]. match goal with |- context [at_ ?l ?b] => destruct (at_ l b) end; exact R.
Qed.

Example C104_waits_ex : let s := run init (firstn 1 usual) in
  peers s = [Peer 0 7 true false [1]] /\ peers (step s (Send 2 7 true 0 Wait WOk)) = [Peer 0 7 true false [1; 2]].
Proof. vm_compute. split; reflexivity. Qed.

(** A message is given up as already waiting only if it is. *)
Theorem C104_merged : forall s o, merged (step s o) = merged s \/
  exists m ep rf a h w p, o = Send m ep rf a h w /\ In p (peers s) /\ q_ep p = ep /\ In m (q_send p) /\ merged (step s o) = merged s ++ [m].
Proof. exact merged_step. Qed.

(** Nothing is lost without a failure: while nothing fails or is closed, and in a prudent run, no
    message is given up but as already waiting. *)
Theorem C104_lossless : forall ops o, along prudent_step init (ops ++ [o]) -> benign (run init ops) o ->
  lost (run init (ops ++ [o])) = lost (run init ops) /\ early (run init (ops ++ [o])) = [].
Proof.
  intros ops o P B. split; [|now apply safe_run]. rewrite run_snoc. apply lost_step; [apply run_good|exact B].
Qed.

(** In a prudent run no memory of a released peer is read, and no message is handed to mbedtls
    before the handshake is over. *)
Theorem C104_memory : forall ops, along prudent_step init ops ->
  bad (run init ops) = false /\ early (run init ops) = [].
Proof. intros ops P. assert (K := safe_run ops P). split; apply K. Qed.

Definition prudentb_step (s : st) (o : op) : bool :=
  (forallb (fun r => existsb (fun q => Nat.eqb (fst q) (fst r) && Nat.eqb (snd q) (snd r)) (roles (step s o)) || match o with Answer _ => true | _ => false end) (roles s) &&
   match o with
   | Send _ ep _ _ _ _ => forallb (fun p => negb (Nat.eqb (q_ep p) ep && negb (q_over p) && negb (q_client p)) ||
                                            forallb (fun e => negb (Nat.eqb (ev_at e) (q_at p))) (events s)) (peers s)
   | _ => true
   end)%bool.
Fixpoint prudentb (s : st) (l : list op) : bool :=
  match l with [] => true | o :: r => prudentb_step s o && prudentb (step s o) r end.
Lemma prudentb_ok l : forall s, prudentb s l = true -> along prudent_step s l.
Proof.
  induction l as [|o l IH]; intros s H; [exact Logic.I|]. cbn [prudentb] in H. apply andb_true_iff in H. destruct H as [H1 H2]. split; [|auto].
  unfold prudentb_step in H1. apply andb_true_iff in H1. destruct H1 as [A B]. rewrite forallb_forall in A. split.
  - intros r R. specialize (A r R). apply orb_true_iff in A. destruct A as [A|A]; [left|right; destruct o; try discriminate; eauto].
    apply existsb_exists in A. destruct A as ([x y] & X & E). apply andb_true_iff in E. destruct E as [E1 E2]. apply Nat.eqb_eq in E1, E2.
    destruct r as [u v]. cbn in *. now subst.
  - destruct o; auto. intros p P E O C e V. rewrite forallb_forall in B. specialize (B p P). rewrite E, Nat.eqb_refl, O, C in B. cbn in B.
    rewrite forallb_forall in B. specialize (B e V). now apply negb_true_iff, Nat.eqb_neq in B.
Qed.
Example C104_memory_ex : along prudent_step init
  [Send 1 7 true 0 Wait WOk; Recv 7 0; Handle (Done true) []; Recv 8 1; Answer 7; Close 8; Handle Wait []; Close 7; Send 2 8 true 1 Wait WOk].
Proof. apply prudentb_ok. vm_compute. reflexivity. Qed.

(** When the events are handled and the roles asserted, nothing waits for a peer whose handshake
    is over, unless that ended in the retransmission timer. *)
Theorem C104_settled : forall ops, Forall no_retry_end ops -> let s := run init ops in
  events s = [] -> roles s = [] -> forall p, In p (peers s) -> q_over p = true -> q_send p = [].
Proof.
  intros ops F s E R p I O. assert (S := settled_run ops F p I O). fold s in S. rewrite E, R in S.
  destruct (q_send p) as [|m l]; [reflexivity|]. destruct S as [[]|[]]. discriminate.
Qed.

(** So all messages that wait for such peers are written as soon as the queued events are handled. *)
Theorem C104_delivered : forall ops, Forall no_retry_end ops -> let s := run init ops in roles s = [] ->
  let s' := run s (repeat (Handle Wait []) (length (events s))) in
  events s' = [] /\ forall p m, In p (peers s) -> q_over p = true -> In m (q_send p) -> In (q_ep p, m) (sent s').
Proof.
  intros ops F s R s'. apply delivered; [apply run_good|now apply settled_run|exact R|reflexivity].
Qed.

Example C104_delivered_ex : let s := run init (firstn 7 usual) in
  waiting s = [1; 2]%nat /\ events s = [Write 0] /\ roles s = [] /\ Forall no_retry_end (firstn 7 usual).
Proof. repeat split; try (vm_compute; reflexivity). repeat constructor. Qed.

(** There is one peer per endpoint, each message waits once for it, and none for peers that
    connected to us. *)
Theorem C104_peers : forall ops, let P := peers (run init ops) in
  NoDup (map q_ep P) /\ forall p, In p P -> NoDup (q_send p) /\ (q_client p = false -> q_send p = []).
Proof.
  intros ops P. assert (G := run_good ops). fold P in G. split; [apply G|]. intros p I. split; [exact (g_dup _ G p I)|exact (g_srv _ G p I)].
Qed.

(** A message sent between the end of the handshake and the write of those that wait overtakes
    them. *)
Theorem C104_order_refuted : exists ops, ops = [Send 1 7 true 0 Wait WOk; Recv 7 0; Handle (Done false) []; Send 2 7 true 0 Wait WOk; Handle Wait []] /\
  given ops = [(7, 1); (7, 2)]%nat /\ sent (run init ops) = [(7, 2); (7, 1)]%nat.
Proof. eexists. split; [reflexivity|]. vm_compute. split; reflexivity. Qed.

(** If the handshake ends in the retransmission timer, messages wait for ever: later ones are
    written, no event is queued. *)
Theorem C104_settled_refuted : exists ops s, ops = [Send 1 7 true 0 Wait WOk; Retry 0 (Done false); Send 2 7 true 0 Wait WOk] /\
  s = run init ops /\ sent s = [(7, 2)]%nat /\ waiting s = [1]%nat /\ events s = [] /\ roles s = [] /\ map q_over (peers s) = [true].
Proof. eexists. eexists. split; [reflexivity|]. split; [reflexivity|]. vm_compute. repeat split. Qed.

(** The connection ends before the assertion of roles is answered: a write for the released peer
    stays queued; a new peer in the same memory loses its message to that, or memory of the
    released peer is read. *)
Theorem C104_roles_refuted : exists ops1 ops2 ops3,
  ops1 = [Send 1 7 true 0 Wait WOk; Recv 7 0; Handle (Done true) []; Close 7] /\
  ops2 = [Send 2 8 true 0 Wait WOk; Handle Wait [WWait]] /\ ops3 = [Send 2 8 true 1 Wait WOk; Close 8] /\
  early (run init (ops1 ++ ops2)) = [2]%nat /\ sent (run init (ops1 ++ ops2)) = [] /\ bad (run init (ops1 ++ ops3)) = true.
Proof. do 3 eexists. split; [reflexivity|]. split; [reflexivity|]. split; [reflexivity|]. vm_compute. repeat split. Qed.

(** A message to an endpoint that is just connecting to us: the events of its released peer stay
    queued and are looked at later. *)
Theorem C104_server_refuted : exists ops, ops = [Recv 7 0; Send 1 7 true 1 Wait WOk; Close 7] /\ bad (run init ops) = true.
Proof. eexists. split; [reflexivity|]. vm_compute. reflexivity. Qed.

Print Assumptions C104_kept.
Print Assumptions C104_once.
Print Assumptions C104_destination.
Print Assumptions C104_order.
Print Assumptions C104_direct.
Print Assumptions C104_waits.
Print Assumptions C104_merged.
Print Assumptions C104_lossless.
Print Assumptions C104_memory.
Print Assumptions C104_settled.
Print Assumptions C104_delivered.
Print Assumptions C104_peers.
Print Assumptions C104_order_refuted.
Print Assumptions C104_settled_refuted.
Print Assumptions C104_roles_refuted.
Print Assumptions C104_server_refuted.
