(** C132-C134: the way of messages through the processes. *)

From Coq Require Import List Bool Arith Lia.
From Verif Require Import Msg_Model Msg_Spec Msg_Proofs Msg2_Proofs Msg3_Proofs Msg4_Proofs.
Import ListNotations.

Lemma born_one : forall c ops i j,
  In (EBorn i) (tr (run c ops)) -> In (EBorn j) (tr (run c ops)) -> no i = no j -> copy i = copy j -> i = j.
Proof.
  intros c ops i j A B N C. destruct (run_J c ops) as [h [V _]]. assert (M := i_one _ _ _ V i).
  set (t := tr (run c ops)) in *. clearbody t. unfold made in M.
  induction t as [|e t IH]; [destruct A|]. cbn [filter] in M.
  assert (K : forall x, In (EBorn x) t -> same i x = true ->
    1 <= length (filter (fun e => match e with EBorn i0 => same i i0 | _ => false end) t)).
  { intros x X S. assert (Y : In (EBorn x) (filter (fun e => match e with EBorn i0 => same i i0 | _ => false end) t)).
    { apply filter_In. split; [exact X|exact S]. }
    destruct (filter _ t); [destruct Y|cbn [length]; lia]. }
  destruct A as [A|A]; destruct B as [B|B].
  - congruence.
  - subst e. rewrite (same_refl i i) in M by (split; reflexivity). cbn [length] in M.
    assert (Z := K j B (same_refl i j (conj N C))). lia.
  - subst e. rewrite (same_refl i j (conj N C)) in M. cbn [length] in M.
    assert (Z := K i A (same_refl i i (conj eq_refl eq_refl))). lia.
  - apply IH; [exact A|exact B|]. destruct e; try exact M. destruct (same i i0); [cbn [length] in M|]; lia.
Qed.

(** Every event about a message is about one that was handed to the stack
    before with the same endpoint. *)
Lemma event_root : forall c ops e i i0,
  In e (tr (run c ops)) -> reads e = Some i -> In (EBorn i0) (tr (run c ops)) -> copy i0 = false -> no i0 = no i ->
  rule c e /\ kin i0 i.
Proof.
  intros c ops e i i0 A R B C N. destruct (run_J c ops) as [h [V _]].
  destruct (i_rule _ _ _ V e A) as [RU RT]. destruct (RT i R) as [i1 [B1 [C1 K]]].
  assert (E : i0 = i1).
  { apply (born_one c ops); try assumption; [|congruence]. destruct K as [K _]. congruence. }
  subst i1. split; assumption.
Qed.

(** ** C132 *)

(** What is to be sent to a secured endpoint, and is no discovery request, is
    not sent as it is. *)
Theorem C132_secured_never_clear : forall c ops i0 i,
  In (EBorn i0) (tr (run c ops)) -> copy i0 = false -> org i0 = Out -> sec i0 = true -> disc i0 = false ->
  no i = no i0 -> ~ In (EClear i) (tr (run c ops)) /\ ~ In (EDisc i) (tr (run c ops)).
Proof.
  intros c ops i0 i B C O S DI N. split; intros X;
    destruct (event_root c ops _ i i0 X eq_refl B C (eq_sym N)) as [R [K1 [K2 [K3 [K4 [K5 [K6 K7]]]]]]]; cbn [rule] in R.
  - unfold lane in R. rewrite <- K2, O, <- K5, DI, andb_false_r, <- (K6 O), S in R.
    destruct (client c && oscore c && (multi i && true)); discriminate R.
  - destruct R as [_ R]. congruence.
Qed.
Print Assumptions C132_secured_never_clear.

(** Whatever goes out was sent by the layer above: in the clear only to an
    unsecured endpoint, as a discovery request only with the flag, to a group
    only protected by OSCORE, through TLS only to a secured endpoint. *)
Theorem C132_out_by_its_way : forall c ops e i,
  In e (tr (run c ops)) -> reads e = Some i ->
  exists i0, In (EBorn i0) (tr (run c ops)) /\ copy i0 = false /\ no i0 = no i /\ ep i0 = ep i /\
    match e with
    | EClear _ => org i0 = Out /\ sec i0 = false
    | EDisc _ => org i0 = Out /\ disc i0 = true
    | EGroup _ => org i0 = Out /\ sec i0 = true /\ multi i0 = true /\ osc i = true
    | ETls _ | EWrite _ => org i0 = Out /\ sec i0 = true
    | ETlsIn _ => org i0 = In_ /\ enc i0 = true
    | ECoap _ => org i0 = Dec \/ (org i0 = In_ /\ enc i0 = false)
    | _ => True
    end.
Proof.
  intros c ops e i A R. destruct (run_J c ops) as [h [V _]].
  destruct (i_rule _ _ _ V e A) as [RU RT]. destruct (RT i R) as [i0 [B [C K]]].
  exists i0. split; [exact B|]. split; [exact C|]. assert (KL := kin_lane c i0 i K).
  destruct K as [K1 [K2 [K3 [K4 [K5 [K6 K7]]]]]]. split; [exact K1|]. split; [exact K3|].
  assert (L1 : lane c i = 1 -> org i0 = Out /\ sec i0 = false).
  { intros L. rewrite <- KL in L. unfold lane in L. destruct (org i0).
    - destruct (enc i0); [discriminate L|]. destruct (oscore c && multi i0); discriminate L.
    - split; [reflexivity|]. destruct (client c && disc i0); [discriminate L|].
      destruct (client c && oscore c && (multi i0 && sec i0)); [discriminate L|].
      destruct (sec i0); [discriminate L|reflexivity].
    - discriminate L. }
  assert (L2 : lane c i = 2 -> org i0 = Out /\ sec i0 = true).
  { intros L. rewrite <- KL in L. unfold lane in L. destruct (org i0).
    - destruct (enc i0); [discriminate L|]. destruct (oscore c && multi i0); discriminate L.
    - split; [reflexivity|]. destruct (client c && disc i0); [discriminate L|].
      destruct (client c && oscore c && (multi i0 && sec i0)); [discriminate L|].
      destruct (sec i0); [reflexivity|discriminate L].
    - discriminate L. }
  assert (L5 : lane c i = 5 -> org i0 = In_ /\ enc i0 = true).
  { intros L. rewrite <- KL in L. unfold lane in L. destruct (org i0).
    - split; [reflexivity|]. destruct (enc i0); [reflexivity|]. destruct (oscore c && multi i0); discriminate L.
    - destruct (client c && disc i0); [discriminate L|].
      destruct (client c && oscore c && (multi i0 && sec i0)); [discriminate L|].
      destruct (sec i0); discriminate L.
    - discriminate L. }
  destruct e; cbn [reads rule] in *; try exact Logic.I; inversion R; subst i1; auto.
  - destruct RU as [X Y]. split; congruence.
  - destruct RU as [X [Y [Z W]]]. repeat split; try congruence. rewrite K6; congruence.
  - destruct RU as [X|[X [Y Z]]]; [left; congruence|right; split; [congruence|]].
    destruct K7 as [K7|K7]; congruence.
Qed.
Print Assumptions C132_out_by_its_way.

(** Ciphertext never reaches the CoAP engine, and what reaches it as secured
    was decrypted by TLS or, if received by multicast, opened by OSCORE. *)
Theorem C132_engine_gets_plain : forall c ops i,
  In (ECoap i) (tr (run c ops)) ->
  (forall i0, In (EBorn i0) (tr (run c ops)) -> copy i0 = false -> no i0 = no i -> org i0 = In_ -> enc i0 = false) /\
  (sec i = true -> org i = Dec \/ (oscore c = true /\ multi i = true /\ osc i = true)).
Proof.
  intros c ops i X. split.
  - intros i0 B C N O. destruct (event_root c ops _ i i0 X eq_refl B C N) as [R [K1 [K2 [K3 [K4 [K5 [K6 K7]]]]]]].
    cbn [rule] in R. destruct R as [R|[R [S _]]]; [congruence|]. destruct K7 as [K7|K7]; congruence.
  - intros S. destruct (run_J c ops) as [h [V _]]. destruct (i_rule _ _ _ V _ X) as [R _]. cbn [rule] in R.
    destruct R as [R|[_ [_ R]]]; [left; exact R|right; exact (R S)].
Qed.
Print Assumptions C132_engine_gets_plain.

Definition calm (f : fate) : input := mkin false true false true Plain f false [] 0.

Example C132_case :
  let c := mkcfg true true true in
  let s := run c [OSend (mkdest 7 false true false); OSend (mkdest 8 false false false); ORecv 7 true false;
                  OTurn (calm TWrite); OTurn (calm TWrite); OTurn (calm TWrite); OTurn (calm TWrite);
                  OTurn (calm TDrop); OTurn (calm TWrite)] in
  length (filter (fun e => match e with EClear i => no i =? 1 | _ => false end) (tr s)) = 1 /\
  length (filter (fun e => match e with EWrite i => no i =? 0 | _ => false end) (tr s)) = 1 /\
  length (filter (fun e => match e with ETlsIn i => no i =? 2 | _ => false end) (tr s)) = 1.
Proof. vm_compute. auto. Qed.

(** A discovery request to a secured endpoint is sent as it is. *)
Theorem C132_discovery_refuted : exists c ops i,
  In (EBorn i) (tr (run c ops)) /\ org i = Out /\ sec i = true /\ In (EDisc i) (tr (run c ops)).
Proof.
  exists (mkcfg true true true), [OSend (mkdest 7 true true true); OTurn (calm TWrite)],
    (mkitem 0 false Out 7 false true true true false).
  vm_compute. repeat split; auto.
Qed.
Print Assumptions C132_discovery_refuted.

(** ** C133 *)

(** Every reference is made once and is, at every moment, released, or in one
    place in the queue, or kept by TLS. *)
Theorem C133_references_balance : forall c ops r,
  ~ In ENull (tr (run c ops)) ->
  made r (tr (run c ops)) = freed r (tr (run c ops)) + queued r (queue (run c ops)) + kept r (tls (run c ops)) /\
  made r (tr (run c ops)) <= 1.
Proof.
  intros c ops r N. destruct (run_J c ops) as [h [V W]]. split; [|apply (i_one _ _ _ V)].
  assert (H : h = []) by (destruct h; [reflexivity|destruct (N (W ltac:(discriminate)))]).
  subst h. assert (S := i_sum _ _ _ V r). unfold kept at 2 in S. cbn [filter length] in S. lia.
Qed.
Print Assumptions C133_references_balance.

(** A reference is used only after it was made and before it is released, in
    all runs; in particular it is released at most once. *)
Theorem C133_no_use_after_release : forall c ops p e q i,
  tr (run c ops) = p ++ e :: q -> reads e = Some i -> made i p = 1 /\ freed i p = 0.
Proof. intros c ops p e q i H R. destruct (run_J c ops) as [h [V _]]. apply (i_use _ _ _ V p e q i H R). Qed.
Print Assumptions C133_no_use_after_release.

(** Without dynamic allocation the queue of ten events is never exceeded, and
    a message taken from it can always be passed on: none is lost although
    the result of posting is not looked at. *)
Theorem C133_static_queue : forall c ops,
  dyn c = false -> length (queue (run c ops)) <= 10 /\
  (forall e q, queue (run c ops) = e :: q ->
     full c (mkst q (tls (run c ops)) (next (run c ops)) (tr (run c ops))) = false).
Proof.
  intros c ops H. destruct (run_J c ops) as [h [V _]]. assert (L := i_len _ _ _ V H). split; [exact L|].
  intros e q E. rewrite E in L. cbn [length] in L. unfold full. cbn [queue]. rewrite H. cbn [negb andb].
  apply Nat.leb_gt. lia.
Qed.
Print Assumptions C133_static_queue.

(** When nothing is queued or kept, everything is released. *)
Theorem C133_nothing_left : forall c ops i,
  ~ In ENull (tr (run c ops)) -> queue (run c ops) = [] -> tls (run c ops) = [] ->
  In (EBorn i) (tr (run c ops)) -> freed i (tr (run c ops)) = 1.
Proof.
  intros c ops i N Q T B. destruct (C133_references_balance c ops i N) as [E L]. rewrite Q, T in E.
  unfold queued, kept in E. cbn [filter length] in E.
  assert (M : 1 <= made i (tr (run c ops))).
  { unfold made. assert (Y : In (EBorn i) (filter (fun e => match e with EBorn i0 => same i i0 | _ => false end) (tr (run c ops)))).
    { apply filter_In. split; [exact B|apply same_refl; split; reflexivity]. }
    destruct (filter _ (tr (run c ops))); [destruct Y|cbn [length]; lia]. }
  lia.
Qed.
Print Assumptions C133_nothing_left.

Definition ctx (m : bool) (v : cover) : input := mkin false true true m v TWrite false [] 0.

Example C133_case :
  let c := mkcfg false true true in
  let s := run c (repeat (OSend (mkdest 7 false true false)) 11 ++
                  repeat (OTurn (ctx true Protected)) 30) in
  let a := mkitem 3 false Out 7 false false true false false in
  let b := mkitem 3 true Out 7 false false true false false in
  let z := mkitem 10 false Out 7 false false true false false in
  ~ In ENull (tr s) /\ queue s = [] /\ tls s = [] /\
  made a (tr s) = 1 /\ freed a (tr s) = 1 /\ made b (tr s) = 1 /\ freed b (tr s) = 1 /\
  made z (tr s) = 1 /\ freed z (tr s) = 1 /\
  length (filter (fun e => match e with EWrite _ => true | _ => false end) (tr s)) = 10.
Proof.
  vm_compute. repeat split; try reflexivity. intros H.
  repeat (destruct H as [H|H]; [discriminate H|]). exact H.
Qed.

(** That there is memory for the copy is not checked. *)
Theorem C133_no_memory_refuted : exists c ops i,
  In ENull (tr (run c ops)) /\ made i (tr (run c ops)) = 1 /\
  freed i (tr (run c ops)) + queued i (queue (run c ops)) + kept i (tls (run c ops)) = 0.
Proof.
  exists (mkcfg true true true), [OSend (mkdest 7 false true false); OTurn (ctx false Plain); OTurn (ctx false Plain)],
    (mkitem 0 false Out 7 false false true false false).
  vm_compute. repeat split; auto.
Qed.
Print Assumptions C133_no_memory_refuted.

(** ** C134 *)

(** Messages of one way never overtake each other, and none arrives twice. *)
Theorem C134_in_order : forall c n ops,
  within (arrived c n (tr (run c ops))) (handed c n (tr (run c ops))).
Proof.
  intros c n ops. assert (V := run_D c n false ops ltac:(discriminate) ltac:(discriminate)).
  unfold D, rel in V. apply (within_trans _ _ _ V). unfold line.
  rewrite <- (app_nil_r (arrived c n (tr (run c ops)))) at 1. apply within_app; [apply within_refl|apply within_none].
Qed.
Print Assumptions C134_in_order.

(** With dynamic allocation, as long as no endpoint is dropped and OSCORE
    refuses no message, nothing is lost on any way: what is handed over has
    arrived once the queue is empty. *)
Theorem C134_all_arrive : forall c n ops,
  dyn c = true -> 1 <= n <= 6 -> (forall e, ~ In (ODrop e) ops) ->
  (forall x, In (OTurn x) ops -> good c n x) ->
  queue (run c ops) = [] -> arrived c n (tr (run c ops)) = handed c n (tr (run c ops)).
Proof.
  intros c n ops DY N ND G Q. assert (F : Forall (no_loss c n) ops).
  { apply Forall_forall. intros o X. destruct o; cbn [no_loss]; try exact Logic.I; [destruct (ND _ X)|apply G; exact X]. }
  assert (V := run_D c n true ops (fun _ => conj DY N) (fun _ => F)).
  unfold D, rel, line in V. rewrite Q in V. cbn [at_ flat_map] in V. unfold at_ in V. cbn [flat_map] in V.
  rewrite !app_nil_r in V. exact V.
Qed.
Print Assumptions C134_all_arrive.

(** Dropping an endpoint takes its messages out of the queue, except those on
    the way to a group, and leaves all others in their order. *)
Theorem C134_drop_is_of_endpoint : forall c ops e,
  let kept := fun q => match q with Ev OscGroup _ => true | Ev _ i => negb (ep i =? e) | Misc => true end in
  queue (run c (ops ++ [ODrop e])) = filter kept (queue (run c ops)).
Proof.
  intros c ops e. cbv zeta. rewrite run_snoc. cbn [step drop_endpoint queue]. apply filter_ext.
  intros [w i|]; [destruct w; reflexivity|reflexivity].
Qed.
Print Assumptions C134_drop_is_of_endpoint.

(** Three turns of the event loop for every event in the queue that start
    nothing new empty it. *)
Theorem C134_queue_drains : forall c ops xs,
  Forall quiet xs -> 3 * length (queue (run c ops)) <= length xs ->
  queue (run c (ops ++ map OTurn xs)) = [].
Proof. exact drains. Qed.
Print Assumptions C134_queue_drains.

Example C134_case :
  let c := mkcfg true true true in
  let ops := [OSend (mkdest 7 false false false); ORecv 7 false false; OSend (mkdest 8 false true false);
              OSend (mkdest 9 false false false); ORecv 9 false false; OTurn (calm TWrite); OSend (mkdest 7 false false false)] ++
             map OTurn (repeat (calm TWrite) 18) in
  arrived c 1 (tr (run c ops)) = [0; 3; 5] /\ arrived c 3 (tr (run c ops)) = [1; 4] /\
  arrived c 2 (tr (run c ops)) = [2] /\ queue (run c ops) = [].
Proof. vm_compute. repeat split; reflexivity. Qed.

Example C134_good : good (mkcfg true true true) 2 (ctx true Protected) /\ good (mkcfg true true true) 6 (calm TKeep).
Proof.
  split; intros _; (split; [intros [H|H]; discriminate H || (intros E; discriminate E || reflexivity)|]);
    intros H; try discriminate H.
  right. repeat split. discriminate.
Qed.

(** Messages of different ways do overtake each other: what is sent in the
    clear is not held up by what goes through TLS. *)
Theorem C134_across_ways_refuted : exists c ops i j p q,
  tr (run c ops) = p ++ q /\ In (EBorn i) p /\ In (EClear j) p /\ no i < no j /\ In (ETls i) q.
Proof.
  exists (mkcfg true false true), [OSend (mkdest 7 false true false); OSend (mkdest 8 false false false);
                  OTurn (calm TWrite); OTurn (calm TWrite); OTurn (calm TWrite)],
    (mkitem 0 false Out 7 false false true false false), (mkitem 1 false Out 8 false false false false false),
    [EBorn (mkitem 0 false Out 7 false false true false false); EBorn (mkitem 1 false Out 8 false false false false false);
     EClear (mkitem 1 false Out 8 false false false false false)].
  eexists. split; [vm_compute; reflexivity|]. cbn. repeat split; auto.
Qed.
Print Assumptions C134_across_ways_refuted.

(** In a static build messages received beyond the ten events are lost. *)
Theorem C134_static_loss_refuted : exists c ops,
  dyn c = false /\ queue (run c ops) = [] /\ length (arrived c 3 (tr (run c ops))) < length (handed c 3 (tr (run c ops))).
Proof.
  exists (mkcfg false false true), (repeat (ORecv 7 false false) 11 ++ map OTurn (repeat (calm TWrite) 30)).
  vm_compute. repeat split; auto.
Qed.
Print Assumptions C134_static_loss_refuted.
