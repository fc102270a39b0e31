(** C09, C10: block-wise transfers (api/oc_blockwise.c, messaging/coap/engine.c). *)
From Verif Require Import Common Block_Model Block_Spec Block_Proofs.
Local Open Scope N_scope.

(** C09: whatever requests of other transfers arrive in between, and whichever blocks of [P] arrive in
    whatever order and number, the handler never gets anything but [P]. *)
Theorem C09_server_delivers_only_the_payload :
  forall max_app block_size k P sz ops,
  0 < sz -> sz <= block_size -> block_size < 2 ^ 16 ->
  (forall o, In o ops -> op_key o = k -> faithful P sz o) ->
  Forall2 (fun o x => op_key o = k -> forall p, x = Deliver p -> p = P) ops (outs max_app block_size [] ops).
Proof. intros. apply outs_safe with (sz := sz); try assumption. intros b []. Qed.
Print Assumptions C09_server_delivers_only_the_payload.

(** C09: once every block but the last has arrived, none ahead of its turn but any of them repeated, the
    last block delivers [P]; requests of other transfers do not matter. *)
Theorem C09_server_completes :
  forall max_app block_size k P sz, 0 < sz -> sz <= block_size -> block_size < 2 ^ 16 ->
  forall ops o size1,
  (forall x, In x ops -> op_key x = k -> early_block P sz max_app x) -> 0 < total P -> total P < 2 ^ 32 ->
  let nums := map num_of (filter (fun x => key_eqb (op_key x) k) ops) in
  advancing 0 nums -> reached 0 nums = k_num o ->
  k_size o = sz -> is_block P sz (k_num o) -> more_after P sz (k_num o) = false -> k_more o = false ->
  total P <= buffer_size max_app size1 ->
  outs max_app block_size [] (ops ++ [Block k o (slice P (k_num o * sz) sz) size1 true]) =
  outs max_app block_size [] ops ++ [Deliver P].
Proof. exact completes. Qed.
Print Assumptions C09_server_completes.

(** C09: a block is only ever written inside the buffer. *)
Theorem C09_buffer_never_exceeded :
  forall b b' off at_ n p, handle_block b off p = Some (b', Some (at_, n)) -> at_ + n <= b_size b.
Proof. exact handle_bounds. Qed.
Print Assumptions C09_buffer_never_exceeded.

(** C09, client side: as long as the server only sends blocks that were asked for, every block but the
    last makes the client ask for the next one, and the last one delivers the payload. *)
Theorem C09_client_delivers_the_payload :
  forall max_app P sz, 0 < sz -> 0 < total P -> total P <= max_app ->
  forall ms, Forall (from_server P sz) ms -> requested P sz 0 ms ->
  Forall2 (fun m x => x = if more_after P sz (asked m) then Ask (asked m + 1) else Invoke P) ms (client_outs max_app None ms).
Proof. intros max_app P sz Hs HP Hm ms Hf Hr. apply (client_safe max_app P sz Hs HP ms Hm 0 None eq_refl Hf Hr). Qed.
Print Assumptions C09_client_delivers_the_payload.

(** C09: a second transfer started before the first is finished is not recognised: its first block is
    taken for a repetition and the handler gets a mixture that nobody sent. *)
Definition K : key := mkK [97] 1 2 None.
Definition first16 (x : N) : list N := repeat x 16.
Theorem C09_transfers_mixed_refuted :
  exists P Q ops p,
    (* the first block of P, then all of Q *)
    ops = [Block K (mkBlk 0 true 16) (slice P 0 16) 0 true;
           Block K (mkBlk 0 true 16) (slice Q 0 16) 0 true; Block K (mkBlk 1 false 16) (slice Q 16 16) 0 true] /\
    faithful P 16 (nth 0 ops (Expire K)) /\ faithful Q 16 (nth 1 ops (Expire K)) /\ faithful Q 16 (nth 2 ops (Expire K)) /\
    nth 2 (outs 8192 1024 [] ops) Silent = Deliver p /\ p <> P /\ p <> Q.
Proof.
  exists (first16 1 ++ [1]), (first16 2 ++ [2]). eexists. exists (first16 1 ++ [2]). split; [reflexivity|]. cbn [nth].
  split; [repeat split; try reflexivity; left; reflexivity|]. split; [repeat split; try reflexivity; left; reflexivity|].
  split; [repeat split; try reflexivity; right; reflexivity|]. split; [vm_compute; reflexivity|]. split; discriminate.
Qed.
Print Assumptions C09_transfers_mixed_refuted.

(** C09: with an OC_BLOCK_SIZE below the sender's block size the last block is cut and the handler gets a
    shortened payload without any error. *)
Theorem C09_larger_block_truncated_refuted :
  exists P, faithful P 1024 (Block K (mkBlk 0 false 1024) P 0 true) /\
    outs 8192 512 [] [Block K (mkBlk 0 false 1024) P 0 true] = [Deliver (firstn 512 P)] /\ firstn 512 P <> P.
Proof.
  exists (repeat 5 1000). split; [repeat split; try (left; reflexivity); vm_compute; reflexivity|].
  split; [vm_compute; reflexivity|]. intros E. apply (f_equal (@List.length N)) in E. rewrite firstn_length, repeat_length in E. discriminate.
Qed.
Print Assumptions C09_larger_block_truncated_refuted.

(** C09: when the block size changes during a transfer a last block may be ignored: the handler gets only
    the bytes received before. *)
Theorem C09_mixed_block_sizes_refuted :
  exists P, let blk i sz := Block K (mkBlk i (more_after P sz i) sz) (slice P (i * sz) sz) 0 true in
    total P = 64 /\ outs 8192 1024 [] [blk 0 16; blk 1 16; blk 2 16; blk 1 32] =
                    [Continue 0 16; Continue 1 16; Continue 2 16; Deliver (firstn 48 P)].
Proof. exists (map N.of_nat (seq 0 64)). vm_compute. split; reflexivity. Qed.
Print Assumptions C09_mixed_block_sizes_refuted.

(** C09, client side: a block that was not asked for makes the callback run with an empty payload, and
    blocks of two versions of a resource are joined (the ETag is not looked at). *)
Theorem C09_client_unrequested_block_refuted :
  exists P m, from_server P 16 m /\ client_outs 8192 None [m] = [Invoke []] /\ P <> [].
Proof.
  exists (first16 1 ++ first16 2), (Some (mkBlk 1 false 16), first16 2).
  split; [exists (mkBlk 1 false 16); repeat split; right; reflexivity|]. split; [vm_compute; reflexivity|discriminate].
Qed.
Print Assumptions C09_client_unrequested_block_refuted.
Theorem C09_client_versions_joined_refuted :
  exists P Q a b, from_server P 16 a /\ from_server Q 16 b /\
    client_outs 8192 None [a; b] = [Ask 1; Invoke (firstn 16 P ++ skipn 16 Q)] /\
    firstn 16 P ++ skipn 16 Q <> P /\ firstn 16 P ++ skipn 16 Q <> Q.
Proof.
  exists (first16 1 ++ first16 2), (first16 3 ++ first16 4), (Some (mkBlk 0 true 16), first16 1), (Some (mkBlk 1 false 16), first16 4).
  split; [exists (mkBlk 0 true 16); repeat split; left; reflexivity|].
  split; [exists (mkBlk 1 false 16); repeat split; right; reflexivity|].
  split; [vm_compute; reflexivity|]. split; discriminate.
Qed.
Print Assumptions C09_client_versions_joined_refuted.

(** Blocks 0, 0, 1, another transfer, 0 again, then the last block of a 40-byte payload. *)
Definition P40 : list N := map N.of_nat (seq 1 40).
Definition blk40 (i : N) : op := Block K (mkBlk i (more_after P40 16 i) 16) (slice P40 (i * 16) 16) 0 true.
Definition other : op := Block (mkK [98] 1 2 None) (mkBlk 0 true 16) (first16 9) 0 true.
Example C09_case :
  outs 8192 1024 [] [blk40 0; blk40 0; blk40 1; other; blk40 0; blk40 2; blk40 2; blk40 0] =
  [Continue 0 16; Continue 0 16; Continue 1 16; Continue 0 16; Continue 0 16; Deliver P40; Reject; Continue 0 16].
Proof. vm_compute. reflexivity. Qed.
Example C09_case_completes :
  let ops := [blk40 0; blk40 0; blk40 1; other; blk40 0] in
  let nums := map num_of (filter (fun x => key_eqb (op_key x) K) ops) in
  advancing 0 nums /\ reached 0 nums = 2 /\ more_after P40 16 2 = false /\ is_block P40 16 2 /\
  (forall x, In x ops -> op_key x = K -> early_block P40 16 8192 x) /\ (forall x, In x ops -> op_key x = K -> faithful P40 16 x).
Proof.
  cbn zeta. split; [vm_compute; repeat split; discriminate|]. split; [vm_compute; reflexivity|]. split; [vm_compute; reflexivity|].
  split; [right; vm_compute; reflexivity|].
  assert (H : forall i, i = 0 \/ i = 1 -> early_block P40 16 8192 (blk40 i) /\ faithful P40 16 (blk40 i)).
  { intros i [-> | ->]; (split; [split; [reflexivity|]; split; [first [left; reflexivity|right; vm_compute; reflexivity]|]; repeat split; vm_compute; try reflexivity; discriminate
    |split; [reflexivity|]; split; [first [left; reflexivity|right; vm_compute; reflexivity]|]; split; reflexivity]). }
  split; intros x Hx Hk; (repeat destruct Hx as [<-|Hx]; try (apply H; auto); [discriminate Hk|contradiction Hx]).
Qed.
Example C09_case_client :
  let m i := (Some (mkBlk i (more_after P40 16 i) 16), slice P40 (i * 16) 16) in
  client_outs 8192 None [m 0; m 0; m 1; m 0; m 2] = [Ask 1; Ask 1; Ask 2; Ask 1; Invoke P40] /\ requested P40 16 0 [m 0; m 0; m 1; m 0; m 2].
Proof. split; [vm_compute; reflexivity|]. vm_compute. repeat split; discriminate. Qed.

(** ** C10: sending *)

(** C10: every block the server sends of a response [P] is the slice asked for with the right more flag;
    it never reads outside the payload.  Any requests, in any order, of any block sizes. *)
Theorem C10_served_blocks_are_slices :
  forall block_size P, 0 < block_size ->
  forall os st, st = None \/ (exists next, st = Some (P, next)) -> Forall (fun o => 0 < k_size o) os ->
  Forall2 (fun o x =>
    match x with
    | S_block num more size p =>
      num = k_num o /\ size = N.min (k_size o) block_size /\ p = slice P (num * k_size o) size /\ more = (num * k_size o + size <? total P)
    | S_oob => False
    | _ => True
    end) os (serve block_size st os).
Proof.
  intros bs P Hbs os st Hst Hf. pose proof (serve_right bs P Hbs os st Hst Hf) as H1. pose proof (serve_num bs os st) as H2.
  clear Hst Hf. revert H1 H2. generalize (serve bs st os) as xs. induction os as [|o r IH]; intros xs H1 H2; inversion H1; subst; constructor.
  - inversion H2 as [|? ? ? ? Hn]; subst. destruct y; auto.
  - apply IH; [assumption|]. inversion H2; assumption.
Qed.
Print Assumptions C10_served_blocks_are_slices.

(** C10: nothing is served from beyond the end, and no block is empty. *)
Theorem C10_nothing_beyond_the_end :
  forall block_size P, 0 < block_size ->
  forall os st, st = None \/ (exists next, st = Some (P, next)) -> Forall (fun o => 0 < k_size o) os ->
  Forall2 (fun o x => match x with S_block _ _ _ p => k_num o * k_size o < total P /\ p <> [] | _ => True end)
    os (serve block_size st os).
Proof. exact serve_inside. Qed.
Print Assumptions C10_nothing_beyond_the_end.

(** C10: asking for the blocks one after the other gives exactly the payload. *)
Theorem C10_blocks_add_up :
  forall block_size P sz n, 0 < sz <= block_size -> total P < 2 ^ 32 ->
  sz < total P -> total P <= (1 + N.of_nat n) * sz -> N.of_nat n * sz < total P ->
  let (st, x) := first_block block_size P sz in x = S_block 0 true sz (slice P 0 sz) /\
  data_of x ++ concat (map data_of (serve block_size st (ask_from sz 1 n))) = P.
Proof. intros bs P sz n Hs HP. apply first_then; try assumption. lia. Qed.
Print Assumptions C10_blocks_add_up.

(** C10: a client sending [P] follows block [i] with block [i+1], until there is none. *)
Theorem C10_client_sends_next_block :
  forall block_size P sz, 0 < sz <= block_size -> total P < 2 ^ 32 -> forall i,
  send_next block_size P (mkBlk i true sz) =
  if more_after P sz i then S_block (i + 1) (more_after P sz (i + 1)) sz (slice P ((i + 1) * sz) sz) else S_drop.
Proof. intros bs P sz Hs HP i. apply send_right; try assumption. lia. Qed.
Print Assumptions C10_client_sends_next_block.

(** C10: oc_blockwise_dispatch_block itself reads past the payload when the offset is not a multiple of
    the requested size and the payload is shorter than that size. *)
Theorem C10_dispatch_unaligned_refuted :
  exists P off size, off < total P /\ dispatch P off size = D_oob.
Proof. exists (repeat 7 100), 16, 1024. split; vm_compute; reflexivity. Qed.
Print Assumptions C10_dispatch_unaligned_refuted.

(** C10: a request for a block further on is silently dropped, and one for the last block is refused when
    it is repeated (the buffer is gone). *)
Theorem C10_requests_unanswered_refuted :
  exists P, let ask i := mkBlk i false 16 in
    serve 1024 (Some (P, 16)) [ask 2; ask 1; ask 2; ask 2] =
    [S_drop; S_block 1 true 16 (slice P 16 16); S_block 2 false 16 (slice P 32 16); S_reject].
Proof. exists P40. vm_compute. reflexivity. Qed.
Print Assumptions C10_requests_unanswered_refuted.

Example C10_case :
  let (st, x) := first_block 1024 P40 16 in
  x = S_block 0 true 16 (slice P40 0 16) /\
  serve 1024 st (ask_from 16 1 2) = [S_block 1 true 16 (slice P40 16 16); S_block 2 false 16 (slice P40 32 16)] /\
  send_next 1024 P40 (mkBlk 1 true 16) = S_block 2 false 16 (slice P40 32 16).
Proof. vm_compute. repeat split. Qed.
