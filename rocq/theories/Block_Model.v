(** Block-wise transfers. api/oc_blockwise.c, messaging/coap/engine.c. *)
From Verif Require Import Common.
Local Open Scope N_scope.

(** What identifies a transfer: href, endpoint (compared by identity here), method, query and role,
    api/oc_blockwise.c:378-395. *)
Record key := mkK { k_href : list N; k_ep : N; k_method : N; k_query : option (list N) }.
Definition opt_eqb (a b : option (list N)) : bool :=
  match a, b with
  | Some x, Some y => list_eqb x y
  | None, None => true
  | _, _ => false
  end.
Definition key_eqb (a b : key) : bool :=
  list_eqb (k_href a) (k_href b) && (k_ep a =? k_ep b) && (k_method a =? k_method b) && opt_eqb (k_query a) (k_query b).

(** oc_blockwise_state_t, api/oc_blockwise_internal.h:51-77.  [b_data]: the first next_block_offset bytes
    of the buffer (the code only writes at next_block_offset); [b_size] is the size of the buffer. *)
Record buf := mkB { b_key : key; b_size : N; b_data : list N; b_payload : N; b_ref : N }.
Definition next_off (b : buf) : N := N.of_nat (List.length (b_data b)).

(** oc_blockwise_handle_block, api/oc_blockwise.c:434-454.  The result carries the range written, if any:
    offset and number of bytes. *)
Definition handle_block (b : buf) (offset : N) (block : list N) : option (buf * option (N * N)) :=
  let len := N.of_nat (List.length block) in
  if (b_size b <=? offset) || (b_size b - offset <? len) || (next_off b <? offset) then None
  else if next_off b =? offset then
    Some (mkB (b_key b) (b_size b) (b_data b ++ block) (b_payload b) (b_ref b), Some (next_off b, len))
  else Some (b, None).

(** The block option: number, more flag and block size (2^(szx+4)); offset as in
    coap_options_get_block1/2; OC_BLOCK_SIZE bounds the size, engine.c:197-223. *)
Record blk := mkBlk { k_num : N; k_more : bool; k_size : N }.
Definition b_offset (k : blk) : N := k_num k * k_size k.

Section Server.
(** OC_MAX_APP_DATA_SIZE and OC_BLOCK_SIZE *)
Variables max_app block_size : N.

Inductive op :=
| Block (k : key) (o : blk) (payload : list N) (size1 : N) (room : bool)
| Plain (k : key) (payload : list N) (size1 : N) (room : bool)
| Expire (k : key).
Inductive out :=
| Continue (num size : N) (* 2.31 with the block option *)
| Deliver (payload : list N) (* the resource handler runs with this payload *)
| Reject (* reset message *)
| Silent.

Definition find_buf (k : key) (l : list buf) : option buf := find (fun b => key_eqb (b_key b) k) l.
(** Change the first buffer of the key / remove it. *)
Fixpoint put_buf (k : key) (u : buf) (l : list buf) : list buf :=
  match l with
  | [] => []
  | b :: r => if key_eqb (b_key b) k then u :: r else b :: put_buf k u r
  end.
Fixpoint drop_buf (k : key) (l : list buf) : list buf :=
  match l with
  | [] => []
  | b :: r => if key_eqb (b_key b) k then r else b :: drop_buf k r
  end.
(** oc_blockwise_free_all_buffers(false), api/oc_blockwise.c:231-265: at the end of every message. *)
Definition sweep (l : list buf) : list buf := filter (fun b => negb (b_ref b =? 0)) l.

Definition buffer_size (size1 : N) : N := if size1 =? 0 then max_app else size1.
(** coap_receive_blockwise_block1, engine.c:310-389, for POST and PUT.  [size1] is the Size1 option, 0 when
    absent; [room]: a buffer can be allocated.  oc_blockwise_find_request_buffer looks for the first
    buffer of the key; new buffers go to the end of the list (oc_list_add). *)
(** engine.c:322-330 *)
Definition drop_stale (k : key) (o : blk) (len : N) (l : list buf) : list buf :=
  match find_buf k l with
  | Some b => if (b_payload b =? next_off b) && negb ((next_off b + 2 ^ 32 - len) mod 2 ^ 32 =? b_offset o) then drop_buf k l else l
  | None => l
  end.
(** engine.c:332-348 *)
Definition ensure (k : key) (o : blk) (size1 : N) (room : bool) (l : list buf) : list buf :=
  match find_buf k l with
  | None => if (k_num o =? 0) && room then l ++ [mkB k (buffer_size size1) [] 0 1] else l
  | Some _ => l
  end.
(** engine.c:350-389 *)
Definition block1 (k : key) (o : blk) (payload : list N) (size1 : N) (room : bool) (l : list buf) : list buf * out :=
  let len := N.of_nat (List.length payload) in
  let size := N.min (k_size o) block_size in
  let l := ensure k o size1 room (drop_stale k o len l) in
  match find_buf k l with
  | None => (l, Reject)
  | Some b =>
    match handle_block b (b_offset o) (firstn (N.to_nat (N.min (len mod 2 ^ 16) size)) payload) with
    | None => (put_buf k (mkB (b_key b) (b_size b) (b_data b) (b_payload b) 0) l, Reject) (* engine.c:1193-1198 *)
    | Some (b', _) =>
      if k_more o then (put_buf k (mkB (b_key b') (b_size b') (b_data b') (b_payload b') 1) l, Continue (k_num o) size)
      else (put_buf k (mkB (b_key b') (b_size b') (b_data b') (next_off b') 0) l, Deliver (b_data b'))
    end
  end.

(** coap_receive_method_payload without block options, engine.c:536-577, with
    coap_receive_create_request_buffer, engine.c:283-309.  The handler gets the buffer's first
    payload_size bytes (api/oc_ri.c:1790-1797). *)
Definition plain (k : key) (payload : list N) (size1 : N) (room : bool) (l : list buf) : list buf * out :=
  let len := N.of_nat (List.length payload) in
  if block_size <? len then (l, Reject)
  else if len =? 0 then (l, Deliver [])
  else
    let l := drop_buf k l in
    if negb room then (l, Reject)
    else
      match handle_block (mkB k (buffer_size size1) [] 0 1) 0 (firstn (N.to_nat (len mod 2 ^ 16)) payload) with
      | None => (l, Reject)
      | Some (b', _) => (l, Deliver (firstn (N.to_nat len) (b_data b')))
      end.

Definition step (l : list buf) (o : op) : list buf * out :=
  match o with
  | Block k b payload size1 room => let (l', r) := block1 k b payload size1 room l in (sweep l', r)
  | Plain k payload size1 room => let (l', r) := plain k payload size1 room l in (sweep l', r)
  | Expire k => (drop_buf k l, Silent) (* blockwise_free_request_async, api/oc_blockwise.c:144-150 *)
  end.
Fixpoint outs (l : list buf) (ops : list op) : list out :=
  match ops with [] => [] | o :: r => let (l', x) := step l o in x :: outs l' r end.
Definition run (l : list buf) (ops : list op) : list buf := fold_left (fun l o => fst (step l o)) ops l.
Definition op_key (o : op) : key := match o with Block k _ _ _ _ | Plain k _ _ _ | Expire k => k end.
End Server.

(** ** The client collecting a block-wise response, engine.c:947-1011 (response buffer of one client
    callback).  [None]: no buffer yet. *)
Section Client.
Variable max_app : N.
Inductive cout :=
| Ask (num : N) (* a request for this block is sent *)
| Invoke (payload : list N). (* the application callback runs with this payload *)

(** A response that is not an error; [o = None]: no Block2 option (offset 0).  A transaction can be
    allocated.  After the callback the buffer is released. *)
Definition client (st : option (list N)) (o : option blk) (payload : list N) : option (list N) * cout :=
  let data := match st with Some d => d | None => [] end in
  let offset := match o with Some k => b_offset k | None => 0 end in
  let b := mkB (mkK [] 0 0 None) max_app data 0 1 in
  match payload, handle_block b offset payload with
  | _ :: _, Some (b', _) =>
    match o with
    | Some (mkBlk num true _) => (Some (b_data b'), Ask (num + 1))
    | _ => (None, Invoke (b_data b'))
    end
  | _, _ => (None, Invoke []) (* payload_size is still 0 *)
  end.
Fixpoint client_outs (st : option (list N)) (ms : list (option blk * list N)) : list cout :=
  match ms with
  | [] => []
  | (o, p) :: r => let (st', x) := client st o p in x :: client_outs st' r
  end.
End Client.

(** ** Sending: oc_blockwise_dispatch_block, api/oc_blockwise.c:417-432.  [data]: the bytes of the
    payload; reading further is outside of it. *)
Inductive disp := D_none | D_oob | D_data (block : list N) (next : N).
Definition dispatch (data : list N) (offset size : N) : disp :=
  let total := N.of_nat (List.length data) in
  if offset <? total then
    let n := if total <? size then total else N.min size (total - offset) in
    if total <? offset + n then D_oob
    else D_data (firstn (N.to_nat n) (skipn (N.to_nat offset) data)) (offset + n)
  else D_none.

(** Server side of a response in blocks: the state of the response buffer (payload, next_block_offset). *)
Section Serve.
Variable block_size : N.
Inductive sout :=
| S_block (num : N) (more : bool) (size : N) (payload : list N)
| S_drop (* treated as a duplicate: no answer *)
| S_reject
| S_oob.
(** coap_receive_set_response_by_handler, engine.c:704-746: the first block after the handler produced
    [data].  The buffer is kept only when there is more. *)
Definition first_block (data : list N) (size : N) : option (list N * N) * sout :=
  let size := N.min size block_size in
  match dispatch data 0 size with
  | D_oob => (None, S_oob)
  | D_none => (Some (data, 0), S_block 0 false size [])
  | D_data p next =>
    let more := size <? N.of_nat (List.length data) in
    (Some (data, next), S_block 0 more size p)
  end.
(** coap_receive_blockwise_block2 with a response buffer, engine.c:412-466.  32-bit subtraction. *)
Definition next_block (st : option (list N * N)) (o : blk) : option (list N * N) * sout :=
  match st with
  | None => (None, S_reject)
  | Some (data, next) =>
    let size := N.min (k_size o) block_size in
    if size <? (next + 2 ^ 32 - b_offset o) mod 2 ^ 32 then (Some (data, next), S_drop)
    else match dispatch data (b_offset o) size with
         | D_none => (None, S_reject)
         | D_oob => (None, S_oob)
         | D_data p next' =>
           let more := next' <? N.of_nat (List.length data) in
           (if more then Some (data, next') else None, S_block (k_num o) more size p)
         end
  end.
Fixpoint serve (st : option (list N * N)) (os : list blk) : list sout :=
  match os with [] => [] | o :: r => let (st', x) := next_block st o in x :: serve st' r end.

(** Client side of a request in blocks, engine.c:850-905: after the acknowledgement of block [num] the
    next one is sent. *)
Definition send_next (data : list N) (o : blk) : sout :=
  let size := N.min (k_size o) block_size in
  match dispatch data (b_offset o + size) size with
  | D_none => S_drop (* nothing left: the transfer is over *)
  | D_oob => S_oob
  | D_data p next' => S_block (k_num o + 1) (next' <? N.of_nat (List.length data)) size p
  end.
End Serve.
