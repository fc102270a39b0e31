(** Encoding payloads as JSON: the encoder (api/oc_rep_encode_json.c) and the buffer that grows on demand
    (api/oc_rep_encode.c, with OC_DYNAMIC_ALLOCATION).

    Pointers into the buffer are offsets, as the library keeps them between calls
    (oc_rep_encoder_convert_ptr_to_offset and oc_rep_encoder_convert_offset_to_ptr, api/oc_rep_encode.c:58-82; the end
    is always the current size of the buffer).  The buffer exists (its pointer is not NULL); realloc succeeds. *)
From Verif Require Import Common Ep_Model Rep_Model Jd_Model.
From Coq Require Import String.
Local Open Scope string_scope.
Local Open Scope list_scope.
Local Open Scope nat_scope.

(** json_types_t (api/oc_rep_encode_json.c:30-35): the four flags of a CborEncoder. *)
Record flags := mkF { f_key : bool; f_val : bool; f_arr : bool; f_map : bool }.
(** A CborEncoder: [Some p] is a position in the buffer, [None] the state in which end is NULL and the number of missing
    bytes is counted. *)
Record enc := mkE { e_pos : option nat; e_need : nat; e_fl : flags }.
(** memset(0) of a CborEncoder, and the root context (rep_cbor_context_init, api/oc_rep_encode.c:84-89): offset 0, no flags. *)
Definition enc0 : enc := mkE (Some 0) 0 (mkF false false false false).

(** oc_rep_encoder_buffer_t (api/oc_rep_encode_internal.h:36-46): the memory, the maximal size, whether it may grow. *)
Record buf := mkB { b_mem : list N; b_max : nat; b_realloc : bool }.
Definition b_size (b : buf) : nat := List.length (b_mem b).

(** CborError: only "out of memory" and "none" are distinguished by the code that follows. *)
Inductive err : Type := ENone | EOom | EOther.

(** memcpy to an offset; a write that is not inside of the buffer is [None]. *)
Definition poke (mem : list N) (p : nat) (data : list N) : option (list N) :=
  if Nat.leb (p + List.length data) (List.length mem) then Some (firstn p mem ++ data ++ skipn (p + List.length data) mem) else None.

(** The result of a call: error, encoder, memory, and whether a write left the buffer. *)
Record res := mkR { x_err : err; x_enc : enc; x_mem : list N; x_bad : bool }.

(** rep_json_would_overflow, rep_json_append_to_buffer (api/oc_rep_encode_json.c:49-76). *)
Definition put (data : list N) (e : enc) (mem : list N) : res :=
  match e_pos e with
  | Some p =>
    if Nat.ltb (List.length mem) (p + List.length data) then
      mkR EOom (mkE None (p + List.length data - List.length mem) (e_fl e)) mem false
    else
      match poke mem p data with
      | Some mem' => mkR ENone (mkE (Some (p + List.length data)) (e_need e) (e_fl e)) mem' false
      | None => mkR ENone e mem true
      end
  | None => mkR EOom (mkE None (e_need e + List.length data) (e_fl e)) mem false
  end.
(** "err |= append": the next piece is appended whatever happened before. *)
Definition also (r : res) (data : list N) : res :=
  let r2 := put data (x_enc r) (x_mem r) in
  mkR (match x_err r with ENone => x_err r2 | e => e end) (x_enc r2) (x_mem r2) (x_bad r || x_bad r2).
Fixpoint alsos (r : res) (l : list (list N)) : res := match l with [] => r | d :: l' => alsos (also r d) l' end.

(** rep_json_append_separator (api/oc_rep_encode_json.c:78-97): the separator the flags ask for. *)
Definition separator (f : flags) : option (list N) :=
  if f_map f then
    if f_key f then Some [58%N] else if f_val f then Some [44%N] else None
  else if f_arr f then
    if f_key f || f_val f then Some [44%N] else None
  else None.
(** The separator and the pieces of a value. *)
Definition write (pieces : list (list N)) (e : enc) (mem : list N) : res :=
  alsos (mkR ENone e mem false) (match separator (e_fl e) with Some s => s :: pieces | None => pieces end).

Definition set_flags (f : flags -> flags) (r : res) : res :=
  match x_err r with ENone => mkR ENone (mkE (e_pos (x_enc r)) (e_need (x_enc r)) (f (e_fl (x_enc r)))) (x_mem r) (x_bad r) | _ => r end.
(** "flags &= ~KeyType; flags |= ValueType". *)
Definition value_done (f : flags) : flags := mkF false true (f_arr f) (f_map f).
(** The toggle behind a text string (api/oc_rep_encode_json.c:207-227). *)
Definition text_done (f : flags) : flags :=
  let f1 := if f_map f then (if f_key f then mkF false true (f_arr f) (f_map f) else if f_val f then mkF true false (f_arr f) (f_map f) else mkF true (f_val f) (f_arr f) (f_map f)) else f in
  if f_arr f1 then mkF (f_key f1) true (f_arr f1) (f_map f1) else f1.
(** A value in a map needs a key (the check at the start of the functions). *)
Definition no_key (f : flags) : bool := negb (f_key f) && f_map f.

(** The calls on one encoder. *)
Inductive prim : Type := PNull | PBool (b : bool) | PInt (z : Z) | PUint (n : N) | PText (s : list N) | PDouble (s : list N) | PBytes.
(** OC_REP_JSON_INT_MAX, OC_REP_JSON_INT_MIN, OC_REP_JSON_UINT_MAX (api/oc_rep_encode_json_internal.h:32-34). *)
Definition JMAX : Z := 9007199254740992.
Definition JMIN : Z := -4503599627370497.
(** The conversion %lld. *)
Definition dec_z (z : Z) : list N := if (z <? 0)%Z then 45%N :: dec (Z.to_N (- z)) else dec (Z.to_N z).
Definition fail (e : enc) (mem : list N) : res := mkR EOther e mem false.
(** rep_json_encode_null, _boolean, _int, _uint, _byte_string, _text_string, _double (api/oc_rep_encode_json.c:99-259).
    A double is given as the text of "%f"; the buffer for it has 320 bytes. *)
Definition encode (p : prim) (e : enc) (mem : list N) : res :=
  match p with
  | PNull => if no_key (e_fl e) then fail e mem else set_flags value_done (write [str "null"] e mem)
  | PBool b => if no_key (e_fl e) then fail e mem else set_flags value_done (write [if b then str "true" else str "false"] e mem)
  | PInt z =>
    if no_key (e_fl e) then fail e mem
    else if ((JMAX <? z) || (z <? JMIN))%Z then fail e mem
    else set_flags value_done (write [dec_z z] e mem)
  | PUint n =>
    if no_key (e_fl e) then fail e mem
    else if (Z.to_N JMAX <? n)%N then fail e mem
    else set_flags value_done (write [dec n] e mem)
  | PText s => set_flags text_done (write [[34%N]; s; [34%N]] e mem)
  | PDouble s =>
    if no_key (e_fl e) then fail e mem
    else if Nat.leb 320 (List.length s) then fail e mem
    else set_flags value_done (write [s] e mem)
  | PBytes => fail e mem
  end.
(** rep_json_encoder_create_array and _create_map with rep_json_prepare_container (api/oc_rep_encode_json.c:261-308): the
    parent, and what becomes of the container.  On another error the container stays as the caller zeroed it. *)
Definition create (map : bool) (e : enc) (mem : list N) : res * enc :=
  if no_key (e_fl e) then (fail e mem, enc0)
  else
    let r := set_flags value_done (write [[if map then 123%N else 91%N]] e mem) in
    (r, match x_err r with
        | ENone => mkE (e_pos (x_enc r)) (e_need (x_enc r)) (mkF false false (negb map) map)
        | _ => x_enc r
        end).
(** rep_json_encoder_close_container (api/oc_rep_encode_json.c:310-319). *)
Definition close (e c : enc) (mem : list N) : res :=
  put [if f_map (e_fl c) then 125%N else 93%N] (mkE (e_pos c) (e_need c) (e_fl e)) mem.

(** rep_buffer_realloc (api/oc_rep_encode.c:129-158).  The new bytes are arbitrary; they are shown as zeros. *)
Definition grow (needed : nat) (b : buf) : option buf :=
  if negb (b_realloc b) then None
  else if Nat.ltb (b_max b) (b_size b + needed) then None
  else
    let more := if Nat.ltb (2 * (b_size b + needed)) (b_max b / 4) then needed + (b_size b + needed) else b_max b - b_size b in
    Some (mkB (b_mem b ++ repeat 0%N more) (b_max b) (b_realloc b)).

(** rep_json_get_extra_bytes_needed (api/oc_rep_encode_json.c:43-47). *)
Definition extra (e : enc) : nat := match e_pos e with Some _ => 0 | None => e_need e end.

(** ** The global encoder and the calls of the macros (include/oc_rep.h:284-1175)
    The state: the open encoders, innermost first (the last one is the root context), the buffer, g_err (zero or not),
    and whether a write left the buffer. *)
Record est := mkS { g_stack : list enc; g_buf : buf; g_err : bool; g_bad : bool }.
Definition is_err (e : err) : bool := match e with ENone => false | _ => true end.

(** oc_rep_encoder_write_null, _boolean, _int, _uint, _double, _text_string, _byte_string (api/oc_rep_encode.c:458-785): a
    second attempt with the encoder as it was before when the buffer could be enlarged. *)
Definition retry (attempt : enc -> list N -> res) (e : enc) (b : buf) : err * enc * buf * bool :=
  let r := attempt e (b_mem b) in
  let b1 := mkB (x_mem r) (b_max b) (b_realloc b) in
  match x_err r with
  | EOom =>
    match grow (extra (x_enc r)) b1 with
    | None => (EOom, x_enc r, b1, x_bad r)
    | Some b2 =>
      let r2 := attempt e (b_mem b2) in
      (x_err r2, x_enc r2, mkB (x_mem r2) (b_max b2) (b_realloc b2), x_bad r || x_bad r2)
    end
  | x => (x, x_enc r, b1, x_bad r)
  end.

Inductive op : Type := OPrim (p : prim) | OOpen (map : bool) | OClose.

(** One call.  oc_rep_encoder_create_array, oc_rep_encoder_create_map and oc_rep_encoder_close_container
    (api/oc_rep_encode.c:787-939) do the same for two encoders. *)
Definition exec (o : op) (s : est) : est :=
  match o, g_stack s with
  | OPrim p, e :: r =>
    let '(x, e', b, bad) := retry (encode p) e (g_buf s) in
    mkS (e' :: r) b (g_err s || is_err x) (g_bad s || bad)
  | OOpen map, e :: r =>
    let '(x, e', b, bad) := retry (fun e m => fst (create map e m)) e (g_buf s) in
    (* the container of the last attempt *)
    let c := match x with ENone => mkE (e_pos e') (e_need e') (mkF false false (negb map) map) | EOom => e' | EOther => enc0 end in
    mkS (c :: e' :: r) b (g_err s || is_err x) (g_bad s || bad)
  | OClose, c :: e :: r =>
    let '(x, e', b, bad) := retry (fun e m => close e c m) e (g_buf s) in
    mkS (e' :: r) b (g_err s || is_err x) (g_bad s || bad)
  | _, _ => s
  end.
Definition exec_all (l : list op) (s : est) : est := fold_left (fun s o => exec o s) l s.

(** oc_rep_new_v1 and oc_rep_new_realloc_v1 with the JSON encoder selected (api/oc_rep.c:53-75, api/oc_rep_encode.c:91-117). *)
Definition start_fixed (mem : list N) : est := mkS [enc0] (mkB mem (List.length mem) false) false false.
Definition start_growing (mem : list N) (max : nat) : est := mkS [enc0] (mkB mem max true) false false.

(** oc_rep_encoded_payload_is_empty_object and oc_rep_encoder_payload_size (api/oc_rep_encode.c:336-389): -1 is [None].
    The decoder works with a pool of its own. *)
Definition payload_size (truncate : bool) (s : est) : option nat :=
  if g_err s then None
  else match e_pos (last (g_stack s) enc0) with
  | Some p =>
    if truncate && Nat.eqb p 2 && match parse_json (firstn 2 (b_mem (g_buf s))) with PRep [] => true | _ => false end then Some 0 else Some p
  | None => None
  end.
(** What the response then carries. *)
Definition payload (truncate : bool) (s : est) : option (list N) := option_map (fun n => firstn n (b_mem (g_buf s))) (payload_size truncate s).

(** ** Writing a payload with the macros: oc_rep_begin_root_object, oc_rep_set_..., oc_rep_open_object, oc_rep_open_array,
    oc_rep_object_array_begin_item, oc_rep_set_int_array, oc_rep_set_bool_array, oc_rep_set_string_array (which leaves out
    empty strings, api/oc_rep_encode.c:1008-1026). *)
Definition not_nil (s : list N) : bool := match s with [] => false | _ => true end.
Definition attr_ops (vo : rval -> list op) : list rep -> list op :=
  fix go (l : list rep) : list op := match l with [] => [] | (n, v) :: r => OPrim (PText n) :: vo v ++ go r end.
Fixpoint value_ops (fmt : N -> list N) (v : rval) : list op :=
  match v with
  | RNil => [OPrim PNull]
  | RInt z => [OPrim (PInt z)]
  | RDouble d => [OPrim (PDouble (fmt d))]
  | RBool b => [OPrim (PBool b)]
  | RBytes _ => [OPrim PBytes]
  | RStr s => [OPrim (PText s)]
  | RObj l => OOpen true :: attr_ops (value_ops fmt) l ++ [OClose]
  | RArr => [OOpen false; OClose]
  | RIntArr l => OOpen false :: map (fun z => OPrim (PInt z)) l ++ [OClose]
  | RDoubleArr l => OOpen false :: map (fun d => OPrim (PDouble (fmt d))) l ++ [OClose]
  | RBoolArr l => OOpen false :: map (fun b => OPrim (PBool b)) l ++ [OClose]
  | RBytesArr l => OOpen false :: map (fun _ => OPrim PBytes) l ++ [OClose]
  | RStrArr l => OOpen false :: map (fun s => OPrim (PText s)) (filter not_nil l) ++ [OClose]
  | RObjArr os =>
    OOpen false ::
    (fix go (os : list (list rep)) : list op := match os with [] => [] | o :: r => OOpen true :: attr_ops (value_ops fmt) o ++ OClose :: go r end) os
    ++ [OClose]
  end.
Definition payload_ops (fmt : N -> list N) (l : list rep) : list op := OOpen true :: attr_ops (value_ops fmt) l ++ [OClose].
