(** Decoding of CBOR payloads into attribute trees (api/oc_rep_decode.c) and lookup in them (api/oc_rep.c).

    The CBOR library is not part of the project; its iterator is taken to present the data items below. A call of the
    library outside its contract (reading an integer from an item that is none, entering an item that is no container) and
    a dereference of NULL are [Crash]. *)
From Verif Require Import Common Rep_Model.
Local Open Scope N_scope.

(** Well-formed CBOR data items as the library reports their type. [COther]: undefined, half and single precision floats,
    other simple values. *)
Inductive cbor : Type :=
| CInt (z : Z) | CBytes (s : list N) | CText (s : list N) | CBool (b : bool) | CDouble (bits : N)
| CNull | COther
| CArr (l : list cbor) | CMap (l : list (cbor * cbor)) | CTag (n : N) (c : cbor).

Inductive out (A : Type) : Type := Ok (a : A) | Err | Crash.
Arguments Ok {A}. Arguments Err {A}. Arguments Crash {A}.

Definition bind {A B} (x : out A) (f : A -> out B) : out B := match x with Ok a => f a | Err => Err | Crash => Crash end.

(** cbor_value_get_int64: the 64-bit two's complement of the number. *)
Definition wrap64 (z : Z) : Z := ((z + 2 ^ 63) mod 2 ^ 64 - 2 ^ 63)%Z.

(** cbor_type_to_oc_rep_value_type (api/oc_rep_decode.c:96-118). *)
Definition ctype (c : cbor) : option N :=
  match c with
  | CInt _ => Some 1 | CDouble _ => Some 2 | CBool _ => Some 3 | CMap _ => Some 6 | CArr _ => Some 8
  | CBytes _ => Some 4 | CText _ => Some 5
  | _ => None
  end.

(** rep_array_value_type_check (87-94). *)
Definition type_ok (arr item : N) : bool := N.land arr item =? item.

(** STRING_ARRAY_ITEM_MAX_LEN (include/oc_helpers.h:190). *)
Definition item_max : nat := 128.

(** Reading one item of an array of the given type (136-173). *)
Definition get_int (c : cbor) : out Z := match c with CInt z => Ok (wrap64 z) | _ => Crash end.
Definition get_double (c : cbor) : out N := match c with CDouble b => Ok b | _ => Crash end.
Definition get_bool (c : cbor) : out bool := match c with CBool b => Ok b | _ => Crash end.
(** An item that does not fit its slot is an error of the copy. *)
Definition get_bytes (c : cbor) : out (list N) := match c with CBytes s => if (List.length s <? item_max)%nat then Ok s else Err | _ => Crash end.
Definition get_text (c : cbor) : out (list N) := match c with CText s => if (List.length s <? item_max)%nat then Ok s else Err | _ => Crash end.

(** rep_parse_simple_array (120-185). *)
Fixpoint simple_array {A} (arr : N) (get : cbor -> out A) (l : list cbor) : out (list A) :=
  match l with
  | [] => Ok []
  | c :: t =>
      match ctype c with
      | None => Err
      | Some ty => if type_ok arr ty then bind (get c) (fun a => bind (simple_array arr get t) (fun r => Ok (a :: r))) else Err
      end
  end.

(** rep_parse_key (392-410). *)
Definition dec_key (k : cbor) : out (list N) := match k with CText s => Ok s | _ => Err end.

(** The properties of an object, with [dec] for the values (rep_parse_object, 412-445). *)
Definition members (dec : cbor -> out rval) : list (cbor * cbor) -> out (list rep) :=
  fix go l := match l with
              | [] => Ok []
              | (k, v) :: t => bind (dec_key k) (fun n => bind (dec v) (fun x => bind (go t) (fun r => Ok ((n, x) :: r))))
              end.

(** rep_parse_object_array (35-85): every item must be a map. *)
Definition objects (dec : cbor -> out rval) : list cbor -> out (list (list rep)) :=
  fix go l := match l with
              | [] => Ok []
              | CMap m :: t => bind (members dec m) (fun o => bind (go t) (fun r => Ok (o :: r)))
              | _ :: _ => Err
              end.

(** oc_parse_rep_value (294-377) with rep_parse_array_init (227-266) and rep_parse_array (268-292): the first item decides
    the type of an array; an empty array leaves the type of the attribute as it was allocated, which is null; so do values
    of other types. *)
Fixpoint dec (c : cbor) : out rval :=
  match c with
  | CTag _ c' => dec c'
  | CInt z => Ok (RInt (wrap64 z))
  | CBool b => Ok (RBool b)
  | CDouble b => Ok (RDouble b)
  | CBytes s => Ok (RBytes s)
  | CText s => Ok (RStr s)
  | CNull | COther => Ok RNil
  | CMap l => bind (members dec l) (fun o => Ok (RObj o))
  | CArr [] => Ok RNil
  | CArr (c0 :: t) =>
      match ctype c0 with
      | Some 1 => bind (simple_array 9 get_int (c0 :: t)) (fun a => Ok (RIntArr a))
      | Some 2 => bind (simple_array 10 get_double (c0 :: t)) (fun a => Ok (RDoubleArr a))
      | Some 3 => bind (simple_array 11 get_bool (c0 :: t)) (fun a => Ok (RBoolArr a))
      | Some 4 => bind (simple_array 12 get_bytes (c0 :: t)) (fun a => Ok (RBytesArr a))
      | Some 5 => bind (simple_array 13 get_text (c0 :: t)) (fun a => Ok (RStrArr a))
      | Some 6 => bind (objects dec (c0 :: t)) (fun a => Ok (RObjArr a))
      | _ => Err
      end
  end.

(** oc_rep_parse_result_t (api/oc_rep_decode_internal.h). The items of a root array are kept as the attribute lists of
    their objects. *)
Inductive parsed : Type := PRep (l : list rep) | PArr (l : list (list rep)) | PEmptyArray | PNull.

(** An object inside a root array (rep_parse_root_array, 464-490): a property that fails leaves the pointer NULL that is
    then dereferenced. An array is entered like a map, its items taken as keys and values in turn. *)
Fixpoint pairs (l : list cbor) : list (cbor * option cbor) :=
  match l with [] => [] | [k] => [(k, None)] | k :: v :: t => (k, Some v) :: pairs t end.
Definition root_member (kv : cbor * option cbor) : out rep :=
  match bind (dec_key (fst kv)) (fun n => match snd kv with None => Err | Some v => bind (dec v) (fun x => Ok (n, x)) end) with
  | Ok r => Ok r | _ => Crash
  end.
Fixpoint seq {A B} (f : A -> out B) (l : list A) : out (list B) :=
  match l with [] => Ok [] | a :: t => bind (f a) (fun b => bind (seq f t) (fun r => Ok (b :: r))) end.
Definition root_item (c : cbor) : out (list rep) :=
  match c with
  | CMap m => seq root_member (map (fun kv => (fst kv, Some (snd kv))) m)
  | CArr l => seq root_member (pairs l)
  | _ => Crash
  end.

(** oc_rep_parse_cbor (492-542). *)
Definition parse (c : cbor) : out parsed :=
  match c with
  | CMap m => bind (members dec m) (fun o => Ok (PRep o))
  | CArr [] => Ok PEmptyArray
  | CArr l => bind (seq root_item l) (fun o => Ok (PArr o))
  | CNull => Ok PNull
  | _ => Err
  end.

(** OC_MAX_STRING_LENGTH (util/oc_secure_string_internal.h:33). *)
Definition max_string : nat := N.to_nat 4096.

(** oc_rep_get_by_type_and_key (api/oc_rep.c:149-170). *)
Definition get_by (l : list rep) (ty : N) (key : list N) : option rval :=
  if ((List.length key =? 0) || (max_string <=? List.length key))%nat then None
  else option_map snd (find (fun r => (rtype (snd r) =? ty) && list_eqb (fst r) key) l).

(** The key argument of the getters below is a C string; oc_strnlen_s bounds it (util/oc_secure_string.c).
    oc_rep_get_value (172-240) and the typed getters (242-400). [None]: returns false. *)
Definition get_null (l : list rep) (key : list N) : option bool := match get_by l 0 key with Some RNil => Some true | _ => None end.
Definition get_i (l : list rep) (key : list N) : option Z := match get_by l 1 key with Some (RInt z) => Some z | _ => None end.
Definition get_d (l : list rep) (key : list N) : option N := match get_by l 2 key with Some (RDouble z) => Some z | _ => None end.
Definition get_b (l : list rep) (key : list N) : option bool := match get_by l 3 key with Some (RBool z) => Some z | _ => None end.
Definition get_bs (l : list rep) (key : list N) : option (list N) := match get_by l 4 key with Some (RBytes z) => Some z | _ => None end.
Definition get_s (l : list rep) (key : list N) : option (list N) := match get_by l 5 key with Some (RStr z) => Some z | _ => None end.
Definition get_o (l : list rep) (key : list N) : option (list rep) := match get_by l 6 key with Some (RObj z) => Some z | _ => None end.
Definition get_ia (l : list rep) (key : list N) : option (list Z) := match get_by l 9 key with Some (RIntArr z) => Some z | _ => None end.
Definition get_da (l : list rep) (key : list N) : option (list N) := match get_by l 10 key with Some (RDoubleArr z) => Some z | _ => None end.
Definition get_ba (l : list rep) (key : list N) : option (list bool) := match get_by l 11 key with Some (RBoolArr z) => Some z | _ => None end.
Definition get_bsa (l : list rep) (key : list N) : option (list (list N)) := match get_by l 12 key with Some (RBytesArr z) => Some z | _ => None end.
Definition get_sa (l : list rep) (key : list N) : option (list (list N)) := match get_by l 13 key with Some (RStrArr z) => Some z | _ => None end.
Definition get_oa (l : list rep) (key : list N) : option (list (list rep)) := match get_by l 14 key with Some (RObjArr z) => Some z | _ => None end.

(** What the setters emit (include/oc_rep.h:347-1170, api/oc_rep_encode.c): a text key followed by the value. *)
Fixpoint enc (v : rval) : cbor :=
  let obj := fix obj (l : list (list N * rval)) : list (cbor * cbor) :=
               match l with [] => [] | (n, x) :: t => (CText n, enc x) :: obj t end in
  match v with
  | RNil => CNull
  | RInt z => CInt z
  | RDouble b => CDouble b
  | RBool b => CBool b
  | RBytes s => CBytes s
  | RStr s => CText s
  | RObj l => CMap (obj l)
  | RArr => CArr []
  | RIntArr l => CArr (map CInt l)
  | RDoubleArr l => CArr (map CDouble l)
  | RBoolArr l => CArr (map CBool l)
  | RBytesArr l => CArr (map CBytes l)
  | RStrArr l => CArr (map CText l)
  | RObjArr l => CArr ((fix objs (l : list (list (list N * rval))) : list cbor := match l with [] => [] | o :: t => CMap (obj o) :: objs t end) l)
  end.
Definition enc_members (l : list rep) : list (cbor * cbor) := map (fun r => (CText (fst r), enc (snd r))) l.
(** oc_rep_start_root_object ... oc_rep_end_root_object (include/oc_rep.h:583-610). *)
Definition enc_root (l : list rep) : cbor := CMap (enc_members l).
