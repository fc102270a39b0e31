(** Decoding JSON payloads: the tokenizer (util/jsmn/jsmn.c) and the decoder (api/oc_rep_decode_json.c).

    The tokenizer walks over the text and reports the tokens of the outermost level to a callback: strings,
    primitives, and objects and arrays as a whole, whose content the decoder tokenizes again.  Positions are
    replaced by the texts between them.  Allocation always succeeds. *)
From Verif Require Import Common Ep_Model.
From Coq Require Import String.
Local Open Scope string_scope.
Local Open Scope list_scope.
Local Open Scope N_scope.

(** jsmntok_t (util/jsmn/jsmn_internal.h:63-92) with the text it delimits. *)
Inductive tok : Type := TPrim (s : list N) | TStr (s : list N) | TObj (s : list N) | TArr (s : list N).

(** What a callback answers.  [CbTrap] stands for a failed assertion or a write behind an array, [CbFuel] for running
    out of the recursion bound of the model; both are proved not to occur. *)
Inductive cbres : Type := CbTrue | CbFalse | CbTrap | CbFuel.
(** The value returned by jsmn_parse: a number of tokens, or a negative value. *)
Inductive status : Type := ROk (n : nat) | RFail | RTrap | RFuel.

(** Where the tokenizer is: between tokens, inside a string, behind a backslash, inside the digits of a unicode escape,
    inside a primitive. *)
Inductive mode : Type := Scan | Str | Esc | Hex (k : nat) | Prim.

Section Jsmn.
Context {D : Type} (cb : tok -> D -> cbres * D).

(** jsmn_parser_t (util/jsmn/jsmn_internal.h:98-103), the token being filled, the data of the callback, the count.
    [acc] is the text since the start of the token in reverse; [dep] is zero when not inside a container; [obj] is the
    type of the open container. *)
Record st := mkSt { s_mode : mode; s_dep : nat; s_obj : bool; s_acc : list N; s_data : D; s_cnt : nat }.
Inductive next := Go (s : st) | Stop (r : status) (d : D).

(** Reporting a token (util/jsmn/jsmn.c:108-110, 192-194, 232-235): counted when the callback agrees. *)
Definition emit (t : tok) (d : D) (n : nat) (k : D -> nat -> next) : next :=
  match cb t d with
  | (CbTrue, d') => k d' (S n)
  | (CbFalse, d') => Stop RFail d'
  | (CbTrap, d') => Stop RTrap d'
  | (CbFuel, d') => Stop RFuel d'
  end.

(** The characters that end a primitive (util/jsmn/jsmn.c:85-93). *)
Definition is_delim (c : N) : bool :=
  (c =? 58) || (c =? 9) || (c =? 13) || (c =? 10) || (c =? 32) || (c =? 44) || (c =? 93) || (c =? 125).

(** jsmn_parse_next_char with jsmn_open_container and jsmn_close_container (util/jsmn/jsmn.c:206-290). *)
Definition scan_char (c : N) (dep : nat) (obj : bool) (acc : list N) (d : D) (n : nat) : next :=
  if (c =? 123) || (c =? 91) then
    match dep with
    | O => Go (mkSt Scan 1 (c =? 123) [] d n)
    | S _ => Go (mkSt Scan (S dep) obj (c :: acc) d n)
    end
  else if (c =? 125) || (c =? 93) then
    match dep with
    | O => Stop RFail d
    | S O =>
      if Bool.eqb obj (c =? 125) then
        emit (if obj then TObj (rev acc) else TArr (rev acc)) d n (fun d' n' => Go (mkSt Scan 0 obj [] d' n'))
      else Stop RFail d
    | S k => Go (mkSt Scan k obj (c :: acc) d n)
    end
  else if c =? 34 then Go (mkSt Str dep obj (match dep with O => [] | _ => c :: acc end) d n)
  else if (c =? 9) || (c =? 13) || (c =? 10) || (c =? 32) || (c =? 58) || (c =? 44) then
    Go (mkSt Scan dep obj (c :: acc) d n)
  else if (c <? 32) || (127 <=? c) then Stop RFail d
  else Go (mkSt Prim dep obj (match dep with O => [c] | _ => c :: acc end) d n).

(** isxdigit; a negative argument is outside of its contract and is taken as "no". *)
Definition is_xdigit (c : N) : bool :=
  ((48 <=? c) && (c <=? 57)) || ((65 <=? c) && (c <=? 70)) || ((97 <=? c) && (c <=? 102)).

(** One character.  jsmn_parse_string, jsmn_parse_escaped_char, jsmn_parse_hex_char and jsmn_parse_primitive
    (util/jsmn/jsmn.c:75-203) are unrolled into the modes; every early end of a string is a failure, whether the
    C code notices it in the escape or at the end of the loop. *)
Definition step (c : N) (s : st) : next :=
  let '(mkSt m dep obj acc d n) := s in
  match m with
  | Scan => scan_char c dep obj acc d n
  | Prim =>
    if is_delim c then
      match dep with
      | O => emit (TPrim (rev acc)) d n (fun d' n' => scan_char c 0 obj [] d' n')
      | S _ => scan_char c dep obj acc d n
      end
    else if (c <? 32) || (127 <=? c) then Stop RFail d
    else Go (mkSt Prim dep obj (c :: acc) d n)
  | Str =>
    if c =? 0 then Stop RFail d
    else if c =? 34 then
      match dep with
      | O => emit (TStr (rev acc)) d n (fun d' n' => Go (mkSt Scan 0 obj [] d' n'))
      | S _ => Go (mkSt Scan dep obj (c :: acc) d n)
      end
    else if c =? 92 then Go (mkSt Esc dep obj (c :: acc) d n)
    else Go (mkSt Str dep obj (c :: acc) d n)
  | Esc =>
    if (c =? 34) || (c =? 47) || (c =? 92) || (c =? 98) || (c =? 102) || (c =? 114) || (c =? 110) || (c =? 116) then
      Go (mkSt Str dep obj (c :: acc) d n)
    else if c =? 117 then Go (mkSt (Hex 4) dep obj (c :: acc) d n)
    else Stop RFail d
  | Hex k =>
    if is_xdigit c then
      Go (mkSt (match k with S (S k') => Hex (S k') | _ => Str end) dep obj (c :: acc) d n)
    else Stop RFail d
  end.

(** The end of the text (util/jsmn/jsmn.c:305-309): a container or a string must not be open; a primitive ends. *)
Definition finish (s : st) : status * D :=
  match s_dep s, s_mode s with
  | O, Scan => (ROk (s_cnt s), s_data s)
  | O, Prim =>
    match emit (TPrim (rev (s_acc s))) (s_data s) (s_cnt s) (fun d n => Go (mkSt Scan 0 false [] d n)) with
    | Go s' => (ROk (s_cnt s'), s_data s')
    | Stop r d => (r, d)
    end
  | _, _ => (RFail, s_data s)
  end.

(** jsmn_parse (util/jsmn/jsmn.c:292-312): up to the end of the text or to a NUL between tokens. *)
Fixpoint jsmn_from (js : list N) (s : st) : status * D :=
  match js with
  | [] => finish s
  | c :: r =>
    match s_mode s, c =? 0 with
    | Scan, true => finish s
    | _, _ => match step c s with Go s' => jsmn_from r s' | Stop x d => (x, d) end
    end
  end.
Definition jsmn (js : list N) (d : D) : status * D := jsmn_from js (mkSt Scan 0 false [] d 0).
End Jsmn.
Arguments mkSt {D}. Arguments Go {D}. Arguments Stop {D}.

(** ** The decoder *)

(** The values the decoder makes (oc_rep_value_type_t and the union of oc_rep_t, include/oc_rep.h:1177-1215).  An
    attribute may lack a name.  [JUnknown] is the type 255 of an attribute whose value is not known (yet). *)
Inductive jv : Type :=
| JUnknown | JNil | JInt (z : Z) | JBool (b : bool) | JStr (s : list N)
| JObj (l : list (option (list N) * jv))
| JInts (l : list Z) | JBools (l : list bool) | JStrs (l : list (list N))
| JObjs (l : list (option (list N) * jv)).
Definition item := (option (list N) * jv)%type.

(** rep_data_t (api/oc_rep_decode_json.c:43-49): the list in reverse, whether its last item is waiting for its value
    (data->cur), whether the root is an empty array. *)
Record rd := mkRd { r_rev : list item; r_cur : bool; r_empty : bool }.
Definition rd0 : rd := mkRd [] false false.

(** json_set_rep (api/oc_rep_decode_json.c:59-86) followed by "data->cur = NULL", as in all its uses with a value. *)
Definition set_rep (v : jv) (root : bool) (d : rd) : cbres * rd :=
  if r_cur d then
    match r_rev d with
    | (Some n, _) :: r => (CbTrue, mkRd ((Some n, v) :: r) false (r_empty d))
    | _ => (CbFalse, d)
    end
  else (CbTrue, mkRd ((None, v) :: r_rev d) false (match r_rev d with [] => root | _ => r_empty d end)).

(** json_parse_string (api/oc_rep_decode_json.c:51-57, 90-106). *)
Definition parse_string (s : list N) (d : rd) : cbres * rd :=
  if r_cur d then
    match r_rev d with
    | (Some n, _) :: r => (CbTrue, mkRd ((Some n, JStr s) :: r) false (r_empty d))
    | _ => (CbFalse, d)
    end
  else (CbTrue, mkRd ((Some s, JUnknown) :: r_rev d) true (match r_rev d with [] => false | _ => r_empty d end)).

(** json_parse_null, json_parse_bool (api/oc_rep_decode_json.c:108-139). *)
Definition as_null (s : list N) : bool := list_eqb s (str "null").
Definition as_bool (s : list N) : option bool :=
  if list_eqb s (str "true") then Some true else if list_eqb s (str "false") then Some false else None.
(** json_parse_int (api/oc_rep_decode_json.c:141-159): strtoll on the first 31 characters; what follows the digits is
    ignored; no digits or a value outside of int64_t is a failure.  (A primitive holds no white space.) *)
Definition as_int (s : list N) : option Z :=
  let b := firstn 31 s in
  let '(neg, b1) := match b with c :: r => if c =? 45 then (true, r) else if c =? 43 then (false, r) else (false, b) | [] => (false, b) end in
  match span is_digit b1 with
  | [] => None
  | ds =>
    let z := if neg : bool then (- Z.of_N (dval ds))%Z else Z.of_N (dval ds) in
    if ((- 2 ^ 63 <=? z) && (z <? 2 ^ 63))%Z then Some z else None
  end.

(** json_parse_primitive (api/oc_rep_decode_json.c:161-184): the name is not checked again. *)
Definition parse_prim (s : list N) (d : rd) : cbres * rd :=
  if r_cur d then
    match r_rev d with
    | (n, _) :: r =>
      if as_null s then (CbTrue, mkRd ((n, JNil) :: r) false (r_empty d))
      else match as_bool s with
      | Some b => (CbTrue, mkRd ((n, JBool b) :: r) false (r_empty d))
      | None => match as_int s with
        | Some z => (CbTrue, mkRd ((n, JInt z) :: r) false (r_empty d))
        | None => (CbFalse, d)
        end
      end
    | [] => (CbFalse, d)
    end
  else (CbFalse, d).

(** json_parse_object (api/oc_rep_decode_json.c:189-225); [tk] is json_parse_token.  Only the first attribute is checked. *)
Definition parse_object (tk : tok -> rd -> cbres * rd) (s : list N) (d : rd) : cbres * rd :=
  match jsmn tk s rd0 with
  | (RFuel, _) => (CbFuel, d)
  | (RTrap, _) => (CbTrap, d)
  | (RFail, _) => (CbFalse, d)
  | (ROk _, o) =>
    match rev (r_rev o) with
    | (None, _) :: _ | (_, JUnknown) :: _ => (CbFalse, d)
    | l => set_rep (JObj l) false d
    end
  end.

(** json_scan_array_type (api/oc_rep_decode_json.c:234-269): the common type of the items and their number. *)
Inductive aty : Type := ANone | ANil | ABool | AInt | AStr | AObj | AArr.
Definition aty_eqb (a b : aty) : bool :=
  match a, b with ANone, ANone | ANil, ANil | ABool, ABool | AInt, AInt | AStr, AStr | AObj, AObj | AArr, AArr => true | _, _ => false end.
Definition type_of (t : tok) : aty :=
  match t with
  | TPrim s => if as_null s then ANil else match as_bool s with Some _ => ABool | None => match as_int s with Some _ => AInt | None => ANone end end
  | TStr _ => AStr | TObj _ => AObj | TArr _ => AArr
  end.
Definition scan_type (t : tok) (d : aty * nat) : cbres * (aty * nat) :=
  match type_of t with
  | ANone => (CbFalse, d)
  | y =>
    let cur := match fst d with ANone => y | a => a end in
    if aty_eqb cur y then (CbTrue, (cur, S (snd d))) else (CbFalse, (cur, snd d))
  end.

(** json_assign_array_bool_values, _int_values, _string_values (api/oc_rep_decode_json.c:278-292, 319-333, 360-377):
    the values written so far into an array of [size] items, in reverse.  A token of another type fails an assertion,
    a write behind the last item is a trap. *)
Definition assign {A} (size : nat) (conv : tok -> cbres * option A) (t : tok) (d : list A) : cbres * list A :=
  match conv t with
  | (CbTrue, Some a) => if Nat.ltb (List.length d) size then (CbTrue, a :: d) else (CbTrap, d)
  | (r, _) => (r, d)
  end.
Definition conv_bool (t : tok) : cbres * option bool :=
  match t with TPrim s => match as_bool s with Some b => (CbTrue, Some b) | None => (CbFalse, None) end | _ => (CbTrap, None) end.
Definition conv_int (t : tok) : cbres * option Z :=
  match t with TPrim s => match as_int s with Some z => (CbTrue, Some z) | None => (CbFalse, None) end | _ => (CbTrap, None) end.
(** STRING_ARRAY_ITEM_MAX_LEN is 128 with dynamic allocation (include/oc_helpers.h:189-193). *)
Definition conv_str (t : tok) : cbres * option (list N) :=
  match t with TStr s => (CbTrue, Some (if Nat.leb 128 (List.length s) then firstn 127 s else s)) | _ => (CbTrap, None) end.

(** json_parse_array_bool, _int, _string (api/oc_rep_decode_json.c:294-317, 335-358, 379-402). *)
Definition parse_values {A} (conv : tok -> cbres * option A) (mk : list A -> jv) (s : list N) (size : nat) (d : rd) : cbres * rd :=
  match set_rep (mk []) false d with
  | (CbTrue, _) =>
    match jsmn (assign size conv) s [] with
    | (ROk _, l) => set_rep (mk (rev l)) false d
    | (RFail, _) => (CbFalse, d)
    | (RTrap, _) => (CbTrap, d)
    | (RFuel, _) => (CbFuel, d)
    end
  | r => r
  end.

(** json_parse_array_object (api/oc_rep_decode_json.c:404-444).  When an object is refused the function returns an
    error number, which is "true": the caller goes on without having stored anything. *)
Definition parse_objects (tk : tok -> rd -> cbres * rd) (s : list N) (d : rd) : cbres * rd :=
  match jsmn (fun t o => match t with TObj x => parse_object tk x o | _ => (CbTrap, o) end) s rd0 with
  | (RFuel, _) => (CbFuel, d)
  | (RTrap, _) => (CbTrap, d)
  | (RFail, _) | (ROk O, _) => (CbTrue, mkRd (r_rev d) false (r_empty d))
  | (ROk _, o) => set_rep (JObjs (rev (r_rev o))) false d
  end.

(** json_parse_array (api/oc_rep_decode_json.c:449-495). *)
Definition parse_array (tk : tok -> rd -> cbres * rd) (s : list N) (d : rd) : cbres * rd :=
  match jsmn scan_type s (ANone, O) with
  | (ROk _, (y, size)) =>
    match y with
    | AArr => (CbFalse, d)
    | ABool => parse_values conv_bool JBools s size d
    | AInt => parse_values conv_int JInts s size d
    | AStr => parse_values conv_str JStrs s size d
    | AObj => parse_objects tk s d
    | ANone | ANil => set_rep JNil true d
    end
  | (RFail, _) => (CbFalse, d)
  | (RTrap, _) => (CbTrap, d)
  | (RFuel, _) => (CbFuel, d)
  end.

(** json_parse_token (api/oc_rep_decode_json.c:497-516); the recursion of C is bounded by [f]. *)
Fixpoint parse_token (f : nat) (t : tok) (d : rd) : cbres * rd :=
  match f with
  | O => (CbFuel, d)
  | S f' =>
    match t with
    | TPrim s => parse_prim s d
    | TStr s => parse_string s d
    | TObj s => parse_object (parse_token f') s d
    | TArr s => parse_array (parse_token f') s d
    end
  end.

(** What oc_rep_parse_json gives: an error, with the number of attributes that stay allocated although nobody can
    free them; an empty array; the attributes; or it follows a null pointer. *)
Inductive parsed : Type := PError (lost : nat) | PEmpty | PRep (l : list item) | PNull | PTrap | PFuel.

(** oc_rep_parse_json (api/oc_rep_decode_json.c:518-557). *)
Definition parse_json (js : list N) : parsed :=
  match jsmn (parse_token (S (List.length js))) js rd0 with
  | (RFuel, _) => PFuel
  | (RTrap, _) => PTrap
  | (RFail, d) | (ROk O, d) => PError (List.length (r_rev d))
  | (ROk _, d) =>
    if r_empty d then PEmpty
    else match rev (r_rev d) with
    | [] => PNull
    | [(None, JObj l)] | [(None, JObjs l)] => PRep l
    | l => PRep l
    end
  end.

