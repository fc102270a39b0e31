(** Model of api/oc_rep_to_json.c: printing a payload as JSON into a buffer.

    The memory is a list of bytes of which the buffer is the part [off, off + size).  The text that printf
    gives for a double ("%f") is a parameter; strings and names are lists of characters other than zero.
    Texts longer than INT_MAX and encoding errors of snprintf are not modelled. *)
From Verif Require Import Common Ep_Model Base64_Model Buf_Model Rep_Model.
From Coq Require Import String.
Local Open Scope string_scope.
Local Open Scope list_scope.
Local Open Scope N_scope.

(** The local variables buf, buf_size, total_char_printed of one activation, and the memory.  [j_bad]: a NULL
    pointer was dereferenced. *)
Record jst := mkJ { j_mem : list N; j_off : nat; j_size : nat; j_total : N; j_bad : bool }.

(** OC_JSON_UPDATE_BUFFER_AND_TOTAL, lines 52-68: size_t arithmetic. *)
Definition adv (s : jst) (num : N) : jst :=
  let total := (j_total s + num) mod 2 ^ 64 in
  if num <? N.of_nat (j_size s) then mkJ (j_mem s) (j_off s + N.to_nat num) (j_size s - N.to_nat num) total (j_bad s)
  else if Nat.eqb (j_size s) 0 then mkJ (j_mem s) (j_off s) (j_size s) total (j_bad s)
  else mkJ (j_mem s) (j_off s + j_size s) 0 total (j_bad s).

(** num_char_printed = snprintf(buf, buf_size, ...) and the update. *)
Definition put (s : jst) (text : list N) : jst :=
  adv (mkJ (vsn (j_mem s) (j_off s) (j_size s) text) (j_off s) (j_size s) (j_total s) (j_bad s)) (N.of_nat (List.length text)).

(** num_char_printed = f(buf, buf_size, ...) and the update: the callee starts with a total of 0. *)
Definition call (s : jst) (f : jst -> jst) : jst :=
  let r := f (mkJ (j_mem s) (j_off s) (j_size s) 0 (j_bad s)) in
  adv (mkJ (j_mem r) (j_off s) (j_size s) (j_total s) (j_bad r)) (j_total r).

(** PRId64; decimal digits as in Ep_Model. *)
Definition dec_z (z : Z) : list N := if (z <? 0)%Z then 45 :: dec (Z.to_N (- z)) else dec (Z.to_N z).

Section Print.
(** printf's "%f". *)
Variable fmt : N -> list N.
(** pretty_print; whether buf is NULL (then the size is 0). *)
Variables pretty null : bool.

(** oc_rep_to_json_tab, lines 77-93: oc_buffer_write once per level, (size_t)-1 when one fails. *)
Fixpoint tab_loop (b : wb) (depth : nat) : wb * N :=
  match depth with
  | O => (b, N.of_nat (w_total b))
  | S d => let (b', v) := buffer_write b (str "  ") in
           match v with None => (b', 2 ^ 64 - 1) | Some _ => tab_loop b' d end
  end.
Definition tab (s : jst) (depth : nat) : jst :=
  let (b, num) := tab_loop (mkWb null (j_mem s) (j_off s) (j_size s) 0) depth in
  adv (mkJ (w_mem b) (j_off s) (j_size s) (j_total s) (j_bad s)) num.
Definition ptab (s : jst) (depth : nat) : jst := if pretty then tab s depth else s.

(** oc_rep_to_json_base64_encoded_byte_string, lines 102-135; oc_base64_encode stores its characters without a
    terminating zero. *)
Definition poke (mem : list N) (off : nat) (l : list N) : list N := firstn off mem ++ l ++ skipn (off + List.length l) mem.
Definition b64 (bytes : list N) (s : jst) : jst :=
  let n := S (encoded_size (List.length bytes) true) in
  let s := put s (str """") in
  let s :=
    if Nat.ltb n (j_size s) then
      match encode STD true bytes n with
      | Some out => adv (mkJ (poke (j_mem s) (j_off s) out) (j_off s) (j_size s) (j_total s) (j_bad s)) (N.of_nat (List.length out))
      | None => adv s (2 ^ 64 - 1)
      end
    else mkJ (j_mem s) (j_off s + j_size s) 0 ((j_total s + N.of_nat (n - 1)) mod 2 ^ 64) (j_bad s) in
  put s (str """").

(** The typed getters find the attribute they are called with (api/oc_rep.c:149-170) unless its name is empty or
    too long. *)
Definition found (name : list N) : bool := negb (Nat.eqb (List.length name) 0) && (N.of_nat (List.length name) <? 4096).

Definition quoted (s : list N) : list N := str """" ++ s ++ str """".
Definition bool_text (b : bool) : list N := if b then str "true" else str "false".
Definition nl : list N := [10].

(** The loops over arrays of numbers and booleans: lines 222-230, 243-251, 264-273. *)
Fixpoint items (l : list (list N)) (s : jst) : jst :=
  match l with
  | [] => s
  | t :: r => let s := put s t in
              items r (match r with [] => s | _ => put s (if pretty then str ", " else str ",") end)
  end.
(** The loops over arrays of strings and byte strings: lines 289-310, 329-347; [one] prints an item. *)
Fixpoint lines (one : list N -> jst -> jst) (depth : nat) (l : list (list N)) (s : jst) : jst :=
  match l with
  | [] => s
  | t :: r => let s := one t (ptab s (depth + 2)) in
              lines one depth r (match r with [] => if pretty then put s nl else s | _ => put s (if pretty then str "," ++ nl else str ",") end)
  end.
Definition block (one : list N -> jst -> jst) (depth : nat) (l : list (list N)) (s : jst) : jst :=
  let s := put s (if pretty then str "[" ++ nl else str "[") in
  put (ptab (lines one depth l s) (depth + 1)) (str "]").

(** oc_rep_to_json_format, lines 146-409: the loop over the attributes; [value] prints the value of one. *)
Definition attrs_with (value : list N -> rval -> jst -> jst) (depth : nat) : list rep -> jst -> jst :=
  fix attrs (l : list rep) (s : jst) : jst :=
    match l with
    | [] => s
    | (name, v) :: r =>
      let s := ptab s (depth + 1) in
      let s := match name with [] => s | _ => put s (quoted name ++ (if pretty then str " : " else str ":")) end in
      let s := value name v s in
      let s := match r with [] => s | _ => put s (str ",") end in
      attrs r (if pretty then put s nl else s)
    end.

(** The switch over the type, lines 164-395. *)
Fixpoint value (depth : nat) (name : list N) (v : rval) (s : jst) {struct v} : jst :=
  match v with
  | RNil => put s (str "null")
  | RInt z => put s (dec_z z)
  | RDouble d => put s (fmt d)
  | RBool b => put s (bool_text b)
  | RBytes b => if found name then call s (b64 b) else s
  | RStr t => put s (quoted t)
  | RObj l =>
    let s := put s (if pretty then str "{" ++ nl else str "{") in
    let s := call s (attrs_with (value (depth + 1)) (depth + 1) l) in
    put (ptab s (depth + 1)) (str "}")
  | RIntArr l => put (items (if found name then map dec_z l else []) (put s (str "["))) (str "]")
  | RDoubleArr l => put (items (if found name then map fmt l else []) (put s (str "["))) (str "]")
  | RBoolArr l => put (items (if found name then map bool_text l else []) (put s (str "["))) (str "]")
  | RBytesArr l => block (fun b s => call s (b64 b)) depth (if found name then l else []) s
  | RStrArr l => block (fun t s => put s (quoted t)) depth (if found name then l else []) s
  | RObjArr l =>
    let s := put s (str "[") in
    let s := if pretty then put s nl else s in
    match l with
    | [] => mkJ (j_mem s) (j_off s) (j_size s) (j_total s) true (* rep_array->value.object with rep_array NULL, line 364 *)
    | _ =>
      let s := (fix objs (l : list (list rep)) (s : jst) : jst :=
        match l with
        | [] => s
        | o :: r =>
          let s := put (ptab s (depth + 2)) (if pretty then str "{" ++ nl else str "{") in
          let s := call s (attrs_with (value (depth + 2)) (depth + 2) o) in
          objs r (match r with [] => s | _ => put (ptab s (depth + 2)) (if pretty then str "}," ++ nl else str "},") end)
        end) l s in
      put (ptab s (depth + 2)) (str "}]")
    end
  | RArr => s
  end.
Definition format (depth : nat) (l : list rep) (s : jst) : jst := attrs_with (value depth) depth l s.

(** oc_rep_to_json, lines 411-440. *)
Definition is_objects (l : list rep) : bool := match l with ([], RObj _) :: _ => true | _ => false end.
Definition to_json_from (l : list rep) (s : jst) : jst :=
  let s := put s (if is_objects l then str "[" else str "{") in
  let s := if pretty then put s nl else s in
  let s := match l with ([], RObj []) :: _ => s | _ => call s (format 0 l) end in
  let s := put s (if is_objects l then str "]" else str "}") in
  if pretty then put s nl else s.
(** [mem]: the memory; the buffer is the first [size] bytes of it.  Result: the memory, the value returned. *)
Definition to_json (l : list rep) (mem : list N) (size : nat) : option (list N * N) :=
  let r := to_json_from l (mkJ mem 0 size 0 false) in
  if j_bad r then None else Some (j_mem r, j_total r).
End Print.
