(** What printing a payload as JSON should give.

    [json_doc] is the grammar of RFC 8259 restricted to the documents that represent a payload, with white space
    allowed wherever the grammar allows it.  [layout] is the particular text with its line breaks and indentation. *)
From Verif Require Import Common Rep_Model Base64_Spec Ep_Spec.
From Coq Require Import String.
Local Open Scope string_scope.
Local Open Scope list_scope.
Local Open Scope N_scope.

Section Spec.
(** printf's "%f". *)
Variable fmt : N -> list N.

Definition quote (s : list N) : list N := 34 :: s ++ [34].
(** Characters that may stand in a JSON string as they are. *)
Definition plain_char (c : N) : Prop := 32 <= c /\ c <> 34 /\ c <> 92.
Definition plain_text (s : list N) : Prop := Forall plain_char s.
Definition ws (s : list N) : Prop := Forall (fun c => c = 32 \/ c = 9 \/ c = 10 \/ c = 13) s.

(** Decimal text of an integer, without leading zeros. *)
Definition no_lead (s : list N) : Prop := List.length s = 1%nat \/ hd 48 s <> 48.
Inductive int_text : Z -> list N -> Prop :=
| it_pos n s : reads 10 s n -> no_lead s -> int_text (Z.of_N n) s
| it_neg n s : n <> 0 -> reads 10 s n -> no_lead s -> int_text (- Z.of_N n) (45 :: s).

Definition b64_text (b : list N) : list N := rfc_encode digits_std [61] b.

(** [A] items separated by commas, with white space around each. *)
Inductive separated {A} (P : A -> list N -> Prop) : list A -> list N -> Prop :=
| sep_none w : ws w -> separated P [] w
| sep_one a t w1 w2 : ws w1 -> ws w2 -> P a t -> separated P [a] (w1 ++ t ++ w2)
| sep_more a t w1 w2 b l u : ws w1 -> ws w2 -> P a t -> separated P (b :: l) u -> separated P (a :: b :: l) (w1 ++ t ++ w2 ++ [44] ++ u).

Inductive json_value : rval -> list N -> Prop :=
| jv_nil : json_value RNil (str "null")
| jv_int z s : int_text z s -> json_value (RInt z) s
| jv_double d : json_value (RDouble d) (fmt d)
| jv_bool b : json_value (RBool b) (if b : bool then str "true" else str "false")
| jv_bytes b : json_value (RBytes b) (quote (b64_text b))
| jv_str s : plain_text s -> json_value (RStr s) (quote s)
| jv_obj l t : json_object l t -> json_value (RObj l) t
| jv_ints l t : separated int_text l t -> json_value (RIntArr l) ([91] ++ t ++ [93])
| jv_doubles l t : separated (fun d s => s = fmt d) l t -> json_value (RDoubleArr l) ([91] ++ t ++ [93])
| jv_bools l t : separated (fun (b : bool) s => s = if b then str "true" else str "false") l t -> json_value (RBoolArr l) ([91] ++ t ++ [93])
| jv_byteses l t : separated (fun b s => s = quote (b64_text b)) l t -> json_value (RBytesArr l) ([91] ++ t ++ [93])
| jv_strs l t : separated (fun x s => plain_text x /\ s = quote x) l t -> json_value (RStrArr l) ([91] ++ t ++ [93])
| jv_objs l t : separated json_object l t -> json_value (RObjArr l) ([91] ++ t ++ [93])
with json_object : list rep -> list N -> Prop :=
| jo l t : separated json_member l t -> json_object l ([123] ++ t ++ [125])
with json_member : rep -> list N -> Prop :=
| jm n v t w1 w2 : plain_text n -> ws w1 -> ws w2 -> json_value v t -> json_member (n, v) (quote n ++ w1 ++ [58] ++ w2 ++ t).

(** A payload is an object, or an array of objects: its attributes then are objects without name. *)
Inductive json_doc : list rep -> list N -> Prop :=
| jd_object l t w1 w2 : json_object l t -> ws w1 -> ws w2 -> json_doc l (w1 ++ t ++ w2)
| jd_array os t w1 w2 : separated json_object os t -> ws w1 -> ws w2 -> json_doc (map (fun o => ([], RObj o)) os) (w1 ++ [91] ++ t ++ [93] ++ w2).

(** ** The layout *)
Variable pretty : bool.
Definition indent (d : nat) : list N := if pretty then repeat 32 (2 * d) else [].
Definition eol : list N := if pretty then [10] else [].
Definition int_dec (z : Z) : list N := if (z <? 0)%Z then 45 :: Ep_Model.dec (Z.to_N (- z)) else Ep_Model.dec (Z.to_N z).
Definition readable (name : list N) : bool := match name with [] => false | _ => N.of_nat (List.length name) <? 4096 end.
Definition comma {A} (r : list A) (s : list N) : list N := match r with [] => [] | _ => [44] ++ s end.

Fixpoint items_layout (l : list (list N)) : list N :=
  match l with [] => [] | t :: r => t ++ comma r (if pretty then [32] else []) ++ items_layout r end.
Fixpoint lines_layout (d : nat) (l : list (list N)) : list N :=
  match l with [] => [] | t :: r => indent (d + 2) ++ t ++ comma r [] ++ eol ++ lines_layout d r end.
Definition block_layout (d : nat) (l : list (list N)) : list N := [91] ++ eol ++ lines_layout d l ++ indent (d + 1) ++ [93].
Definition attrs_layout (vl : list N -> rval -> list N) (d : nat) : list rep -> list N :=
  fix al (l : list rep) : list N :=
    match l with
    | [] => []
    | (n, v) :: r =>
      indent (d + 1) ++ (match n with [] => [] | _ => quote n ++ (if pretty then str " : " else str ":") end) ++ vl n v ++ comma r [] ++ eol ++ al r
    end.
Fixpoint value_layout (d : nat) (n : list N) (v : rval) {struct v} : list N :=
  match v with
  | RNil => str "null"
  | RInt z => int_dec z
  | RDouble x => fmt x
  | RBool b => if b then str "true" else str "false"
  | RBytes b => if readable n then quote (b64_text b) else []
  | RStr s => quote s
  | RObj l => [123] ++ eol ++ attrs_layout (value_layout (d + 1)) (d + 1) l ++ indent (d + 1) ++ [125]
  | RIntArr l => [91] ++ items_layout (if readable n then map int_dec l else []) ++ [93]
  | RDoubleArr l => [91] ++ items_layout (if readable n then map fmt l else []) ++ [93]
  | RBoolArr l => [91] ++ items_layout (if readable n then map (fun b : bool => if b then str "true" else str "false") l else []) ++ [93]
  | RBytesArr l => block_layout d (if readable n then map (fun b => quote (b64_text b)) l else [])
  | RStrArr l => block_layout d (if readable n then map quote l else [])
  | RObjArr l =>
    [91] ++ eol ++
    (fix objs (l : list (list rep)) : list N :=
       match l with
       | [] => []
       | o :: r => indent (d + 2) ++ [123] ++ eol ++ attrs_layout (value_layout (d + 2)) (d + 2) o ++ (match r with [] => [] | _ => indent (d + 2) ++ [125; 44] ++ eol end) ++ objs r
       end) l ++ indent (d + 2) ++ [125; 93]
  | RArr => []
  end.
Definition layout (l : list rep) : list N :=
  match l with
  | ([], RObj []) :: _ => [91] ++ eol ++ [93] ++ eol
  | ([], RObj _) :: _ => [91] ++ eol ++ attrs_layout (value_layout 0) 0 l ++ [93] ++ eol
  | _ => [123] ++ eol ++ attrs_layout (value_layout 0) 0 l ++ [125] ++ eol
  end.
End Spec.

(** The tree consists of what the C types can hold: byte strings of bytes, object arrays with at least one object. *)
Fixpoint tree_ok (v : rval) : Prop :=
  match v with
  | RBytes b => bytes_ok b
  | RBytesArr l => Forall bytes_ok l
  | RObj l => (fix go (l : list rep) : Prop := match l with [] => True | (_, x) :: r => tree_ok x /\ go r end) l
  | RObjArr os => os <> [] /\
    (fix gos (os : list (list rep)) : Prop :=
       match os with [] => True
       | o :: r => (fix go (l : list rep) : Prop := match l with [] => True | (_, x) :: r => tree_ok x /\ go r end) o /\ gos r end) os
  | _ => True
  end.
Definition reps_ok : list rep -> Prop := fix go (l : list rep) : Prop := match l with [] => True | (_, x) :: r => tree_ok x /\ go r end.

(** What can be represented in JSON without escaping: names and strings of plain characters, attributes named
    (by less than 4096 characters), no value of the type "empty array". *)
Fixpoint plain_tree (v : rval) : Prop :=
  match v with
  | RArr => False
  | RStr s => plain_text s
  | RStrArr l => Forall plain_text l
  | RObj l => (fix go (l : list rep) : Prop := match l with [] => True | (n, x) :: r => (plain_text n /\ readable n = true /\ plain_tree x) /\ go r end) l
  | RObjArr os =>
    (fix gos (os : list (list rep)) : Prop :=
       match os with [] => True
       | o :: r => (fix go (l : list rep) : Prop := match l with [] => True | (n, x) :: r => (plain_text n /\ readable n = true /\ plain_tree x) /\ go r end) o /\ gos r end) os
  | _ => True
  end.
Definition plain_reps : list rep -> Prop :=
  fix go (l : list rep) : Prop := match l with [] => True | (n, x) :: r => (plain_text n /\ readable n = true /\ plain_tree x) /\ go r end.
