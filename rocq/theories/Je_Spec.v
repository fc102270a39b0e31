(** What encoding a payload as JSON should give, independently of encoders, flags and buffers. *)
From Verif Require Import Common Ep_Spec Rep_Model Je_Model Jp_Spec Jd_Spec.
From Coq Require Import String.
Local Open Scope string_scope.
Local Open Scope list_scope.
Local Open Scope nat_scope.

(** ** The text of a sequence of calls
    Where the next item stands: at the top, in an array (first or not), in an object where a name is due (first or not),
    or behind a name. *)
Inductive place : Type := Top | InArray (first : bool) | Name (first : bool) | Value.
Definition lead (p : place) : list N := match p with InArray false | Name false => [44%N] | Value => [58%N] | _ => [] end.
Definition next (is_text : bool) (p : place) : option place :=
  match p with
  | Top => Some Top
  | InArray _ => Some (InArray false)
  | Value => Some (Name false)
  | Name _ => if is_text then Some Value else None
  end.
Definition is_text (p : prim) : bool := match p with PText _ => true | _ => false end.
(** Integers outside of [-2^52-1, 2^53], numbers of 320 characters or more, and byte strings have no text. *)
Definition token (p : prim) : option (list N) :=
  match p with
  | PNull => Some (str "null")
  | PBool b => Some (if b then str "true" else str "false")
  | PInt z => if ((- 2 ^ 52 - 1 <=? z) && (z <=? 2 ^ 53))%Z then Some (int_dec z) else None
  | PUint n => if (n <=? 2 ^ 53)%N then Some (Ep_Model.dec n) else None
  | PText s => Some (quote s)
  | PDouble s => if Nat.ltb (List.length s) 320 then Some s else None
  | PBytes => None
  end.
(** The open containers, innermost first, and the text so far. *)
Definition call (o : op) (s : list place * list N) : option (list place * list N) :=
  match o, s with
  | OPrim p, (pl :: r, T) =>
    match next (is_text p) pl, token p with
    | Some pl', Some u => Some (pl' :: r, T ++ lead pl ++ u)
    | _, _ => None
    end
  | OOpen m, (pl :: r, T) =>
    match next false pl with
    | Some pl' => Some ((if m then Name true else InArray true) :: pl' :: r, T ++ lead pl ++ [if m then 123%N else 91%N])
    | None => None
    end
  | OClose, (pl :: pl' :: r, T) => Some (pl' :: r, T ++ [match pl with Name _ | Value => 125%N | _ => 93%N end])
  | _, s => Some s
  end.
Fixpoint calls (l : list op) (s : list place * list N) : option (list place * list N) :=
  match l with
  | [] => Some s
  | o :: r => match call o s with Some s' => calls r s' | None => None end
  end.
(** What may at most be written. *)
Definition capacity (b : buf) : nat := if b_realloc b then b_max b else b_size b.

(** ** The text of a payload: an object without white space *)
Section Text.
Variable fmt : N -> list N.
Fixpoint join (l : list (list N)) : list N := match l with [] => [] | [t] => t | t :: r => t ++ [44%N] ++ join r end.
Definition members (vt : rval -> list N) (l : list rep) : list (list N) := map (fun p => quote (fst p) ++ [58%N] ++ vt (snd p)) l.
Fixpoint value_text (v : rval) : list N :=
  match v with
  | RNil => str "null"
  | RInt z => int_dec z
  | RDouble d => fmt d
  | RBool b => if b then str "true" else str "false"
  | RBytes _ => []
  | RStr s => quote s
  | RObj l => [123%N] ++ join (map (fun p => quote (fst p) ++ [58%N] ++ value_text (snd p)) l) ++ [125%N]
  | RArr => [91%N; 93%N]
  | RIntArr l => [91%N] ++ join (map int_dec l) ++ [93%N]
  | RDoubleArr l => [91%N] ++ join (map fmt l) ++ [93%N]
  | RBoolArr l => [91%N] ++ join (map (fun b : bool => if b then str "true" else str "false") l) ++ [93%N]
  | RBytesArr _ => [91%N; 93%N]
  | RStrArr l => [91%N] ++ join (map quote (filter not_nil l)) ++ [93%N]
  | RObjArr os => [91%N] ++ join (map (fun o => [123%N] ++ join (map (fun p => quote (fst p) ++ [58%N] ++ value_text (snd p)) o) ++ [125%N]) os) ++ [93%N]
  end.
Definition object_text (l : list rep) : list N := [123%N] ++ join (members value_text l) ++ [125%N].

(** The values that have a text. *)
Definition small_int (z : Z) : Prop := (- 2 ^ 52 - 1 <= z <= 2 ^ 53)%Z.
Fixpoint encodable (v : rval) : Prop :=
  match v with
  | RNil | RBool _ | RStr _ | RArr | RBoolArr _ | RStrArr _ => True
  | RInt z => small_int z
  | RDouble d => List.length (fmt d) < 320
  | RIntArr l => Forall small_int l
  | RDoubleArr l => Forall (fun d => List.length (fmt d) < 320) l
  | RBytes _ => False
  | RBytesArr l => l = []
  | RObj l => (fix go (l : list rep) : Prop := match l with [] => True | (_, x) :: r => encodable x /\ go r end) l
  | RObjArr os =>
    (fix gos (os : list (list rep)) : Prop :=
       match os with [] => True
       | o :: r => (fix go (l : list rep) : Prop := match l with [] => True | (_, x) :: r => encodable x /\ go r end) o /\ gos r end) os
  end.
Definition encodables : list rep -> Prop := fix go (l : list rep) : Prop := match l with [] => True | (_, x) :: r => encodable x /\ go r end.
End Text.

(** What comes back as it was: names and strings need no escaping, string arrays contain no empty strings, and there is
    no value of the type "empty array" and no byte string. *)
Fixpoint clean (v : rval) : Prop :=
  match v with
  | RArr | RBytes _ | RBytesArr _ => False
  | RStr s => plain_text s
  | RStrArr l => Forall (fun s => plain_text s /\ s <> []) l
  | RObj l => (fix go (l : list rep) : Prop := match l with [] => True | (n, x) :: r => (plain_text n /\ clean x) /\ go r end) l
  | RObjArr os =>
    (fix gos (os : list (list rep)) : Prop :=
       match os with [] => True
       | o :: r => (fix go (l : list rep) : Prop := match l with [] => True | (n, x) :: r => (plain_text n /\ clean x) /\ go r end) o /\ gos r end) os
  | _ => True
  end.
Definition cleans : list rep -> Prop := fix go (l : list rep) : Prop := match l with [] => True | (n, x) :: r => (plain_text n /\ clean x) /\ go r end.
