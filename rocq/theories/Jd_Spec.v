(** What decoding a JSON document should give: the attributes of the payload the document represents ([json_object] and
    [json_doc] of Jp_Spec say which one that is). *)
From Verif Require Import Common Rep_Model Jd_Model Jp_Spec.
From Coq Require Import String.
Local Open Scope string_scope.
Local Open Scope list_scope.
Local Open Scope N_scope.

(** The values for which JSON and the decoder have a type: 64 bit integers, booleans, strings, null, objects, arrays of
    those (except of null and of arrays) with at least one item, the strings of arrays shorter than 128 bytes. *)
Definition i64 (z : Z) : Prop := (- 2 ^ 63 <= z < 2 ^ 63)%Z.
Fixpoint decodable (v : rval) : Prop :=
  match v with
  | RNil | RBool _ | RStr _ => True
  | RInt z => i64 z
  | RIntArr l => l <> [] /\ Forall i64 l
  | RBoolArr l => l <> []
  | RStrArr l => l <> [] /\ Forall (fun s => (List.length s < 128)%nat) l
  | RObj l => (fix go (l : list rep) : Prop := match l with [] => True | (_, x) :: r => decodable x /\ go r end) l
  | RObjArr os => os <> [] /\
    (fix gos (os : list (list rep)) : Prop :=
       match os with [] => True
       | o :: r => (fix go (l : list rep) : Prop := match l with [] => True | (_, x) :: r => decodable x /\ go r end) o /\ gos r end) os
  | RDouble _ | RBytes _ | RArr | RDoubleArr _ | RBytesArr _ => False
  end.
Definition decodables : list rep -> Prop := fix go (l : list rep) : Prop := match l with [] => True | (_, x) :: r => decodable x /\ go r end.

(** The same value as the decoder represents it. *)
Fixpoint jv_of (v : rval) : jv :=
  match v with
  | RNil => JNil
  | RInt z => JInt z
  | RBool b => JBool b
  | RStr s => JStr s
  | RObj l => JObj (map (fun p => (Some (fst p), jv_of (snd p))) l)
  | RIntArr l => JInts l
  | RBoolArr l => JBools l
  | RStrArr l => JStrs l
  | RObjArr os => JObjs (map (fun o => (None, JObj (map (fun p => (Some (fst p), jv_of (snd p))) o))) os)
  | RDouble _ | RBytes _ | RArr | RDoubleArr _ | RBytesArr _ => JUnknown
  end.
Definition named (l : list rep) : list item := map (fun p => (Some (fst p), jv_of (snd p))) l.
Definition objects (os : list (list rep)) : list item := map (fun o => (None, JObj (named o))) os.
