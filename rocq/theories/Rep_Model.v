(** Parsed payloads (include/oc_rep.h:1177-1220): the attribute tree every resource handler receives. *)
From Verif Require Import Common.
From Coq Require Import String.
Local Open Scope string_scope.
Local Open Scope list_scope.
Local Open Scope N_scope.

(** oc_rep_value_type_t (include/oc_rep.h:1177-1192) with the value the union member of that type holds.
    A double is kept as the 64 bits of its IEEE representation; a string may contain any byte. *)
Inductive rval : Type :=
| RNil
| RInt (z : Z)
| RDouble (bits : N)
| RBool (b : bool)
| RBytes (s : list N)
| RStr (s : list N)
| RObj (l : list (list N * rval))
| RArr                                  (* empty array, no item type *)
| RIntArr (l : list Z)
| RDoubleArr (l : list N)
| RBoolArr (l : list bool)
| RBytesArr (l : list (list N))
| RStrArr (l : list (list N))
| RObjArr (l : list (list (list N * rval))).

(** oc_rep_s (include/oc_rep.h:1208-1215): an attribute name and its value; [next] is the list. *)
Definition rep := (list N * rval)%type.

(** The type code (include/oc_rep.h:1177-1192). *)
Definition rtype (v : rval) : N :=
  match v with
  | RNil => 0 | RInt _ => 1 | RDouble _ => 2 | RBool _ => 3 | RBytes _ => 4 | RStr _ => 5 | RObj _ => 6
  | RArr => 8 | RIntArr _ => 9 | RDoubleArr _ => 10 | RBoolArr _ => 11 | RBytesArr _ => 12 | RStrArr _ => 13 | RObjArr _ => 14
  end.

(** oc_rep_is_property (api/oc_rep.c:403-410): same length and same bytes. *)
Definition is_prop (r : rep) (name : list N) : bool := list_eqb (fst r) name.
