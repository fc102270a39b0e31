(** Which CBOR item represents which attribute value. *)
From Verif Require Import Common Rep_Model Repd_Model.
Local Open Scope N_scope.

Definition in64 (z : Z) : Prop := (- 2 ^ 63 <= z < 2 ^ 63)%Z.
Definition short (s : list N) : Prop := (List.length s <= 127)%nat.

Inductive means : cbor -> rval -> Prop :=
| M_null : means CNull RNil
| M_int z : in64 z -> means (CInt z) (RInt z)
| M_double b : means (CDouble b) (RDouble b)
| M_bool b : means (CBool b) (RBool b)
| M_bytes s : means (CBytes s) (RBytes s)
| M_text s : means (CText s) (RStr s)
| M_tag n c v : means c v -> means (CTag n c) v
| M_obj m o : mems m o -> means (CMap m) (RObj o)
| M_ints l : l <> [] -> Forall in64 l -> means (CArr (map CInt l)) (RIntArr l)
| M_doubles l : l <> [] -> means (CArr (map CDouble l)) (RDoubleArr l)
| M_bools l : l <> [] -> means (CArr (map CBool l)) (RBoolArr l)
| M_bytess l : l <> [] -> Forall short l -> means (CArr (map CBytes l)) (RBytesArr l)
| M_texts l : l <> [] -> Forall short l -> means (CArr (map CText l)) (RStrArr l)
| M_objs l o : l <> [] -> objs l o -> means (CArr l) (RObjArr o)
with mems : list (cbor * cbor) -> list rep -> Prop :=
| M_nil : mems [] []
| M_cons n c v m o : means c v -> mems m o -> mems ((CText n, c) :: m) ((n, v) :: o)
with objs : list cbor -> list (list rep) -> Prop :=
| O_nil : objs [] []
| O_cons m o l r : mems m o -> objs l r -> objs (CMap m :: l) (o :: r).

(** Items whose meaning the attribute types can express: every number fits 64 bits, no empty array, no values of other
    types. *)
Inductive plain : cbor -> Prop :=
| P_null : plain CNull
| P_int z : in64 z -> plain (CInt z)
| P_double b : plain (CDouble b)
| P_bool b : plain (CBool b)
| P_bytes s : plain (CBytes s)
| P_text s : plain (CText s)
| P_tag n c : plain c -> plain (CTag n c)
| P_map m : pmems m -> plain (CMap m)
| P_arr l : l <> [] -> plains l -> plain (CArr l)
with pmems : list (cbor * cbor) -> Prop :=
| PM_nil : pmems []
| PM_cons k c m : plain c -> pmems m -> pmems ((k, c) :: m)
with plains : list cbor -> Prop :=
| PL_nil : plains []
| PL_cons c l : plain c -> plains l -> plains (c :: l).

(** Values that can be written and read back. *)
Inductive writable : rval -> Prop :=
| W_nil : writable RNil
| W_int z : in64 z -> writable (RInt z)
| W_double b : writable (RDouble b)
| W_bool b : writable (RBool b)
| W_bytes s : writable (RBytes s)
| W_str s : writable (RStr s)
| W_obj o : wmems o -> writable (RObj o)
| W_ints l : l <> [] -> Forall in64 l -> writable (RIntArr l)
| W_doubles l : l <> [] -> writable (RDoubleArr l)
| W_bools l : l <> [] -> writable (RBoolArr l)
| W_bytess l : l <> [] -> Forall short l -> writable (RBytesArr l)
| W_strs l : l <> [] -> Forall short l -> writable (RStrArr l)
| W_objs l : l <> [] -> wobjs l -> writable (RObjArr l)
with wmems : list rep -> Prop :=
| WM_nil : wmems []
| WM_cons n v o : writable v -> wmems o -> wmems ((n, v) :: o)
with wobjs : list (list rep) -> Prop :=
| WO_nil : wobjs []
| WO_cons o l : wmems o -> wobjs l -> wobjs (o :: l).

(** The first attribute of that type and name. *)
Definition first_of (l : list rep) (ty : N) (key : list N) (v : rval) : Prop :=
  exists a b, l = a ++ (key, v) :: b /\ rtype v = ty /\ forall n w, In (n, w) a -> ~ (n = key /\ rtype w = ty).
Definition none_of (l : list rep) (ty : N) (key : list N) : Prop := forall n w, In (n, w) l -> ~ (n = key /\ rtype w = ty).
Definition usable_key (key : list N) : Prop := key <> [] /\ N.of_nat (List.length key) < 4096.

(** Arrays of items of one type throughout. *)
Inductive uniform : cbor -> Prop :=
| U_null : uniform CNull
| U_other : uniform COther
| U_int z : uniform (CInt z)
| U_double b : uniform (CDouble b)
| U_bool b : uniform (CBool b)
| U_bytes s : uniform (CBytes s)
| U_text s : uniform (CText s)
| U_tag n c : uniform c -> uniform (CTag n c)
| U_map m : umems m -> uniform (CMap m)
| U_arr t l : Forall (fun c => ctype c = t) l -> uniforms l -> uniform (CArr l)
with umems : list (cbor * cbor) -> Prop :=
| UM_nil : umems []
| UM_cons k c m : uniform c -> umems m -> umems ((k, c) :: m)
with uniforms : list cbor -> Prop :=
| UL_nil : uniforms []
| UL_cons c l : uniform c -> uniforms l -> uniforms (c :: l).
