(** What the security domain and the security profile of a device are to be, without the functions of the model. *)
From Verif Require Import Common Hex_Spec Rep_Model Acl_Spec Sd_Model.
From Coq Require Import String.
Local Open Scope string_scope.
Local Open Scope list_scope.
Local Open Scope N_scope.

(** The last text, flag, or list of texts of a name in an object. *)
Definition last_text (l : list rep) (name s : list N) : Prop := exists a b, l = a ++ (name, RStr s) :: b /\ forall s', ~ In (name, RStr s') b.
Definition no_text (l : list rep) (name : list N) : Prop := forall s, ~ In (name, RStr s) l.
Definition last_flag (l : list rep) (name : list N) (v : bool) : Prop := exists a b, l = a ++ (name, RBool v) :: b /\ forall v', ~ In (name, RBool v') b.
Definition no_flag (l : list rep) (name : list N) : Prop := forall v, ~ In (name, RBool v) l.
Definition last_texts (l : list rep) (name : list N) (t : list (list N)) : Prop := exists a b, l = a ++ (name, RStrArr t) :: b /\ forall t', ~ In (name, RStrArr t') b.
Definition no_texts (l : list rep) (name : list N) : Prop := forall t, ~ In (name, RStrArr t) l.

(** States in which an owner sets up the device: ownership transfer, provisioning, soft reset. *)
Definition setup (st : N) : Prop := st = 1 \/ st = 2 \/ st = 4.

(** An update of the security domain that is allowed: it names something, the identifier only during ownership transfer
    and at its full length, name and privacy only while the device is set up. *)
Definition may_update (st : N) (l : list rep) : Prop :=
  (forall s, In (str "uuid", RStr s) l -> st = 1 /\ (36 <= List.length s)%nat) /\
  (forall s, In (str "name", RStr s) l -> setup st) /\ (forall b, In (str "priv", RBool b) l -> setup st) /\
  ((exists s, In (str "uuid", RStr s) l) \/ (exists s, In (str "name", RStr s) l) \/ (exists b, In (str "priv", RBool b) l)).

(** The security domain before anyone sets it. *)
Definition no_domain (s : sdi) : Prop := s_uuid s = repeat 0 16 /\ s_name s = [] /\ s_priv s = false.

(** What else a device holds is as before. *)
Definition same_but_sdi (d d' : dev) : Prop :=
  d_owned d' = d_owned d /\ d_state d' = d_state d /\ d_sp d' = d_sp d /\ d_mfg d' = d_mfg d /\ f_sp d' = f_sp d.
Definition same_but_sp (d d' : dev) : Prop :=
  d_owned d' = d_owned d /\ d_state d' = d_state d /\ d_sdi d' = d_sdi d /\ d_mfg d' = d_mfg d /\ f_sdi d' = f_sdi d.

(** Histories in which every write succeeds, and identifiers made up are identifiers. *)
Definition written_op (o : op) : Prop :=
  match o with PostSdi w _ => w = true | SelfOwn u _ => typed_uuid u | _ => True end.

(** Profiles (OCF security specification): numbers of bits with the object identifiers 1.3.6.1.4.1.51414.0.0.k.0. *)
Definition oid (k : N) : list N := str "1.3.6.1.4.1.51414.0.0." ++ [48 + k] ++ str ".0".
Definition profile (s : list N) (i : N) : Prop := 1 <= i <= 4 /\ s = oid i.

(** The text of an item ends at the first zero. *)
Definition reads_text (s t : list N) : Prop := ~ In 0 t /\ exists r, s = t ++ r /\ (r = [] \/ exists r', r = 0 :: r').

(** An update of the security profile that is allowed: nothing but the two properties, with known profiles, and a current
    one among those supported after it. *)
Definition supports (p : sp) (l : list rep) (i : N) : Prop :=
  (no_texts l (str "supportedprofiles") /\ N.testbit (p_sup p) i = true) \/
  (exists a, last_texts l (str "supportedprofiles") a /\ exists s, In s a /\ reads_text s (oid i)).
Definition may_profile (p : sp) (l : list rep) : Prop :=
  (forall n v, In (n, v) l -> (n = str "currentprofile" /\ exists s, v = RStr s) \/ (n = str "supportedprofiles" /\ exists a, v = RStrArr a)) /\
  (forall a, last_texts l (str "supportedprofiles") a -> Forall (fun s => exists t i, reads_text s t /\ profile t i) a) /\
  (forall s, last_text l (str "currentprofile") s -> exists i, profile s i /\ supports p l i).

(** The profiles supported after an update. *)
Definition mask_of (l : list rep) (p : sp) (m : N) : Prop :=
  (no_texts l (str "supportedprofiles") -> m = p_sup p) /\
  (forall a, last_texts l (str "supportedprofiles") a -> forall i, N.testbit m i = true <-> 1 <= i <= 4 /\ exists s, In s a /\ reads_text s (oid i)).

(** A profile in order: the current one is one of the four and supported, and no others are supported. *)
Definition well (p : sp) : Prop := exists i, 1 <= i <= 4 /\ p_cur p = 2 ^ i /\ N.testbit (p_sup p) i = true /\ forall j, N.testbit (p_sup p) j = true -> 1 <= j <= 4.
