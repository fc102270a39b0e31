(** What the provisioning server may do to the credentials. *)
From Verif Require Import Common Rep_Model Hex_Model Base64_Model Acl_Model Ob_Model Cred_Model.
From Coq Require Import String.
Local Open Scope string_scope.
Local Open Scope list_scope.
Local Open Scope N_scope.

Definition provisioned (c : cred) : Prop := c_tag c = Some (str "dps").
Definition passing (c : cred) : Prop := c_tag c = Some (str "dps-stale").

(** The answer [o] has the credential [it]. *)
Definition sent (o : list rep) (it : item) : Prop :=
  exists r a x, In r o /\ snd r = RObjArr a /\ In x a /\ parse_props false item0 x = Some it.

(** All of them are certificates. *)
Definition certificates (o : list rep) : Prop := forall it, sent o it -> i_type it = CERT.

(** A credential without the mark of the owner and the OSCORE context. *)
Definition bare (c : cred) : cred :=
  mk_cred (c_name c) (c_id c) (c_type c) (c_usage c) (c_subject c) (c_priv c) (c_pub c) (c_role c) (c_auth c) (c_tag c) false None.

(** [c] is the credential [it] of the answer. *)
Definition made_of (it : item) (c : cred) : Prop :=
  c_type c = i_type it /\ c_usage c = i_usage it /\ c_tag c = i_tag it /\
  set_subject (i_subject it) (i_usage it) = Some (c_subject c) /\ od (cd_data (c_pub c)) = od (sd_data (i_pub it)).

(** No credential of the answer has the identifier of [c]. *)
Definition spared (o : list rep) (c : cred) : Prop := forall it, sent o it -> c_id c <> i_id it.

(** The answer has no identifiers, and its certificates are in PEM. *)
Definition regular (o : list rep) : Prop := forall it, sent o it -> i_id it = (-1)%Z /\ sd_enc (i_pub it) = E_PEM.

(** [c] has the type, use, subject, tag and certificate of [it]; a tag that is
    empty is as none. *)
Definition serves (it : item) (c : cred) : Prop :=
  c_type c = i_type it /\ c_usage c = i_usage it /\ od (c_tag c) = od (i_tag it) /\
  set_subject (i_subject it) (i_usage it) = Some (c_subject c) /\ od (cd_data (c_pub c)) = od (sd_data (i_pub it)).
