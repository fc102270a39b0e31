(** The certificates of the provisioning server:
    api/plgd/device-provisioning-client/plgd_dps_tag.c (tags of credentials) and
    dps_pki_replace_certificates (plgd_dps_pki.c:179-222).  The credentials and
    their update are those of Cred_Model; closing the sessions afterwards and
    storing the credentials are not part of it. *)
From Verif Require Import Common Rep_Model Hex_Model Base64_Model Acl_Model Ob_Model Cred_Model.
From Coq Require Import String.
Local Open Scope string_scope.
Local Open Scope list_scope.
Local Open Scope N_scope.

(** DPS_TAG, DPS_STALE_TAG (plgd_dps_tag_internal.h:30-35). *)
Definition DPS : list N := str "dps".
Definition STALE : list N := str "dps-stale".

(** dps_has_tag (plgd_dps_tag.c:26-30). *)
Definition tagged (c : cred) (t : list N) : bool :=
  match c_tag c with Some u => list_eqb u t | None => false end.

Definition with_tag (t : list N) (c : cred) : cred :=
  mk_cred (c_name c) (c_id c) (c_type c) (c_usage c) (c_subject c) (c_priv c) (c_pub c) (c_role c) (c_auth c) (Some t) (c_owner c) (c_osc c).

(** dps_credentials_set_stale_tag (plgd_dps_tag.c:60-73). *)
Definition set_stale (l : list cred) : list cred := map (fun c => if tagged c DPS then with_tag STALE c else c) l.

(** dps_credentials_remove_stale_tag (plgd_dps_tag.c:75-88). *)
Definition unset_stale (l : list cred) : list cred := map (fun c => if tagged c STALE then with_tag DPS c else c) l.

(** dps_remove_stale_credentials (plgd_dps_tag.c:105-122). *)
Definition remove_stale (l : list cred) : list cred := filter (fun c => negb (tagged c STALE)) l.

(** pstat->s = OC_DOS_RFPRO (plgd_dps_pki.c:193). *)
Definition in_rfpro (E : cenv) : cenv :=
  mk_ce (ce_key E) (ce_role E) (ce_pair E) (ce_verify E) (ce_psk E) (ce_rand E) (ce_alloc E) (ce_octx E) S_RFPRO.

Inductive outcome := Taken (s : cs) | Refused (s : cs) | Loop | Freed.

(** dps_pki_replace_certificates (plgd_dps_pki.c:179-222). *)
Definition replace (E : cenv) (o : list rep) (s : cs) : outcome :=
  match apply_cred (in_rfpro E) false o (with_creds s (set_stale (s_creds s))) with
  | POk s' => Taken (with_creds s' (remove_stale (s_creds s')))
  | PFail s' => Refused (with_creds s' (unset_stale (s_creds s')))
  | PLoop => Loop
  | PUB => Freed
  end.
