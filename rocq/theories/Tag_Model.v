(** The access control entries of the provisioning server:
    api/plgd/device-provisioning-client/plgd_dps_tag.c (tags of entries) and
    dps_handle_get_acls_response (plgd_dps_provision.c:101-136).  The list and
    its update are those of Acl_Model. *)
From Verif Require Import Common Rep_Model Hex_Model Acl_Model.
From Coq Require Import String.
Local Open Scope string_scope.
Local Open Scope list_scope.
Local Open Scope N_scope.

(** DPS_TAG, DPS_STALE_TAG (plgd_dps_tag_internal.h:30-35). *)
Definition DPS : list N := str "dps".
Definition STALE : list N := str "dps-stale".

(** dps_has_tag (plgd_dps_tag.c:26-30). *)
Definition has_tag (a : ace) (t : list N) : bool :=
  match a_tag a with Some u => list_eqb u t | None => false end.

Definition with_tag (t : list N) (a : ace) : ace := mk_ace (a_id a) (a_subj a) (a_perm a) (Some t) (a_res a).

(** dps_acls_set_stale_tag (plgd_dps_tag.c:32-44). *)
Definition set_stale (l : list ace) : list ace := map (fun a => if has_tag a DPS then with_tag STALE a else a) l.

(** dps_acls_remove_stale_tag (plgd_dps_tag.c:46-58). *)
Definition unset_stale (l : list ace) : list ace := map (fun a => if has_tag a STALE then with_tag DPS a else a) l.

(** dps_remove_stale_acls (plgd_dps_tag.c:90-103). *)
Definition remove_stale (l : list ace) : list ace := filter (fun a => negb (has_tag a STALE)) l.

(** dps_handle_get_acls_response (plgd_dps_provision.c:101-136): whether the
    answer was taken, and the list; [None] if the random values have no unused
    identifier. *)
Definition handle (a : acl) (rnd : list N) (o : list rep) : option (bool * acl) :=
  match decode_acl RFPRO false (mk_acl (set_stale (l_aces a)) (l_owner a)) rnd o with
  | AOk a' _ => Some (true, mk_acl (remove_stale (l_aces a')) (l_owner a'))
  | AErr a' _ => Some (false, mk_acl (unset_stale (l_aces a')) (l_owner a'))
  | AStuck => None
  end.
