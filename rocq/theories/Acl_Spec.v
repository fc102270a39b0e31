(** Specification of the access decision and of the ACL, written from the OCF security specification's
    wording: who may do what on which resource, without the loops, masks and early exits of the code. *)
From Verif Require Import Common Rep_Model Acl_Model.
From Coq Require Import String.
Local Open Scope string_scope.
Local Open Scope list_scope.
Local Open Scope N_scope.

(** Resource URIs start with a slash (the stack adds it when a resource is created). *)
Definition rooted (u : list N) : Prop := exists t, u = 47 :: t.

(** Device configuration resources, and among them the security virtual resources. *)
Definition dcr (r : resource) : Prop :=
  exists c, r_core r = Some c /\ In c [OCF_P; PLGD_TIME; WELLKNOWNCORE; OCF_RES; OCF_MNT; COAPCLOUDCONF; SW_UPDATE; SEC_DOXM; SEC_PSTAT;
                                       SEC_ACL; SEC_AEL; SEC_CRED; SEC_SDI; SEC_SP; SEC_CSR; SEC_ROLES; OCF_D].
Definition svr (r : resource) : Prop :=
  exists c, r_core r = Some c /\ In c [SEC_DOXM; SEC_PSTAT; SEC_ACL; SEC_AEL; SEC_CRED; SEC_SDI; SEC_SP; SEC_CSR; SEC_ROLES].
Definition application (r : resource) : Prop := r_core r = None.

(** Permission bits needed for a method: bit 0 create, 1 retrieve, 2 update, 3 delete, 4 notify. *)
Definition permits (m : method) (p : N) : Prop :=
  match m with
  | GET => N.testbit p 1 = true \/ N.testbit p 4 = true
  | POST | PUT => N.testbit p 0 = true \/ N.testbit p 2 = true
  | DELETE => N.testbit p 3 = true
  | FETCH => False
  end.

(** Which resources that are not device configuration resources a wildcard stands for. *)
Definition wildcard_covers (w : wc) (r : resource) : Prop :=
  match w with
  | NoWc => False
  | WcAll => True
  | WcSecured => r_discoverable r = true
  | WcPublic => r_discoverable r = true /\ r_secure r = false
  end.

(** An entry of an ACE's resource list covers a resource: by its href for a device configuration
    resource; otherwise every restriction present (href, wildcard) must apply and one must be present. *)
Definition entry_covers (e : ace_res) (r : resource) : Prop :=
  (dcr r /\ ar_href e = r_uri r) \/
  (~ dcr r /\ (ar_href e = r_uri r \/ ar_href e = []) /\ (ar_wc e = NoWc \/ wildcard_covers (ar_wc e) r) /\
   ~ (ar_href e = [] /\ ar_wc e = NoWc)).

(** The roles the requester may claim. *)
Definition holds_role (d : device) (ep : endpoint) (p : peer) (role auth : list N) : Prop :=
  if p_psk p
  then role <> [] /\ exists c, In c (d_creds d) /\ c_psk c = true /\ c_usage_null c = true /\ c_subj c = e_di ep /\ c_role c = role /\ c_auth c = auth
  else exists c, In c (p_roles p) /\ rc_valid c = true /\ rc_role c = role /\ rc_auth c = auth.

(** The subject of an ACE describes the requester. *)
Definition subject_applies (s : subject) (r : resource) (d : device) (ep : endpoint) (p : option peer) : Prop :=
  match s with
  | SUuid u => u = e_di ep
  | SRole role au => exists pr au', p = Some pr /\ holds_role d ep pr role au' /\ (au = [] \/ au = au')
  | SConn AuthCrypt => e_secured ep = true /\ ~ svr r
  | SConn AnonClear => ~ svr r
  end.

Definition ace_grants (a : ace) (m : method) (r : resource) (d : device) (ep : endpoint) (p : option peer) : Prop :=
  subject_applies (a_subj a) r d ep p /\ (exists e, In e (a_res a) /\ entry_covers e r) /\ permits m (a_perm a).

(** A security resource is owned by the UUID in its own rowneruuid. *)
Definition owner_of (r : resource) (d : device) (u : list N) : Prop :=
  (r_uri r = str "/oic/sec/acl2" /\ d_acl_owner d = u) \/ (r_uri r = str "/oic/sec/doxm" /\ d_doxm_owner d = u) \/
  (r_uri r = str "/oic/sec/pstat" /\ d_pstat_owner d = u) \/ (r_uri r = str "/oic/sec/cred" /\ d_cred_owner d = u).

Definition owner_role (p : option peer) : Prop :=
  exists pr c, p = Some pr /\ p_psk pr = false /\ In c (p_roles pr) /\ rc_valid c = true /\ rc_role c = str "oic.role.owner".

Definition readable_by_anyone (r : resource) (s : dos) : Prop :=
  r_uri r = str "/x.plgd.dev/time" \/ r_uri r = str "/.well-known/core" \/
  (s = RFOTM /\ (r_uri r = str "/oic/res" \/ r_uri r = str "/oic/d" \/ r_uri r = str "/oic/p")).

Definition provisioned (s : dos) : Prop := s = RFPRO \/ s = RFNOP \/ s = SRESET.

(** What may not be accessed whatever the ACL says. *)
Definition barred (r : resource) (d : device) (ep : endpoint) : Prop :=
  (d_dos d = RFOTM /\ e_secured ep = false /\ d_peers d = 1) \/
  (~ dcr r /\ d_dos d <> RFNOP) \/
  (application r /\ e_secured ep = false).

(** The reasons for granting access. *)
Definition reason (m : method) (r : resource) (d : device) (ep : endpoint) (p : option peer) : Prop :=
  (dcr r /\ exists pr, p = Some pr /\ p_doc pr = true) \/
  (m = GET /\ readable_by_anyone r (d_dos d)) \/
  (d_dos d = RFOTM /\ d_peers d = 0 /\ (r_uri r = str "/oic/sec/doxm" \/ (m = GET /\ r_uri r = str "/oic/sec/pstat"))) \/
  (~ (d_dos d = RFOTM /\ d_peers d = 0) /\ ~ (svr r /\ e_secured ep = false /\ provisioned (d_dos d)) /\
   (owner_of r d (e_di ep) \/
    (r_uri r = str "/oic/sec/roles" /\ provisioned (d_dos d)) \/
    (owner_role p /\ m <> FETCH) \/
    exists a, In a (d_acl d) /\ ace_grants a m r d ep p)).

Definition allowed (m : method) (r : resource) (d : device) (ep : endpoint) (p : option peer) : Prop :=
  (d_dos d = RFOTM /\ e_secured ep = false /\ d_peers d <> 1 /\ r_rfotm r = true /\ permits m (r_anon_perm r)) \/
  (~ barred r d ep /\ reason m r d ep p).

(** * The list *)

(** The identifiers are a key. *)
Definition unique_ids (l : list ace) : Prop := NoDup (map a_id l).

(** A subject may access a covered resource by the list alone. *)
Definition acl_allows (l : list ace) (s : subject) (perm : N) (href : list N) : Prop :=
  exists a e, In a l /\ a_subj a = s /\ a_perm a = perm /\ In e (a_res a) /\ ar_href e = href.

(** Values the C types can hold. *)
Definition typed_uuid (u : list N) : Prop := bytes_ok u /\ List.length u = 16%nat.
Definition typed_ace (a : ace) : Prop :=
  (-2147483648 <= a_id a <= 2147483647)%Z /\ a_perm a < 65536 /\ match a_subj a with SUuid u => typed_uuid u | _ => True end.

(** An entry names one resource or is one wildcard, not both and not neither. *)
Definition one_kind (e : ace_res) : Prop := (ar_href e <> [] /\ ar_wc e = NoWc) \/ (ar_href e = [] /\ ar_wc e <> NoWc).

(** The forms of ACE that can be written to storage and read back. *)
Definition storable (a : ace) : Prop := typed_ace a /\ a_tag a <> Some [] /\ Forall one_kind (a_res a).
