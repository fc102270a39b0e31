(** Access control: security/oc_acl_util.c (the access decision), security/oc_ace.c and security/oc_acl.c
    (the access control list), api/oc_core_res.c (resource classes), api/oc_resource.c (URI comparison).
    Modelled with OC_PKI, OC_HAS_FEATURE_PLGD_TIME, OC_WKCORE, OC_HAS_FEATURE_RESOURCE_ACCESS_IN_RFOTM,
    OC_CLOUD, OC_SOFTWARE_UPDATE, OC_MNT and OC_INTROSPECTION enabled, and OC_DYNAMIC_ALLOCATION with
    allocations that succeed.  Asserts are compiled out (release build). *)
From Verif Require Import Common Rep_Model Hex_Model.
From Coq Require Import String.
Local Open Scope string_scope.
Local Open Scope list_scope.
Local Open Scope N_scope.

(** oc_dostype_t (security/oc_pstat_internal.h:47-53). *)
Inductive dos := RESET | RFOTM | RFPRO | RFNOP | SRESET.
Definition dos_eqb (a b : dos) : bool :=
  match a, b with RESET, RESET | RFOTM, RFOTM | RFPRO, RFPRO | RFNOP, RFNOP | SRESET, SRESET => true | _, _ => false end.

(** oc_method_t (include/oc_ri.h): the four methods an ACE can permit and FETCH. *)
Inductive method := GET | POST | PUT | DELETE | FETCH.

(** oc_ace_permissions_t (include/oc_enums.h:240-248). *)
Definition PERM_CREATE := 1.
Definition PERM_RETRIEVE := 2.
Definition PERM_UPDATE := 4.
Definition PERM_DELETE := 8.
Definition PERM_NOTIFY := 16.
(** OC_PERM_ALL (api/oc_enums_internal.h:30-32). *)
Definition PERM_ALL := 31.

(** oc_ace_wildcard_t (include/oc_acl.h:59-64) and its numeric values. *)
Inductive wc := NoWc | WcAll | WcSecured | WcPublic.
Definition wc_code (w : wc) : N := match w with NoWc => 0 | WcAll => 0x111 | WcSecured => 1 | WcPublic => 0x10 end.

(** oc_ace_res_t (include/oc_acl.h:80-89); an href that was never set is the empty string. *)
Record ace_res := mk_res { ar_href : list N; ar_wc : wc }.

(** oc_ace_subject_t with its type (include/oc_acl.h:70-103); an authority that was never set is empty. *)
Inductive conn := AuthCrypt | AnonClear.
Inductive subject := SUuid (u : list N) | SRole (role authority : list N) | SConn (c : conn).

(** oc_sec_ace_t (include/oc_acl.h:109-120); [None] is a tag pointer of NULL. *)
Record ace := mk_ace { a_id : Z; a_subj : subject; a_perm : N; a_tag : option (list N); a_res : list ace_res }.

(** * URI comparison *)

(** oc_resource_match_uri (api/oc_resource.c:86-97): a uri without leading slash is compared with the
    canonical one from its second character on. *)
Definition match_uri (canonical uri : list N) : bool :=
  match uri with
  | c :: _ => if c =? 47 then list_eqb uri canonical else list_eqb uri (tl canonical)
  | [] => list_eqb uri canonical
  end.

(** * ACE lookup *)

(** ace_res_match_wild_card (security/oc_ace.c:288-295). *)
Definition match_wildcard (w reswc : N) : bool :=
  if w =? 0x111 then reswc =? 0x111 else negb (N.land w reswc =? 0).

(** One iteration of ace_res_find_resource (security/oc_ace.c:301-323).  [href = None] is a NULL pointer. *)
Definition res_match (r : ace_res) (href : option (list N)) (w : N) : bool :=
  let step2 (m : bool) : bool :=
    if negb (w =? 0) && negb (wc_code (ar_wc r) =? 0) then match_wildcard w (wc_code (ar_wc r)) else m in
  match href, ar_href r with
  | Some h, _ :: _ => if match_uri (ar_href r) h then step2 true else false
  | _, _ => step2 false
  end.

(** ace_res_find_resource (security/oc_ace.c:297-326): the first matching entry and the entries behind it. *)
Fixpoint find_res (l : list ace_res) (href : option (list N)) (w : N) : option (ace_res * list ace_res) :=
  match l with
  | [] => None
  | r :: t => if res_match r href w then Some (r, t) else find_res t href w
  end.

(** oc_ace_has_matching_tag (security/oc_ace.c:234-241). *)
Definition match_tag (a : ace) (tag : option (list N)) : bool :=
  match tag, a_tag a with
  | None, None => true
  | Some t, Some u => list_eqb t u
  | _, _ => false
  end.

(** oc_ace_has_matching_subject (security/oc_ace.c:243-263): an ACE without authority matches any authority. *)
Definition conn_eqb (a b : conn) : bool := match a, b with AuthCrypt, AuthCrypt | AnonClear, AnonClear => true | _, _ => false end.
Definition match_subject (a : ace) (s : subject) : bool :=
  match a_subj a, s with
  | SUuid u, SUuid v => list_eqb u v
  | SRole r au, SRole r' au' => list_eqb r' r && (list_eqb au [] || list_eqb au' au)
  | SConn c, SConn d => conn_eqb d c
  | _, _ => false
  end.

(** oc_sec_ace_find_subject (security/oc_ace.c:265-286): aceid -1 and permission 0 mean any;
    [tag = None] is match_tag false, [Some t] requires the tag [t]. Result: the ACE and the list behind it. *)
Fixpoint find_subject (l : list ace) (s : subject) (aceid : Z) (perm : N) (tag : option (option (list N))) : option (ace * list ace) :=
  match l with
  | [] => None
  | a :: t =>
      if negb (aceid =? -1)%Z && negb (a_id a =? aceid)%Z then find_subject t s aceid perm tag
      else if negb (perm =? 0) && negb (a_perm a =? perm) then find_subject t s aceid perm tag
      else if match tag with Some tg => negb (match_tag a tg) | None => false end then find_subject t s aceid perm tag
      else if match_subject a s then Some (a, t)
      else find_subject t s aceid perm tag
  end.

(** * The access decision *)

(** oc_core_resource_t (include/oc_ri.h:186-229). *)
Inductive core :=
| OCF_P | PLGD_TIME | OCF_CON | INTROSPECTION_WK | INTROSPECTION_DATA | WELLKNOWNCORE | OCF_RES | OCF_MNT
| COAPCLOUDCONF | SW_UPDATE | SEC_DOXM | SEC_PSTAT | SEC_ACL | SEC_AEL | SEC_CRED | SEC_SDI | SEC_SP | SEC_CSR | SEC_ROLES | OCF_D.
Definition core_index (c : core) : N :=
  match c with
  | OCF_P => 0 | PLGD_TIME => 1 | OCF_CON => 2 | INTROSPECTION_WK => 3 | INTROSPECTION_DATA => 4 | WELLKNOWNCORE => 5
  | OCF_RES => 6 | OCF_MNT => 7 | COAPCLOUDCONF => 8 | SW_UPDATE => 9 | SEC_DOXM => 10 | SEC_PSTAT => 11 | SEC_ACL => 12
  | SEC_AEL => 13 | SEC_CRED => 14 | SEC_SDI => 15 | SEC_SP => 16 | SEC_CSR => 17 | SEC_ROLES => 18 | OCF_D => 19
  end.

(** oc_resource_s: the fields the decision reads.  [r_core] is the entry of g_core_resources the pointer
    is equal to, [None] for a resource of the application. *)
Record resource := mk_resource {
  r_uri : list N; r_core : option core; r_discoverable : bool; r_secure : bool;
  r_rfotm : bool; r_anon_perm : N }.

(** core_is_platform_resource (api/oc_core_res.c:598-607): entries below OCF_CON. *)
Definition is_platform (r : resource) : bool :=
  match r_core r with Some c => core_index c <? core_index OCF_CON | None => false end.

(** oc_core_is_DCR (api/oc_core_res.c:636-670). *)
Definition is_DCR (r : resource) : bool :=
  if is_platform r then true
  else match r_core r with
       | Some c =>
           if (core_index OCF_CON <=? core_index c) && (core_index c <=? core_index OCF_D) then
             if (core_index c =? core_index INTROSPECTION_WK) || (core_index c =? core_index INTROSPECTION_DATA) then false
             else if core_index c =? core_index OCF_CON then false else true
           else false
       | None => false
       end.

(** oc_core_is_vertical_resource (api/oc_core_res.c:609-634). *)
Definition is_vertical (r : resource) : bool :=
  if is_platform r then true
  else match r_core r with
       | Some c => if (core_index OCF_CON <=? core_index c) && (core_index c <=? core_index OCF_D) then false else true
       | None => true
       end.

(** oc_core_is_SVR (api/oc_core_res.c:576-595). *)
Definition is_SVR (r : resource) : bool :=
  match r_core r with
  | Some c => (core_index SEC_DOXM <=? core_index c) && (core_index c <=? core_index OCF_D - 1)
  | None => false
  end.

(** oc_sec_cred_t: the fields read here. *)
Record cred := mk_cred { c_subj : list N; c_psk : bool; c_usage_null : bool; c_role : list N; c_auth : list N }.

(** A role certificate presented in the session, and whether oc_certs_validate_role_cert accepts it now. *)
Record role_cert := mk_rc { rc_role : list N; rc_auth : list N; rc_valid : bool }.

(** oc_tls_peer_t: the fields read here. *)
Record peer := mk_peer { p_doc : bool; p_psk : bool; p_roles : list role_cert }.

(** The device state read by the decision, and the endpoint of the request. *)
Record device := mk_device {
  d_dos : dos; d_acl : list ace; d_creds : list cred;
  d_acl_owner : list N; d_doxm_owner : list N; d_pstat_owner : list N; d_cred_owner : list N;
  d_peers : N }.
Record endpoint := mk_ep { e_secured : bool; e_di : list N }.

(** oc_ace_get_permission (security/oc_acl_util.c:112-146): the wildcard mask of the resource ... *)
Definition wc_of (r : resource) (dcr public : bool) : N :=
  if dcr then 0
  else if r_discoverable r then (if public then N.lor 1 0x10 else 1) else 0x111.
(** ... and the loop over the matching entries; [None] when the fuel is used up. *)
Fixpoint get_perm_loop (fuel : nat) (l : list ace_res) (perm acc : N) (href : option (list N)) (w : N) : option N :=
  match fuel with
  | O => None
  | S k =>
      match find_res l href w with
      | None => Some acc
      | Some (_, t) => get_perm_loop k t perm (N.lor acc perm) href w
      end
  end.
Definition get_permission (a : ace) (r : resource) (dcr public : bool) : option N :=
  get_perm_loop (S (List.length (a_res a))) (a_res a) (a_perm a) 0 (Some (r_uri r)) (wc_of r dcr public).

(** The do-while loops over oc_sec_acl_find_subject (security/oc_acl_util.c:155-173, 351-363, 369-381,
    395-411): permissions of all ACEs with this subject. *)
Fixpoint subject_perms (fuel : nat) (l : list ace) (s : subject) (acc : N) (r : resource) (dcr public : bool) : option N :=
  match fuel with
  | O => None
  | S k =>
      match find_subject l s (-1) 0 None with
      | None => Some acc
      | Some (a, t) =>
          match get_permission a r dcr public with
          | None => None
          | Some p => subject_perms k t s (N.lor acc p) r dcr public
          end
      end
  end.
Definition perms_of (l : list ace) (s : subject) (acc : N) (r : resource) (dcr public : bool) : option N :=
  subject_perms (S (List.length l)) l s acc r dcr public.

(** eval_access (security/oc_acl_util.c:177-195). *)
Definition bit (p b : N) : bool := negb (N.land p b =? 0).
Definition eval_access (m : method) (p : N) : bool :=
  if p =? 0 then false
  else match m with
       | GET => bit p PERM_RETRIEVE || bit p PERM_NOTIFY
       | POST | PUT => bit p PERM_CREATE || bit p PERM_UPDATE
       | DELETE => bit p PERM_DELETE
       | FETCH => false
       end.

(** oc_sec_check_acl_on_get (security/oc_acl_util.c:197-239); OC_DOXM_UUID_FILTER off (development only). *)
Definition check_on_get (r : resource) (is_otm : bool) : bool :=
  if is_otm && (match_uri (str "/oic/res") (r_uri r) || match_uri (str "/oic/d") (r_uri r) || match_uri (str "/oic/p") (r_uri r)) then true
  else if match_uri (str "/x.plgd.dev/time") (r_uri r) then true
  else if match_uri (str "/.well-known/core") (r_uri r) then true
  else false.

(** oc_sec_check_acl_by_uuid (security/oc_acl_util.c:241-267). *)
Definition check_by_uuid (d : device) (u : list N) (r : resource) : bool :=
  if match_uri (str "/oic/sec/acl2") (r_uri r) && list_eqb (d_acl_owner d) u then true
  else if match_uri (str "/oic/sec/doxm") (r_uri r) && list_eqb (d_doxm_owner d) u then true
  else if match_uri (str "/oic/sec/pstat") (r_uri r) && list_eqb (d_pstat_owner d) u then true
  else if match_uri (str "/oic/sec/cred") (r_uri r) && list_eqb (d_cred_owner d) u then true
  else false.

(** oc_sec_check_acl_in_rfotm_prior_to_doc (security/oc_acl_util.c:269-291). *)
Definition check_prior_to_doc (m : method) (r : resource) : bool :=
  if match_uri (str "/oic/sec/doxm") (r_uri r) then true
  else match m with GET => match_uri (str "/oic/sec/pstat") (r_uri r) | _ => false end.

(** oc_sec_find_cred (security/oc_cred.c:337-359) with OC_CREDTYPE_PSK and OC_CREDUSAGE_NULL. *)
Fixpoint find_psk (l : list cred) (u : list N) : option (cred * list cred) :=
  match l with
  | [] => None
  | c :: t => if c_psk c && c_usage_null c && list_eqb (c_subj c) u then Some (c, t) else find_psk t u
  end.

(** get_peer_permissions, PSK branch (security/oc_acl_util.c:298-313). *)
Fixpoint psk_perms (fuel : nat) (l : list cred) (u : list N) (acl : list ace) (acc : N) (r : resource) (dcr public : bool) : option N :=
  match fuel with
  | O => None
  | S k =>
      match find_psk l u with
      | None => Some acc
      | Some (c, t) =>
          match (if list_eqb (c_role c) [] then Some acc
                 else match perms_of acl (SRole (c_role c) (c_auth c)) 0 r dcr public with
                      | Some p => Some (N.lor acc p) | None => None end) with
          | None => None
          | Some acc' => match t with [] => Some acc' | _ => psk_perms k t u acl acc' r dcr public end
          end
      end
  end.

(** get_peer_permissions, PKI branch (security/oc_acl_util.c:315-336): certificates that no longer
    validate are dropped, the owner role is given every permission. *)
Fixpoint pki_perms (l : list role_cert) (acl : list ace) (acc : N) (r : resource) (dcr public : bool) : option N :=
  match l with
  | [] => Some acc
  | rc :: t =>
      if negb (rc_valid rc) then pki_perms t acl acc r dcr public
      else if list_eqb (rc_role rc) (str "oic.role.owner") then Some PERM_ALL
      else match perms_of acl (SRole (rc_role rc) (rc_auth rc)) 0 r dcr public with
           | None => None
           | Some p => pki_perms t acl (N.lor acc p) r dcr public
           end
  end.

(** get_peer_permissions (security/oc_acl_util.c:293-339). *)
Definition peer_perms (d : device) (ep : endpoint) (p : peer) (r : resource) (dcr public : bool) : option N :=
  if p_psk p then psk_perms (S (List.length (d_creds d))) (d_creds d) (e_di ep) (d_acl d) 0 r dcr public
  else pki_perms (p_roles p) (d_acl d) 0 r dcr public.

(** get_conn_permissions (security/oc_acl_util.c:341-384). *)
Definition conn_perms (d : device) (ep : endpoint) (r : resource) (dcr public : bool) : option N :=
  match (if e_secured ep then perms_of (d_acl d) (SConn AuthCrypt) 0 r dcr public else Some 0) with
  | None => None
  | Some acc => perms_of (d_acl d) (SConn AnonClear) acc r dcr public
  end.

(** oc_sec_check_acl_by_permissions (security/oc_acl_util.c:386-429). *)
Definition check_by_permissions (m : method) (r : resource) (dcr svr : bool) (d : device) (ep : endpoint) (p : option peer) : option bool :=
  let public := negb (r_secure r) in
  match perms_of (d_acl d) (SUuid (e_di ep)) 0 r dcr public with
  | None => None
  | Some p1 =>
      match (match p with None => Some 0 | Some pr => peer_perms d ep pr r dcr public end) with
      | None => None
      | Some p2 =>
          match (if svr then Some 0 else conn_perms d ep r dcr public) with
          | None => None
          | Some p3 => Some (eval_access m (N.lor (N.lor p1 p2) p3))
          end
      end
  end.

(** oc_sec_check_acl (security/oc_acl_util.c:431-538); [None] only if a loop above runs out of fuel. *)
Definition check_acl (m : method) (r : resource) (d : device) (ep : endpoint) (p : option peer) : option bool :=
  let in_rfotm := dos_eqb (d_dos d) RFOTM in
  let unsec := negb (e_secured ep) in
  if in_rfotm && unsec && (d_peers d =? 1) then Some false
  else if in_rfotm && unsec && (r_rfotm r && eval_access m (r_anon_perm r)) then Some true
  else
    let dcr := is_DCR r in
    if negb dcr && negb (dos_eqb (d_dos d) RFNOP) then Some false
    else if negb dcr && is_vertical r && unsec then Some false
    else if dcr && match p with Some pr => p_doc pr | None => false end then Some true
    else if match m with GET => check_on_get r in_rfotm | _ => false end then Some true
    else if in_rfotm && (d_peers d =? 0) then Some (check_prior_to_doc m r)
    else
      let svr := is_SVR r in
      let pnr := dos_eqb (d_dos d) RFPRO || dos_eqb (d_dos d) RFNOP || dos_eqb (d_dos d) SRESET in
      if svr && unsec && pnr then Some false
      else if check_by_uuid d (e_di ep) r then Some true
      else if match_uri (str "/oic/sec/roles") (r_uri r) && pnr then Some true
      else check_by_permissions m r dcr svr d ep p.

(** * The access control list *)

(** oc_sec_add_new_ace_res (security/oc_ace.c:162-185). *)
Definition new_res (href : option (list N)) (w : wc) : option ace_res :=
  match href, w with
  | None, NoWc => None
  | None, _ => Some (mk_res [] w)
  | Some h, _ => Some (mk_res h w)
  end.

(** oc_sec_ace_get_or_add_res with create (security/oc_ace.c:187-209): the new resource list, [None] on error. *)
Definition get_or_add_res (l : list ace_res) (href : option (list N)) (w : wc) : option (list ace_res) :=
  match find_res l href (wc_code w) with
  | Some _ => Some l
  | None => match new_res href w with Some r => Some (l ++ [r]) | None => None end
  end.

(** acl_unique_aceid (security/oc_acl.c:89-100). *)
Definition unique_aceid (l : list ace) (i : Z) : bool := negb (existsb (fun a => a_id a =? i)%Z l).

(** acl_get_new_aceid (security/oc_acl.c:102-110): random values are taken from [rnd] until one is unused;
    [None] if none of them is. *)
Fixpoint new_aceid (l : list ace) (rnd : list N) : option (Z * list N) :=
  match rnd with
  | [] => None
  | v :: t => let i := Z.of_N (v / 2) in if unique_aceid l i then Some (i, t) else new_aceid l t
  end.

(** Replace the first ACE satisfying [p] (a pointer into the list) by [f] of it; [None] removes it. *)
Fixpoint upd_first (p : ace -> bool) (f : ace -> option ace) (l : list ace) : list ace :=
  match l with
  | [] => []
  | a :: t => if p a then match f a with Some a' => a' :: t | None => t end else a :: upd_first p f t
  end.

(** The condition of oc_sec_ace_find_subject (security/oc_ace.c:272-281) for an update with a tag. *)
Definition subj_sel (s : subject) (aceid : Z) (perm : N) (tag : option (list N)) (a : ace) : bool :=
  ((aceid =? -1)%Z || (a_id a =? aceid)%Z) && ((perm =? 0) || (a_perm a =? perm)) && match_tag a tag && match_subject a s.

Inductive upd :=
| UOk (l : list ace) (rnd : list N)     (* true *)
| UFail (l : list ace) (rnd : list N)   (* false; the ACE was removed *)
| UStuck.                               (* no unused identifier among the random values *)

(** oc_sec_acl_update_res (security/oc_acl.c:145-178).  The ACE found is the first selected one; when the
    resource cannot be added, oc_sec_remove_ace takes out the ACE whether it was created here or not. *)
Definition update_res (l : list ace) (rnd : list N) (s : subject) (aceid : Z) (perm : N) (tag : option (list N))
  (href : option (list N)) (w : wc) : upd :=
  let sel := subj_sel s aceid perm tag in
  match find sel l with
  | Some a =>
      match get_or_add_res (a_res a) href w with
      | Some rs => UOk (upd_first sel (fun a => Some (mk_ace (a_id a) (a_subj a) (a_perm a) (a_tag a) rs)) l) rnd
      | None => UFail (upd_first sel (fun _ => None) l) rnd
      end
  | None =>
      match (if (aceid =? -1)%Z then new_aceid l rnd else Some (aceid, rnd)) with
      | None => UStuck
      | Some (i, rnd') =>
          match get_or_add_res [] href w with
          | Some rs => UOk (l ++ [mk_ace i s perm tag rs]) rnd'
          | None => UFail l rnd'
          end
      end
  end.

(** * Decoding an ACL payload *)

(** oc_ace_wildcard_from_string (security/oc_ace.c:58-71). *)
Definition wc_of_string (s : list N) : option wc :=
  if list_eqb s (str "*") then Some WcAll else if list_eqb s (str "+") then Some WcSecured
  else if list_eqb s (str "-") then Some WcPublic else None.

(** oc_ace_connection_type_from_string (security/oc_ace.c:354-364). *)
Definition conn_of_string (s : list N) : option conn :=
  if list_eqb s (str "auth-crypt") then Some AuthCrypt else if list_eqb s (str "anon-clear") then Some AnonClear else None.

(** ace_decode_subject_string_property and the loop of ace_decode_subject (security/oc_ace.c:482-525):
    the last occurrence of each of uuid, role, authority, conntype; anything else is an error. *)
Fixpoint subject_strings (o : list rep) (uuid role auth ct : option (list N)) : option (option (list N) * option (list N) * option (list N) * option (list N)) :=
  match o with
  | [] => Some (uuid, role, auth, ct)
  | (nm, RStr v) :: t =>
      if list_eqb nm (str "uuid") then subject_strings t (Some v) role auth ct
      else if list_eqb nm (str "role") then subject_strings t uuid (Some v) auth ct
      else if list_eqb nm (str "authority") then subject_strings t uuid role (Some v) ct
      else if list_eqb nm (str "conntype") then subject_strings t uuid role auth (Some v)
      else None
  | _ :: _ => None
  end.

(** ace_decode_subject (security/oc_ace.c:512-576). *)
Definition decode_subject (o : list rep) : option subject :=
  match subject_strings o None None None None with
  | None => None
  | Some (Some u, role, auth, ct) =>
      match role, auth, ct with
      | None, None, None => match str_to_uuid_v1 u with
                            | (n, Some id) => if (n <? 0)%Z then None else Some (SUuid id)
                            | (_, None) => None
                            end
      | _, _, _ => None
      end
  | Some (None, Some role, auth, ct) =>
      match ct with
      | Some _ => None
      | None => Some (SRole role (match auth with Some a => a | None => [] end))
      end
  | Some (None, None, Some _, _) => None
  | Some (None, None, None, Some c) => match conn_of_string c with Some k => Some (SConn k) | None => None end
  | Some (None, None, None, None) => None
  end.

(** oc_sec_ace_decode_t as initialised by oc_sec_decode_acl (security/oc_acl.c:389-391): zeroed, so that a
    missing subject is the nil UUID, a missing permission is 0; aceid is -1. *)
Record ace_dec := mk_dec { ad_subj : subject; ad_perm : N; ad_id : Z; ad_tag : option (list N); ad_res : list (list rep) }.
Definition nil_uuid : list N := repeat 0 16.
Definition dec0 : ace_dec := mk_dec (SUuid nil_uuid) 0 (-1) None [].

(** C casts of an int64_t to int and to uint16_t (two's complement). *)
Definition to_int (z : Z) : Z := let m := (z mod 2 ^ 32)%Z in if (m <? 2 ^ 31)%Z then m else (m - 2 ^ 32)%Z.
Definition to_u16 (z : Z) : N := Z.to_N (z mod 65536)%Z.

(** ace_decode_property (security/oc_ace.c:578-656). *)
Definition decode_ace_prop (d : ace_dec) (r : rep) : option ace_dec :=
  match snd r with
  | RInt z =>
      if is_prop r (str "permission") then
        if (z >? 65535)%Z then None else Some (mk_dec (ad_subj d) (to_u16 z) (ad_id d) (ad_tag d) (ad_res d))
      else if is_prop r (str "aceid") then
        if (z >? 2147483647)%Z then None else Some (mk_dec (ad_subj d) (ad_perm d) (to_int z) (ad_tag d) (ad_res d))
      else None
  | RStr s =>
      if is_prop r (str "tag") then Some (mk_dec (ad_subj d) (ad_perm d) (ad_id d) (Some s) (ad_res d))
      else if is_prop r (str "href") then Some d
      else None
  | RObj o =>
      if is_prop r (str "subject") then
        match decode_subject o with Some s => Some (mk_dec s (ad_perm d) (ad_id d) (ad_tag d) (ad_res d)) | None => None end
      else None
  | RObjArr l => if is_prop r (str "resources") then Some (mk_dec (ad_subj d) (ad_perm d) (ad_id d) (ad_tag d) l) else None
  | RNil | RArr => if is_prop r (str "resources") then Some d else None
  | _ => None
  end.

(** oc_sec_decode_ace (security/oc_ace.c:658-670). *)
Fixpoint decode_ace (d : ace_dec) (o : list rep) : option ace_dec :=
  match o with
  | [] => Some d
  | r :: t => match decode_ace_prop d r with Some d' => decode_ace d' t | None => None end
  end.

(** ace_decode_resource (security/oc_ace.c:672-728): href and wildcard. *)
Fixpoint decode_res (o : list rep) (href : option (list N)) (w : wc) : option (option (list N) * wc) :=
  match o with
  | [] => Some (href, w)
  | r :: t =>
      match snd r with
      | RStr s =>
          if is_prop r (str "href") then decode_res t (Some s) w
          else if is_prop r (str "wc") then match wc_of_string s with Some w' => decode_res t href w' | None => None end
          else None
      | RStrArr _ => if is_prop r (str "if") then decode_res t href w else None
      | _ => None
      end
  end.

Inductive dres := DOk (l : list ace) (rnd : list N) | DErr (l : list ace) (rnd : list N) | DStuck.

(** oc_sec_decode_ace_resources with acl_decode_ace_resources (security/oc_ace.c:730-744,
    security/oc_acl.c:295-343): a resource that cannot be added is only logged. *)
Fixpoint decode_resources (l : list ace) (rnd : list N) (d : ace_dec) (rs : list (list rep)) : dres :=
  match rs with
  | [] => DOk l rnd
  | o :: t =>
      match decode_res o None NoWc with
      | None => DErr l rnd
      | Some (href, w) =>
          match update_res l rnd (ad_subj d) (ad_id d) (ad_perm d) (ad_tag d) href w with
          | UOk l' rnd' | UFail l' rnd' => decode_resources l' rnd' d t
          | UStuck => DStuck
          end
      end
  end.

(** oc_acl_remove_ace_from_device_by_aceid (security/oc_acl.c:199-207). *)
Definition remove_id (l : list ace) (i : Z) : list ace := upd_first (fun a => a_id a =? i)%Z (fun _ => None) l.

(** The loop over one array of ACEs (security/oc_acl.c:387-425). *)
Fixpoint decode_aces (l : list ace) (rnd : list N) (aces : list (list rep)) : dres :=
  match aces with
  | [] => DOk l rnd
  | o :: t =>
      match decode_ace dec0 o with
      | None => DErr l rnd
      | Some d =>
          let l1 := if negb (ad_id d =? -1)%Z && negb (unique_aceid l (ad_id d)) then remove_id l (ad_id d) else l in
          match decode_resources l1 rnd d (ad_res d) with
          | DOk l2 rnd' => decode_aces l2 rnd' t
          | e => e
          end
      end
  end.

(** The ACL resource of a device: its entries and its owner. *)
Record acl := mk_acl { l_aces : list ace; l_owner : list N }.

(** oc_sec_decode_acl, first pass (security/oc_acl.c:354-375). *)
Definition precheck (d : dos) (from_storage : bool) (o : list rep) : bool :=
  forallb (fun r : rep =>
    match snd r with
    | RStr _ => if is_prop r (str "rowneruuid") then negb (negb from_storage && (dos_eqb d RFNOP || dos_eqb d RFPRO)) else true
    | RObjArr _ => negb (negb from_storage && dos_eqb d RFNOP)
    | _ => true
    end) o.

(** The C string up to its terminator, as oc_str_to_uuid sees it (api/oc_uuid.c:123-131). *)
Fixpoint cstr (s : list N) : list N := match s with [] => [] | c :: t => if c =? 0 then [] else c :: cstr t end.

Inductive ares := AOk (a : acl) (rnd : list N) | AErr (a : acl) (rnd : list N) | AStuck.

(** oc_sec_decode_acl, second pass (security/oc_acl.c:377-432).  A rowneruuid text that is no UUID but is
    long enough to fill it or short enough leaves what oc_str_to_uuid stores (api/oc_uuid.c:107-127). *)
Fixpoint decode_props (a : acl) (rnd : list N) (o : list rep) : ares :=
  match o with
  | [] => AOk a rnd
  | r :: t =>
      match snd r with
      | RStr s =>
          if is_prop r (str "rowneruuid") then
            decode_props (mk_acl (l_aces a) (match snd (str_to_uuid_v1 (firstn 37 (cstr s))) with Some u => u | None => l_owner a end)) rnd t
          else decode_props a rnd t
      | RObjArr aces =>
          match decode_aces (l_aces a) rnd aces with
          | DOk l rnd' => decode_props (mk_acl l (l_owner a)) rnd' t
          | DErr l rnd' => AErr (mk_acl l (l_owner a)) rnd'
          | DStuck => AStuck
          end
      | _ => decode_props a rnd t
      end
  end.
Definition decode_acl (d : dos) (from_storage : bool) (a : acl) (rnd : list N) (o : list rep) : ares :=
  if precheck d from_storage o then decode_props a rnd o else AErr a rnd.

(** * Encoding *)

(** ace_encode_subject (security/oc_ace.c:366-405). *)
Definition encode_subject (s : subject) : list rep :=
  match s with
  | SUuid u => [(str "uuid", RStr (match uuid_to_str u 37 with Some t => t | None => [] end))]
  | SRole r a => (str "role", RStr r) :: (match a with [] => [] | _ => [(str "authority", RStr a)] end)
  | SConn AuthCrypt => [(str "conntype", RStr (str "auth-crypt"))]
  | SConn AnonClear => [(str "conntype", RStr (str "anon-clear"))]
  end.

(** ace_encode_subject_resource (security/oc_ace.c:407-428): the wildcard is only written without an href. *)
Definition encode_res (r : ace_res) : list rep :=
  match ar_href r with
  | _ :: _ => [(str "href", RStr (ar_href r))]
  | [] => match ar_wc r with
          | WcAll => [(str "wc", RStr (str "*"))] | WcSecured => [(str "wc", RStr (str "+"))]
          | WcPublic => [(str "wc", RStr (str "-"))] | NoWc => []
          end
  end.

(** oc_sec_encode_ace (security/oc_ace.c:430-472). *)
Definition encode_ace (a : ace) (to_storage : bool) : list rep :=
  (str "subject", RObj (encode_subject (a_subj a))) ::
  (match a_res a with [] => [] | rs => [(str "resources", RObjArr (map encode_res rs))] end) ++
  [(str "permission", RInt (Z.of_N (a_perm a))); (str "aceid", RInt (a_id a))] ++
  (if to_storage then match a_tag a with Some (c :: t) => [(str "tag", RStr (c :: t))] | _ => [] end else []).

(** oc_sec_encode_acl (security/oc_acl.c:112-143), as the tree the reader of the payload gets; the
    properties of the baseline interface are left out. *)
Definition encode_acl (a : acl) (to_storage : bool) : list rep :=
  [ (str "aclist2", match l_aces a with [] => RArr | l => RObjArr (map (fun x => encode_ace x to_storage) l) end);
    (str "rowneruuid", RStr (match uuid_to_str (l_owner a) 37 with Some t => t | None => [] end)) ].

(** * Histories *)
Inductive aop :=
| OpPost (d : dos) (from_storage : bool) (payload : list rep)   (* acl_resource_post, oc_sec_load_acl, oc_sec_apply_acl *)
| OpUpdate (s : subject) (perm : N) (href : list N)             (* oc_sec_acl_anon_connection, oc_sec_acl_add_created_resource_ace: aceid -1, no tag *)
| OpDeleteId (i : Z)                                            (* oc_sec_remove_ace_by_aceid *)
| OpClear (keep : ace -> bool)                                  (* oc_sec_acl_clear with a filter *)
| OpDefault.                                                    (* oc_sec_acl_default *)

(** security/oc_acl.c:216-241, 259-284, 435-475, 488-501. *)
Definition astep (a : acl) (rnd : list N) (o : aop) : option (acl * list N) :=
  match o with
  | OpPost d fs pl => match decode_acl d fs a rnd pl with AOk a' r | AErr a' r => Some (a', r) | AStuck => None end
  | OpUpdate s perm href =>
      match update_res (l_aces a) rnd s (-1) perm None (Some href) NoWc with
      | UOk l r | UFail l r => Some (mk_acl l (l_owner a), r)
      | UStuck => None
      end
  | OpDeleteId i => Some (mk_acl (remove_id (l_aces a) i) (l_owner a), rnd)
  | OpClear keep => Some (mk_acl (filter keep (l_aces a)) (l_owner a), rnd)
  | OpDefault => Some (mk_acl [] nil_uuid, rnd)
  end.
Fixpoint arun (a : acl) (rnd : list N) (os : list aop) : option (acl * list N) :=
  match os with
  | [] => Some (a, rnd)
  | o :: t => match astep a rnd o with Some (a', r) => arun a' r t | None => None end
  end.

(** acl_resource_delete (security/oc_acl.c:503-540): [q] is the aceid of the query if there is one. *)
Inductive dstatus := DForbidden | DDeleted | DNotFound.
Definition acl_delete (d : dos) (a : acl) (q : option Z) : dstatus * acl :=
  if dos_eqb d RFNOP then (DForbidden, a)
  else match q with
       | Some i => if negb (i =? 0)%Z && negb (unique_aceid (l_aces a) i)
                   then (DDeleted, mk_acl (remove_id (l_aces a) i) (l_owner a)) else (DNotFound, a)
       | None => (DDeleted, mk_acl [] (l_owner a))
       end.
