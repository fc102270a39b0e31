(** Certificates: the profile every certificate of a peer is checked against and the decision
    whether a peer with a certificate may connect (security/oc_certs_validate.c,
    security/oc_certs.c and security/oc_tls.c). *)
From Verif Require Import Common Hex_Model Acl_Model.
From Coq Require Import String.
Local Open Scope string_scope.
Local Open Scope list_scope.
Local Open Scope N_scope.

(** What the code reads of a parsed mbedtls_x509_crt.  The names [c_issuer] and [c_subject] are
    the encoded names (issuer_raw, subject_raw); [c_after] are the bytes of the certificate that
    follow the subject.  [c_future] and [c_past]: mbedtls_x509_time_is_future of valid_from and
    mbedtls_x509_time_is_past of valid_to.  [c_eku]: the extended key usages, None without that
    extension.  [c_cn]: the value of the first common name in the subject.  [c_key]: the public
    key can be written (oc_certs_extract_public_key_to_oc_string).  [c_bad]: the flags of the
    checks of mbedtls itself for this certificate (signature, trust, revocation) are not 0. *)
Record cert := Cert {
  c_raw : list N; c_md : N; c_version : N; c_future : bool; c_past : bool; c_pk : N; c_grp : N;
  c_issuer : list N; c_subject : list N; c_after : list N; c_ku : N; c_ca : bool;
  c_pathlen : N; c_eku : option (list (list N)); c_cn : option (list N); c_key : bool;
  c_bad : bool }.

(** The masks of allowed digests and curves (security/oc_certs.c:57,63). *)
Record conf := Conf { allowed_mds : N; allowed_grps : N }.

(** MBEDTLS_PK_ECDSA; key usage bits of mbedtls/x509.h. *)
Definition PK_ECDSA := 4.
Definition KU_DIGITAL_SIGNATURE := 128.
Definition KU_KEY_AGREEMENT := 8.
Definition KU_KEY_CERT_SIGN := 4.
Definition KU_CRL_SIGN := 2.

(** security/oc_certs.c:103-107,109-114,143-148: 1 shifted left by the value less 1, when the
    value is between 0 and 32, and-ed with the mask. *)
Definition id_allowed (mask v : N) : bool :=
  negb (N.land (if (0 <? v) && (v <? 32) then N.shiftl 1 (v - 1) else 0) mask =? 0).

(** security/oc_certs_validate.c:38-82, validate_x509v1_fields: None for -1, otherwise whether a
    flag for the validity period was raised.  (The test of the kind of key compares bits that are
    different for different kinds.) *)
Definition validate_v1 (g : conf) (c : cert) : option bool :=
  if negb (id_allowed (allowed_mds g) (c_md c)) then None
  else if negb (c_version c =? 3) then None
  else if negb (c_pk c =? PK_ECDSA) then None
  else if negb (id_allowed (allowed_grps g) (c_grp c)) then None
  else Some (c_future c || c_past c).

(** security/oc_certs_validate.c:95-98: equal lengths, or as many bytes as the issuer has are the
    same from the start of the subject on (memcmp with the length of the issuer). *)
Definition self_issued (c : cert) : bool :=
  Nat.eqb (List.length (c_issuer c)) (List.length (c_subject c)) ||
  list_eqb (c_issuer c) (firstn (List.length (c_issuer c)) (c_subject c ++ c_after c)).

(** security/oc_certs_validate.c:84-147, oc_certs_validate_non_end_entity_cert: None for -1,
    otherwise whether a flag was raised. *)
Definition validate_ca (g : conf) (c : cert) (is_root is_otm : bool) (depth : N) : option bool :=
  match validate_v1 g c with
  | None => None
  | Some f =>
    if is_root && negb (self_issued c) then None
    else if negb is_root && self_issued c then None
    else
      let opt := if is_otm then KU_DIGITAL_SIGNATURE else N.lor KU_DIGITAL_SIGNATURE KU_CRL_SIGN in
      let ku := if is_otm then N.lor KU_KEY_CERT_SIGN KU_CRL_SIGN else KU_KEY_CERT_SIGN in
      if negb (N.land (c_ku c) ku =? ku) then None
      else if negb (N.ldiff (c_ku c) (N.lor opt ku) =? 0) then None
      else if negb (c_ca c) then None
      else if negb (c_pathlen c =? 0) && (c_pathlen c <? depth) then None
      else if is_otm && negb is_root && negb (c_pathlen c =? 1) then None
      else Some f
  end.

(** mbedtls_x509_crt_check_extended_key_usage: an absent extension and anyExtendedKeyUsage allow
    every usage. *)
Definition OID_SERVER_AUTH : list N := [43; 6; 1; 5; 5; 7; 3; 1].
Definition OID_CLIENT_AUTH : list N := [43; 6; 1; 5; 5; 7; 3; 2].
Definition OID_ANY : list N := [85; 29; 37; 0].
Definition OID_IDENTITY : list N := [43; 6; 1; 4; 1; 130; 222; 124; 1; 6].
Definition OID_ROLE : list N := [43; 6; 1; 4; 1; 130; 222; 124; 1; 7].
Definition eku_ok (c : cert) (oid : list N) : bool :=
  match c_eku c with
  | None => true
  | Some l => existsb (fun o => list_eqb o oid || list_eqb o OID_ANY) l
  end.

(** security/oc_certs_validate.c:191-225,267-301: the key usage and the basic constraints of an
    end entity. *)
Definition end_fields (c : cert) : bool :=
  let ku := N.lor KU_DIGITAL_SIGNATURE KU_KEY_AGREEMENT in
  (N.land (c_ku c) ku =? ku) && (N.ldiff (c_ku c) ku =? 0) && negb (c_ca c) && (c_pathlen c =? 0) &&
  eku_ok c OID_SERVER_AUTH && eku_ok c OID_CLIENT_AUTH.

(** security/oc_certs_validate.c:182-255, oc_certs_validate_end_entity_cert *)
Definition validate_end (g : conf) (c : cert) : option bool :=
  match validate_v1 g c with
  | None => None
  | Some f =>
    if negb (end_fields c) then None
    else if negb (eku_ok c OID_IDENTITY) then None
    else if eku_ok c OID_ROLE then None
    else if eku_ok c OID_ANY then None
    else Some f
  end.

(** security/oc_certs_validate.c:257-331, oc_certs_validate_role_cert *)
Definition validate_role (g : conf) (c : cert) : option bool :=
  match validate_v1 g c with
  | None => None
  | Some f =>
    if negb (end_fields c) then None
    else if eku_ok c OID_IDENTITY then None
    else if negb (eku_ok c OID_ROLE) then None
    else if eku_ok c OID_ANY then None
    else Some f
  end.

(** security/oc_certs.c:309-319, certs_find_uuid_prefix: what follows the first occurrence. *)
Definition UUID_PREFIX : list N := str "uuid:".
Fixpoint find_prefix (l : list N) : option (list N) :=
  if list_eqb (firstn 5 l) UUID_PREFIX then Some (skipn 5 l)
  else match l with [] => None | _ :: r => find_prefix r end.

(** security/oc_certs.c:321-358,360-379, oc_certs_extract_CN_for_UUID: the 36 characters after
    the prefix.  (With a buffer of 37 characters, as all callers here have.) *)
Definition cn_uuid (c : cert) : option (list N) :=
  match c_cn c with
  | None => None
  | Some v =>
    if Nat.ltb 5 (List.length v) then
      match find_prefix v with
      | Some r => if Nat.ltb (List.length r) 36 then None else Some (firstn 36 r)
      | None => None
      end
    else None
  end.

(** api/oc_uuid.c:120-128, oc_str_to_uuid into a uuid with value [old]: the text ends at its
    first NUL; a text with too many digits leaves the value alone. *)
Definition set_uuid (old s : list N) : list N :=
  match snd (str_to_uuid_v1 (cstr s)) with Some u => u | None => old end.

(** ** Trust anchors, own certificates and handshakes *)

(** The usages of credentials that matter here (oc_cred.h). *)
Inductive usage := UTrustca | UMfgTrustca | UIdentity | UMfg.
Definition usage_eqb (a b : usage) : bool :=
  match a, b with
  | UTrustca, UTrustca | UMfgTrustca, UMfgTrustca | UIdentity, UIdentity | UMfg, UMfg => true
  | _, _ => false
  end.

(** security/oc_tls.c:189-195: a trust anchor; [a_id] stands for its address, [a_sub] is the
    subject of its credential. *)
Record ca := Ca { a_id : nat; a_dev : nat; a_use : usage; a_raw : list N; a_sub : list N }.

(** security/oc_tls.c:202-210: an own certificate; [o_ctx] is the address kept in ctx. *)
Record own := Own { o_id : nat; o_dev : nat; o_use : usage; o_ctx : option nat }.

(** g_ca_certs, g_identity_certs; [next] is the next unused address.  (Addresses are not used
    again, so that following the address of a freed trust anchor can be told from following one
    in use.) *)
Record st := St { cas : list ca; owns : list own; next : nat }.

Definition find_ca (s : st) (i : nat) : option ca := find (fun a => Nat.eqb (a_id a) i) (cas s).
Definition find_own (s : st) (i : nat) : option own := find (fun o => Nat.eqb (o_id o) i) (owns s).

(** id_cert->ctx = ca_cert *)
Definition set_ctx (s : st) (i k : nat) : st :=
  St (cas s)
     (map (fun o => if Nat.eqb (o_id o) i then Own (o_id o) (o_dev o) (o_use o) (Some k) else o) (owns s))
     (next s).

(** security/oc_tls.c:1813-1826: remember the trust anchor of the device that is this root. *)
Definition note_root (s : st) (o : own) (c : cert) : st :=
  match find (fun a => Nat.eqb (a_dev a) (o_dev o) && usage_eqb (a_use a) UTrustca &&
                       list_eqb (c_raw c) (a_raw a)) (cas s) with
  | Some a => set_ctx s (o_id o) (a_id a)
  | None => s
  end.

(** security/oc_tls.c:1872-1918: the search for an authorising trust anchor; true when the loop
    ends with ca_cert set. *)
Fixpoint search (o : own) (root uuid : list N) (l : list ca) : bool :=
  match l with
  | [] => false
  | a :: r =>
    if Nat.eqb (a_dev a) (o_dev o) && usage_eqb (a_use a) UTrustca then
      if list_eqb root (a_raw a) then
        if list_eqb (a_sub a) uuid then true
        else if list_eqb (a_sub a) wildcard then true
        else search o root uuid r
      else search o root uuid r
    else true
  end.

(** Result of the verification of one certificate: refused, or accepted with the uuid of the
    peer so far; [VUb]: the address of a freed trust anchor was followed. *)
Inductive verdict := VNo | VYes (uuid : list N) | VUb.

(** security/oc_tls.c:1792-1924, verify_manufacturer_or_identity_certificate, followed by the
    default callback and the look at the flags (tls_verify_certificate, 1771-1777, and
    security/oc_pki.c:413-452).  [oid]: the own certificate of the session
    (get_identity_cert_for_session, 1627-1646), [otm]: the device is in RFOTM.
    mbedtls hands over its flags in [c_bad]. *)
Definition with_flags (c : cert) (f : bool) (s : st) (v : verdict) : st * verdict :=
  match v with VYes _ => (s, if c_bad c || f then VNo else v) | _ => (s, v) end.
Definition verify1 (g : conf) (s : st) (oid : option nat) (otm : bool) (depth : nat) (c : cert)
  (uuid : list N) : st * verdict :=
  let oc := match oid with Some i => find_own s i | None => None end in
  match depth with
  | S _ =>
    match validate_ca g c true otm (N.of_nat depth) with
    | None =>
      match validate_ca g c false otm (N.of_nat depth) with
      | None => (s, VNo)
      | Some f => with_flags c f s (VYes uuid)
      end
    | Some f =>
      let s' := match oc with
                | Some o => if usage_eqb (o_use o) UIdentity then note_root s o c else s
                | None => s
                end in
      with_flags c f s' (VYes uuid)
    end
  | O =>
    match validate_end g c with
    | None => (s, VNo)
    | Some f =>
      let named := match cn_uuid c with
                   | Some t => Some (set_uuid uuid t)
                   | None => match oc with
                             | Some o => if usage_eqb (o_use o) UIdentity then None
                                         else Some (42 :: tl uuid)
                             | None => Some (42 :: tl uuid)
                             end
                   end in
      match named with
      | None => (s, VNo)
      | Some u =>
        if negb (c_key c) then (s, VNo)
        else
          match oc with
          | Some o =>
            if usage_eqb (o_use o) UMfg then with_flags c f s (VYes u)
            else
              match o_ctx o with
              | None => (s, VNo)
              | Some k =>
                match find_ca s k with
                | None => (s, VUb)
                | Some root => if search o (a_raw root) u (cas s) then with_flags c f s (VYes u) else (s, VNo)
                end
              end
          | None => with_flags c f s (VYes u)
          end
      end
    end
  end.

(** mbedtls_x509_crt_verify calls back for every certificate of the verified chain, the root
    first and the end entity (depth 0) last, and stops at the first refusal. *)
Fixpoint verify (g : conf) (s : st) (oid : option nat) (otm : bool) (chain : list cert)
  (uuid : list N) : st * verdict :=
  match chain with
  | [] => (s, VNo)
  | c :: r =>
    match verify1 g s oid otm (List.length r) c uuid with
    | (s', VYes u) => match r with [] => (s', VYes u) | _ => verify g s' oid otm r u end
    | x => x
    end
  end.

(** What happens to these lists: a credential of a trust anchor or of an own certificate is added
    (security/oc_tls.c:1054-1121,1528-1569) or removed (1151-1163,1226-1241), a handshake. *)
Inductive op :=
| AddCa (dev : nat) (u : usage) (raw sub : list N)
| DelCa (i : nat)
| AddOwn (dev : nat) (u : usage)
| DelOwn (i : nat)
| Shake (oid : option nat) (otm : bool) (chain : list cert).

Definition step (g : conf) (s : st) (o : op) : st * verdict :=
  match o with
  | AddCa dev u raw sub => (St (cas s ++ [Ca (next s) dev u raw sub]) (owns s) (S (next s)), VNo)
  | DelCa i => (St (filter (fun a => negb (Nat.eqb (a_id a) i)) (cas s)) (owns s) (next s), VNo)
  | AddOwn dev u => (St (cas s) (owns s ++ [Own (next s) dev u None]) (S (next s)), VNo)
  | DelOwn i => (St (cas s) (filter (fun w => negb (Nat.eqb (o_id w) i)) (owns s)) (next s), VNo)
  | Shake oid otm chain => verify g s oid otm chain (repeat 0 16)
  end.

Definition empty : st := St [] [] 0.
Fixpoint run (g : conf) (s : st) (l : list op) : st :=
  match l with [] => s | o :: r => run g (fst (step g s o)) r end.
