(** Credentials: security/oc_cred.c, security/oc_cred_util.c and the role credentials of one client
    (security/oc_roles.c).  OC_PKI, OC_OSCORE on, OC_CLIENT off; one device. *)
From Verif Require Import Common Rep_Model Hex_Model Base64_Model Acl_Model Ob_Model.
From Coq Require Import String.
Local Open Scope string_scope.
Local Open Scope list_scope.
Local Open Scope N_scope.

(** Credential types, usages and encodings (include/oc_cred.h:41-75). *)
Definition PSK := 1.
Definition CERT := 8.
Definition OSC := 64.
Definition OSC_MC := 128.
Definition OSC_MS := 256.
Definition TRUSTCA := 2.
Definition IDENTITY := 4.
Definition ROLECERT := 8.
Definition MFG_TRUSTCA := 16.
Definition MFG_CERT := 32.
Definition E_B64 := 1.
Definition E_RAW := 2.
Definition E_PEM := 3.
Definition E_HANDLE := 4.

(** oc_cred_data_t (include/oc_cred.h:81-85): [None] is a string that was never allocated. *)
Record cdata := mk_cd { cd_data : option (list N); cd_enc : N }.
(** oc_sec_encoded_data_t: data of a request, [None] is the NULL pointer, the size is the length. *)
Record sdata := mk_sd { sd_data : option (list N); sd_enc : N }.
Definition od (x : option (list N)) : list N := match x with Some d => d | None => [] end.

(** The OSCORE context of a credential (security/oc_oscore_context.c:140-239): identifiers, sequence number,
    description; the derived keys are functions of these and the private data. *)
Record osctx := mk_os { os_send : list N; os_recv : list N; os_ssn : N; os_desc : option (list N) }.

(** oc_sec_cred_t (include/oc_cred.h:91-115); [c_name] stands for its address. *)
Record cred := mk_cred {
  c_name : nat; c_id : Z; c_type : N; c_usage : N; c_subject : list N; c_priv : cdata; c_pub : cdata;
  c_role : option (list N); c_auth : option (list N); c_tag : option (list N); c_owner : bool; c_osc : option osctx }.

(** oc_sec_creds_t, the role credentials of the client that posts, and the next unused address. *)
Record cs := mk_cs { s_creds : list cred; s_owner : list N; s_roles : list cred; s_next : nat }.

(** Certificates and the session, as the code asks about them: the public key of a certificate, the role in a
    role certificate verified with the given trust anchors, the private key that belongs to an identity
    certificate, whether the client may present a role certificate, the derived owner key; random values, whether the
    allocation of the credential with this address succeeds, whether an OSCORE context can be made, the
    onboarding state. *)
Record cenv := mk_ce {
  ce_key : list N -> option (list N);
  ce_role : list (list N) -> list N -> option (list N * list N);
  ce_pair : list N -> list N -> option (list N);
  ce_verify : list N -> list N -> bool;
  ce_psk : option (list N);
  ce_rand : list N;
  ce_alloc : nat -> bool;
  ce_octx : bool;
  ce_state : N }.

(** oc_cred_data_is_equal_to_encoded_data (security/oc_cred_util.c:102-114): for PEM the length of the string
    is compared, otherwise the size of its allocation, one more, so that the terminator takes part. *)
Definition data_eq (c : cdata) (s : sdata) : bool :=
  (cd_enc c =? sd_enc s) &&
  (if cd_enc c =? E_PEM then list_eqb (od (cd_data c)) (od (sd_data s))
   else match cd_data c with None => list_eqb [] (od (sd_data s)) | Some d => list_eqb (d ++ [0]) (od (sd_data s)) end).

(** oc_cred_has_tag (security/oc_cred_util.c:116-121). *)
Definition has_tag (c : cred) (t : option (list N)) : bool := list_eqb (od (c_tag c)) (od t).

(** One credential of a request, after reading it (security/oc_cred.c:1171-1193). *)
Record item := mk_item {
  i_id : Z; i_type : N; i_usage : N; i_subject : option (list N); i_priv : sdata; i_pub : sdata;
  i_role : option (list N); i_auth : option (list N); i_tag : option (list N); i_owner : bool;
  i_sid : option (list N); i_rid : option (list N); i_desc : option (list N); i_ssn : N }.

(** oc_cred_is_duplicate (security/oc_cred_util.c:123-147). *)
Definition is_duplicate (c : cred) (it : item) (subj : list N) : bool :=
  (c_type c =? i_type it) && list_eqb (c_subject c) subj && data_eq (c_priv c) (i_priv it) && has_tag c (i_tag it) &&
  (c_usage c =? i_usage it) && data_eq (c_pub c) (i_pub it).

(** oc_sec_cred_set_subject (security/oc_cred_util.c:163-181). *)
Definition set_subject (s : option (list N)) (usage : N) : option (list N) :=
  match s with
  | None => if usage =? ROLECERT then Some wildcard else None
  | Some t => match cstr t with 42 :: _ => Some wildcard | _ => Some (uuid_of t nil_uuid) end
  end.

(** oc_cred_set_privatedata (security/oc_cred_util.c:183-226). *)
Definition key_length_ok (n : nat) : bool := (n =? 16)%nat || (n =? 32)%nat.
Definition set_priv (type : N) (d : list N) (enc : N) : option cdata :=
  if type =? PSK then
    if enc =? E_B64 then
      if (64 <? List.length d)%nat then None
      else match decode_in_place d with
           | (buf, Some n) => if key_length_ok n then Some (mk_cd (Some (firstn n buf)) E_RAW) else None
           | (_, None) => None
           end
    else if key_length_ok (List.length d) then Some (mk_cd (Some d) enc) else None
  else Some (mk_cd (Some d) enc).

(** cred_get_by_credid (security/oc_cred.c:96-119). *)
Definition by_id (i : Z) (l : list cred) : option cred := find (fun c => (c_id c =? i)%Z) l.
(** oc_list_remove2 of the first credential with this id (security/oc_cred.c:177-191). *)
Fixpoint remove_id (i : Z) (l : list cred) : list cred :=
  match l with [] => [] | c :: t => if (c_id c =? i)%Z then t else c :: remove_id i t end.

(** get_new_credid (security/oc_cred.c:167-175); [None]: no usable value among the given ones. *)
Definition new_id (l : list cred) (rnd : list N) : option Z :=
  match find (fun v => match by_id (Z.of_N (v mod 4294967296 / 2)) l with Some _ => false | None => true end) rnd with
  | Some v => Some (Z.of_N (v mod 4294967296 / 2)) | None => None end.

(** check_role_assertion (security/oc_cred.c:65-68, 382-398). *)
Definition role_ok (r : list N) : bool :=
  if list_eqb (firstn 9 r) (str "oic.role.") then list_eqb r (str "oic.role.owner") else true.

Inductive ares :=
| AFail (s : cs)
| AOk (id : Z) (s : cs) (replaced : option cred) (created : bool)
| ALoop.

(** The trust anchors in use: the ones of the list and the one being replaced, not yet freed. *)
Definition anchors (l : list cred) : list (list N) :=
  map (fun c => od (cd_data (c_pub c))) (filter (fun c => (c_type c =? CERT) && ((c_usage c =? TRUSTCA) || (c_usage c =? MFG_TRUSTCA))) l).

Definition nonempty (x : option (list N)) : bool := match x with Some (_ :: _) => true | _ => false end.

(** cred_create (security/oc_cred.c:484-619; security/oc_roles.c:165-196). *)
Definition create (E : cenv) (roles : bool) (it : item) (subj : list N) (kp : option (list N)) (id : Z) (rep : option cred) (s : cs) : ares :=
  let l := if roles then s_roles s else s_creds s in
  if negb (ce_alloc E (s_next s)) || (roles && negb (i_usage it =? ROLECERT)) then AFail s
  else
    match (if i_usage it =? ROLECERT then match ce_role E (anchors (s_creds s ++ match rep with Some c => [c] | None => [] end)) (od (sd_data (i_pub it))) with Some (r, a) => Some (Some r, Some a) | None => None end
           else Some (None, None)) with
    | None => AFail s
    | Some (r0, a0) =>
        if roles && (i_usage it =? ROLECERT) && negb (role_ok (od r0)) then AFail s
        else
          let fresh := mk_cred (s_next s) 0 0 0 [] (mk_cd None 0) (mk_cd None 0) None None None false None in
          match (if (id =? -1)%Z then new_id (l ++ [fresh]) (ce_rand E) else Some id) with
          | None => ALoop
          | Some cid =>
              match (if nonempty (sd_data (i_priv it)) then set_priv (i_type it) (od (sd_data (i_priv it))) (sd_enc (i_priv it))
                     else match kp with Some k => Some (mk_cd (Some k) E_RAW) | None => Some (mk_cd None 0) end) with
              | None => AFail s
              | Some pr =>
                  let given := negb roles && match i_role it with Some _ => true | None => false end in
                  let c := mk_cred (s_next s) cid (i_type it) (if roles then 0 else i_usage it) (if roles then nil_uuid else subj) pr
                             (if nonempty (sd_data (i_pub it)) then mk_cd (sd_data (i_pub it)) (sd_enc (i_pub it)) else mk_cd None 0)
                             (if given then i_role it else r0)
                             (if given && match i_auth it with Some _ => true | None => false end then i_auth it else a0) (i_tag it) false None in
                  AOk cid (if roles then mk_cs (s_creds s) (s_owner s) (s_roles s ++ [c]) (S (s_next s))
                           else mk_cs (s_creds s ++ [c]) (s_owner s) (s_roles s) (S (s_next s))) rep true
              end
          end
    end.

(** sec_match_cred_with_publicdata (security/oc_cred.c:623-634) for a certificate of the same subject. *)
Definition same_cert (it : item) (subj : list N) (c : cred) : bool :=
  list_eqb (c_subject c) subj && (c_type c =? i_type it) && (i_type it =? CERT) &&
  (c_usage c =? i_usage it) && nonempty (sd_data (i_pub it)) && data_eq (c_pub c) (i_pub it) && has_tag c (i_tag it).

(** oc_sec_add_new_cred (security/oc_cred.c:638-817).  The branch of the second loop that removes a
    credential with the given id is left out: the first lookup has removed it (see [Cred_Proofs]). *)
Definition with_creds (s : cs) (l : list cred) : cs := mk_cs l (s_owner s) (s_roles s) (s_next s).
Definition add_cred (E : cenv) (roles : bool) (it : item) (s : cs) : ares :=
  match (if i_type it =? CERT then ce_key E (od (sd_data (i_pub it))) else Some []) with
  | None => AFail s
  | Some key =>
      if roles && (negb (i_type it =? CERT) || negb (i_usage it =? ROLECERT) || negb (ce_verify E key (od (sd_data (i_pub it))))) then AFail s
      else match set_subject (i_subject it) (i_usage it) with
      | None => AFail s
      | Some subj =>
          match (if (i_usage it =? IDENTITY) && negb (nonempty (sd_data (i_priv it)))
                 then match ce_pair E key (od (sd_data (i_pub it))) with Some k => Some (Some k) | None => None end else Some None) with
          | None => AFail s
          | Some kp =>
              if roles then
                let id := match by_id (i_id it) (s_roles s) with Some _ => (-1)%Z | None => i_id it end in
                match find (fun c => data_eq (c_pub c) (i_pub it) && has_tag c (i_tag it)) (s_roles s) with
                | Some c => AOk (c_id c) s None false
                | None => create E true it subj kp id None s
                end
              else
                match by_id (i_id it) (s_creds s) with
                | Some c =>
                    if is_duplicate c it subj then AOk (i_id it) s None false
                    else
                      let s1 := with_creds s (remove_id (i_id it) (s_creds s)) in
                      match find (same_cert it subj) (s_creds s1) with
                      | Some d => AOk (c_id d) s1 (Some c) false
                      | None => create E false it subj kp (i_id it) (Some c) s1
                      end
                | None =>
                    match find (same_cert it subj) (s_creds s) with
                    | Some d => AOk (c_id d) s None false
                    | None => create E false it subj kp (i_id it) None s
                    end
                end
          end
      end
  end.

(** * Reading a request *)

(** oc_cred_usage_from_string, oc_cred_encoding_from_string (security/oc_cred_util.c:74-93, 262-286). *)
Definition usage_of (s : list N) : N :=
  if list_eqb s (str "oic.sec.cred.trustca") then TRUSTCA
  else if list_eqb s (str "oic.sec.cred.cert") then IDENTITY
  else if list_eqb s (str "oic.sec.cred.rolecert") then ROLECERT
  else if list_eqb s (str "oic.sec.cred.mfgtrustca") then MFG_TRUSTCA
  else if list_eqb s (str "oic.sec.cred.mfgcert") then MFG_CERT else 0.
Definition enc_of (s : list N) : N :=
  if list_eqb s (str "oic.sec.encoding.base64") then E_B64
  else if list_eqb s (str "oic.sec.encoding.raw") then E_RAW
  else if list_eqb s (str "oic.sec.encoding.handle") then E_HANDLE
  else if list_eqb s (str "oic.sec.encoding.pem") then E_PEM else 0.

(** privatedata and publicdata (security/oc_cred.c:1227-1283). *)
Fixpoint parse_data (d : sdata) (l : list rep) : option sdata :=
  match l with
  | [] => Some d
  | r :: t =>
      match snd r with
      | RStr v =>
          if list_eqb (fst r) (str "encoding") then if enc_of v =? 0 then None else parse_data (mk_sd (sd_data d) (enc_of v)) t
          else if list_eqb (fst r) (str "data") then parse_data (mk_sd (Some v) (sd_enc d)) t else parse_data d t
      | RBytes v => if list_eqb (fst r) (str "data") then parse_data (mk_sd (Some v) (sd_enc d)) t else parse_data d t
      | _ => parse_data d t
      end
  end.

(** roleid (security/oc_cred.c:1284-1297); the code does not check the type: a number or an object leaves the
    string part of the value at zero, an absent string; arrays, whose bytes it would take for text, are left out. *)
Fixpoint parse_role (r a : option (list N)) (l : list rep) : option (list N) * option (list N) :=
  match l with
  | [] => (r, a)
  | x :: t =>
      let v := match snd x with RStr s => Some s | RBytes s => Some s | _ => None end in
      if list_eqb (fst x) (str "role") then parse_role v a t
      else if list_eqb (fst x) (str "authority") then parse_role r v t else parse_role r a t
  end.

(** is_valid_oscore_id (security/oc_cred.c:1091-1103). *)
Definition isxdigit (c : N) : bool := ((48 <=? c) && (c <=? 57)) || ((65 <=? c) && (c <=? 70)) || ((97 <=? c) && (c <=? 102)).
Definition osc_id_ok (s : list N) : bool := (List.length s =? 14)%nat && forallb isxdigit s.

(** oscore (security/oc_cred.c:1299-1342). *)
Record oscfg := mk_oc { oc_sid : option (list N); oc_rid : option (list N); oc_desc : option (list N); oc_ssn : N }.
Fixpoint parse_osc (fs : bool) (o : oscfg) (l : list rep) : option oscfg :=
  match l with
  | [] => Some o
  | r :: t =>
      match snd r with
      | RStr v =>
          if list_eqb (fst r) (str "senderid") then if osc_id_ok v then parse_osc fs (mk_oc (Some v) (oc_rid o) (oc_desc o) (oc_ssn o)) t else None
          else if list_eqb (fst r) (str "recipientid") then if osc_id_ok v then parse_osc fs (mk_oc (oc_sid o) (Some v) (oc_desc o) (oc_ssn o)) t else None
          else if list_eqb (fst r) (str "desc") then parse_osc fs (mk_oc (oc_sid o) (oc_rid o) (Some (cstr v)) (oc_ssn o)) t
          else None
      | RInt z => if list_eqb (fst r) (str "ssn") then if fs then parse_osc fs (mk_oc (oc_sid o) (oc_rid o) (oc_desc o) (Z.to_N (z mod 18446744073709551616)%Z)) t else None else None
      | _ => None
      end
  end.

Definition item0 : item := mk_item (-1) 0 0 None (mk_sd None 0) (mk_sd None 0) None None None false None None None 0.

(** One property of a credential (security/oc_cred.c:1194-1355). *)
Definition parse_prop (fs : bool) (i : item) (r : rep) : option item :=
  let nm := fst r in
  match snd r with
  | RInt z =>
      if list_eqb nm (str "credid") then Some (mk_item (to_int z) (i_type i) (i_usage i) (i_subject i) (i_priv i) (i_pub i) (i_role i) (i_auth i) (i_tag i) (i_owner i) (i_sid i) (i_rid i) (i_desc i) (i_ssn i))
      else if list_eqb nm (str "credtype") then Some (mk_item (i_id i) (to_u32 z) (i_usage i) (i_subject i) (i_priv i) (i_pub i) (i_role i) (i_auth i) (i_tag i) (i_owner i) (i_sid i) (i_rid i) (i_desc i) (i_ssn i))
      else Some i
  | RStr v =>
      if list_eqb nm (str "subjectuuid") then Some (mk_item (i_id i) (i_type i) (i_usage i) (Some v) (i_priv i) (i_pub i) (i_role i) (i_auth i) (i_tag i) (i_owner i) (i_sid i) (i_rid i) (i_desc i) (i_ssn i))
      else if list_eqb nm (str "credusage") then Some (mk_item (i_id i) (i_type i) (usage_of v) (i_subject i) (i_priv i) (i_pub i) (i_role i) (i_auth i) (i_tag i) (i_owner i) (i_sid i) (i_rid i) (i_desc i) (i_ssn i))
      else if list_eqb nm (str "tag") then Some (mk_item (i_id i) (i_type i) (i_usage i) (i_subject i) (i_priv i) (i_pub i) (i_role i) (i_auth i) (Some v) (i_owner i) (i_sid i) (i_rid i) (i_desc i) (i_ssn i))
      else Some i
  | RObj l =>
      if list_eqb nm (str "privatedata") then
        match parse_data (i_priv i) l with Some d => Some (mk_item (i_id i) (i_type i) (i_usage i) (i_subject i) d (i_pub i) (i_role i) (i_auth i) (i_tag i) (i_owner i) (i_sid i) (i_rid i) (i_desc i) (i_ssn i)) | None => None end
      else if list_eqb nm (str "publicdata") then
        match parse_data (i_pub i) l with Some d => Some (mk_item (i_id i) (i_type i) (i_usage i) (i_subject i) (i_priv i) d (i_role i) (i_auth i) (i_tag i) (i_owner i) (i_sid i) (i_rid i) (i_desc i) (i_ssn i)) | None => None end
      else if list_eqb nm (str "roleid") then
        let '(r, a) := parse_role (i_role i) (i_auth i) l in
        Some (mk_item (i_id i) (i_type i) (i_usage i) (i_subject i) (i_priv i) (i_pub i) r a (i_tag i) (i_owner i) (i_sid i) (i_rid i) (i_desc i) (i_ssn i))
      else if list_eqb nm (str "oscore") then
        match parse_osc fs (mk_oc (i_sid i) (i_rid i) (i_desc i) (i_ssn i)) l with
        | Some o => Some (mk_item (i_id i) (i_type i) (i_usage i) (i_subject i) (i_priv i) (i_pub i) (i_role i) (i_auth i) (i_tag i) (i_owner i) (oc_sid o) (oc_rid o) (oc_desc o) (oc_ssn o))
        | None => None
        end
      else Some i
  | RBool b =>
      if list_eqb nm (str "owner_cred") then Some (mk_item (i_id i) (i_type i) (i_usage i) (i_subject i) (i_priv i) (i_pub i) (i_role i) (i_auth i) (i_tag i) b (i_sid i) (i_rid i) (i_desc i) (i_ssn i))
      else Some i
  | _ => Some i
  end.
Fixpoint parse_props (fs : bool) (i : item) (l : list rep) : option item :=
  match l with [] => Some i | r :: t => match parse_prop fs i r with Some j => parse_props fs j t | None => None end end.

(** The OSCORE checks after reading (security/oc_cred.c:1357-1374). *)
Definition some {A} (x : option A) : bool := match x with Some _ => true | None => false end.
Definition osc_ok (i : item) : bool :=
  let secret := (List.length (od (sd_data (i_priv i))) =? 16)%nat in
  if i_type i =? OSC then some (i_sid i) && some (i_rid i) && secret && negb (some (i_desc i))
  else if i_type i =? OSC_MC then some (i_sid i) && negb (some (i_rid i)) && secret
  else if i_type i =? OSC_MS then some (i_rid i) && negb (some (i_sid i)) && secret
  else true.

(** * Applying a request *)

Inductive dres :=
| DFail (s : cs) (owner : option nat)
| DOk (s : cs) (owner : option nat)
| DLoop.

(** oc_oscore_add_context (security/oc_oscore_context.c:140-239), OSCORE_SSN_WRITE_FREQ_K 32, OSCORE_SSN_PAD_F 128
    (messaging/coap/oscore_constants.h:41-42). *)
Definition hex7 (x : option (list N)) : list N := match x with Some t => match hex_pairs t with Some b => b | None => [] end | None => [] end.
Definition make_ctx (fs : bool) (i : item) : osctx :=
  mk_os (hex7 (i_sid i)) (hex7 (i_rid i)) (if fs then (i_ssn i + 160) mod 18446744073709551616 else i_ssn i) (i_desc i).

Definition upd (i : Z) (f : cred -> cred) : list cred -> list cred :=
  fix go l := match l with [] => [] | c :: t => if (c_id c =? i)%Z then f c :: t else c :: go t end.

(** One credential of the array (security/oc_cred.c:1376-1437). *)
Definition apply_item (E : cenv) (fs roles : bool) (it : item) (s : cs) (owner : option nat) : dres :=
  match add_cred E roles it s with
  | AFail s' => DFail s' owner
  | ALoop => DLoop
  | AOk id s' rep created =>
      if (id =? -1)%Z then DFail s' owner
      else match by_id id (s_creds s') with
      | None => DOk s' owner
      | Some c =>
          let ctx := some (i_sid it) || some (i_rid it) in
          let isown := negb fs && (i_type it =? PSK) && negb (nonempty (sd_data (i_priv it))) in
          let f c := mk_cred (c_name c) (c_id c) (c_type c) (c_usage c) (c_subject c) (c_priv c) (c_pub c) (c_role c) (c_auth c) (c_tag c)
                       (i_owner it || isown) (if ctx then Some (make_ctx fs it) else c_osc c) in
          if ctx && negb (ce_octx E) then DFail s' owner else DOk (with_creds s' (upd id f (s_creds s'))) (if isown then Some (c_name c) else owner)
      end
  end.

(** The array (security/oc_cred.c:1164-1440); an empty object is skipped. *)
Fixpoint apply_items (E : cenv) (fs roles : bool) (l : list (list rep)) (s : cs) (owner : option nat) : dres :=
  match l with
  | [] => DOk s owner
  | x :: t =>
      match parse_props fs item0 x with
      | None => DFail s owner
      | Some it =>
          if osc_ok it then
            match x with
            | [] => apply_items E fs roles t s owner
            | _ => match apply_item E fs roles it s owner with DOk s' o' => apply_items E fs roles t s' o' | r => r end
            end
          else DFail s owner
      end
  end.

(** The properties of the payload (security/oc_cred.c:1153-1447). *)
Fixpoint decode_props (E : cenv) (fs roles : bool) (l : list rep) (s : cs) (owner : option nat) : dres :=
  match l with
  | [] => DOk s owner
  | r :: t =>
      match snd r with
      | RStr v =>
          decode_props E fs roles t (if list_eqb (fst r) (str "rowneruuid") then mk_cs (s_creds s) (uuid_of v (s_owner s)) (s_roles s) (s_next s) else s) owner
      | RObjArr a =>
          if list_eqb (fst r) (str "creds") || list_eqb (fst r) (str "roles") then
            match apply_items E fs roles a s owner with DOk s' o' => decode_props E fs roles t s' o' | x => x end
          else decode_props E fs roles t s owner
      | _ => decode_props E fs roles t s owner
      end
  end.

(** The state checks before anything is applied (security/oc_cred.c:1126-1151). *)
Definition state_ok (st : N) (r : rep) : bool :=
  match snd r with
  | RStr _ => negb (list_eqb (fst r) (str "rowneruuid")) || (st =? S_RFOTM) || (st =? S_SRESET)
  | RObjArr _ => (st =? S_RFOTM) || (st =? S_SRESET) || (st =? S_RFPRO)
  | _ => true
  end.

(** oc_sec_decode_cred (security/oc_cred.c:1114-1454). *)
Definition decode_cred (E : cenv) (fs roles : bool) (l : list rep) (s : cs) : dres :=
  if fs || roles || forallb (state_ok (ce_state E)) l then decode_props E fs roles l s None else DFail s None.

Inductive pres :=
| PFail (s : cs)
| POk (s : cs)
| PLoop
| PUB.   (* a credential that was freed is read or written *)

(** oc_sec_apply_cred (security/oc_cred.c:1456-1524). *)
Definition by_name (n : nat) (l : list cred) : option cred := find (fun c => (c_name c =? n)%nat) l.
Definition apply_cred (E : cenv) (roles : bool) (l : list rep) (s : cs) : pres :=
  match decode_cred E false roles l s with
  | DLoop => PLoop
  | DFail s' None => PFail s'
  | DFail s' (Some n) => match by_name n (s_creds s') with None => PUB | Some c => PFail (with_creds s' (remove_id (c_id c) (s_creds s'))) end
  | DOk s' None => POk s'
  | DOk s' (Some n) =>
      if roles then POk s'
      else match by_name n (s_creds s') with
      | None => PUB
      | Some c =>
          if list_eqb (c_subject c) (s_owner s') then
            match ce_psk E with
            | Some k => POk (with_creds s' (upd (c_id c) (fun c => mk_cred (c_name c) (c_id c) (c_type c) (c_usage c) (c_subject c) (mk_cd (Some k) E_RAW) (c_pub c) (c_role c) (c_auth c) (c_tag c) (c_owner c) (c_osc c)) (s_creds s')))
            | None => PFail (with_creds s' (remove_id (c_id c) (s_creds s')))
            end
          else POk s'
      end
  end.

(** cred_resource_delete (security/oc_cred.c:1553-1586) with the number the query gives. *)
Definition delete_cred (st : N) (q : option Z) (s : cs) : bool * cs :=
  if st =? S_RFNOP then (false, s)
  else match q with
       | None => (true, with_creds s [])
       | Some i => if (i <? 0)%Z || (2147483647 <? i)%Z then (false, s)
                   else match by_id i (s_creds s) with Some _ => (true, with_creds s (remove_id i (s_creds s))) | None => (false, s) end
       end.

(** roles_resource_delete (security/oc_roles.c:368-400). *)
Definition with_roles (s : cs) (l : list cred) : cs := mk_cs (s_creds s) (s_owner s) l (s_next s).
Definition delete_role (q : option Z) (s : cs) : bool * cs :=
  match q with
  | None => (true, with_roles s [])
  | Some i => if (i <? 0)%Z || (2147483647 <? i)%Z then (false, s)
              else match by_id i (s_roles s) with Some _ => (true, with_roles s (remove_id i (s_roles s))) | None => (false, s) end
  end.

(** * Writing *)

Definition enc_str (e : N) : option (list N) :=
  if e =? E_B64 then Some (str "oic.sec.encoding.base64") else if e =? E_RAW then Some (str "oic.sec.encoding.raw")
  else if e =? E_PEM then Some (str "oic.sec.encoding.pem") else if e =? E_HANDLE then Some (str "oic.sec.encoding.handle") else None.
Definition usage_str (u : N) : option (list N) :=
  if u =? TRUSTCA then Some (str "oic.sec.cred.trustca") else if u =? IDENTITY then Some (str "oic.sec.cred.cert")
  else if u =? ROLECERT then Some (str "oic.sec.cred.rolecert") else if u =? MFG_TRUSTCA then Some (str "oic.sec.cred.mfgtrustca")
  else if u =? MFG_CERT then Some (str "oic.sec.cred.mfgcert") else None.

Definition hexs (b : list N) : list N := flat_map hex2 b.

(** One credential (security/oc_cred.c:841-962). *)
Definition encode_one (st : bool) (c : cred) : list rep :=
  [(str "credid", RInt (c_id c)); (str "credtype", RInt (Z.of_N (c_type c)));
   (str "subjectuuid", RStr (match c_subject c with 42 :: _ => [42] | u => uuid_str u end))] ++
  (if (st || (c_type c =? PSK)) && nonempty (c_role c)
   then [(str "roleid", RObj ((str "role", RStr (od (c_role c))) :: if nonempty (c_auth c) then [(str "authority", RStr (od (c_auth c)))] else []))] else []) ++
  [(str "privatedata", RObj [(str "data", let d := if st then od (cd_data (c_priv c)) else [] in if cd_enc (c_priv c) =? E_RAW then RBytes d else RStr d);
                             (str "encoding", RStr (match enc_str (cd_enc (c_priv c)) with Some e => e | None => str "oic.sec.encoding.raw" end))])] ++
  match c_osc c with
  | None => []
  | Some o =>
      [(str "oscore", RObj ((if c_type c =? OSC_MS then [] else [(str "senderid", RStr (hexs (os_send o)))]) ++
                            (if c_type c =? OSC_MC then [] else [(str "recipientid", RStr (hexs (os_recv o)))]) ++
                            (if c_type c =? OSC then [] else [(str "desc", RStr (od (os_desc o)))]) ++
                            (if c_type c =? OSC_MS then [] else [(str "ssn", RInt (Z.of_N (os_ssn o)))])))]
  end ++
  match usage_str (c_usage c) with Some u => [(str "credusage", RStr u)] | None => [] end ++
  (if nonempty (cd_data (c_pub c))
   then [(str "publicdata", RObj ((str "data", if cd_enc (c_pub c) =? E_PEM then RStr (od (cd_data (c_pub c))) else RBytes (od (cd_data (c_pub c)))) ::
                                  match enc_str (cd_enc (c_pub c)) with Some e => [(str "encoding", RStr e)] | None => [] end))] else []) ++
  (if st then (str "owner_cred", RBool (c_owner c)) :: if nonempty (c_tag c) then [(str "tag", RStr (od (c_tag c)))] else [] else []).

(** oc_sec_encode_cred (security/oc_cred.c:829-970), without the baseline properties. *)
Definition encode_cred (st : bool) (s : cs) : list rep :=
  [(str "creds", RObjArr (map (encode_one st) (s_creds s))); (str "rowneruuid", RStr (uuid_str (s_owner s)))].

(** oc_sec_encode_roles (security/oc_roles.c:291-339). *)
Definition encode_role (c : cred) : list rep :=
  [(str "credid", RInt (c_id c)); (str "credtype", RInt (Z.of_N (c_type c)))] ++
  match usage_str (c_usage c) with Some u => [(str "credusage", RStr u)] | None => [] end ++
  (if nonempty (cd_data (c_pub c))
   then [(str "publicdata", RObj ((str "data", if cd_enc (c_pub c) =? E_PEM then RStr (od (cd_data (c_pub c))) else RBytes (od (cd_data (c_pub c)))) ::
                                  match enc_str (cd_enc (c_pub c)) with Some e => [(str "encoding", RStr e)] | None => [] end))] else []).
Definition encode_roles (s : cs) : list rep := [(str "roles", RObjArr (map encode_role (s_roles s)))].

(** * Start and histories *)

(** oc_sec_load_cred (security/oc_store.c:231-259): the list starts empty; what was read before an error stays. *)
Definition load (E : cenv) (stored : list rep) : option cs :=
  match decode_cred E true false stored (mk_cs [] nil_uuid [] 0) with DOk s _ => Some s | DFail s _ => Some s | DLoop => None end.

Inductive cop :=
| Post (l : list rep)           (* POST /oic/sec/cred *)
| RolePost (l : list rep)       (* POST /oic/sec/roles by the client *)
| Del (q : option Z)            (* DELETE /oic/sec/cred *)
| Add (it : item)               (* oc_sec_add_new_cred without a credid, by the application or the PKI interface *)
| ClearIf (f : cred -> bool)    (* oc_sec_cred_clear *)
| RoleDel (q : option Z)        (* DELETE /oic/sec/roles; no query also when the session ends *)
| Default.                      (* oc_sec_cred_default (security/oc_cred.c:298-304) *)

(** [None]: undefined behaviour, or no random value left. *)
Definition cstep (E : cenv) (s : cs) (o : cop) : option cs :=
  match o with
  | Post l => match apply_cred E false l s with PFail s' => Some s' | POk s' => Some s' | _ => None end
  | RolePost l => match apply_cred E true l s with PFail s' => Some s' | POk s' => Some s' | _ => None end
  | Del q => Some (snd (delete_cred (ce_state E) q s))
  | Add it => match add_cred E false (mk_item (-1) (i_type it) (i_usage it) (i_subject it) (i_priv it) (i_pub it) (i_role it) (i_auth it) (i_tag it) false None None None 0) s with
              | AFail s' => Some s' | AOk _ s' _ _ => Some s' | ALoop => None end
  | ClearIf f => Some (with_creds s (filter (fun c => negb (f c)) (s_creds s)))
  | RoleDel q => Some (snd (delete_role q s))
  | Default => Some (mk_cs [] nil_uuid (s_roles s) (s_next s))
  end.
Fixpoint crun (s : cs) (l : list (cenv * cop)) : option cs :=
  match l with [] => Some s | (E, o) :: t => match cstep E s o with Some s' => crun s' t | None => None end end.
