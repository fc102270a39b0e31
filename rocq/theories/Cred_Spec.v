(** Specification of credentials. *)
From Verif Require Import Common Base64_Model Base64_Spec Rep_Model Acl_Model Acl_Spec Ob_Model Ob_Spec Cred_Model.
From Coq Require Import String.
Local Open Scope string_scope.
Local Open Scope list_scope.
Local Open Scope N_scope.

(** States the device can be in: started from any stored text, then any history. *)
Definition keys_ok (E : cenv) : Prop :=
  (forall b, ce_pair E [] b = None) /\ (forall a b k, ce_pair E a b = Some k -> k <> []) /\ (forall k, ce_psk E = Some k -> List.length k = 16%nat).
(** What the application may add: the interface offers keys and certificates, with the defined usages and encodings. *)
Definition cop_ok (o : cop) : Prop :=
  match o with
  | Add it => In (i_type it) [PSK; CERT] /\ In (i_usage it) [0; TRUSTCA; IDENTITY; ROLECERT; MFG_TRUSTCA; MFG_CERT] /\ sd_enc (i_priv it) <= 4 /\ sd_enc (i_pub it) <= 4
  | _ => True end.
Definition creach (s : cs) : Prop :=
  exists E0 st l s0, load E0 st = Some s0 /\ keys_ok E0 /\ Forall (fun x => keys_ok (fst x) /\ cop_ok (snd x)) l /\ crun s0 l = Some s.

(** The identifiers of a list. *)
Definition ids (l : list cred) : list Z := map c_id l.

(** The same credential, but perhaps with another owner mark and another OSCORE context. *)
Definition kept (c c' : cred) : Prop :=
  c_name c' = c_name c /\ c_id c' = c_id c /\ c_type c' = c_type c /\ c_usage c' = c_usage c /\ c_subject c' = c_subject c /\
  c_priv c' = c_priv c /\ c_pub c' = c_pub c /\ c_role c' = c_role c /\ c_auth c' = c_auth c /\ c_tag c' = c_tag c.

(** The identifier a credential object gives, -1 if none, and those of a payload. *)
Definition given_id (x : list rep) : Z :=
  fold_left (fun acc r => match snd r with RInt z => if list_eqb (fst r) (str "credid") then to_int z else acc | _ => acc end) x (-1)%Z.
Definition objects (l : list rep) : list (list rep) :=
  flat_map (fun r => match snd r with RObjArr a => if list_eqb (fst r) (str "creds") || list_eqb (fst r) (str "roles") then a else [] | _ => [] end) l.
Definition given_ids (l : list rep) : list Z := map given_id (objects l).

(** The list without the credential of that identifier. *)
Definition without (i : Z) (l : list cred) : list cred := filter (fun c => negb (c_id c =? i)%Z) l.

(** The new credential has what the request gives.  A key in base64 is stored decoded. *)
Definition as_requested (it : item) (c : cred) : Prop :=
  c_type c = i_type it /\ c_usage c = i_usage it /\ od (c_tag c) = od (i_tag it) /\
  od (cd_data (c_pub c)) = od (sd_data (i_pub it)) /\ (od (sd_data (i_pub it)) <> [] -> cd_enc (c_pub c) = sd_enc (i_pub it)) /\
  (od (sd_data (i_priv it)) <> [] -> i_type it <> PSK \/ sd_enc (i_priv it) <> E_B64 ->
   od (cd_data (c_priv c)) = od (sd_data (i_priv it)) /\ cd_enc (c_priv c) = sd_enc (i_priv it)) /\
  (i_type it = PSK -> sd_enc (i_priv it) = E_B64 -> forall key, key <> [] -> bytes_ok key -> sd_data (i_priv it) = Some (rfc_encode digits_std [61] key) ->
   c_priv c = mk_cd (Some key) E_RAW) /\
  (forall t, i_subject it = Some t -> ~ In 0 t -> hd 0 t = 42 -> c_subject c = 42 :: repeat 0 15) /\
  (forall t, i_subject it = Some t -> ~ In 0 t -> hd 0 t <> 42 -> c_subject c = uuid_of t nil_uuid) /\
  (forall r, i_role it = Some r -> c_role c = Some r).

(** The subject and the data a request gives are those of the credential.  Data that is not PEM is compared with the
    terminator of the stored string. *)
Definition subject_of (it : item) (c : cred) : Prop :=
  (forall t, i_subject it = Some t -> ~ In 0 t -> hd 0 t = 42 -> c_subject c = 42 :: repeat 0 15) /\
  (forall t, i_subject it = Some t -> ~ In 0 t -> hd 0 t <> 42 -> c_subject c = uuid_of t nil_uuid).
Definition same_data (d : cdata) (s : sdata) : Prop :=
  cd_enc d = sd_enc s /\ (cd_enc d = E_PEM -> od (sd_data s) = od (cd_data d)) /\
  (cd_enc d <> E_PEM -> forall b, cd_data d = Some b -> od (sd_data s) = b ++ [0]) /\ (cd_enc d <> E_PEM -> cd_data d = None -> od (sd_data s) = []).

(** What adding one credential (to the credential resource) does to the list. *)
Inductive added (it : item) (l : list cred) : option Z -> list cred -> Prop :=
| added_new c : as_requested it c -> (i_id it <> (-1)%Z -> c_id c = i_id it) -> ~ In (c_id c) (ids (without (i_id it) l)) ->
    added it l (Some (c_id c)) (without (i_id it) l ++ [c])
| added_known c : In c l -> c_id c = i_id it -> c_type c = i_type it -> c_usage c = i_usage it -> od (c_tag c) = od (i_tag it) ->
    subject_of it c -> same_data (c_priv c) (i_priv it) -> same_data (c_pub c) (i_pub it) ->
    added it l (Some (i_id it)) l
| added_chain c : i_type it = CERT -> In c l -> c_id c <> i_id it -> c_type c = CERT -> c_usage c = i_usage it -> od (c_tag c) = od (i_tag it) ->
    subject_of it c -> od (sd_data (i_pub it)) <> [] -> same_data (c_pub c) (i_pub it) ->
    added it l (Some (c_id c)) (without (i_id it) l)
| added_failed : added it l None l
| added_failed_lost c : In c l -> c_id c = i_id it -> added it l None (without (i_id it) l).

(** Roles a client may present: any of its own, of the reserved ones only the owner. *)
Definition allowed_role (r : list N) : Prop := forall t, r = str "oic.role." ++ t -> r = str "oic.role.owner".

(** An OSCORE credential in a request has the identifiers its type needs, no others, and a secret of 16 bytes. *)
Definition oscore_complete (it : item) : Prop :=
  (i_type it = OSC -> i_sid it <> None /\ i_rid it <> None /\ List.length (od (sd_data (i_priv it))) = 16%nat /\ i_desc it = None) /\
  (i_type it = OSC_MC -> i_sid it <> None /\ i_rid it = None /\ List.length (od (sd_data (i_priv it))) = 16%nat) /\
  (i_type it = OSC_MS -> i_rid it <> None /\ i_sid it = None /\ List.length (od (sd_data (i_priv it))) = 16%nat).

(** Two device states that differ in private data only. *)
Definition same_but_private (c c' : cred) : Prop :=
  c_id c' = c_id c /\ c_type c' = c_type c /\ c_usage c' = c_usage c /\ c_subject c' = c_subject c /\ cd_enc (c_priv c') = cd_enc (c_priv c) /\
  c_pub c' = c_pub c /\ c_role c' = c_role c /\ c_auth c' = c_auth c /\ c_tag c' = c_tag c /\ c_owner c' = c_owner c /\ c_osc c' = c_osc c.

(** A credential after a restart. *)
Definition restored (c c' : cred) : Prop :=
  c_id c' = c_id c /\ c_type c' = c_type c /\ c_usage c' = c_usage c /\ c_subject c' = c_subject c /\ c_owner c' = c_owner c /\
  od (cd_data (c_priv c')) = od (cd_data (c_priv c)) /\
  (cd_enc (c_priv c') = cd_enc (c_priv c) \/ cd_enc (c_priv c) = 0 /\ cd_enc (c_priv c') = E_RAW) /\
  c_pub c' = c_pub c /\ od (c_role c') = od (c_role c) /\ od (c_auth c') = od (c_auth c) /\ od (c_tag c') = od (c_tag c) /\
  match c_osc c, c_osc c' with
  | None, None => True
  | Some o, Some o' =>
      (c_type c <> OSC_MS -> os_send o' = os_send o /\ os_ssn o' = (os_ssn o + 160) mod 18446744073709551616) /\
      (c_type c <> OSC_MC -> os_recv o' = os_recv o) /\ (c_type c <> OSC -> od (os_desc o') = od (os_desc o))
  | _, _ => False
  end.

(** What a credential must look like to be stored completely. *)
Definition ctx_id (b : list N) : Prop := bytes_ok b /\ List.length b = 7%nat.
Definition storable (c : cred) : Prop :=
  (hd 0 (c_subject c) = 42 -> c_subject c = 42 :: repeat 0 15) /\
  (In (c_type c) [OSC; OSC_MC; OSC_MS] -> c_osc c <> None) /\
  (forall o, c_osc c = Some o -> (c_type c <> OSC_MS -> ctx_id (os_send o)) /\ (c_type c <> OSC_MC -> ctx_id (os_recv o)) /\ os_ssn o < 18446744073709551616 /\ ~ In 0 (od (os_desc o))) /\
  (od (c_role c) = [] -> od (c_auth c) = []).

(** The certificates can still be read and verified at the restart, with the trust anchors that come before
    them in the list. *)
Definition cert_ok (E : cenv) (before : list cred) (c : cred) : Prop :=
  (c_type c = CERT -> ce_key E (od (cd_data (c_pub c))) <> None) /\
  (c_usage c = ROLECERT -> exists r a, ce_role E (anchors before) (od (cd_data (c_pub c))) = Some (r, a) /\
     (r = [] \/ od (c_role c) <> []) /\ (a = [] \/ od (c_auth c) <> [])).
Definition readable (E : cenv) (l : list cred) : Prop := forall a c b, l = a ++ c :: b -> cert_ok E a c.
Definition resources_ok (E : cenv) : Prop := (forall n, ce_alloc E n = true) /\ ce_octx E = true.
