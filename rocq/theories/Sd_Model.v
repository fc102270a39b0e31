(** The security domain (security/oc_sdi.c) and the security profile (security/oc_sp.c) of a device, their storage
    (security/oc_store.c:123-160, 503-541) and what restarts and resets do to them (api/oc_main.c:284-340,
    security/oc_pstat.c:279-369, security/oc_security.c:108-150). *)
From Verif Require Import Common Rep_Model Repd_Model Acl_Model Ob_Model Ael_Model.
From Coq Require Import String.
Notation rep := Rep_Model.rep.
Local Open Scope string_scope.
Local Open Scope list_scope.
Local Open Scope N_scope.

(** oc_dostype_t (security/oc_pstat_internal.h). *)
Definition RFOTM : N := 1.
Definition RFPRO : N := 2.
Definition RFNOP : N := 3.
Definition SRESET : N := 4.

(** * The security domain *)

(** oc_sec_sdi_t (security/oc_sdi_internal.h:31-39); a name that is not allocated is empty. *)
Record sdi := mkSdi { s_uuid : list N; s_name : list N; s_priv : bool }.
(** Zeroed memory; also oc_sec_sdi_default (security/oc_sdi.c:75-85). *)
Definition sdi0 : sdi := mkSdi nil_uuid [] false.

(** sdi_decode_data_t (security/oc_sdi.c:111-117). *)
Record sdi_data := mkData { x_uuid : option (list N); x_name : option (list N); x_priv : option bool }.

(** security/oc_sdi.c:141-145 and 163-167 *)
Definition name_state (st : N) : bool := (st =? RFOTM) || (st =? RFPRO) || (st =? SRESET).

(** sdi_decode_string_property and sdi_decode_bool_property (security/oc_sdi.c:119-176) *)
Definition sdi_prop (st : N) (fs : bool) (d : sdi_data) (r : rep) : option sdi_data :=
  match snd r with
  | RStr s =>
      if list_eqb (fst r) (str "uuid") then
        if negb fs && negb (st =? RFOTM) then None
        else if (List.length s <? 36)%nat then None else Some (mkData (Some s) (x_name d) (x_priv d))
      else if list_eqb (fst r) (str "name") then
        if negb fs && negb (name_state st) then None else Some (mkData (x_uuid d) (Some s) (x_priv d))
      else Some d
  | RBool b =>
      if list_eqb (fst r) (str "priv") then
        if negb fs && negb (name_state st) then None else Some (mkData (x_uuid d) (x_name d) (Some b))
      else Some d
  | _ => Some d
  end.
Fixpoint sdi_props (st : N) (fs : bool) (d : sdi_data) (l : list rep) : option sdi_data :=
  match l with [] => Some d | r :: t => match sdi_prop st fs d r with Some d' => sdi_props st fs d' t | None => None end end.

(** oc_sec_sdi_decode_with_state (security/oc_sdi.c:178-223); oc_str_to_uuid leaves the identifier when the text is none. *)
Definition sdi_decode (st : N) (fs : bool) (l : list rep) (s : sdi) : option sdi :=
  match sdi_props st fs (mkData None None None) l with
  | None => None
  | Some (mkData None None None) => None
  | Some d => Some (mkSdi (match x_uuid d with Some t => uuid_of t (s_uuid s) | None => s_uuid s end)
                          (match x_name d with Some n => n | None => s_name s end)
                          (match x_priv d with Some b => b | None => s_priv s end))
  end.

(** oc_sec_sdi_encode_with_resource (security/oc_sdi.c:233-269); the baseline of a resource without name and tags. *)
Definition sdi_baseline : list rep :=
  [(str "rt", RStrArr [str "oic.r.sdi"]); (str "if", RStrArr [str "oic.if.rw"; str "oic.if.baseline"])].
Definition sdi_encode (base : bool) (s : sdi) : list rep :=
  (if base then sdi_baseline else [])
  ++ [(str "uuid", RStr (uuid_str (s_uuid s))); (str "name", RStr (s_name s)); (str "priv", RBool (s_priv s))].

(** * The security profile *)

(** oc_sec_sp_t (security/oc_sp_internal.h:32-37) without the identifier of the manufacturer's certificate, which is neither
    told nor stored. *)
Record sp := mkSp { p_sup : N; p_cur : N }.

(** oc_sec_sp_type_from_string (security/oc_sp.c:126-146) and the types (include/oc_sp.h:44-49). *)
Definition sp_of (s : list N) : N :=
  if list_eqb s (str "1.3.6.1.4.1.51414.0.0.1.0") then 2
  else if list_eqb s (str "1.3.6.1.4.1.51414.0.0.2.0") then 4
  else if list_eqb s (str "1.3.6.1.4.1.51414.0.0.3.0") then 8
  else if list_eqb s (str "1.3.6.1.4.1.51414.0.0.4.0") then 16
  else 0.
(** oc_sec_sp_type_to_string (security/oc_sp.c:148-162); NULL is written as an empty text. *)
Definition sp_str (p : N) : list N :=
  if p =? 2 then str "1.3.6.1.4.1.51414.0.0.1.0"
  else if p =? 4 then str "1.3.6.1.4.1.51414.0.0.2.0"
  else if p =? 8 then str "1.3.6.1.4.1.51414.0.0.3.0"
  else if p =? 16 then str "1.3.6.1.4.1.51414.0.0.4.0"
  else [].

(** The loop over the properties (security/oc_sp.c:172-193), without the flag to ignore unknown properties. *)
Fixpoint sp_props (cur : option (list N)) (sup : option (list (list N))) (l : list rep) : option (option (list N) * option (list (list N))) :=
  match l with
  | [] => Some (cur, sup)
  | (n, RStr s) :: t => if list_eqb n (str "currentprofile") then sp_props (Some s) sup t else None
  | (n, RStrArr a) :: t => if list_eqb n (str "supportedprofiles") then sp_props cur (Some a) t else None
  | _ => None
  end.
(** The loop over the items (security/oc_sp.c:195-209). *)
Fixpoint sp_items (m : N) (l : list (list N)) : option N :=
  match l with
  | [] => Some m
  | s :: t => let p := sp_of (cstr s) in if p =? 0 then None else sp_items (N.lor m p) t
  end.
(** oc_sec_sp_decode (security/oc_sp.c:164-228): the result and the profile it leaves. *)
Definition sp_decode (l : list rep) (p : sp) : bool * sp :=
  match sp_props None None l with
  | None => (false, p)
  | Some (cur, sup) =>
      match (match sup with None => Some p | Some a => match sp_items 0 a with Some m => Some (mkSp m (p_cur p)) | None => None end end) with
      | None => (false, p)
      | Some p1 =>
          match cur with
          | None => (true, p1)
          | Some s => let c := sp_of s in
                      if c =? 0 then (false, p1) else if N.land c (p_sup p1) =? 0 then (false, p1) else (true, mkSp (p_sup p1) c)
          end
      end
  end.
(** oc_sec_sp_decode_for_device (security/oc_sp.c:230-238) *)
Definition sp_decode_for (st : N) (l : list rep) (p : sp) : bool * sp := if st =? RFNOP then (false, p) else sp_decode l p.

(** oc_sec_sp_encode_with_resource (security/oc_sp.c:240-306) *)
Definition sp_baseline : list rep :=
  [(str "rt", RStrArr [str "oic.r.sp"]); (str "if", RStrArr [str "oic.if.rw"; str "oic.if.baseline"])].
Definition sp_names (m : N) : list (list N) := map sp_str (filter (fun p => negb (N.land m p =? 0)) [2; 4; 8; 16]).
Definition sp_encode (base : bool) (p : sp) : list rep :=
  (if base then sp_baseline else []) ++ [(str "currentprofile", RStr (sp_str (p_cur p))); (str "supportedprofiles", RStrArr (sp_names (p_sup p)))].

(** Defaults of oc_sec_sp_init (security/oc_sp.c:57-76) *)
Definition sp_init : sp := mkSp 2 2.

(** * The device *)

(** State and ownership are kept by other resources and their storage; here they are given. *)
Record dev := mkDev { d_owned : bool; d_state : N; d_sdi : sdi; d_sp : sp; d_mfg : sp; f_sdi : option cbor; f_sp : option cbor }.

Definition sdi_dump (s : sdi) : cbor := enc_root (sdi_encode false s).
Definition sp_dump (p : sp) : cbor := enc_root (sp_encode false p).

Definition with_sdi (d : dev) (s : sdi) (f : option cbor) : dev := mkDev (d_owned d) (d_state d) s (d_sp d) (d_mfg d) f (f_sp d).
Definition with_sp (d : dev) (p : sp) (f : option cbor) : dev := mkDev (d_owned d) (d_state d) (d_sdi d) p (d_mfg d) (f_sdi d) f.
Definition with_state (d : dev) (o : bool) (st : N) : dev := mkDev o st (d_sdi d) (d_sp d) (d_mfg d) (f_sdi d) (f_sp d).

(** oc_sec_sdi_default and oc_sec_sp_default (security/oc_sp.c:91-96), with what they write *)
Definition sdi_default (d : dev) : dev := with_sdi d sdi0 (Some (sdi_dump sdi0)).
Definition sp_default (d : dev) : dev := with_sp d (d_mfg d) (Some (sp_dump (d_mfg d))).

(** oc_pki_set_security_profile (security/oc_sp.c:47-56): not written to the storage *)
Definition set_profile (d : dev) (x : N * N) : dev :=
  let m := mkSp (N.lor (p_sup (d_mfg d)) (fst x)) (snd x) in
  mkDev (d_owned d) (d_state d) (d_sdi d) m m (f_sdi d) (f_sp d).

(** A reset (security/oc_pstat.c:279-369): the defaults, then the callback for factory presets, which sets [pre]. *)
Definition reset (pre : option (N * N)) (d : dev) : dev :=
  let d1 := with_state (sp_default (sdi_default d)) false RFOTM in
  match pre with Some x => set_profile d1 x | None => d1 end.

(** What oc_storage_data_load (api/oc_storage.c:104-144) decodes: an item that is no object, or an empty one, is not
    decoded, and counts as loaded. *)
Definition stored (f : option cbor) : option (option (list rep)) :=
  match f with
  | None => None
  | Some c => Some (match parse c with Ok (PRep (r :: l)) => Some (r :: l) | _ => None end)
  end.
(** oc_sec_load_sp (security/oc_store.c:134-144) *)
Definition load_sp (d : dev) : dev :=
  match stored (f_sp d) with
  | None => sp_default d
  | Some None => d
  | Some (Some l) => let (ok, p) := sp_decode_for (d_state d) l (d_sp d) in
                     if ok then with_sp d p (f_sp d) else sp_default (with_sp d p (f_sp d))
  end.
(** oc_sec_load_sdi (security/oc_store.c:514-524) *)
Definition load_sdi (d : dev) : dev :=
  match stored (f_sdi d) with
  | None => sdi_default d
  | Some None => d
  | Some (Some l) => match sdi_decode (d_state d) true l (d_sdi d) with Some s => with_sdi d s (f_sdi d) | None => sdi_default d end
  end.

(** main_load_resources (api/oc_main.c:300-342) after oc_sec_sdi_init and oc_sec_sp_init: the storage of a device without
    owner is cleared, and oc_sec_load_pstat then resets it; the state of an owned one is the stored one. *)
Definition boot (pre : option (N * N)) (d : dev) : dev :=
  let d1 := mkDev (d_owned d) (d_state d) sdi0 (mkSp 0 0) sp_init (f_sdi d) (f_sp d) in
  let d2 := if d_owned d then d1 else reset pre (mkDev false (d_state d) sdi0 (mkSp 0 0) sp_init None None) in
  load_sdi (load_sp d2).

Inductive answer : Type := NoAnswer | Content (l : list rep) | ChangedOk | BadRequest.

(** [w]: the write to the storage succeeds. *)
Inductive op : Type :=
| GetSdi (iface : N) | PostSdi (w : bool) (l : list rep)
| GetSp (iface : N) | PostSp (w : bool) (l : list rep)
| Move (owned : bool) (st : N)           (* the owner changes the state *)
| FactoryReset
| Profile (x : N * N)                    (* oc_pki_set_security_profile *)
| SelfOwn (uuid name : list N)           (* oc_sec_self_own, with the identifier oc_gen_uuid gives *)
| Disown                                 (* oc_sec_self_disown *)
| Boot.

Definition step (pre : option (N * N)) (d : dev) (o : op) : dev * answer :=
  match o with
  | GetSdi i => (d, Content (sdi_encode (N.testbit i 1) (d_sdi d)))
  | PostSdi w l =>
      match sdi_decode (d_state d) false l (d_sdi d) with
      | None => (d, BadRequest)
      | Some s => (with_sdi d s (if w then Some (sdi_dump s) else f_sdi d), ChangedOk)
      end
  | GetSp i => (d, if i =? 2 then Content (sp_encode true (d_sp d)) else if i =? 32 then Content (sp_encode false (d_sp d)) else BadRequest)
  | PostSp w l =>
      let (ok, p) := sp_decode_for (d_state d) l (d_sp d) in
      if ok then (with_sp d p (if w then Some (sp_dump p) else f_sp d), ChangedOk) else (with_sp d p (f_sp d), BadRequest)
  | Move ow st => (with_state d ow st, NoAnswer)
  | FactoryReset => (reset pre d, NoAnswer)
  | Profile x => (set_profile d x, NoAnswer)
  | SelfOwn u n => let s := mkSdi u n false in (with_state (with_sdi d s (Some (sdi_dump s))) true RFNOP, NoAnswer)
  | Disown => (with_state (sdi_default d) false RFOTM, NoAnswer)
  | Boot => (boot pre d, NoAnswer)
  end.
Fixpoint run (pre : option (N * N)) (d : dev) (l : list op) : dev :=
  match l with [] => d | o :: t => run pre (fst (step pre d o)) t end.

(** A device before it is first started. *)
Definition blank : dev := mkDev false RFOTM sdi0 (mkSp 0 0) sp_init None None.
