(** Onboarding: security/oc_pstat.c (provisioning status and resets) and security/oc_doxm.c (ownership),
    with the parts of the credential and access control resources the checks read and the order in which
    security/oc_store.c and api/oc_main.c load them.  OC_PKI and OC_SOFTWARE_UPDATE enabled. *)
From Verif Require Import Common Rep_Model Hex_Model Acl_Model.
From Coq Require Import String.
Local Open Scope string_scope.
Local Open Scope list_scope.
Local Open Scope N_scope.

(** oc_dostype_t (security/oc_pstat_internal.h:48-54); the C field holds any unsigned 32-bit value. *)
Definition S_RESET := 0.
Definition S_RFOTM := 1.
Definition S_RFPRO := 2.
Definition S_RFNOP := 3.
Definition S_SRESET := 4.

(** oc_sec_pstat_t (security/oc_pstat_internal.h:62-73). *)
Record pstat := mk_ps { ps_s : N; ps_p : bool; ps_isop : bool; ps_cm : N; ps_tm : N; ps_om : Z; ps_sm : Z; ps_owner : list N; ps_busy : bool }.
(** oc_sec_doxm_t (security/oc_doxm_internal.h) without the list of supported methods. *)
Record doxm := mk_dx { dx_oxmsel : Z; dx_sct : Z; dx_owned : bool; dx_devowner : list N; dx_device : list N; dx_owner : list N }.

(** Software update actions (include/oc_swupdate.h: ISAC, ISVV, UPGRADE). *)
Inductive action := ISAC | ISVV | UPGRADE.

(** A device: the resources, the subjects of its credentials, its identifier, whether the delayed reset is
    scheduled, the software update actions started, and what is in storage. *)
Record ob := mk_ob {
  o_ps : pstat; o_dx : doxm; o_aclown : list N; o_credown : list N; o_creds : list (list N); o_di : list N;
  o_pending : bool; o_log : list action; o_sps : pstat; o_sdx : doxm }.

Definition set_ps (o : ob) (x : pstat) : ob := mk_ob x (o_dx o) (o_aclown o) (o_credown o) (o_creds o) (o_di o) (o_pending o) (o_log o) (o_sps o) (o_sdx o).
Definition set_creds (o : ob) (x : list (list N)) : ob := mk_ob (o_ps o) (o_dx o) (o_aclown o) (o_credown o) x (o_di o) (o_pending o) (o_log o) (o_sps o) (o_sdx o).
Definition set_log (o : ob) (x : list action) : ob := mk_ob (o_ps o) (o_dx o) (o_aclown o) (o_credown o) (o_creds o) (o_di o) (o_pending o) x (o_sps o) (o_sdx o).
Definition set_pending (o : ob) (x : bool) : ob := mk_ob (o_ps o) (o_dx o) (o_aclown o) (o_credown o) (o_creds o) (o_di o) x (o_log o) (o_sps o) (o_sdx o).
(** oc_sec_dump_pstat, oc_sec_dump_doxm (security/oc_store.c:113-121, 70-79). *)
Definition dump_ps (o : ob) : ob := mk_ob (o_ps o) (o_dx o) (o_aclown o) (o_credown o) (o_creds o) (o_di o) (o_pending o) (o_log o) (o_ps o) (o_sdx o).
Definition dump_dx (o : ob) : ob := mk_ob (o_ps o) (o_dx o) (o_aclown o) (o_credown o) (o_creds o) (o_di o) (o_pending o) (o_log o) (o_sps o) (o_dx o).
Definition set_busy (o : ob) (b : bool) : ob :=
  let g := o_ps o in set_ps o (mk_ps (ps_s g) (ps_p g) (ps_isop g) (ps_cm g) (ps_tm g) (ps_om g) (ps_sm g) (ps_owner g) b).

(** What an operation meets: a random device UUID, whether a key pair can be generated, the subjects of the
    credentials the factory presets callback installs ([None]: no callback), the supported owner transfer
    methods. *)
Record env := mk_env { ev_uuid : list N; ev_key : bool; ev_presets : option (list (list N)); ev_oxms : list Z }.

(** nil_uuid (security/oc_pstat.c:105-114). *)
Definition is_nil (u : list N) : bool := forallb (fun b => b =? 0) u.

(** valid_transition (security/oc_pstat.c:139-165). *)
Definition valid_transition (cur s : N) : bool :=
  if cur =? S_RESET then true
  else if cur =? S_RFOTM then negb (s =? S_SRESET)
  else if (cur =? S_RFPRO) || (cur =? S_RFNOP) then negb (s =? S_RFOTM)
  else if cur =? S_SRESET then negb ((s =? S_RFOTM) || (s =? S_RFNOP))
  else true.

(** pstat_check_ps_state (security/oc_pstat.c:182-211). *)
Definition check_ps_state (p : pstat) : bool :=
  let cm := N.land (ps_cm p) 0xC3 in
  let tm := N.land (ps_tm p) 0xC3 in
  if ps_s p =? S_RFPRO then negb (ps_isop p || negb (cm =? 0) || negb (tm =? 0))
  else if ps_s p =? S_RFNOP then negb (negb (ps_isop p) || negb (cm =? 0) || negb (tm =? 0))
  else if ps_s p =? S_SRESET then negb (ps_isop p || negb (ps_cm p =? 1) || negb (tm =? 0))
  else if (ps_s p =? S_RESET) || (ps_s p =? S_RFOTM) then negb (ps_isop p || negb (cm =? 2) || negb (tm =? 0))
  else true.

(** oc_sec_find_creds_for_subject (security/oc_cred.c:320-335), as a test. *)
Definition has_cred (o : ob) (u : list N) : bool := existsb (fun c => list_eqb c u) (o_creds o).

(** pstat_check_state (security/oc_pstat.c:213-270). *)
Definition check_state (p : pstat) (o : ob) : bool :=
  let d := o_dx o in
  check_ps_state p && negb (is_nil (ps_owner p)) && has_cred o (ps_owner p) &&
  dx_owned d && negb (is_nil (dx_devowner d)) && negb (is_nil (dx_device d)) && negb (is_nil (dx_owner d)) && has_cred o (dx_owner d) &&
  negb (is_nil (o_aclown o)) && has_cred o (o_aclown o) && negb (is_nil (o_credown o)) && has_cred o (o_credown o).

(** oc_sec_doxm_default (security/oc_doxm.c:242-288): OC_OSCORE, OC_CLIENT, OC_SERVER on, so sct is
    9 | 64 | 128 | 256 (include/oc_cred.h:42-49); the new identifier becomes the device id and is stored. *)
Definition dx_default (u : list N) : doxm := mk_dx 4 457 false nil_uuid u nil_uuid.

(** oc_pstat_handle_state, case RFOTM (security/oc_pstat.c:336-372) and the common end (security/oc_pstat.c:408-426). *)
Definition enter_rfotm (e : env) (p : pstat) (o : ob) : bool * ob :=
  let p1 := mk_ps S_RFOTM true (ps_isop p) 2 0 (ps_om p) (ps_sm p) (ps_owner p) (ps_busy p) in
  if dx_owned (o_dx o) || negb (is_nil (dx_devowner (o_dx o))) || negb (check_ps_state p1) then (false, set_busy o false)
  else
    let o1 := match ev_presets e with Some l => set_creds (set_ps o p1) (o_creds o ++ l) | None => o end in
    (true, set_ps o1 (mk_ps S_RFOTM false (ps_isop p1) 2 0 (ps_om p1) (ps_sm p1) (ps_owner p1) (ps_busy p1))).

(** oc_pstat_handle_state (security/oc_pstat.c:272-431): [p] is the state asked for.  Cloud, observers, role
    certificates, sessions, access events, sdi, sp and created resources are not part of the device here. *)
Definition handle_state (e : env) (p : pstat) (o : ob) : bool * ob :=
  if ps_s p =? S_RESET then
    if ps_busy (o_ps o) then (false, o)
    else
      let p1 := mk_ps S_RESET true false 1 2 3 4 nil_uuid (ps_busy p) in
      let o1 := set_busy (mk_ob (o_ps o) (dx_default (ev_uuid e)) nil_uuid nil_uuid [] (ev_uuid e) false (o_log o) (o_sps o) (dx_default (ev_uuid e))) true in
      if negb (ev_key e) then (false, set_busy o1 false) else enter_rfotm e p1 o1
  else if ps_s p =? S_RFOTM then enter_rfotm e p o
  else if ps_s p =? S_RFPRO then
    let p1 := mk_ps (ps_s p) true false 0 0 (ps_om p) (ps_sm p) (ps_owner p) (ps_busy p) in
    if check_state p1 o then (true, set_ps o (mk_ps (ps_s p) false false 0 0 (ps_om p) (ps_sm p) (ps_owner p) (ps_busy p))) else (false, o)
  else if ps_s p =? S_RFNOP then
    let p1 := mk_ps (ps_s p) true true 0 0 (ps_om p) (ps_sm p) (ps_owner p) (ps_busy p) in
    if check_state p1 o then (true, set_ps o (mk_ps (ps_s p) false true 0 0 (ps_om p) (ps_sm p) (ps_owner p) (ps_busy p))) else (false, o)
  else if ps_s p =? S_SRESET then
    let p1 := mk_ps (ps_s p) true false 1 0 (ps_om p) (ps_sm p) (ps_owner p) (ps_busy p) in
    if check_state p1 o then (true, set_ps o (mk_ps (ps_s p) false false 1 0 (ps_om p) (ps_sm p) (ps_owner p) (ps_busy p))) else (false, o)
  else (false, o).

Definition reset_ps : pstat := mk_ps S_RESET false false 0 0 0 0 nil_uuid false.

(** oc_pstat_reset_device (security/oc_pstat.c:697-704). *)
Definition reset_device (e : env) (o : ob) : bool * ob :=
  let r := handle_state e reset_ps o in (fst r, dump_ps (snd r)).

(** set_delayed_reset (security/oc_pstat.c:731-768) with oc_reset_in_progress (security/oc_pstat.c:175-180). *)
Definition delayed_reset_ps : pstat := mk_ps S_RESET true false 1 2 3 4 nil_uuid false.
Definition set_delayed_reset (o : ob) : bool * ob :=
  if ps_busy (o_ps o) || o_pending o then (false, o) else (true, set_pending (set_ps o delayed_reset_ps) true).

(** * Updates of /oic/sec/pstat *)

(** memcmp(name, "xy", 2) == 0; a shorter name ends in a zero byte, which differs. *)
Definition prefix2 (r : rep) (c1 c2 : N) : bool :=
  match fst r with a :: b :: _ => (a =? c1) && (b =? c2) | _ => false end.

(** A value assigned to an oc_dostype_t or oc_dpmtype_t (unsigned 32 bits). *)
Definition to_u32 (z : Z) : N := Z.to_N (z mod 4294967296)%Z.

(** oc_str_to_uuid (api/oc_uuid.c:122-131) on a property value. *)
Definition uuid_of (s old : list N) : list N := match snd (str_to_uuid_v1 (firstn 37 (cstr s))) with Some u => u | None => old end.

(** The properties of the dos object (security/oc_pstat.c:558-583). *)
Fixpoint decode_dos (fs : bool) (p : pstat) (tr : bool) (l : list rep) : option (pstat * bool) :=
  match l with
  | [] => Some (p, tr)
  | r :: t =>
      match snd r with
      | RInt z =>
          if list_eqb (fst r) (str "s")
          then decode_dos fs (mk_ps (to_u32 z) (ps_p p) (ps_isop p) (ps_cm p) (ps_tm p) (ps_om p) (ps_sm p) (ps_owner p) (ps_busy p)) true t
          else None
      | _ => if negb fs && list_eqb (fst r) (str "p") then None else decode_dos fs p tr t
      end
  end.

(** One property (security/oc_pstat.c:555-634); [tr]: transition_state, [tg]: target_mode. *)
Definition decode_pstat_prop (fs : bool) (x : pstat * bool * bool) (r : rep) : option (pstat * bool * bool) :=
  let '(p, tr, tg) := x in
  match snd r with
  | RObj l =>
      if list_eqb (fst r) (str "dos")
      then match decode_dos fs p tr l with Some (p', tr') => Some (p', tr', tg) | None => None end
      else None
  | RBool b =>
      if fs && list_eqb (fst r) (str "isop")
      then Some (mk_ps (ps_s p) (ps_p p) b (ps_cm p) (ps_tm p) (ps_om p) (ps_sm p) (ps_owner p) (ps_busy p), tr, tg)
      else None
  | RInt z =>
      if fs && prefix2 r 99 109 then Some (mk_ps (ps_s p) (ps_p p) (ps_isop p) (to_u32 z) (ps_tm p) (ps_om p) (ps_sm p) (ps_owner p) (ps_busy p), tr, tg)
      else if prefix2 r 116 109 then Some (mk_ps (ps_s p) (ps_p p) (ps_isop p) (ps_cm p) (to_u32 z) (ps_om p) (ps_sm p) (ps_owner p) (ps_busy p), tr, true)
      else if prefix2 r 111 109 then Some (mk_ps (ps_s p) (ps_p p) (ps_isop p) (ps_cm p) (ps_tm p) (to_int z) (ps_sm p) (ps_owner p) (ps_busy p), tr, tg)
      else if fs && prefix2 r 115 109 then Some (mk_ps (ps_s p) (ps_p p) (ps_isop p) (ps_cm p) (ps_tm p) (ps_om p) (to_int z) (ps_owner p) (ps_busy p), tr, tg)
      else None
  | RStr v =>
      if (fs || (negb (ps_s p =? S_RFPRO) && negb (ps_s p =? S_RFNOP))) && list_eqb (fst r) (str "rowneruuid")
      then Some (mk_ps (ps_s p) (ps_p p) (ps_isop p) (ps_cm p) (ps_tm p) (ps_om p) (ps_sm p) (uuid_of v (ps_owner p)) (ps_busy p), tr, tg)
      else None
  | _ => if list_eqb (fst r) (str "rt") || list_eqb (fst r) (str "if") then Some x else None
  end.
Fixpoint decode_pstat_props (fs : bool) (x : pstat * bool * bool) (l : list rep) : option (pstat * bool * bool) :=
  match l with [] => Some x | r :: t => match decode_pstat_prop fs x r with Some y => decode_pstat_props fs y t | None => None end end.

(** oc_pstat_handle_target_mode (security/oc_pstat.c:503-521): NSA 256, SVV 64, SSV 128. *)
Definition target_mode (p : pstat) (o : ob) : pstat * ob :=
  let clr := mk_ps (ps_s p) (ps_p p) (ps_isop p) (ps_cm p) 0 (ps_om p) (ps_sm p) (ps_owner p) (ps_busy p) in
  if ps_tm p =? 256 then (clr, set_log o (o_log o ++ [ISAC]))
  else if ps_tm p =? 64 then (clr, set_log o (o_log o ++ [ISVV]))
  else if ps_tm p =? 128 then (clr, set_log o (o_log o ++ [UPGRADE]))
  else (p, o).

(** oc_sec_decode_pstat (security/oc_pstat.c:543-657). *)
Definition decode_pstat (e : env) (fs : bool) (o : ob) (l : list rep) : bool * ob :=
  match decode_pstat_props fs (o_ps o, false, false) l with
  | None => (false, o)
  | Some (p, tr, tg) =>
      let '(p1, o1) := if tg then target_mode p o else (p, o) in
      if fs || valid_transition (ps_s (o_ps o1)) (ps_s p1) then
        if negb fs && tr then
          if ps_s p1 =? S_RESET then set_delayed_reset o1 else handle_state e p1 o1
        else (true, set_ps o1 p1)
      else (false, o1)
  end.

(** pstat_resource_post (security/oc_pstat.c:677-694). *)
Definition post_pstat (e : env) (o : ob) (l : list rep) : bool * ob :=
  let r := decode_pstat e false o l in if fst r then (true, dump_ps (snd r)) else r.

(** oc_sec_encode_pstat to storage (security/oc_pstat.c:472-500), without the baseline properties. *)
Definition uuid_str (u : list N) : list N := match uuid_to_str u 37 with Some t => t | None => [] end.
Definition encode_pstat (p : pstat) : list rep :=
  [ (str "dos", RObj [(str "p", RBool (ps_p p)); (str "s", RInt (Z.of_N (ps_s p)))]);
    (str "cm", RInt (Z.of_N (ps_cm p))); (str "tm", RInt (Z.of_N (ps_tm p))); (str "om", RInt (ps_om p)); (str "sm", RInt (ps_sm p));
    (str "isop", RBool (ps_isop p)); (str "rowneruuid", RStr (uuid_str (ps_owner p))) ].

(** * Updates of /oic/sec/doxm *)

(** oc_doxm_decode_t (security/oc_doxm.c:436-448); [None] is not set. *)
Record doxm_dec := mk_dd { dd_device : option (list N); dd_devowner : option (list N); dd_owner : option (list N); dd_oxmsel : option Z; dd_sct : option Z; dd_owned : option bool }.
Definition dd0 : doxm_dec := mk_dd None None None None None None.

(** doxm_string_propery_is_writable (security/oc_doxm.c:528-546). *)
Definition string_writable (fs doc : bool) (ok : bool) : bool := if fs then true else if negb ok then false else doc.

(** doxm_decode_bool_property ... doxm_decode_property (security/oc_doxm.c:450-633). *)
Definition decode_doxm_prop (oxms : list Z) (fs doc : bool) (s : N) (d : doxm_dec) (r : rep) : option doxm_dec :=
  let nm := fst r in
  if fs && (list_eqb nm (str "rt") || list_eqb nm (str "if")) then Some d
  else match snd r with
  | RBool b =>
      if list_eqb nm (str "owned") then
        if negb fs && (negb (s =? S_RFOTM) || negb doc) then None
        else Some (mk_dd (dd_device d) (dd_devowner d) (dd_owner d) (dd_oxmsel d) (dd_sct d) (Some b))
      else None
  | RInt z =>
      if list_eqb nm (str "oxmsel") then
        if negb fs && (negb (s =? S_RFOTM) || doc || negb (existsb (fun x => (x =? to_int z)%Z) oxms)) then None
        else Some (mk_dd (dd_device d) (dd_devowner d) (dd_owner d) (Some (to_int z)) (dd_sct d) (dd_owned d))
      else if list_eqb nm (str "sct") then
        if negb fs then None else Some (mk_dd (dd_device d) (dd_devowner d) (dd_owner d) (dd_oxmsel d) (Some (to_int z)) (dd_owned d))
      else None
  | RStr v =>
      if list_eqb nm (str "deviceuuid") then
        if string_writable fs doc (s =? S_RFOTM) then Some (mk_dd (Some v) (dd_devowner d) (dd_owner d) (dd_oxmsel d) (dd_sct d) (dd_owned d)) else None
      else if list_eqb nm (str "devowneruuid") then
        if string_writable fs doc (s =? S_RFOTM) then Some (mk_dd (dd_device d) (Some v) (dd_owner d) (dd_oxmsel d) (dd_sct d) (dd_owned d)) else None
      else if list_eqb nm (str "rowneruuid") then
        if string_writable fs doc ((s =? S_RFOTM) || (s =? S_SRESET)) then Some (mk_dd (dd_device d) (dd_devowner d) (Some v) (dd_oxmsel d) (dd_sct d) (dd_owned d)) else None
      else None
  | _ => None
  end.
(** doxm_decode (security/oc_doxm.c:635-648). *)
Fixpoint decode_doxm_props (oxms : list Z) (fs doc : bool) (s : N) (d : doxm_dec) (l : list rep) : option doxm_dec :=
  match l with [] => Some d | r :: t => match decode_doxm_prop oxms fs doc s d r with Some d' => decode_doxm_props oxms fs doc s d' t | None => None end end.

(** doxm_decode_copy (security/oc_doxm.c:650-676). *)
Definition opt {A} (x : option A) (y : A) : A := match x with Some v => v | None => y end.
Definition opt_uuid (x : option (list N)) (y : list N) : list N := match x with Some v => uuid_of v y | None => y end.
Definition copy_doxm (s : doxm_dec) (d : doxm) : doxm :=
  mk_dx (opt (dd_oxmsel s) (dx_oxmsel d)) (opt (dd_sct s) (dx_sct d)) (opt (dd_owned s) (dx_owned d))
        (opt_uuid (dd_devowner s) (dx_devowner d)) (opt_uuid (dd_device s) (dx_device d)) (opt_uuid (dd_owner s) (dx_owner d)).

(** oc_sec_decode_doxm (security/oc_doxm.c:678-730). *)
Definition decode_doxm (e : env) (fs doc : bool) (o : ob) (l : list rep) : bool * ob :=
  match decode_doxm_props (ev_oxms e) fs doc (ps_s (o_ps o)) dd0 l with
  | None => (false, o)
  | Some d =>
      let dx := copy_doxm d (o_dx o) in
      (true, mk_ob (o_ps o) dx (o_aclown o) (o_credown o) (o_creds o) (match dd_device d with Some _ => dx_device dx | None => o_di o end)
                   (o_pending o) (o_log o) (o_sps o) (o_sdx o))
  end.
(** doxm_resource_post (security/oc_doxm.c:732-748). *)
Definition post_doxm (e : env) (doc : bool) (o : ob) (l : list rep) : bool * ob :=
  let r := decode_doxm e false doc o l in if fst r then (true, dump_dx (snd r)) else r.

(** oc_sec_encode_doxm to storage (security/oc_doxm.c:290-328), without the baseline properties. *)
Definition encode_doxm (d : doxm) : list rep :=
  [ (str "oxmsel", RInt (dx_oxmsel d)); (str "sct", RInt (dx_sct d)); (str "owned", RBool (dx_owned d));
    (str "devowneruuid", RStr (uuid_str (dx_devowner d))); (str "deviceuuid", RStr (uuid_str (dx_device d))); (str "rowneruuid", RStr (uuid_str (dx_owner d))) ].

(** * Start and histories *)

Definition zero_dx : doxm := mk_dx 0 0 false nil_uuid nil_uuid nil_uuid.

(** main_load_resources (api/oc_main.c:301-345) with oc_sec_load_doxm and oc_sec_load_pstat
    (security/oc_store.c:50-60, 92-103): globals start zeroed; the ownership resource is read first; a device
    without owner has its other stored resources cleared, so that provisioning status falls back to a reset.
    Credentials and the two owners are in storage as they were. *)
Definition restart (e : env) (o : ob) : ob :=
  let o0 := mk_ob reset_ps zero_dx nil_uuid nil_uuid [] nil_uuid false (o_log o) (o_sps o) (o_sdx o) in
  let '(ok, o1) := decode_doxm e true false o0 (encode_doxm (o_sdx o)) in
  let o1 := if ok then o1 else mk_ob (o_ps o1) (dx_default (ev_uuid e)) (o_aclown o1) (o_credown o1) (o_creds o1) (ev_uuid e) (o_pending o1) (o_log o1) (o_sps o1) (dx_default (ev_uuid e)) in
  if dx_owned (o_dx o1) then
    let '(ok, o2) := decode_pstat e true o1 (encode_pstat (o_sps o)) in
    if ok then mk_ob (o_ps o2) (o_dx o2) (o_aclown o) (o_credown o) (o_creds o) (o_di o2) (o_pending o2) (o_log o2) (o_sps o2) (o_sdx o2)
    else snd (reset_device e o2)
  else snd (reset_device e o1).

Inductive oop :=
| PPost (l : list rep)                (* POST /oic/sec/pstat *)
| DPost (doc : bool) (l : list rep)   (* POST /oic/sec/doxm; [doc]: over the session of the onboarding tool *)
| AclOwner (u : list N)               (* POST /oic/sec/acl2 with a rowneruuid (security/oc_acl.c:354-375) *)
| CredOwner (u : list N)              (* POST /oic/sec/cred with a rowneruuid (security/oc_cred.c:1126-1138) *)
| Creds (l : list (list N))           (* POST or DELETE /oic/sec/cred (security/oc_cred.c:1139-1145, 1561) *)
| Forced                              (* oc_reset_device *)
| ResetLater                          (* oc_reset_device_v1(device, false) *)
| Fire                                (* the delayed callback, if it is scheduled *)
| Shutdown                            (* oc_reset_devices_in_RFOTM *)
| Mode (cm : N)                       (* oc_sec_pstat_set_current_mode, called by software update *)
| Reboot.

Definition ostep (e : env) (o : ob) (op : oop) : ob :=
  let s := ps_s (o_ps o) in
  match op with
  | PPost l => snd (post_pstat e o l)
  | DPost doc l => snd (post_doxm e doc o l)
  | AclOwner u => if (s =? S_RFNOP) || (s =? S_RFPRO) then o
                  else mk_ob (o_ps o) (o_dx o) u (o_credown o) (o_creds o) (o_di o) (o_pending o) (o_log o) (o_sps o) (o_sdx o)
  | CredOwner u => if (s =? S_RFOTM) || (s =? S_SRESET)
                   then mk_ob (o_ps o) (o_dx o) (o_aclown o) u (o_creds o) (o_di o) (o_pending o) (o_log o) (o_sps o) (o_sdx o) else o
  | Creds l => if s =? S_RFNOP then o else set_creds o l
  | Forced => snd (reset_device e o)
  | ResetLater => snd (set_delayed_reset o)
  | Fire => if o_pending o then snd (reset_device e (set_pending o false)) else o
  | Shutdown => if s =? S_RFOTM then snd (reset_device e o) else o
  | Mode cm => let g := o_ps o in set_ps o (mk_ps (ps_s g) (ps_p g) (ps_isop g) cm (ps_tm g) (ps_om g) (ps_sm g) (ps_owner g) (ps_busy g))
  | Reboot => restart e o
  end.

Fixpoint orun (o : ob) (l : list (env * oop)) : ob := match l with [] => o | (e, op) :: t => orun (ostep e o op) t end.

(** The first start: nothing in storage. *)
Definition first_start (e : env) : ob :=
  snd (reset_device e (mk_ob reset_ps (dx_default (ev_uuid e)) nil_uuid nil_uuid [] (ev_uuid e) false [] reset_ps (dx_default (ev_uuid e)))).
