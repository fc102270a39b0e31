(** The software update resource: /oc/swu (api/oc_swupdate.c). Times are ticks, [hz] of them per second, as uint64_t; [hz] is
    OC_CLOCK_SECOND. Texts are those of oc_string_t; None: no text (NULL). *)
From Verif Require Import Common Rep_Model Repd_Model Ael_Model Ts_Model Acl_Model.
From Verif Require Sd_Model.
From Coq Require Import String ZArith.
Notation rep := Rep_Model.rep.
Local Open Scope string_scope.
Local Open Scope list_scope.
Local Open Scope Z_scope.

Definition text := list N.

(** Actions: 0 idle, 1 isac, 2 isvv, 3 upgrade; states: 0 idle, 1 nsa, 2 svv, 3 sva, 4 upgrading (api/oc_swupdate_internal.h:33-46) *)
Definition IDLE : Z := 0.
Definition ISAC : Z := 1.
Definition ISVV : Z := 2.
Definition UPGRADE : Z := 3.
(** OC_SWUPDATE_RESULT_SUCCESS (include/oc_swupdate.h:43-53) *)
Definition SUCCESS : Z := 1.

(** oc_swupdate_t (api/oc_swupdate_internal.h:48-58) *)
Record swu := mkSwu { s_purl : option text; s_nv : option text; s_signed : option text; s_action : Z; s_state : Z; s_result : Z; s_last : Z; s_time : Z }.
Definition blank : swu := mkSwu None None None 0 0 0 0 0.

(** oc_swupdate_action_to_str, oc_swupdate_state_to_str (api/oc_swupdate.c:358-372, 396-412), of actions and states in range *)
Definition action_str (a : Z) : text :=
  if a =? IDLE then str "idle" else if a =? ISAC then str "isac" else if a =? ISVV then str "isvv" else str "upgrade".
Definition state_str (a : Z) : text :=
  if a =? 0 then str "idle" else if a =? 1 then str "nsa" else if a =? 2 then str "svv" else if a =? 3 then str "sva" else str "upgrading".
(** oc_swupdate_action_from_str, oc_swupdate_state_from_str (api/oc_swupdate.c:374-394, 414-438) *)
Definition action_of (s : text) : option Z :=
  if list_eqb s (str "idle") then Some IDLE else if list_eqb s (str "isac") then Some ISAC
  else if list_eqb s (str "isvv") then Some ISVV else if list_eqb s (str "upgrade") then Some UPGRADE else None.
Definition state_of (s : text) : option Z :=
  if list_eqb s (str "idle") then Some 0 else if list_eqb s (str "nsa") then Some 1 else if list_eqb s (str "svv") then Some 2
  else if list_eqb s (str "sva") then Some 3 else if list_eqb s (str "upgrading") then Some 4 else None.

(** The functions of the application: oc_swupdate_cb_t (include/oc_swupdate.h:121-127) and g_swupdate_impl
    (api/oc_swupdate.c:110-117). Whether it validates URLs and which it accepts; which of the other functions it has. *)
Record impl := mkImpl { i_url : option (text -> bool); i_check : bool; i_down : bool; i_up : bool }.
Definition no_impl : impl := mkImpl None false false false.
(** Calls of its functions; they read C strings. What they do to the device, themselves or later, are further operations:
    nothing is done after the call by who calls them. *)
Inductive call : Type := Check (url nv : option text) | Download (url : option text) | Upgrade (url : option text).
Definition ctext (s : option text) : option text := option_map cstr s.

(** * Decoding *)

(** oc_swupdate_decode_t (api/oc_swupdate.c:78-102) *)
Inductive when : Type := NotSet | At (t : Z) | Never | Now.
Record dc := mkDc { c_purl : option text; c_nv : option text; c_signed : option text; c_action : option Z; c_state : option Z;
                    c_result : option Z; c_last : option Z; c_time : when }.
Definition nothing : dc := mkDc None None None None None None None NotSet.

(** Errors (include/oc_swupdate.h:140-159), reported with the property *)
Definition E_IMPL : Z := -1.
Definition E_PROPERTY : Z := -8.
Definition E_READONLY : Z := -9.
Definition E_VALUE : Z := -10.
Definition E_NOTIME : Z := -16.
Definition E_TIME : Z := -17.
Definition E_NOPURL : Z := -18.
Definition E_PURL : Z := -19.
Definition report := (option rep * Z)%type.

(** swupdate_decode_timestamp (api/oc_swupdate.c:504-512) *)
Definition decode_timestamp (hz : Z) (s : text) : option Z := if Nat.leb 63 (List.length s) then None else clock_parse hz s.
(** swupdate_decode_update_time (api/oc_swupdate.c:514-545) *)
Definition decode_time (hz : Z) (storage : bool) (s : text) (c : dc) : dc + Z :=
  let set w := mkDc (c_purl c) (c_nv c) (c_signed c) (c_action c) (c_state c) (c_result c) (c_last c) w in
  if negb storage && list_eqb s (str "none") then inl (set Never)
  else if negb storage && list_eqb s (str "now") then inl (set Now)
  else match decode_timestamp hz s with None => inr E_VALUE | Some t => inl (set (At t)) end.
(** swupdate_decode_int_property (api/oc_swupdate.c:485-502); the storage only holds an int *)
Definition decode_int (storage : bool) (n : text) (z : Z) (c : dc) : dc + Z :=
  if list_eqb n (str "swupdateresult") then
    if storage then inl (mkDc (c_purl c) (c_nv c) (c_signed c) (c_action c) (c_state c) (Some z) (c_last c) (c_time c)) else inr E_READONLY
  else inr E_PROPERTY.
(** swupdate_decode_string_property (api/oc_swupdate.c:547-631) *)
Definition decode_string (hz : Z) (storage : bool) (n s : text) (c : dc) : dc + Z :=
  if list_eqb n (str "nv") then
    if storage then inl (mkDc (c_purl c) (Some s) (c_signed c) (c_action c) (c_state c) (c_result c) (c_last c) (c_time c)) else inr E_READONLY
  else if list_eqb n (str "signed") then
    if storage then inl (mkDc (c_purl c) (c_nv c) (Some s) (c_action c) (c_state c) (c_result c) (c_last c) (c_time c)) else inr E_READONLY
  else if list_eqb n (str "swupdateaction") then
    match action_of s with
    | None => inr E_VALUE
    | Some a => inl (mkDc (c_purl c) (c_nv c) (c_signed c) (Some a) (c_state c) (c_result c) (c_last c) (c_time c))
    end
  else if list_eqb n (str "swupdatestate") then
    if storage then
      match state_of s with
      | None => inr E_VALUE
      | Some a => inl (mkDc (c_purl c) (c_nv c) (c_signed c) (c_action c) (Some a) (c_result c) (c_last c) (c_time c))
      end
    else inr E_READONLY
  else if list_eqb n (str "lastupdate") then
    if storage then
      match decode_timestamp hz s with
      | None => inr E_VALUE
      | Some t => inl (mkDc (c_purl c) (c_nv c) (c_signed c) (c_action c) (c_state c) (c_result c) (Some t) (c_time c))
      end
    else inr E_READONLY
  else if list_eqb n (str "updatetime") then decode_time hz storage s c
  else if list_eqb n (str "purl") then inl (mkDc (Some s) (c_nv c) (c_signed c) (c_action c) (c_state c) (c_result c) (c_last c) (c_time c))
  else inr E_PROPERTY.
(** swupdate_decode_property (api/oc_swupdate.c:633-644) *)
Definition decode_property (hz : Z) (storage : bool) (r : rep) (c : dc) : dc + Z :=
  match snd r with
  | RInt z => decode_int storage (fst r) z c
  | RStr s => decode_string hz storage (fst r) s c
  | _ => inr E_PROPERTY
  end.

(** The function told of errors, which says whether to go on, having been told those of the list; None: no such function. *)
Definition listener := option (list report -> bool).
Definition go_on (f : listener) (told : list report) : bool := match f with None => false | Some g => g told end.
Definition told_of (f : listener) (told : list report) (r : report) : list report := match f with None => told | Some _ => told ++ [r] end.

(** swupdate_decode, the loop (api/oc_swupdate.c:719-738), without OC_SWUPDATE_DECODE_FLAG_IGNORE_ERRORS, which only the unit
    tests use. None: told to stop; the flag: no error was met. *)
Fixpoint decode_loop (hz : Z) (storage : bool) (f : listener) (l : list rep) (c : dc) (ok : bool) (told : list report) : option (dc * bool) * list report :=
  match l with
  | [] => (Some (c, ok), told)
  | r :: t =>
      match decode_property hz storage r c with
      | inl c' => decode_loop hz storage f t c' ok told
      | inr e => let told' := told_of f told (Some r, e) in
                 if go_on f told' then decode_loop hz storage f t c false told' else (None, told')
      end
  end.

(** swupdate_validate_updatetime (api/oc_swupdate.c:646-660); 0: no error *)
Definition validate_time (now : Z) (c : dc) : Z :=
  match c_time c with NotSet => E_NOTIME | At t => if t <? now then E_TIME else 0 | _ => 0 end.
(** swupdate_validate_package_url (api/oc_swupdate.c:662-681) *)
Definition validate_url (im : impl) (c : dc) : Z :=
  match c_purl c with
  | None => E_NOPURL
  | Some u => match i_url im with None => E_IMPL | Some v => if v (cstr u) then 0 else E_PURL end
  end.
(** swupdate_validate_decoded_data (api/oc_swupdate.c:683-711) *)
Definition validate_data (im : impl) (now : Z) (c : dc) (skip : bool) (f : listener) (told : list report) : bool * list report :=
  let e := validate_time now c in
  let told1 := if e =? 0 then told else told_of f told (None, e) in
  if negb (e =? 0) && negb (go_on f told1) then (false, told1)
  else if skip then (e =? 0, told1)
  else let e2 := validate_url im c in
       if e2 =? 0 then (e =? 0, told1) else (false, told_of f told1 (None, e2)).
(** swupdate_decode (api/oc_swupdate.c:713-757) for a request; [has]: the device has a package URL *)
Definition decode_request (hz : Z) (im : impl) (now : Z) (has : bool) (f : listener) (l : list rep) : option dc * list report :=
  match decode_loop hz false f l nothing true [] with
  | (None, told) => (None, told)
  | (Some (_, false), told) => (None, told)
  | (Some (c, true), told) =>
      let skip := match c_action c, c_purl c with
                  | Some a, Some u => negb (a =? IDLE) && (match u with [] => true | b :: _ => (b =? 0)%N end) && has
                  | _, _ => false
                  end in
      let (ok, told') := validate_data im now c skip f told in (if ok then Some c else None, told')
  end.
(** and from the storage *)
Definition decode_store (hz : Z) (l : list rep) : option dc :=
  match decode_loop hz true None l nothing true [] with (Some (c, true), _) => Some c | _ => None end.

(** swupdate_decode_copy (api/oc_swupdate.c:440-483) *)
Definition orelse {A} (o : option A) (a : A) : A := match o with Some b => b | None => a end.
Definition copy (now : Z) (c : dc) (s : swu) : swu :=
  mkSwu (match c_purl c with Some u => Some u | None => s_purl s end) (match c_nv c with Some u => Some u | None => s_nv s end)
        (match c_signed c with Some u => Some u | None => s_signed s end)
        (orelse (c_action c) (s_action s)) (orelse (c_state c) (s_state s)) (orelse (c_result c) (s_result s)) (orelse (c_last c) (s_last s))
        (match c_time c with NotSet => s_time s | At t => t | Never => 0 | Now => now end).

(** * Encoding *)

(** The texts are cut at the first zero; no text is the empty one (include/oc_rep.h:443-445, api/oc_rep_encode.c:987-996). *)
Definition shown (s : option text) : text := match s with Some t => cstr t | None => [] end.
(** oc_swupdate_encode_clocktime_to_string (api/oc_swupdate.c:840-850) *)
Definition put_time (hz : Z) (n : text) (t : Z) : option (list rep) :=
  match clock_encode hz t 64 with Some s => Some [(n, RStr s)] | None => None end.
Definition glue (a b : option (list rep)) : option (list rep) :=
  match a, b with Some x, Some y => Some (x ++ y) | _, _ => None end.
Definition texts (s : swu) : list rep :=
  [(str "purl", RStr (shown (s_purl s))); (str "nv", RStr (shown (s_nv s))); (str "signed", RStr (shown (s_signed s)));
   (str "swupdateaction", RStr (action_str (s_action s))); (str "swupdatestate", RStr (state_str (s_state s))); (str "swupdateresult", RInt (s_result s))].
(** The baseline properties of the resource, which has neither name nor tags (api/oc_swupdate.c:339-347, without the interface
    for ETags). *)
Definition baseline : list rep :=
  [(str "rt", RStrArr [str "oic.r.softwareupdate"]); (str "if", RStrArr [str "oic.if.rw"; str "oic.if.baseline"])].
(** oc_swupdate_encode_with_resource (api/oc_swupdate.c:796-838, 852-919) *)
Definition encode (hz : Z) (s : swu) (base store : bool) : option (list rep) :=
  glue (Some (if base then baseline else []))
    (glue (Some (texts s))
      (glue (if 0 <? s_last s then put_time hz (str "lastupdate") (s_last s) else Some [])
            (if negb store || (0 <? s_time s) then put_time hz (str "updatetime") (s_time s) else Some []))).
(** swupdate_encode_for_device_with_interface (api/oc_swupdate.c:200-215); OC_IF_BASELINE is 2, OC_IF_RW is 32 *)
Inductive answer : Type := Nothing | Content (l : list rep) | ServerError | BadRequest | NotAcceptable | Changed (l : option (list rep)) | Verdict (ok : bool) (told : list report).
Definition encode_answer (hz : Z) (s : swu) (iface : N) : answer :=
  if ((iface =? 2) || (iface =? 32))%N then match encode hz s (iface =? 2)%N false with Some l => Content l | None => ServerError end
  else BadRequest.

(** * The device *)

(** The data; what is left until swupdate_update_async is called, if it is scheduled; whether swupdate_dump_async is; the
    storage; the functions and their calls (last first); the current mode of provisioning; the time of the clock. *)
Record dev := mkDev { d_swu : swu; d_alarm : option Z; d_dump : bool; d_file : option cbor; d_impl : impl; d_calls : list call; d_mode : Z; d_now : Z }.
Definition with_swu (d : dev) (s : swu) : dev := mkDev s (d_alarm d) (d_dump d) (d_file d) (d_impl d) (d_calls d) (d_mode d) (d_now d).
Definition with_alarm (d : dev) (a : option Z) : dev := mkDev (d_swu d) a (d_dump d) (d_file d) (d_impl d) (d_calls d) (d_mode d) (d_now d).

(** oc_swupdate_dump (api/oc_swupdate.c:960-980); [w]: the write succeeds *)
Definition dump (hz : Z) (d : dev) (w : bool) : dev :=
  match encode hz (d_swu d) false true with
  | Some l => if w then mkDev (d_swu d) (d_alarm d) (d_dump d) (Some (enc_root l)) (d_impl d) (d_calls d) (d_mode d) (d_now d) else d
  | None => d
  end.
(** swupdate_execute_action and oc_swupdate_action_schedule (api/oc_swupdate.c:270-294, 303-312) *)
Definition execute (d : dev) : dev :=
  let s := d_swu d in
  with_alarm d (if (s_action s =? IDLE) || (s_time s =? 0) then None else Some (if d_now d <? s_time s then s_time s - d_now d else 0)).
(** oc_swupdate_perform_action (api/oc_swupdate.c:1097-1129) *)
Definition set_action (s : swu) (a : Z) : swu := mkSwu (s_purl s) (s_nv s) (s_signed s) a (s_state s) (s_result s) (s_last s) (s_time s).
Definition calls_for (im : impl) (a : Z) (s : swu) : list call :=
  if a =? ISAC then if i_check im then [Check (ctext (s_purl s)) (ctext (s_nv s))] else []
  else if a =? ISVV then if i_down im then [Download (ctext (s_purl s))] else []
  else if a =? UPGRADE then if i_up im then [Upgrade (ctext (s_purl s))] else [] else [].
Definition perform (d : dev) (a : Z) : dev :=
  mkDev (set_action (d_swu d) a) (d_alarm d) (d_dump d) (d_file d) (d_impl d) (calls_for (d_impl d) a (d_swu d) ++ d_calls d) (d_mode d) (d_now d).
(** [dt] ticks pass and the callbacks that are due are called: swupdate_dump_async and swupdate_update_async
    (api/oc_swupdate.c:239-268) *)
Definition elapse (hz : Z) (d : dev) (dt : Z) (w : bool) : dev :=
  let d := mkDev (d_swu d) (d_alarm d) (d_dump d) (d_file d) (d_impl d) (d_calls d) (d_mode d) (d_now d + dt) in
  let d := if d_dump d then let d' := dump hz d w in mkDev (d_swu d') (d_alarm d') false (d_file d') (d_impl d') (d_calls d') (d_mode d') (d_now d') else d in
  match d_alarm d with
  | None => d
  | Some k => if k <=? dt then perform (with_alarm d None) (s_action (d_swu d)) else with_alarm d (Some (k - dt))
  end.
(** oc_swupdate_clear and oc_swupdate_default (api/oc_swupdate.c:153-164, 186-198) *)
Definition default (hz : Z) (d : dev) (w : bool) : dev :=
  dump hz (with_alarm (with_swu d (mkSwu None None (Some (str "vendor")) 0 0 0 0 0)) None) w.
(** oc_swupdate_load (api/oc_swupdate.c:932-958) *)
Definition load (hz : Z) (d : dev) (w : bool) : dev :=
  match Sd_Model.stored (d_file d) with
  | None => default hz d w
  | Some o => match decode_store hz (match o with Some l => l | None => [] end) with
              | None => default hz d w
              | Some c => execute (with_swu d (copy (d_now d) c (d_swu d)))
              end
  end.

Inductive op : Type :=
| Start (now : Z) (im : impl) (w : bool)   (* the process is started: oc_swupdate_set_impl, then oc_main_init *)
| Elapse (dt : Z) (w : bool)               (* time passes, the event loop runs *)
| ClockSet (now : Z)                       (* the clock of the system is set *)
| Get (iface : N)
| Post (iface : N) (l : list rep) (w : bool)
| Validate (l : list rep) (f : listener)   (* oc_swupdate_validate_update *)
| Available (v : text) (r : Z)             (* oc_swupdate_notify_new_version_available *)
| Downloaded (r : Z)                       (* oc_swupdate_notify_downloaded *)
| Upgrading (v : text) (t r : Z)           (* oc_swupdate_notify_upgrading *)
| Finished (r : Z).                        (* oc_swupdate_notify_done *)

(** The notification of a result that is not success stops; with success the next action is performed. *)
Definition notified (d : dev) (s : swu) (mode r next : Z) : dev :=
  let s' := if r =? SUCCESS then s else set_action s IDLE in
  let d' := mkDev s' (d_alarm d) true (d_file d) (d_impl d) (d_calls d) mode (d_now d) in
  if r =? SUCCESS then perform d' next else d'.

Definition has_url (d : dev) : bool := match s_purl (d_swu d) with Some _ => true | None => false end.

(** swupdate_resource_get, swupdate_resource_post (api/oc_swupdate.c:217-225, 314-337), oc_swupdate_validate_update (780-794) and
    the notifications (1007-1095), without the notification of observers. OC_DPM_NSA is 256, OC_DPM_SVV 64,
    OC_DPM_SSV 128 (security/oc_pstat_internal.h:55-59); what the mode is after a start is up to the stored pstat, not modelled here. *)
Definition step (hz : Z) (d : dev) (o : op) : dev * answer :=
  let s := d_swu d in
  match o with
  | Start now im w => (load hz (mkDev blank None false (d_file d) im (d_calls d) 0 now) w, Nothing)
  | Elapse dt w => (elapse hz d dt w, Nothing)
  | ClockSet now => (mkDev (d_swu d) (d_alarm d) (d_dump d) (d_file d) (d_impl d) (d_calls d) (d_mode d) now, Nothing)
  | Get i => (d, encode_answer hz s i)
  | Post i l w =>
      match decode_request hz (d_impl d) (d_now d) (has_url d) None l with
      | (None, _) => (d, NotAcceptable)
      | (Some c, _) =>
          let d' := execute (with_swu d (copy (d_now d) c s)) in
          (dump hz d' w, Changed (match encode_answer hz (d_swu d') i with Content l' => Some l' | _ => None end))
      end
  | Validate l f => let (c, told) := decode_request hz (d_impl d) (d_now d) (has_url d) f l in (d, Verdict (match c with Some _ => true | None => false end) told)
  | Available v r => (notified d (mkSwu (s_purl s) (Some v) (s_signed s) (s_action s) 1 r (s_last s) (s_time s)) 256 r ISVV, Nothing)
  | Downloaded r => (notified d (mkSwu (s_purl s) (s_nv s) (s_signed s) (s_action s) 3 r (s_last s) (s_time s)) 320 r UPGRADE, Nothing)
  | Upgrading v t r =>
      (mkDev (mkSwu (s_purl s) (Some v) (s_signed s) (s_action s) 4 r t (s_time s)) (d_alarm d) true (d_file d) (d_impl d) (d_calls d) 448 (d_now d), Nothing)
  | Finished r =>
      (mkDev (mkSwu (s_purl s) None (s_signed s) IDLE 0 r (s_last s) (s_time s)) (d_alarm d) true (d_file d) (d_impl d) (d_calls d) 0 (d_now d), Nothing)
  end.
Fixpoint run (hz : Z) (d : dev) (l : list op) : dev := match l with [] => d | o :: t => run hz (fst (step hz d o)) t end.

(** A device that has never run. *)
Definition new : dev := mkDev blank None false None no_impl [] 0 0.
