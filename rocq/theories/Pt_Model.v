(** The time of the device as synchronised by others: /x.plgd.dev/time (api/plgd/plgd_time.c). Times are ticks, [hz] of them
    per second, as uint64_t; [hz] is OC_CLOCK_SECOND. *)
From Verif Require Import Common Rep_Model Repd_Model Ael_Model Ts_Model.
From Verif Require Sd_Model.
From Coq Require Import String ZArith.
Notation rep := Rep_Model.rep.
Local Open Scope string_scope.
Local Open Scope list_scope.
Local Open Scope Z_scope.

(** plgd_time_t (api/plgd/plgd_time_internal.h:59-73); the function to set the system time is known by whether there is one. *)
Record pt := mkPt { p_lst : Z; p_upd : Z; p_status : Z; p_cb : bool }.

(** The status: 1 syncing, 2 in sync, 3 in sync from storage (include/plgd/plgd_time.h:59-65), 0 none. *)
Definition SYNCING : Z := 1.
Definition IN_SYNC : Z := 2.
Definition FROM_STORAGE : Z := 3.

(** The device: the time, what the function to set the system time was called with (last call first), and the storage. *)
Record dev := mkDev { d_pt : pt; d_calls : list Z; d_file : option cbor }.

(** Results of reading the clock of the device: the ticks since it was started, or none. *)
Definition clock := option Z.

(** dev_time_is_active (api/plgd/plgd_time.c:181-185) *)
Definition active (p : pt) : bool := 0 <? p_lst p.
(** (long) of an unsigned difference *)
Definition signed (z : Z) : Z := let u := z mod 2 ^ 64 in if u <? 2 ^ 63 then u else u - 2 ^ 64.
(** The value (oc_clock_time_t)-1 *)
Definition FAIL : Z := 2 ^ 64 - 1.
(** dev_plgd_time (api/plgd/plgd_time.c:193-235); None: the assertion on the elapsed time fails. *)
Definition dev_plgd_time (p : pt) (c : clock) : option Z :=
  if negb (active p) then Some FAIL
  else match c with
       | None => Some FAIL
       | Some cur => let e := signed (cur - p_upd p) in if e <? 0 then None else Some ((p_lst p + e) mod 2 ^ 64)
       end.

(** plgd_time_status_to_str (api/plgd/plgd_time.c:267-279); None: NULL *)
Definition status_str (s : Z) : option (list N) :=
  if s =? IN_SYNC then Some (str "in-sync") else if s =? SYNCING then Some (str "syncing")
  else if s =? FROM_STORAGE then Some (str "in-sync-from-storage") else None.
(** plgd_time_status_from_str (api/plgd/plgd_time.c:281-298) *)
Definition status_of (s : list N) : Z :=
  if list_eqb s (str "in-sync") then IN_SYNC else if list_eqb s (str "syncing") then SYNCING
  else if list_eqb s (str "in-sync-from-storage") then FROM_STORAGE else -1.

(** What a function does: it fails, it gives a result, or the process is aborted. *)
Inductive enc : Type := Crashed | Failed | Encoded (l : list rep).

(** dev_time_encode_property_time (api/plgd/plgd_time.c:342-363) *)
Definition encode_time (hz : Z) (p : pt) (c : clock) : enc :=
  if active p then
    match dev_plgd_time p c with
    | None => Crashed
    | Some t => if t =? FAIL then Failed else match clock_encode hz t 64 with Some s => Encoded [(str "time", RStr s)] | None => Failed end
    end
  else Encoded [(str "time", RStr [])].
(** dev_time_encode_property_status (api/plgd/plgd_time.c:365-383); the text NULL is read. *)
Definition encode_status (p : pt) (secure : bool) : enc :=
  if (p_status p =? 0) || negb secure then Encoded []
  else if active p then match status_str (p_status p) with Some s => Encoded [(str "status", RStr s)] | None => Crashed end
  else Encoded [(str "status", RStr [])].
(** dev_time_encode_property_last_synced_time (api/plgd/plgd_time.c:385-409) *)
Definition encode_lst (hz : Z) (p : pt) (show : bool) : enc :=
  if negb show then Encoded []
  else if active p then match clock_encode hz (p_lst p) 64 with Some s => Encoded [(str "lastSyncedTime", RStr s)] | None => Failed end
  else Encoded [(str "lastSyncedTime", RStr [])].
Definition both (a b : enc) : enc :=
  match a with Encoded x => match b with Encoded y => Encoded (x ++ y) | e => e end | e => e end.
(** The baseline properties of the resource, which has neither name nor tags (api/plgd/plgd_time.c:594-611, without the
    interface for ETags). *)
Definition baseline : list rep :=
  [(str "rt", RStrArr [str "x.plgd.dev.time"]); (str "if", RStrArr [str "oic.if.rw"; str "oic.if.baseline"])].
(** plgd_time_encode (api/plgd/plgd_time.c:411-450) for a request and for the storage *)
Definition encode (hz : Z) (p : pt) (iface : N) (secure : bool) (c : clock) : enc :=
  if negb ((iface =? 2) || (iface =? 32))%N then Failed
  else both (Encoded (if (iface =? 2)%N then baseline else [])) (both (encode_time hz p c) (both (encode_status p secure) (encode_lst hz p secure))).
Definition encode_store (hz : Z) (p : pt) : enc := encode_lst hz p true.

(** plgd_time_decode (api/plgd/plgd_time.c:452-481) *)
Fixpoint find_lst (acc : option (list N)) (l : list rep) : option (list N) :=
  match l with
  | [] => acc
  | (n, RStr s) :: t => find_lst (if list_eqb n (str "lastSyncedTime") then Some s else acc) t
  | _ :: t => find_lst acc t
  end.
Definition decode (hz : Z) (l : list rep) : option Z := match find_lst None l with Some s => clock_parse hz s | None => None end.

(** plgd_time_dump (api/plgd/plgd_time.c:491-501); [w]: the write succeeds *)
Definition dump (hz : Z) (d : dev) (w : bool) : dev :=
  match encode_store hz (d_pt d) with Encoded l => if w then mkDev (d_pt d) (d_calls d) (Some (enc_root l)) else d | _ => d end.

(** plgd_time_set (api/plgd/plgd_time.c:112-139) with dev_set_system_time (99-110), without the notification. The clock is read
    again; here it is read once per operation. *)
Definition set (d : dev) (lst upd : Z) (c : clock) : option dev :=
  let p := mkPt lst upd IN_SYNC (p_cb (d_pt d)) in
  if p_cb p then match dev_plgd_time p c with Some t => Some (mkDev p (t :: d_calls d) (d_file d)) | None => None end
  else Some (mkDev p (d_calls d) (d_file d)).
(** dev_time_set_time (api/plgd/plgd_time.c:141-167); None: the process is aborted; the flag: success *)
Definition set_time (d : dev) (lst : Z) (c : clock) : option (dev * bool) :=
  if lst =? 0 then match set d 0 0 c with Some d' => Some (d', true) | None => None end
  else match c with
       | None => Some (d, false)
       | Some m => match set d lst m c with Some d' => Some (d', true) | None => None end
       end.

(** plgd_time_load (api/plgd/plgd_time.c:515-532) *)
Definition load (hz : Z) (d : dev) (c : clock) : option dev :=
  match Sd_Model.stored (d_file d) with
  | None => Some d
  | Some o =>
      match (match o with None => Some 0 | Some l => decode hz l end) with
      | None => Some d
      | Some t => match set_time d t c with
                  | None => None
                  | Some (d', false) => Some d'
                  | Some (d', true) => let p := d_pt d' in Some (mkDev (mkPt (p_lst p) (p_upd p) FROM_STORAGE (p_cb p)) (d_calls d') (d_file d'))
                  end
      end
  end.

Inductive answer : Type := Done | NotDone | Ticks (z : Z) | Content (l : list rep) | ChangedTo (l : list rep) | BadRequest | ServerError.

Inductive op : Type :=
| SetTime (t : Z) (c : clock) (w : bool)       (* plgd_time_set_time *)
| SetStatus (s : Z)                            (* plgd_time_set_status *)
| Configure (cb : bool)                        (* plgd_time_configure *)
| Now (c : clock)                              (* plgd_time *)
| LastSynced                                   (* plgd_time_last_synced_time *)
| Status                                       (* plgd_time_status *)
| Get (secure : bool) (iface : N) (c : clock)  (* a GET request *)
| Post (l : list rep) (c : clock) (w : bool)   (* a POST request *)
| Start (cb : bool) (c : clock).               (* the process is started: plgd_time_configure, then oc_main_init *)

Definition blank_pt (cb : bool) : pt := mkPt 0 0 0 cb.

(** plgd_time_set_time, plgd_time_resource_get and plgd_time_resource_post (api/plgd/plgd_time.c:169-173, 534-592),
    main_load_resources (api/oc_main.c:300-307) *)
Definition step (hz : Z) (d : dev) (o : op) : option (dev * answer) :=
  match o with
  | SetTime t c w =>
      match set_time d t c with None => None | Some (d', ok) => if ok then Some (dump hz d' w, Done) else Some (d', NotDone) end
  | SetStatus s => Some (mkDev (mkPt (p_lst (d_pt d)) (p_upd (d_pt d)) s (p_cb (d_pt d))) (d_calls d) (d_file d), Done)
  | Configure cb => Some (mkDev (mkPt (p_lst (d_pt d)) (p_upd (d_pt d)) (p_status (d_pt d)) cb) (d_calls d) (d_file d), Done)
  | Now c => match dev_plgd_time (d_pt d) c with Some t => Some (d, Ticks t) | None => None end
  | LastSynced => Some (d, Ticks (p_lst (d_pt d)))
  | Status => Some (d, Ticks (p_status (d_pt d)))
  | Get secure iface c =>
      match encode hz (d_pt d) iface secure c with Crashed => None | Failed => Some (d, ServerError) | Encoded l => Some (d, Content l) end
  | Post l c w =>
      match decode hz l with
      | None => Some (d, BadRequest)
      | Some t =>
          match set_time d t c with
          | None => None
          | Some (d', false) => Some (d', ServerError)
          | Some (d', true) =>
              match encode hz (d_pt d') 32 true c with
              | Crashed => None
              | Failed => Some (d', ServerError)
              | Encoded l' => Some (dump hz d' w, ChangedTo l')
              end
          end
      end
  | Start cb c => match load hz (mkDev (blank_pt cb) (d_calls d) (d_file d)) c with Some d' => Some (d', Done) | None => None end
  end.
Fixpoint run (hz : Z) (d : dev) (l : list op) : option dev :=
  match l with [] => Some d | o :: t => match step hz d o with Some (d', _) => run hz d' t | None => None end end.

(** A device that has never run. *)
Definition new : dev := mkDev (blank_pt false) [] None.

(** dev_time_on_fetch with dev_time_parse_fetch_response (api/plgd/plgd_time.c:704-748), the client that fetched the time: what
    the application is told; OC_STATUS_OK is 0, OC_STATUS_INTERNAL_SERVER_ERROR is [err]. *)
Definition on_fetch (hz : Z) (err code : Z) (l : list rep) : Z * Z :=
  if code =? 0 then
    match get_s l (str "time") with
    | None => (err, 0)
    | Some s => match clock_parse hz s with Some t => (0, t) | None => (err, 0) end
    end
  else (code, 0).
