(** The auditable event list (security/oc_ael.c, security/oc_audit.c), its storage (security/oc_store.c:442-501) and the
    entries written for denied requests and unexpected messages (api/oc_ri.c:766-805, messaging/coap/engine.c:166-190). *)
From Verif Require Import Common Rep_Model Repd_Model Ts_Model Acl_Model Hex_Model.
From Coq Require Import String.
Notation rep := Rep_Model.rep.
Local Open Scope string_scope.
Local Open Scope list_scope.
Local Open Scope N_scope.

(** sizeof(oc_sec_ael_event_t) and sizeof(char pointer): they depend on the platform. *)
Record plat := mkPlat { p_event : N; p_ptr : N }.

(** oc_sec_ael_event_t (security/oc_ael_internal.h:42-52). An absent text and an empty one are both empty strings of the
    event: neither is allocated (oc_ael.c:491-496). *)
Record event := mkEvent { ev_size : N; ev_cat : N; ev_pri : N; ev_time : Z; ev_aeid : list N; ev_msg : list N; ev_aux : list (list N) }.

(** oc_sec_ael_t (security/oc_ael_internal.h:86-94). *)
Record ael := mkAel { a_cat : N; a_pri : N; a_max : N; a_unit : N; a_used : N; a_events : list event }.

(** Zeroed memory of oc_sec_ael_init (117-129) with dynamic allocation. *)
Definition fresh : ael := mkAel 0 0 0 0 0 [].

(** oc_sec_ael_calc_event_size (448-469). [None] is a NULL pointer; a list of no items and a NULL list count the same. *)
Definition text_size (s : option (list N)) : N := match s with None => 0 | Some t => N.of_nat (List.length (cstr t)) + 1 end.
Definition aux_size (p : plat) (aux : list (list N)) : N :=
  N.of_nat (List.length aux) * p_ptr p + fold_right (fun t n => N.of_nat (List.length (cstr t)) + 1 + n) 0 aux.
Definition calc_size (p : plat) (aeid msg : option (list N)) (aux : list (list N)) : N :=
  p_event p + text_size aeid + text_size msg + aux_size p aux.

(** Which allocations of oc_sec_ael_create_event succeed: the event, and each item of auxiliary information. *)
Record mem := mkMem { m_event : bool; m_aux : nat -> bool }.

Definition text_of (s : option (list N)) : list N := match s with None => [] | Some t => cstr t end.
(** oc_sec_ael_create_event (469-509): items without memory are skipped. *)
Fixpoint take_aux (ok : nat -> bool) (i : nat) (aux : list (list N)) : list (list N) :=
  match aux with [] => [] | t :: r => if ok i then cstr t :: take_aux ok (S i) r else take_aux ok (S i) r end.
Definition create (m : mem) (cat pri : N) (time : Z) (aeid msg : option (list N)) (aux : list (list N)) (sz : N) : event :=
  mkEvent sz cat pri time (text_of aeid) (text_of msg) (take_aux (m_aux m) 0 aux).

(** The loop that deletes the oldest events (423-430). The sizes are far below 2^64: sums do not wrap; the difference is
    kept modulo 2^64. *)
Fixpoint evict (need max used : N) (l : list event) : N * list event :=
  match l with
  | [] => (used, [])
  | e :: t => if max <? need + used then evict need max ((used + 2 ^ 64 - ev_size e) mod 2 ^ 64) t else (used, l)
  end.

(** oc_sec_ael_add_event (404-446) without the storage. *)
Definition add_event (p : plat) (m : mem) (a : ael) (cat pri : N) (time : Z) (aeid msg : option (list N)) (aux : list (list N)) : ael * bool :=
  if (N.land (a_cat a) cat =? 0) || (a_pri a <? pri) then (a, false)
  else
    let sz := calc_size p aeid msg aux in
    if a_max a <? sz then (a, false)
    else
      let (used, evs) := evict sz (a_max a) (a_used a) (a_events a) in
      if m_event m then
        (mkAel (a_cat a) (a_pri a) (a_max a) (a_unit a) (used + sz) (evs ++ [create m cat pri time aeid msg aux sz]), true)
      else (mkAel (a_cat a) (a_pri a) (a_max a) (a_unit a) used evs, false).

(** OC_SEC_AEL_MAX_SIZE (oc_ael_internal.h:75-78) and the filters of oc_sec_ael_default (142-153); oc_sec_ael_reset
    (391-401) empties the list. *)
Definition default_max : N := 2048.
Definition ael_default : ael := mkAel 255 4 default_max 0 0 [].

(** oc_sec_ael_free (131-140) and oc_sec_ael_init (117-129) one after the other: with dynamic allocation the records are
    new and zeroed; static records only lose their events, their size remains. *)
Definition restart (dynamic : bool) (a : ael) : ael :=
  if dynamic then fresh else mkAel (a_cat a) (a_pri a) (a_max a) (a_unit a) (a_used a) [].

(** * Encoding (212-280) *)

(** The resource's properties of the baseline interface: /oic/sec/ael with one type and two interfaces
    (security/oc_svr.c:54-56, oc_process_baseline_interface; a resource without name and tags). *)
Definition baseline : list rep :=
  [(str "rt", RStrArr [str "oic.r.ael"]); (str "if", RStrArr [str "oic.if.rw"; str "oic.if.baseline"])].

(** oc_sec_ael_max_space (85-99); a unit other than the two gives the default. *)
Definition max_space (a : ael) : N :=
  if a_unit a =? 0 then a_max a else if a_unit a =? 1 then a_max a / 1024 else default_max.
(** oc_sec_ael_used_space (100-114): the unit is the one of the first device, [unit0]. *)
Definition used_space (unit0 : N) (a : ael) : N :=
  if unit0 =? 0 then a_used a else if unit0 =? 1 then a_used a / 1024 else 0.

Definition text_prop (name : list N) (s : list N) : list rep := match s with [] => [] | _ => [(name, RStr s)] end.
(** One event (241-274): to the network with the time as text, left out if it cannot be written; to the storage with the
    time as a number. *)
Definition encode_event (hz : Z) (to_storage : bool) (e : event) : list rep :=
  [(str "category", RInt (Z.of_N (ev_cat e))); (str "priority", RInt (Z.of_N (ev_pri e)))]
  ++ (if to_storage then [(str "timestamp", RInt (ev_time e))]
      else match clock_encode hz (ev_time e) 64 with Some s => [(str "timestamp", RStr s)] | None => [] end)
  ++ text_prop (str "aeid") (ev_aeid e) ++ text_prop (str "message") (ev_msg e)
  ++ [(str "auxiliaryinfo", RStrArr (ev_aux e))].

(** oc_sec_ael_encode (212-280). [base]: the request is for the baseline interface. *)
Definition encode (hz : Z) (unit0 : N) (base to_storage : bool) (a : ael) : list rep :=
  (if to_storage || base then baseline else [])
  ++ [(str "categoryfilter", RInt (Z.of_N (a_cat a))); (str "priorityfilter", RInt (Z.of_N (a_pri a)))]
  ++ (if to_storage then [(str "maxspace", RInt (Z.of_N (a_max a))); (str "unit", RInt (Z.of_N (a_unit a)))]
      else [(str "maxspace", RInt (Z.of_N (max_space a))); (str "usedspace", RInt (Z.of_N (used_space unit0 a)))])
  ++ [(str "events", RObjArr (map (encode_event hz to_storage) (a_events a)))].

(** * Decoding (282-389) *)
Definition u8 (z : Z) : N := Z.to_N (z mod 256).

(** The first pass (286-319). *)
Definition decode_filter (from_storage : bool) (a : ael) (r : rep) : ael :=
  match snd r with
  | RInt z =>
      if list_eqb (fst r) (str "categoryfilter") then mkAel (u8 z) (a_pri a) (a_max a) (a_unit a) (a_used a) (a_events a)
      else if list_eqb (fst r) (str "priorityfilter") then mkAel (a_cat a) (u8 z) (a_max a) (a_unit a) (a_used a) (a_events a)
      else if from_storage && list_eqb (fst r) (str "maxspace")
        then mkAel (a_cat a) (a_pri a) (Z.to_N (z mod 2 ^ 64)) (a_unit a) (a_used a) (a_events a)
      else if from_storage && list_eqb (fst r) (str "unit")
        then mkAel (a_cat a) (a_pri a) (a_max a) (Z.to_N (z mod 2 ^ 32)) (a_used a) (a_events a)
      else a
  | _ => a
  end.

(** The locals of one stored event (328-335). *)
Record draft := mkDraft { d_cat : N; d_pri : N; d_time : Z; d_aeid : option (list N); d_msg : option (list N); d_aux : list (list N) }.

(** AEL_AUX_INFO_MAX_ITEMS (46): the size of the array on the stack (335). *)
Definition aux_max : nat := N.to_nat 256.

(** One attribute of a stored event (336-376): more items than the array holds are written behind it. *)
Definition decode_attr (d : draft) (r : rep) : out draft :=
  match snd r with
  | RInt z =>
      if list_eqb (fst r) (str "category") then Ok (mkDraft (u8 z) (d_pri d) (d_time d) (d_aeid d) (d_msg d) (d_aux d))
      else if list_eqb (fst r) (str "priority") then Ok (mkDraft (d_cat d) (u8 z) (d_time d) (d_aeid d) (d_msg d) (d_aux d))
      else if list_eqb (fst r) (str "timestamp") then Ok (mkDraft (d_cat d) (d_pri d) (z mod 2 ^ 64) (d_aeid d) (d_msg d) (d_aux d))
      else Ok d
  | RStr s =>
      if list_eqb (fst r) (str "aeid") then Ok (mkDraft (d_cat d) (d_pri d) (d_time d) (Some s) (d_msg d) (d_aux d))
      else if list_eqb (fst r) (str "message") then Ok (mkDraft (d_cat d) (d_pri d) (d_time d) (d_aeid d) (Some s) (d_aux d))
      else Ok d
  | RStrArr l =>
      if list_eqb (fst r) (str "auxiliaryinfo") then
        if (aux_max <? List.length l)%nat then Crash else Ok (mkDraft (d_cat d) (d_pri d) (d_time d) (d_aeid d) (d_msg d) l)
      else Ok d
  | _ => Ok d
  end.
Fixpoint decode_attrs (d : draft) (l : list rep) : out draft :=
  match l with [] => Ok d | r :: t => bind (decode_attr d r) (fun d' => decode_attrs d' t) end.

(** The events of one attribute (326-380): each goes through the filters again. *)
Fixpoint decode_events (p : plat) (m : mem) (a : ael) (l : list (list rep)) : out ael :=
  match l with
  | [] => Ok a
  | o :: t =>
      bind (decode_attrs (mkDraft 0 0 0 None None []) o)
           (fun d => decode_events p m (fst (add_event p m a (d_cat d) (d_pri d) (d_time d) (d_aeid d) (d_msg d) (d_aux d))) t)
  end.
(** The second pass (320-387). *)
Fixpoint decode_second (p : plat) (m : mem) (a : ael) (l : list rep) : out ael :=
  match l with
  | [] => Ok a
  | r :: t =>
      match snd r with
      | RObjArr o => if list_eqb (fst r) (str "events") then bind (decode_events p m a o) (fun a' => decode_second p m a' t)
                     else decode_second p m a t
      | _ => decode_second p m a t
      end
  end.
(** oc_sec_ael_decode (282-389); it always returns true. *)
Definition decode (p : plat) (m : mem) (from_storage : bool) (a : ael) (l : list rep) : out ael :=
  let a1 := fold_left (decode_filter from_storage) l a in
  if from_storage then decode_second p m a1 l else Ok a1.

(** oc_sec_dump_ael (oc_store.c:471-501): the item written. oc_sec_load_ael (442-469): an item that cannot be parsed, or
    that is no object, leaves everything as it was. *)
Definition dump (hz : Z) (a : ael) : cbor := enc_root (encode hz 0 false true a).
Definition load (p : plat) (m : mem) (a : ael) (store : option cbor) : out ael :=
  match store with
  | None => Ok a
  | Some c => match parse c with
              | Ok (PRep l) => decode p m true a l
              | Crash => Crash
              | _ => Ok a
              end
  end.

(** * The resource (164-210) *)
Inductive answer : Type := Silent | Content (l : list rep) | Changed_ | Forbidden_.

(** get_ael: any interface but the two is not answered. Masks: baseline 2, rw 32. *)
Definition get_ael (hz : Z) (unit0 : N) (a : ael) (iface : N) : answer :=
  if iface =? 2 then Content (encode hz unit0 true false a)
  else if iface =? 32 then Content (encode hz unit0 false false a) else Silent.

(** The device with its storage. *)
Record dev := mkDev { dv_log : ael; dv_store : option cbor }.

Inductive op : Type :=
| OAdd (m : mem) (written : bool) (cat pri : N) (time : Z) (aeid msg : option (list N)) (aux : list (list N))
| OPost (written rfnop : bool) (iface : N) (l : list rep)
| ODefault (written : bool)
| OBoot (dynamic : bool) (m : mem).

(** [written]: the write to the storage succeeds. *)
Definition save (hz : Z) (written : bool) (a : ael) (d : dev) : dev := mkDev a (if written then Some (dump hz a) else dv_store d).

Definition step (hz : Z) (p : plat) (d : dev) (o : op) : out (dev * answer) :=
  match o with
  | OAdd m w cat pri time aeid msg aux =>
      let (a, ok) := add_event p m (dv_log d) cat pri time aeid msg aux in
      Ok (if ok then save hz w a d else mkDev a (dv_store d), Silent)
  | OPost w rfnop iface l =>
      if rfnop then Ok (d, Forbidden_)
      else if (iface =? 2) || (iface =? 32) then
        bind (decode p (mkMem true (fun _ => true)) false (dv_log d) l) (fun a => Ok (save hz w a d, Changed_))
      else Ok (d, Silent)
  | ODefault w => Ok (save hz w ael_default d, Silent)
  | OBoot dynamic m => bind (load p m (restart dynamic (dv_log d)) (dv_store d)) (fun a => Ok (mkDev a (dv_store d), Silent))
  end.

Fixpoint run (hz : Z) (p : plat) (d : dev) (l : list op) : out dev :=
  match l with [] => Ok d | o :: t => bind (step hz p d o) (fun x => run hz p (fst x) t) end.

(** * Entries *)

(** SNPRINTFbytes (port/oc_log_internal.h:181-196) into a buffer of [room] bytes: what is printed. snprintf writes at most
    the rest of the room, less one for the terminator; its result is the whole length. *)

Fixpoint dump_bytes (room beg : nat) (first : bool) (l : list N) : list N :=
  match l with
  | [] => []
  | b :: t =>
      if (beg + 3 <=? room)%nat then
        let s := if first then hex2 b else 58 :: hex2 b in
        firstn (room - beg - 1) s ++ dump_bytes room (beg + List.length s) false t
      else []
  end.

(** coap_audit_log (messaging/coap/engine.c:166-190): the message in hexadecimal, at most 42 bytes of it. *)
Definition message_line (data : list N) : option (list N) :=
  let n := Nat.min (List.length data) 42 in
  if (n =? 0)%nat then None else Some (dump_bytes (3 * n) 0 true (firstn n data)).
Definition head_line (data : list N) : list N :=
  match data with
  | a :: b :: c :: d :: _ => 91 :: hex2 a ++ 58 :: hex2 b ++ 58 :: hex2 c ++ 58 :: hex2 d ++ [93]
  | _ => []
  end.

(** The lines of oc_ri_audit_log (api/oc_ri.c:766-805): 6 lines of 80 bytes next to each other, all zero. *)
Definition width : nat := 80.
Definition lines : nat := 6.
Definition area : nat := (lines * width)%nat.
Definition put (b : list N) (at_ : nat) (s : list N) : out (list N) :=
  if (at_ + List.length s <=? area)%nat then Ok (firstn at_ b ++ s ++ skipn (at_ + List.length s) b) else Crash.
(** snprintf into [room] bytes: nothing at all into no room. *)
Definition print (b : list N) (at_ room : nat) (s : list N) : out (list N) :=
  if (room =? 0)%nat then Ok b else put b at_ (firstn (room - 1) s ++ [0]).
(** Reading line [i]: up to the first zero. Behind the area nothing is known. *)
Definition line (b : list N) (i : nat) : out (list N) :=
  let s := skipn (i * width) b in if existsb (N.eqb 0) s then Ok (cstr s) else Crash.

(** The loop over the roles (796-800). *)
Fixpoint role_lines (b : list N) (at_ pos : nat) (roles : list (list N)) : out (list N) :=
  match roles with
  | [] => Ok b
  | r :: t => if (pos <? width)%nat
              then bind (print b (at_ + pos) (width - pos - 1) (r ++ [32])) (fun b' => role_lines b' at_ (pos + List.length r + 1) t)
              else Ok b
  end.

Definition method_str (m : N) : list N :=
  match m with 0 => str "UNKNOWN" | 1 => str "RETRIEVE" | 2 => str "UPDATE" | 3 => str "UPDATE" | _ => str "DELETE" end.
Definition state_str (s : N) : list N :=
  match s with 0 => str "RESET" | 1 => str "RFOTM" | 2 => str "RFPRO" | 3 => str "RFNOP" | _ => str "SRESET" end.

(** [ip]: the text of the peer's address, below 64 bytes; [peer]: the text of the identity and the roles of an
    authenticated peer. *)
Definition audit_area (ip : list N) (peer : option (list N * list (list N))) (uri : list N) (method state : N) : out (list N * nat) :=
  bind (print (repeat 0 area) 0 width ip) (fun b1 =>
  bind (match peer with None => Ok (b1, 1%nat) | Some (u, _) => bind (print b1 width width u) (fun b => Ok (b, 2%nat)) end) (fun x =>
  let (b2, i) := (x : list N * nat) in
  bind (put b2 (i * width) uri) (fun b3 =>
  bind (print b3 ((i + 1) * width) width (str "attempt to " ++ method_str method ++ str " the resource")) (fun b4 =>
  bind (print b4 ((i + 2) * width) width (str "device is in " ++ state_str state)) (fun b5 =>
  bind (print b5 ((i + 3) * width) width (str "No roles asserted")) (fun b6 =>
  bind (match peer with None => Ok b6 | Some (_, roles) => role_lines b6 ((i + 3) * width) 0 roles end) (fun b7 =>
  Ok (b7, (i + 4)%nat)))))))).
Fixpoint read_lines (b : list N) (i n : nat) : out (list (list N)) :=
  match n with O => Ok [] | S k => bind (line b i) (fun s => bind (read_lines b (S i) k) (fun r => Ok (s :: r))) end.
(** What is logged as auxiliary information of AC-1. *)
Definition denied_entry (ip : list N) (peer : option (list N * list (list N))) (uri : list N) (method state : N) : out (list (list N)) :=
  bind (audit_area ip peer uri method state) (fun x => read_lines (fst x) 0 (snd x)).
