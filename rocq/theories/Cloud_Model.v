(** The connection of a device to a cloud: what is kept in storage (api/cloud/oc_cloud_store.c, oc_cloud_endpoints.c), when a
    failed attempt is repeated (oc_cloud_schedule.c), and how registration moves from server to server (oc_cloud_manager.c). *)
From Verif Require Import Common Rep_Model Hex_Model Repd_Model Ea_Model.
From Coq Require Import String.
Local Open Scope string_scope.
Local Open Scope list_scope.
Local Open Scope N_scope.

(** * The stored configuration *)

(** oc_cloud_store_t (api/cloud/oc_cloud_store_internal.h:40-55). A string that is NULL and an empty one are both []. *)
Record store : Type := mk_st {
  st_servers : eas;
  st_provider : list N; st_uid : list N; st_access : list N; st_refresh : list N;
  st_status : N; st_cps : N; st_expires : Z }.

(** OCF_COAPCLOUDCONF_DEFAULT_CIS, OCF_COAPCLOUDCONF_DEFAULT_SID (api/cloud/oc_cloud_resource_internal.h:40-57). *)
Definition default_cis : list N := str "coaps+tcp://127.0.0.1".
Definition default_sid : list N := repeat 0 16.

(** The text of a server id (util/oc_endpoint_address.c:523-528). *)
Definition sid_text (u : list N) : list N := match uuid_to_str u UUID_LEN with Some t => t | None => [] end.

(** oc_endpoint_address_encode (util/oc_endpoint_address.c:502-530); the name key is empty in the first use of
    oc_cloud_store_encode and "name" in the list, an id of the other kind is left out. *)
Definition encode_address (uri_key uuid_key name_key : list N) (e : ea) : list rep :=
  (uri_key, RStr (a_uri e)) ::
  match a_meta e with
  | MName n => match name_key with [] => [] | _ => [(name_key, RStr (match n with Some s => s | None => [] end))] end
  | MUuid u => [(uuid_key, RStr (sid_text u))]
  end.

(** oc_endpoint_addresses_encode with skipIfSingleAndSelected (util/oc_endpoint_address.c:532-574). *)
Definition encode_list (l : list ea) : list rep :=
  match l with
  | [] | [_] => []
  | _ => [(str "x.org.iotivity.servers", RObjArr (map (encode_address (str "uri") (str "id") (str "name")) l))]
  end.

(** oc_cloud_store_encode (77-107). [None]: the assertion that the selected server has a UUID fails. *)
Definition encode (s : store) : option (list rep) :=
  let rest := encode_list (l_items (st_servers s)) ++
    [ (str "auth_provider", RStr (st_provider s)); (str "uid", RStr (st_uid s));
      (str "access_token", RStr (st_access s)); (str "refresh_token", RStr (st_refresh s));
      (str "status", RInt (Z.of_N (st_status s))); (str "cps", RInt (Z.of_N (st_cps s)));
      (str "expires_in", RInt (st_expires s)) ] in
  match selected (st_servers s) with
  | None => Some rest
  | Some e => match a_meta e with
              | MName _ => None
              | MUuid _ => Some (encode_address (str "ci_server") (str "sid") [] e ++ rest)
              end
  end.

(** cloud_store_data_t (150-162). *)
Record data : Type := mk_cd {
  cd_servers : option (list (list rep)); cd_server : option (list N); cd_sid : option (list N);
  cd_provider : option (list N); cd_uid : option (list N); cd_access : option (list N); cd_refresh : option (list N);
  cd_status : N; cd_cps : N; cd_expires : Z }.

Inductive out (A : Type) : Type := Ok (a : A) | Refused | Abort_.
Arguments Ok {A} _. Arguments Refused {A}. Arguments Abort_ {A}.

(** (uint8_t)rep->value.integer behind the assertion (207-216). *)
Definition byte_prop (z : Z) : option N := if (z <=? 255)%Z then Some (Z.to_N (z mod 256)) else None.

(** cloud_store_parse_string_property, _int_property, _object_array_property (164-241) and the switch of
    oc_cloud_store_decode (279-302). *)
Definition parse_prop (d : data) (r : rep) : out data :=
  let n := fst r in
  match snd r with
  | RObjArr l =>
      if list_eqb n (str "x.org.iotivity.servers")
      then Ok (mk_cd (match l with [] => None | _ => Some l end) (cd_server d) (cd_sid d) (cd_provider d) (cd_uid d) (cd_access d) (cd_refresh d) (cd_status d) (cd_cps d) (cd_expires d))
      else Refused
  | RStr v =>
      if list_eqb n (str "ci_server") then Ok (mk_cd (cd_servers d) (Some v) (cd_sid d) (cd_provider d) (cd_uid d) (cd_access d) (cd_refresh d) (cd_status d) (cd_cps d) (cd_expires d))
      else if list_eqb n (str "sid") then Ok (mk_cd (cd_servers d) (cd_server d) (Some v) (cd_provider d) (cd_uid d) (cd_access d) (cd_refresh d) (cd_status d) (cd_cps d) (cd_expires d))
      else if list_eqb n (str "auth_provider") then Ok (mk_cd (cd_servers d) (cd_server d) (cd_sid d) (Some v) (cd_uid d) (cd_access d) (cd_refresh d) (cd_status d) (cd_cps d) (cd_expires d))
      else if list_eqb n (str "uid") then Ok (mk_cd (cd_servers d) (cd_server d) (cd_sid d) (cd_provider d) (Some v) (cd_access d) (cd_refresh d) (cd_status d) (cd_cps d) (cd_expires d))
      else if list_eqb n (str "access_token") then Ok (mk_cd (cd_servers d) (cd_server d) (cd_sid d) (cd_provider d) (cd_uid d) (Some v) (cd_refresh d) (cd_status d) (cd_cps d) (cd_expires d))
      else if list_eqb n (str "refresh_token") then Ok (mk_cd (cd_servers d) (cd_server d) (cd_sid d) (cd_provider d) (cd_uid d) (cd_access d) (Some v) (cd_status d) (cd_cps d) (cd_expires d))
      else Refused
  | RInt z =>
      if list_eqb n (str "status") then match byte_prop z with None => Abort_ | Some b => Ok (mk_cd (cd_servers d) (cd_server d) (cd_sid d) (cd_provider d) (cd_uid d) (cd_access d) (cd_refresh d) b (cd_cps d) (cd_expires d)) end
      else if list_eqb n (str "cps") then match byte_prop z with None => Abort_ | Some b => Ok (mk_cd (cd_servers d) (cd_server d) (cd_sid d) (cd_provider d) (cd_uid d) (cd_access d) (cd_refresh d) (cd_status d) b (cd_expires d)) end
      else if list_eqb n (str "expires_in") then Ok (mk_cd (cd_servers d) (cd_server d) (cd_sid d) (cd_provider d) (cd_uid d) (cd_access d) (cd_refresh d) (cd_status d) (cd_cps d) z)
      else Refused
  | _ => Refused
  end.
Fixpoint parse_props (d : data) (l : list rep) : out data :=
  match l with [] => Ok d | r :: t => match parse_prop d r with Ok d' => parse_props d' t | x => x end end.

(** The slots the pool hands out, by number of the request; [None] when there is none left. *)
Definition pool := nat -> option N.

(** The loop over the servers (api/cloud/oc_cloud_endpoints.c:85-122); [k] slots have been asked for. *)
Fixpoint add_servers (mem : pool) (k : nat) (s : eas) (l : list (list rep)) : eas * bool :=
  match l with
  | [] => (s, true)
  | o :: t =>
      match get_s o (str "uri"), get_s o (str "id") with
      | Some u, Some i =>
          match str_to_uuid_v1 i with
          | (z, Some v) =>
              if (z <? 0)%Z then add_servers mem k s t
              else if contains s u then add_servers mem k s t
              else match add s u (MUuid v) (mem k) with
                   | (s', Some _) => add_servers mem (S k) s' t
                   | (s', None) => (s', false)
                   end
          | (_, None) => add_servers mem k s t
          end
      | _, _ => add_servers mem k s t
      end
  end.

(** oc_cloud_endpoint_addresses_set (50-125). *)
Definition addresses_set (mem : pool) (s : eas) (u : list N) (id : list N) (servers : option (list (list rep))) : eas * bool :=
  match init (l_log (deinit s)) u (MUuid id) (mem 0%nat) with
  | (s', false) => (s', false)
  | (s', true) => match servers with None => (s', true) | Some l => add_servers mem 1%nat s' l end
  end.

(** cloud_store_set_servers (243-266). *)
Definition set_servers (mem : pool) (s : eas) (u : option (list N)) (id : option (list N)) (servers : option (list (list rep))) : eas * bool :=
  let uri := match u with Some v => v | None => [] end in
  match id with
  | None => addresses_set mem s uri default_sid servers
  | Some t => match str_to_uuid_v1 t with
              | (z, Some v) => if (z =? 16)%Z then addresses_set mem s uri v servers else (s, false)
              | (_, None) => (s, false)
              end
  end.

Definition or_keep (x : option (list N)) (y : list N) : list N := match x with Some v => v | None => y end.

(** oc_cloud_store_decode (268-327). A failure to set the servers is only logged. *)
Definition decode (mem : pool) (l : list rep) (s : store) : out store :=
  match parse_props (mk_cd None None None None None None None (st_status s) (st_cps s mod 256) (st_expires s)) l with
  | Ok d =>
      let sv := match cd_server d, cd_servers d with
                | None, None => st_servers s
                | _, _ => fst (set_servers mem (st_servers s) (cd_server d) (cd_sid d) (cd_servers d))
                end in
      Ok (mk_st sv (or_keep (cd_provider d) (st_provider s)) (or_keep (cd_uid d) (st_uid s)) (or_keep (cd_access d) (st_access s))
                (or_keep (cd_refresh d) (st_refresh s)) (cd_status d) (cd_cps d) (cd_expires d))
  | Refused => Refused
  | Abort_ => Abort_
  end.

(** oc_cloud_store_initialize (361-386): the default server, everything else empty. *)
Definition initialize (mem : option N) (log : list (option (list N))) : store :=
  mk_st (fst (init log default_cis (MUuid default_sid) mem)) [] [] [] [] 0 0 0%Z.

(** oc_cloud_store_load (341-359): [None] is a missing or unreadable file, [slot] the slot taken by reinitialising. *)
Definition load (mem : pool) (slot : option N) (file : option (list rep)) (s : store) : out (bool * store) :=
  match file with
  | None => Ok (false, initialize slot (l_log (st_servers s)))
  | Some l => match decode mem l s with
              | Ok s' => Ok (true, s')
              | Refused => Ok (false, initialize slot (l_log (st_servers s)))
              | Abort_ => Abort_
              end
  end.

(** * The retry schedule (api/cloud/oc_cloud_schedule.c) *)

(** OC_CLOUD_RETRY_TIMEOUTS_SIZE (api/cloud/oc_cloud_schedule_internal.h:42) and the defaults (35-43). *)
Definition slots : nat := 6.
Definition default_timeouts : list N := [2000; 4000; 8000; 16000; 32000; 64000].

(** oc_cloud_set_retry_timeouts (45-75); [None] is the NULL pointer. *)
Definition set_timeouts (t : list N) (a : option (list N)) : list N * bool :=
  match a with
  | None => (default_timeouts, true)
  | Some l => if (slots <? List.length l)%nat || existsb (N.eqb 0) l then (t, false)
              else (l ++ repeat 0 (slots - List.length l), true)
  end.

Fixpoint prefix_nz (l : list N) : list N := match l with [] => [] | x :: r => if x =? 0 then [] else x :: prefix_nz r end.
(** oc_cloud_get_retry_timeouts (77-91); [None] is -1. *)
Definition get_timeouts (t : list N) (size : nat) : option (list N) :=
  let l := prefix_nz (firstn slots t) in if (size <? List.length l)%nat then None else Some l.

(** cloud_retry_is_over (93-98). *)
Definition is_over (t : list N) (c : N) : bool := (N.of_nat slots <=? c) || (nth (N.to_nat c) t 0 =? 0).

(** default_schedule_action (100-119). [checks]: assertions are compiled in. *)
Inductive turn : Type := Over | Wait (delay timeout : N) | Fail_assert | Div_zero.
Definition schedule (checks : bool) (t : list N) (c rnd : N) : turn :=
  if is_over t c then Over
  else let ms := nth (N.to_nat c) t 0 in
       if checks && (ms <? 1000) then Fail_assert
       else if ms / 2 =? 0 then Div_zero
       else Wait (ms / 2 + rnd mod (ms / 2)) (ms / 1000).

(** * Registration (api/cloud/oc_cloud_manager.c, oc_cloud_context.c) *)

(** The parts of oc_cloud_context_t that registration uses: the servers, retry.count, and registration_ctx. *)
Record ctx : Type := mk_cx { c_servers : eas; c_count : N; c_initial : option (list N); c_remaining : N; c_changed : bool }.

(** oc_cloud_registration_context_init (oc_cloud_context.c:321-336) with at most 255 servers (the assertion). *)
Definition reg_init (s : eas) : ctx :=
  mk_cx s 0 (selected_uri s) (match selected s with None => 0 | Some _ => (N.of_nat (List.length (l_items s)) - 1) mod 256 end) false.

(** default_schedule_action and cloud_schedule_action (146-172) for a registration. When the retries are over, the next server
    is selected; the callback of the list, cloud_context_on_server_change (oc_cloud_context.c:63-71), notes a change. *)
Definition schedule_register (checks : bool) (t : list N) (c : ctx) (retry : bool) (rnd : N) : ctx * turn :=
  let n := if retry then (c_count c + 1) mod 256 else 0 in
  match schedule checks t n rnd with
  | Over => let (s, ch) := select_next (c_servers c) in (mk_cx s n (c_initial c) (c_remaining c) (c_changed c || ch), Over)
  | x => (mk_cx (c_servers c) n (c_initial c) (c_remaining c) (c_changed c), x)
  end.

(** What becomes of one attempt: it cannot be sent at all, it is lost (a connection error or a timeout), it is refused with
    another error, or it succeeds. *)
Inductive answer : Type := Unsent | Lost | Denied | Accepted.
(** Waiting for the next attempt; about to reconnect; given up; registered; stopped by an assertion or a division by zero. *)
Inductive phase : Type := Trying | Restarting | Failed | Registered | Crashed.
(** With the servers that were tried, oldest first. *)
Record reg : Type := mk_rg { g_ctx : ctx; g_phase : phase; g_tries : list (option (list N)) }.

Definition phase_of (x : turn) (over : phase) : phase :=
  match x with Wait _ _ => Trying | Over => over | _ => Crashed end.

(** cloud_start_process (112-149) for a device that is ready to register. *)
Definition start (checks : bool) (t : list N) (g : reg) (rnd : N) : reg :=
  let (c, x) := schedule_register checks t (g_ctx g) false rnd in mk_rg c (phase_of x Restarting) (g_tries g).

(** cloud_manager_register_check_retry_with_changed_server (334-353). *)
Definition may_change (c : ctx) : bool :=
  negb (c_remaining c =? 0) && c_changed c && match c_initial c with Some u => contains (c_servers c) u | None => contains (c_servers c) [] end.

(** cloud_manager_register_async (407-442) and cloud_manager_register_handler (355-405). *)
Definition attempt (checks : bool) (t : list N) (g : reg) (a : answer) (rnd : N) : reg :=
  let tries := g_tries g ++ [selected_uri (c_servers (g_ctx g))] in
  match a with
  | Accepted => mk_rg (g_ctx g) Registered tries
  | Denied => mk_rg (g_ctx g) Failed tries
  | Unsent => let (c, x) := schedule_register checks t (g_ctx g) true rnd in mk_rg c (phase_of x Failed) tries
  | Lost =>
      let (c, x) := schedule_register checks t (g_ctx g) true rnd in
      match x with
      | Over => if may_change c then mk_rg (mk_cx (c_servers c) (c_count c) (c_initial c) ((c_remaining c + 255) mod 256) false) Restarting tries
                else mk_rg c Failed tries
      | _ => mk_rg c (phase_of x Failed) tries
      end
  end.

(** One step of the manager: the next attempt with its answer, or the reconnection. *)
Definition step (checks : bool) (t : list N) (g : reg) (ar : answer * N) : reg :=
  match g_phase g with
  | Trying => attempt checks t g (fst ar) (snd ar)
  | Restarting => start checks t g (snd ar)
  | _ => g
  end.
Definition run (checks : bool) (t : list N) (g : reg) (l : list (answer * N)) : reg := fold_left (step checks t) l g.
(** The manager is started with the given servers. *)
Definition begin (checks : bool) (t : list N) (s : eas) (rnd : N) : reg := start checks t (mk_rg (reg_init s) Failed []) rnd.

(** * Answers of the cloud *)

(** manager_payload_get_string_property (170-180). *)
Definition nonempty_s (l : list rep) (k : list N) : option (list N) :=
  match get_s l k with Some [] => None | x => x end.

Definition set_tokens (s : store) (a r u : list N) (e : Z) : store :=
  mk_st (st_servers s) (st_provider s) u a r (if (0 <? e)%Z then N.lor (st_status s) 4 else st_status s) (st_cps s) e.

(** cloud_manager_handle_register_response (182-220). *)
Definition register_response (s : store) (l : list rep) : store * bool :=
  match nonempty_s l (str "accesstoken"), nonempty_s l (str "refreshtoken"), nonempty_s l (str "uid"), get_i l (str "expiresin") with
  | Some a, Some r, Some u, Some e => (set_tokens s a r u e, true)
  | _, _, _, _ => (s, false)
  end.

(** cloud_manager_handle_refresh_token_response (698-733). *)
Definition refresh_response (s : store) (l : list rep) : store * bool :=
  match nonempty_s l (str "accesstoken"), nonempty_s l (str "refreshtoken"), get_i l (str "expiresin") with
  | Some a, Some r, Some e => (set_tokens s a r (st_uid s) e, true)
  | _, _, _ => (s, false)
  end.

(** cloud_manager_handle_redirect_response (222-278), without the endpoint of the connection, which is reset.
    [None]: the assertion that the selected server has a UUID fails. *)
Definition redirect (s : eas) (l : list rep) (mem : option N) : option (eas * bool) :=
  match nonempty_s l (str "redirecturi") with
  | None => Some (s, false)
  | Some u =>
      if is_selected s u then Some (s, true)
      else
        let go (orig : option ea) (sid : list N) :=
          let '(s1, ok) := if contains s u then (s, true)
                           else match add s u (MUuid sid) mem with (s', Some _) => (s', true) | (s', None) => (s', false) end in
          if negb ok then (s1, false)
          else let s2 := match orig with Some e => fst (remove_ s1 (a_ptr e)) | None => s1 end in
               (fst (select_uri s2 u), true) in
        match selected s with
        | None => Some (go None default_sid)
        | Some e => match a_meta e with MName _ => None | MUuid v => Some (go (Some e) v) end
        end
  end.

(** cloud_manager_calculate_refresh_token_expiration (563-581). *)
Definition refresh_delay (ms : N) : N :=
  if 3600000 <? ms then ms - 600000
  else if 240000 <? ms then ms - 120000
  else if 20000 <? ms then ms - 10000
  else ms.
(** The multiplication in cloud_manager_login_handler (603-608) on a positive int64_t; [None] is a signed overflow. *)
Definition expires_ms (e : Z) : option N := if (e * 1000 <? 9223372036854775808)%Z then Some (Z.to_N (e * 1000)) else None.
