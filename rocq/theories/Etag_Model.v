(** ETags (api/oc_etag.c) and the batch discovery requests that use them (api/oc_discovery.c), built with storage,
    security, OC_RES_BATCH_SUPPORT and incremental changes.

    Every call of oc_etag_get reads the clock and draws a random number: both are inputs.  Resources stand in the list
    in the order of oc_resources_iterate (platform resources first).  The content of a resource is a number standing
    for its representation, [crc] the checksum of a representation; a change of content and the following
    oc_notify_resource_changed are one step. *)
From Verif Require Import Common.
Local Open Scope N_scope.

Definition two64 : N := 18446744073709551616.

(** A resource: whether it is a platform resource (else of a device), its path, ETag and content, whether the store
    leaves it out (oc_etag_dump_ignore_resource, oc_etag.c:211-230), whether its checksum can be calculated
    (oc_resource_get_crc64), whether it is the discovery resource. *)
Record res := mk_res {
  e_plat : bool; e_dev : N; e_uri : list N; e_tag : N; e_con : N; e_ign : bool; e_crc : bool; e_disc : bool }.
Definition set_tag (r : res) (t : N) : res :=
  mk_res (e_plat r) (e_dev r) (e_uri r) t (e_con r) (e_ign r) (e_crc r) (e_disc r).

(** The device whose store is used: platform resources have one store (oc_etag.c:299-326). *)
Definition home (r : res) : N := if e_plat r then 0 else e_dev r.

(** An entry of the stores: store (platform or device), path, ETag, checksum. *)
Record entry := mk_entry { s_plat : bool; s_dev : N; s_uri : list N; s_tag : N; s_crc : N }.

Record st := mk_st { g_etag : N; g_res : list res; g_store : list entry }.

(** oc_etag_set_global, oc_etag.c:79-90. *)
Definition set_global (e : N) : N := if e =? 0 then 1 else e.

(** etag_random, oc_etag.c:67-71, and oc_etag_get, oc_etag.c:92-102; the additions are of uint64_t. *)
Definition draw := (N * N)%type.
Definition add_random (e : N) (d : draw) : N := (e + (snd d mod 1000 + 1)) mod two64.
Definition get (g : N) (d : draw) : N := set_global (add_random (if g <? fst d then fst d else g) d).

(** oc_etag_encode_resource_etag and oc_etag_dump, oc_etag.c:232-326. *)
Definition dump (crc : N -> N) (rs : list res) : list entry :=
  map (fun r => mk_entry (e_plat r) (home r) (e_uri r) (e_tag r) (crc (e_con r)))
      (filter (fun r => negb (e_ign r) && negb (e_tag r =? 0) && e_crc r) rs).

(** oc_etag_decode_resource_etag and etag_iterate_update_resources_by_rep, oc_etag.c:327-397: the ETag restored. *)
Definition entry_of (r : res) (e : entry) : bool :=
  Bool.eqb (s_plat e) (e_plat r) && (s_dev e =? home r) && list_eqb (s_uri e) (e_uri r).
Definition restored (crc : N -> N) (store : list entry) (r : res) : option N :=
  match find (entry_of r) store with
  | Some e => if negb (s_tag e =? 0) && e_crc r && (s_crc e =? crc (e_con r)) then Some (s_tag e) else None
  | None => None
  end.

(** New ETags for the resources selected, in turn (etag_iterate_update_empty_etag 429-437, etag_iterate_reset_etag
    678-684). *)
Fixpoint renew (f : res -> bool) (inp : nat -> draw) (n : nat) (g : N) (rs : list res) : nat * N * list res :=
  match rs with
  | [] => (n, g, [])
  | r :: rest =>
      if f r then
        let g1 := get g (inp n) in
        let '(n', g', rest') := renew f inp (S n) g1 rest in (n', g', set_tag r g1 :: rest')
      else
        let '(n', g', rest') := renew f inp n g rest in (n', g', r :: rest')
  end.

(** oc_etag_load_from_storage with from_storage_only false, oc_etag.c:450-505, and oc_etag_load_and_clear, 507-513.
    [can] says which devices are in normal operation. *)
Definition updatable (can : N -> bool) (r : res) : bool := e_plat r || can (e_dev r).
Definition load (crc : N -> N) (can : N -> bool) (inp : nat -> draw) (n : nat) (s : st) : st :=
  let etag := get (g_etag s) (inp n) in
  let cleared := map (fun r => if updatable can r then
                                 match restored crc (g_store s) r with Some t => set_tag r t | None => set_tag r 0 end
                               else r) (g_res s) in
  let etag := fold_left (fun a r => match restored crc (g_store s) r with Some t => if a <? t then t else a | None => a end) (g_res s) etag in
  let g := set_global (add_random etag (inp (S n))) in
  let '(_, g, rs) := renew (fun r => updatable can r && (e_tag r =? 0)) inp (S (S n)) g cleared in
  mk_st g rs [].

(** A start of the device: the global value is 0, each resource is created with a new ETag (oc_populate_resource_object,
    api/oc_server_api.c:334-360; oc_core_populate_resource, api/oc_core_res.c:553), then the ETags are loaded. *)
Definition restart (crc : N -> N) (can : N -> bool) (inp : nat -> draw) (cfg : list res) (s : st) : st :=
  let '(n, g, rs) := renew (fun _ => true) inp 0 0 cfg in
  load crc can inp n (mk_st g rs (g_store s)).

Definition same_res (a b : res) : bool :=
  Bool.eqb (e_plat a) (e_plat b) && (home a =? home b) && list_eqb (e_uri a) (e_uri b).

Inductive op :=
| Create (r : res) (d : draw)
| Change (r : res) (d : draw)
| Remove (r : res)
| ResetDev (dev : N) (inp : nat -> draw)
| Dump
| Start (can : N -> bool) (inp : nat -> draw) (cfg : list res).
Definition step (crc : N -> N) (s : st) (p : op) : st :=
  match p with
  | Create r d => let g := get (g_etag s) d in mk_st g (g_res s ++ [set_tag r g]) (g_store s)
  | Change r d =>
      (* oc_resource_update_etag, oc_etag.c:715-719 *)
      let g := get (g_etag s) d in
      mk_st g (map (fun x => if same_res x r then set_tag r g else x) (g_res s)) (g_store s)
  | Remove r => mk_st (g_etag s) (filter (fun x => negb (same_res x r)) (g_res s)) (g_store s)
  | ResetDev dev inp =>
      (* oc_etag_on_reset, oc_etag.c:686-696 *)
      let '(_, g, rs) := renew (fun r => negb (e_plat r) && (e_dev r =? dev)) inp 0 (g_etag s) (g_res s) in
      mk_st g rs (filter (fun e => s_plat e || negb (s_dev e =? dev)) (g_store s))
  | Dump => mk_st (g_etag s) (g_res s) (dump crc (g_res s))
  | Start can inp cfg => restart crc can inp cfg s
  end.

(** * Batch discovery *)

(** oc_discovery_get_batch_etag, oc_discovery.c:872-897; [acc]: the resource is in the batch response for the client
    (oc_discovery_resource_is_in_batch_response, 646-680, with skipDiscoveryResource false). *)
Definition batch_etag (acc : res -> bool) (rs : list res) : N :=
  fold_left (fun a r => if acc r && (a <? e_tag r) then e_tag r else a) rs 0.

(** discovery_batch_has_resource_with_etag, 927-941. *)
Definition has_etag (acc : res -> bool) (rs : list res) (t : N) : bool := existsb (fun r => acc r && (e_tag r =? t)) rs.

(** discovery_find_incremental_updates_etag, 970-999, for a request with the query key; [e0] is the ETag option if it
    has eight bytes, [cs] the values in the query (discovery_iterate_incremental_updates, 950-968). *)
Definition find_etag (acc : res -> bool) (rs : list res) (e0 : option N) (cs : list N) : N :=
  fold_left (fun a c => if c <? a then a else if has_etag acc rs c then c else a) cs
    (match e0 with Some e => if has_etag acc rs e then e else 0 | None => 0 end).

(** discovery_process_batch_request, 1012-1042: [None] is 2.03, else the resources in the response
    (process_batch_request_filter_by_etag, 1001-1006; the discovery resource itself is left out). *)
Definition batch (acc : res -> bool) (rs : list res) (e0 : option N) (cs : list N) : option (list res) :=
  let t := find_etag acc rs e0 cs in
  if t =? 0 then Some (filter (fun r => acc r && negb (e_disc r)) rs)
  else
    let l := filter (fun r => acc r && negb (e_disc r) && (t <? e_tag r)) rs in
    match l with [] => None | _ => Some l end.

(** ri_invoke_coap_set_etag, api/oc_ri.c:1638-1691: a GET request with the ETag [e0] of eight bytes is answered with
    2.03 when it is the ETag [t] of the resource. *)
Definition not_modified (t : N) (e0 : option N) : bool :=
  negb (t =? 0) && match e0 with Some e => e =? t | None => false end.
