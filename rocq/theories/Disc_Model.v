(** Discovery: what /oic/res answers and what a client makes of the answer (api/oc_discovery.c), with security, IPv4, TCP
    and dynamic allocation.

    Not modelled: the batch interface (see Etag_Model and C51), the answer to OIC 1.1 clients, /.well-known/core, failing
    allocations and encoders, the scope of link-local addresses and the local address of endpoints. *)
From Verif Require Import Common Query_Model Rep_Model Repd_Model Hex_Model Acl_Model Ob_Model Ri_Model Col_Model.
From Verif Require Ep_Model.
From Coq Require Import String.
Local Open Scope string_scope.
Local Open Scope list_scope.
Local Open Scope N_scope.

Notation ep := Ep_Model.ep.
Notation rep := Rep_Model.rep.
Notation has := Ep_Model.has.

(** * The server *)

(** oc_core_resource_t, include/oc_ri.h:185-225, all features *)
Definition OCF_P := 0. Definition PLGD_TIME := 1. Definition OCF_CON := 2. Definition OCF_INTROSPECTION_WK := 3.
Definition WELLKNOWNCORE := 5. Definition OCF_RES := 6. Definition OCF_MNT := 7. Definition OCF_COAPCLOUDCONF := 8.
Definition OCF_SW_UPDATE := 9. Definition OCF_SEC_DOXM := 10. Definition OCF_SEC_PSTAT := 11. Definition OCF_SEC_ACL := 12.
Definition OCF_SEC_AEL := 13. Definition OCF_SEC_CRED := 14. Definition OCF_SEC_SDI := 15. Definition OCF_SEC_SP := 16.
Definition OCF_SEC_CSR := 17. Definition OCF_SEC_ROLES := 18. Definition OCF_D := 19.

(** oc_resource_properties_t, include/oc_ri.h:56-69 *)
Definition OC_DISCOVERABLE := 1. Definition OC_OBSERVABLE := 2. Definition OC_PUSHABLE := 4. Definition OC_SECURE := 16.
Definition OC_SECURE_MCAST := 256. Definition OC_ACCESS_IN_RFOTM := 512.
(** OCF_RES_POLICY_PROPERTIES, api/oc_discovery_internal.h:47-52 *)
Definition POLICY := 7.

(** the fields of oc_resource_t used here; [d_core] is the type of a core resource; the tags are kept as the texts of
    their enumerations and the position as its three numbers *)
Record dres := mkDres { d_core : option N; d_dev : N; d_uri : list N; d_types : list (list N); d_ifs : N; d_props : N;
                        d_locn : option (list N); d_pos : option (list N); d_desc : option (list N); d_func : option (list N) }.

(** the resources: g_core_resources, g_app_resources and g_collections *)
Record server := mkServer { v_core : list dres; v_apps : list dres; v_cols : list dres;
                            v_eps : list ep;           (* oc_connectivity_get_endpoints *)
                            v_id : list N;             (* the device id *)
                            v_rfotm : bool;            (* the device is ready for ownership transfer *)
                            v_peers : bool;            (* there are peers with a secure session *)
                            v_con : bool;              (* oc_get_con_res_announced *)
                            v_latency : N;             (* oc_core_get_latency *)
                            v_oscore : bool;           (* built with OC_OSCORE *)
                            v_sdi : bool * list N * list N; (* oc_sec_sdi_t: private, id, name *)
                            v_name : option (list N) }. (* the name of /oic/res *)

(** a request for /oic/res of a device *)
Record dreq := mkDreq { q_dev : N; q_query : list N; q_origin : ep; q_if : N }.

(** api/oc_discovery.c:86-100, ep_origin_flags_and_interface_match *)
Definition origin_match (o e : ep) : bool :=
  if negb (Ep_Model.e_if o =? 0) && negb (Ep_Model.e_if o =? Ep_Model.e_if e) then false
  else negb ((has (Ep_Model.e_flags o) Ep_Model.IPV4 && has (Ep_Model.e_flags e) Ep_Model.IPV6) ||
             (has (Ep_Model.e_flags o) Ep_Model.IPV6 && has (Ep_Model.e_flags e) Ep_Model.IPV4)).

(** api/oc_core_res.c:577-595, oc_core_is_SVR *)
Definition is_svr (r : dres) (dev : N) : bool :=
  match d_core r with Some k => (OCF_SEC_DOXM <=? k) && (k <=? OCF_D - 1) && (d_dev r =? dev) | None => false end.

(** api/oc_discovery.c:102-139, oc_filter_out_ep_for_resource *)
Definition filter_out (s : server) (o : ep) (r : dres) (owned : bool) (e : ep) : bool :=
  if negb (origin_match o e) then true
  else if v_rfotm s && has (d_props r) OC_ACCESS_IN_RFOTM then false
  else (has (d_props r) OC_SECURE || owned) && negb (has (Ep_Model.e_flags e) Ep_Model.SECURED).

(** api/oc_discovery.c:141-159, discovery_encode_endpoint *)
Definition encode_ep (latency : N) (e : ep) : list rep :=
  (match Ep_Model.to_string e with Some t => [(str "ep", RStr t)] | None => [] end) ++
  (if 0 <? latency then [(str "lat", RInt (Z.of_N latency))] else []).
(** 193-207: the group endpoints *)
Definition mcast_item : list rep :=
  [(str "ep", RStr (str "coap://224.0.1.187:5683")); (str "ep", RStr (str "coap://[ff02::158]:5683"))].

(** api/oc_discovery.c:161-210, discovery_encode_endpoints *)
Definition owned_svr (s : server) (r : dres) (dev : N) : bool := is_svr r dev && (negb (v_rfotm s) || v_peers s).
Definition encode_eps (s : server) (q : dreq) (r : dres) : list (list rep) :=
  map (encode_ep (v_latency s)) (filter (fun e => negb (filter_out s (q_origin q) r (owned_svr s r (q_dev q)) e)) (v_eps s)) ++
  (if v_oscore s && has (d_props r) OC_SECURE_MCAST then [mcast_item] else []).

(** api/oc_core_res.c:162-209, oc_core_encode_interfaces_mask, without private interfaces *)
Definition public_ifs : list N := [IF_R; IF_RW; IF_A; IF_S; IF_LL; IF_CREATE; IF_B; IF_BASELINE; IF_W; IF_STARTUP; IF_STARTUP_REVERT].
Definition if_name (i : N) : list N := match find (fun e => fst e =? i) iface_table with Some e => snd e | None => [] end.
Definition encode_ifs (mask : N) : list (list N) := map if_name (filter (has mask) public_ifs).

(** api/oc_resource.c:294-335, 362-368: the tags *)
Definition encode_tags (r : dres) : list rep :=
  (match d_locn r with Some t => [(str "tag-locn", RStr t)] | None => [] end) ++
  (match d_pos r with Some p => [(str "tag-pos-rel", RDoubleArr p)] | None => [] end) ++
  (match d_desc r with Some t => [(str "tag-pos-desc", RStr t)] | None => [] end) ++
  (match d_func r with Some t => [(str "tag-func-desc", RStr t)] | None => [] end).

(** oc_core_get_resource_by_index, api/oc_core_res.c:485-518: the platform resources are shared by all devices *)
Definition core_get (s : server) (k dev : N) : option dres :=
  find (fun r => match d_core r with Some k' => (k' =? k) && ((k <? OCF_CON) || (d_dev r =? dev)) | None => false end) (v_core s).

Definition is_nonempty (t : list N) : bool := match t with [] => false | _ => true end.
(** api/oc_discovery.c:237-293, encode_resource: the attributes of the link *)
Definition link_of (s : server) (q : dreq) (with_eps : bool) (r : dres) : list rep :=
  (match d_core r with Some k => if k =? OCF_RES then [(str "rel", RStrArr [str "self"])] else [] | None => [] end) ++
  [(str "anchor", RStr (str "ocf://" ++ uuid_str (v_id s))); (str "href", RStr (d_uri r));
   (str "rt", RStrArr (filter is_nonempty (d_types r))); (str "if", RStrArr (encode_ifs (d_ifs r)));
   (str "p", RObj [(str "bm", RInt (Z.of_N (N.land (d_props r) POLICY)))])] ++
  (if with_eps then [(str "eps", RObjArr (encode_eps s q r))] else []) ++
  encode_tags r.
Definition shown (q : dreq) (r : dres) : bool :=
  match filter_rt (d_types r) (q_query q) with Some b => b | None => false end && has (d_props r) OC_DISCOVERABLE.

(** api/oc_discovery.c:295-353, encode_device_core_resources: the resources in their order *)
Definition core_kinds : list N :=
  [OCF_RES; OCF_D; OCF_INTROSPECTION_WK; OCF_MNT; OCF_SW_UPDATE; OCF_SEC_DOXM; OCF_SEC_PSTAT; OCF_SEC_ACL; OCF_SEC_AEL;
   OCF_SEC_CRED; OCF_SEC_SP; OCF_SEC_CSR; OCF_SEC_ROLES; OCF_SEC_SDI; OCF_COAPCLOUDCONF].
Definition opt_list {A} (o : option A) : list A := match o with Some a => [a] | None => [] end.
Definition core_listed (s : server) (dev : N) : list dres :=
  flat_map (fun k => opt_list (core_get s k 0)) [OCF_P; PLGD_TIME] ++
  (if v_con s then opt_list (core_get s OCF_CON dev) else []) ++
  flat_map (fun k => opt_list (core_get s k dev)) core_kinds.
(** api/oc_discovery.c:355-403, encode_device_resources *)
Definition candidates (s : server) (dev : N) : list dres :=
  core_listed s dev ++ filter (fun r => d_dev r =? dev) (v_apps s) ++ filter (fun r => d_dev r =? dev) (v_cols s).
Definition device_links (s : server) (q : dreq) (with_eps : bool) : list (list rep) :=
  map (link_of s q with_eps) (filter (shown q) (candidates s (q_dev q))).

(** what is sent: the CoAP code and the payload *)
Inductive answer := Silence | Reply (code : N) (payload : option cbor).

(** api/oc_discovery.c:405-427, send_response with oc_send_response_internal; [status] in oc_status_t *)
Definition unicast (o : ep) : bool := negb (has (Ep_Model.e_flags o) Ep_Model.MULTICAST).
Definition reply_of (status : N) (payload : option cbor) : answer :=
  match status_code status with
  | Some c => if c =? CLEAR then Silence else Reply c payload
  | None => Silence
  end.
Definition send (o : ep) (empty : bool) (status : N) (payload : cbor) : answer :=
  if negb empty then reply_of status (Some payload)
  else if status =? 4 then reply_of status None
  else if unicast o then reply_of 5 None
  else reply_of OC_IGNORE None.

(** strncasecmp on 36 bytes; the text of the id holds no zero byte *)
Definition uuid_matches (value id : list N) : bool := (List.length value =? 36)%nat && ieq value (uuid_str id).
(** api/oc_discovery.c:1046-1071, discovery_check_sduuid with 1195-1202: whether the request is looked at *)
Definition sduuid_ok (s : server) (query : list N) : bool :=
  match get_query_value query (str "sduuid") with
  | Found (Some (c :: v)) => let '(priv, id, _) := v_sdi s in negb priv && uuid_matches (c :: v) id
  | _ => true
  end.

(** api/oc_discovery.c:1074-1093, discovery_encode_sdi *)
Definition encode_sdi (s : server) : list rep :=
  let '(priv, id, name) := v_sdi s in if priv then [] else [(str "sduuid", RStr (uuid_str id)); (str "sdname", RStr name)].

(** api/oc_discovery.c:1107-1169, discovery_encode, and 1171-1208, discovery_resource_get, for the interfaces ll, baseline
    and x.plgd.if.etag; the batch interface over a connection that is not secured and any other interface give -1 *)
Definition objects_of (ls : list (list rep)) : cbor := CArr (map (fun l => CMap (enc_members l)) ls).
Definition baseline_props (s : server) (dev : N) : list rep :=
  match core_get s OCF_RES dev with
  | Some r => (match v_name s with Some n => [(str "n", RStr n)] | None => [] end) ++
              [(str "rt", RStrArr (d_types r)); (str "if", RStrArr (encode_ifs (d_ifs r)))] ++ encode_tags r
  | None => []
  end.
Definition discover (s : server) (q : dreq) : answer :=
  if negb (sduuid_ok s (q_query q)) then Silence
  else if q_if q =? IF_LL then
    let ls := device_links s q true in
    match ls with [] => send (q_origin q) true OC_IGNORE (objects_of ls) | _ => send (q_origin q) false 0 (objects_of ls) end
  else if (q_if q =? IF_BASELINE) || (q_if q =? IF_ETAG) then
    let ls := device_links s q (q_if q =? IF_BASELINE) in
    let p := CArr [CMap (enc_members (baseline_props s (q_dev q) ++ encode_sdi s ++ [(str "links", RObjArr ls)]))] in
    match ls with [] => send (q_origin q) true 4 p | _ => send (q_origin q) false 0 p end
  else send (q_origin q) true OC_IGNORE CNull.

(** * The client *)

(** one call of the discovery handler; [c_eps] are the endpoints with the device id put in them, [None] where those bytes
    were never set; [c_bm] is the number received (the code keeps its 32 lowest bits); [c_more] is only passed to a handler for all resources *)
Record call := mkCall { c_anchor : list N; c_uri : list N; c_types : list (list N); c_ifs : N;
                        c_eps : list (ep * option (list N)); c_bm : Z; c_more : bool }.
(** the variables that live across the links of a payload *)
Record keep := mkKeep { k_anchor : option (list N); k_uri : option (list N); k_types : option (list (list N)); k_ifs : N }.

(** A member of the union oc_rep_value_t (include/oc_rep.h:1195-1203) read as a pointer to an object: null, the list of
    attributes it points to, or something that is no such pointer. A string or array starts with its size. *)
Inductive ptr := Null | To (l : list rep) | Wild.
Definition as_object (v : rval) : ptr :=
  match v with
  | RNil | RArr => Null
  | RInt z => if (z =? 0)%Z then Null else Wild
  | RDouble b => if b =? 0 then Null else Wild
  | RBool b => if b then Wild else Null
  | RObj [] => Null
  | RObj l => To l
  | RObjArr [] => Null
  | RObjArr l => To (map (fun o => ([], RObj o)) l)
  | _ => Wild
  end.

(** api/oc_discovery.c:1437-1487: one object of an array of endpoints; [acc] in reverse; [dns] stands for the resolver *)
Definition resolve (dns : list N -> N -> N -> option ep) (t : list N) : option ep :=
  match Ep_Model.of_string t with
  | Ep_Model.PAddress e _ => Some e
  | Ep_Model.PName h fl p _ => dns h fl p
  | Ep_Model.PError => None
  end.
Definition unreachable (from e : ep) : bool :=
  negb (has (Ep_Model.e_flags e) Ep_Model.IPV6 && (Ep_Model.e_port e =? 5683)) &&
  negb (has (Ep_Model.e_flags e) Ep_Model.IPV4 && (Ep_Model.e_port e =? 5683)) &&
  negb (has (Ep_Model.e_flags e) Ep_Model.TCP) &&
  ((has (Ep_Model.e_flags from) Ep_Model.IPV4 && has (Ep_Model.e_flags e) Ep_Model.IPV6) ||
   (has (Ep_Model.e_flags from) Ep_Model.IPV6 && has (Ep_Model.e_flags e) Ep_Model.IPV4)).
Definition adopt (from e : ep) : ep :=
  Ep_Model.mk_ep (Ep_Model.e_flags e) (Ep_Model.e_dev from) (Ep_Model.e_addr e) (Ep_Model.e_port e) (Ep_Model.e_if from) (Ep_Model.e_sess e).
Fixpoint ep_attrs (dns : list N -> N -> N -> option ep) (from : ep) (di : option (list N)) (l : list rep)
  (acc : list (ep * option (list N))) : list (ep * option (list N)) :=
  match l with
  | [] => acc
  | (n, v) :: r =>
      match v with
      | RStr t =>
          if list_eqb n (str "ep") then
            match resolve dns t with
            | Some e => if unreachable from e then acc else ep_attrs dns from di r (acc ++ [(adopt from e, di)])
            | None => ep_attrs dns from di r acc
            end
          else ep_attrs dns from di r acc
      | _ => ep_attrs dns from di r acc
      end
  end.
Definition ep_items (dns : list N -> N -> N -> option ep) (from : ep) (di : option (list N)) (l : list (list rep)) :
  list (ep * option (list N)) := fold_left (fun acc o => ep_attrs dns from di o acc) l [].

(** the names of interfaces, 1419-1427; an item of a string array ends at its first zero byte *)
Definition ifs_of (l : list (list N)) : N := fold_left (fun m t => N.lor m (iface_mask (cstr t))) l 0.

(** api/oc_discovery.c:1397-1507: the attributes of a link; [None]: a read outside the text of the anchor *)
Record linkst := mkLinkst { l_keep : keep; l_di : option (list N); l_eps : list (ep * option (list N)); l_bm : Z }.
Definition link_attr (dns : list N -> N -> N -> option ep) (from : ep) (st : linkst) (a : rep) : option linkst :=
  let k := l_keep st in
  match snd a with
  | RStr t =>
      if list_eqb (fst a) (str "anchor") then
        if (List.length t <? 6)%nat then None
        else Some (mkLinkst (mkKeep (Some t) (k_uri k) (k_types k) (k_ifs k))
                            (match snd (str_to_uuid_v1 (firstn 37 (cstr (skipn 6 t)))) with Some u => Some u | None => l_di st end)
                            (l_eps st) (l_bm st))
      else if list_eqb (fst a) (str "href") then
        Some (mkLinkst (mkKeep (k_anchor k) (Some t) (k_types k) (k_ifs k)) (l_di st) (l_eps st) (l_bm st))
      else Some st
  | RStrArr l =>
      if list_eqb (fst a) (str "rt") then
        Some (mkLinkst (mkKeep (k_anchor k) (k_uri k) (Some l) (k_ifs k)) (l_di st) (l_eps st) (l_bm st))
      else Some (mkLinkst (mkKeep (k_anchor k) (k_uri k) (k_types k) (ifs_of l)) (l_di st) (l_eps st) (l_bm st))
  | RObjArr l =>
      let es := ep_items dns from (l_di st) l in
      Some (mkLinkst k (l_di st) (match es with [] => l_eps st | _ => es end) (l_bm st))
  | RObj ((n, RInt z) :: _) =>
      if list_eqb (fst a) (str "p") && list_eqb n (str "bm") then Some (mkLinkst k (l_di st) (l_eps st) z) else Some st
  | _ => Some st
  end.
Fixpoint link_attrs (dns : list N -> N -> N -> option ep) (from : ep) (st : linkst) (l : list rep) : option linkst :=
  match l with
  | [] => Some st
  | a :: r => match link_attr dns from st a with Some st' => link_attrs dns from st' r | None => None end
  end.

(** the result of a payload: the calls made and whether the handler asked to stop, or undefined behaviour *)
Inductive outcome := Calls (cs : list call) (stopped : bool) | Undefined.

(** api/oc_discovery.c:1390-1527: the loop over the links; [stop] is what the handler answers. The types, the anchor and
    the URI of the handler are C strings. *)
Fixpoint links_run (dns : list N -> N -> N -> option ep) (from : ep) (stop : call -> bool) (k : keep) (acc : list call) (ls : list ptr) : outcome :=
  match ls with
  | [] => Calls acc false
  | p :: r =>
      match p with
      | Wild => Undefined
      | _ =>
          match link_attrs dns from (mkLinkst k None [] 0) (match p with To l => l | _ => [] end) with
          | None => Undefined
          | Some st =>
              let k' := l_keep st in
              match l_eps st, k_anchor k', k_uri k', k_types k' with
              | e :: es, Some a, Some u, Some t =>
                  let c := mkCall (cstr a) (cstr u) (map cstr t) (k_ifs k') (e :: es) (l_bm st) (match r with [] => false | _ => true end) in
                  if stop c then Calls (acc ++ [c]) true else links_run dns from stop k' (acc ++ [c]) r
              | _, _, _, _ => links_run dns from stop k' acc r
              end
          end
      end
  end.

(** 1354-1389: where the links are; the last array of objects named links wins *)
Definition find_links (l : list rep) (dflt : list ptr) : list ptr :=
  fold_left (fun acc a => match snd a with
                          | RObjArr o => if list_eqb (fst a) (str "links") then map (fun x => as_object (RObj x)) o else acc
                          | _ => acc
                          end) l dflt.
Definition keep0 : keep := mkKeep None None None 0.
Definition root_links (p : parsed) : option (list ptr) :=
  match p with
  | PRep [] => Some []
  | PRep ((n, v) :: r) =>
      let all := map (fun a => as_object (snd a)) ((n, v) :: r) in
      match as_object v with
      | Wild => None
      | To l => Some (find_links l all)
      | Null => Some (find_links ((n, v) :: r) all)
      end
  | PArr [] => Some []
  | PArr (o :: r) => Some (find_links o (map (fun x => as_object (RObj x)) (o :: r)))
  | PEmptyArray | PNull => Some []
  end.
(** api/oc_discovery.c:1336-1527, oc_discovery_process_payload *)
Definition process (dns : list N -> N -> N -> option ep) (from : ep) (stop : call -> bool) (payload : cbor) : outcome :=
  match parse payload with
  | Crash => Undefined
  | Err => Calls [] false
  | Ok p => match root_links p with None => Undefined | Some ls => links_run dns from stop keep0 [] ls end
  end.
