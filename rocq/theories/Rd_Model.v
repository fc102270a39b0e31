(** The links of a device in the resource directory of its cloud: api/cloud/oc_cloud_rd.c and api/cloud/rd_client.c.

    One device.  The three lists are the C lists of the context; a list operation that is given a link finds it by its
    address, here the first link with the property by which it was just found.  Sending, allocation and the onboarding
    state are part of the environment of a step, what is sent is its output.  Log output, the endpoint and the
    priority of requests are left out. *)
From Verif Require Import Common Rep_Model Repd_Model Coap_Model Buf_Model Ep_Model Jp_Model Ri_Model Disc_Model.
From Coq Require Import String.
Notation rep := Rep_Model.rep.
Local Open Scope string_scope.
Local Open Scope list_scope.
Local Open Scope N_scope.

(** oc_resource_t, what is published of it; [r_id] stands for its address. *)
Record res := mk_res { r_id : nat; r_uri : list N; r_types : list (list N); r_ifs : N; r_props : N }.
(** oc_link_t (api/oc_link_internal.h:61-69); the first relation is always "hosts" (api/oc_link.c:69). *)
Record link := mk_link { k_res : option res; k_ins : Z }.

(** rd_publish_resources, rd_published_resources, rd_delete_resources of oc_cloud_context_t, the status bits the code
    looks at, and whether the hourly callback is set. *)
Record rd := mk_rd { s_publish : list link; s_published : list link; s_delete : list link; s_in : bool; s_refreshed : bool; s_timer : bool }.
Definition with_publish (s : rd) (l : list link) : rd := mk_rd l (s_published s) (s_delete s) (s_in s) (s_refreshed s) (s_timer s).
Definition with_published (s : rd) (l : list link) : rd := mk_rd (s_publish s) l (s_delete s) (s_in s) (s_refreshed s) (s_timer s).
Definition with_delete (s : rd) (l : list link) : rd := mk_rd (s_publish s) (s_published s) l (s_in s) (s_refreshed s) (s_timer s).
Definition with_timer (s : rd) (b : bool) : rd := mk_rd (s_publish s) (s_published s) (s_delete s) (s_in s) (s_refreshed s) b.

(** What a step depends on: the options of the CoAP layer, whether the cloud is reached over TCP, the identifier and
    name of the device, time_to_live, /oic/p and /oic/d; the onboarding state; whether a request can be sent, whether a
    link can be allocated, and the random values given to new links. *)
Record renv := mk_renv {
  v_cfg : cfg; v_tcp : bool; v_di : list N; v_name : list N; v_ttl : N; v_p : res; v_d : res;
  v_rfnop : bool; v_resets : bool; v_post : bool; v_del : bool; v_alloc : bool; v_rand : Z }.

Inductive msg :=
| MPublish (payload : list rep)     (* POST /oic/rd?rt=oic.wk.rdpub *)
| MDelete (query : list N).         (* DELETE /oic/rd?... *)

(** * Publishing (rd_client.c) *)

(** rd_encode_resource, rd_client.c:44-66; OC_PERIODIC 64, OC_SECURE 16. *)
Definition bm_of (props : N) : N := N.ldiff props 80 mod 256.
Definition encode_link (r : res) (ins : Z) : list rep :=
  [ (str "href", RStr (r_uri r)); (str "rt", RStrArr (r_types r)); (str "if", RStrArr (encode_ifs (r_ifs r)));
    (str "rel", RStr (str "hosts")); (str "ins", RInt ins); (str "p", RObj [(str "bm", RInt (Z.of_N (bm_of (r_props r))))]) ].

(** The links of the list, in order; [None]: a link without resource (the assertion on line 49). *)
Fixpoint encode_links (l : list link) : option (list (list rep)) :=
  match l with
  | [] => Some []
  | k :: t => match k_res k, encode_links t with Some r, Some e => Some (encode_link r (k_ins k) :: e) | _, _ => None end
  end.

(** rd_publish_encode, rd_client.c:68-100. *)
Definition publish_encode (v : renv) (l : list link) : option (list rep) :=
  match encode_links l with
  | None => None
  | Some e => Some [(str "di", RStr (v_di v)); (str "n", RStr (v_name v)); (str "ttl", RInt (Z.of_N (v_ttl v))); (str "links", RObjArr e)]
  end.

(** rd_publish, rd_client.c:121-152: with no link it publishes /oic/p and /oic/d.  [None]: undefined behaviour, lines
    143-145 with a link that could not be allocated. *)
Definition rd_publish (v : renv) (l : list link) : option (list msg) :=
  match l with
  | [] => if v_alloc v
          then match publish_encode v [mk_link (Some (v_p v)) (v_rand v); mk_link (Some (v_d v)) (v_rand v)] with
               | Some p => Some (if v_post v then [MPublish p] else []) | None => None end
          else None
  | _ => match publish_encode v l with Some p => Some (if v_post v then [MPublish p] else []) | None => None end
  end.

(** * Unpublishing (rd_client.c) *)

(** rd_delete_packet, rd_client.c:178-190; OC_DELETE is 4, COAP_TYPE_NON 1. *)
Definition delete_packet (tcp : bool) : packet :=
  set_uri_path (set_accept (set_code (set_type (set_tcp blank tcp) 1) 4) (Some FMT_OCF_CBOR)) (str "/oic/rd").

(** rd_delete_check_packet_size, rd_client.c:192-201, with coap_calculate_header_size (messaging/coap/coap.c:1298-1328).
    [after] is what follows the query in the buffer.  [None]: a read past it. *)
Definition packet_fits (c : cfg) (tcp : bool) (query after : list N) : option bool :=
  match options_size c (mkE [0] after) (set_uri_query (delete_packet tcp) query) true true false with
  | None => None
  | Some (_, n) =>
      let loc := if c_tcp c && tcp then 2 + N.of_nat (fst (fst (tcp_message_length n))) else N.of_nat COAP_HEADER_LEN in
      Some (check_header_size c (n + N.of_nat COAP_TOKEN_LEN + loc) 0)
  end.

(** rd_prepare_write_buffer, rd_client.c:154-176. *)
Definition prepare (mem id : list N) : option wb :=
  let head := str "di=" ++ id in
  if (List.length mem <=? List.length head)%nat then None
  else Some (mkWb false (head ++ skipn (List.length head) mem) (List.length head) (List.length mem - List.length head) (List.length head)).

Definition ins_text (z : Z) : list N := str "&ins=" ++ dec_z z.

(** The loop of rd_delete_fill_and_send_single_packet, rd_client.c:260-287: the query and how many links it names.
    [None]: the size check reads past the buffer. *)
Fixpoint fill (c : cfg) (tcp : bool) (b : wb) (links : list link) (n : nat) : option (list N * nat) :=
  match links with
  | [] => Some (firstn (w_total b) (w_mem b), n)
  | k :: t =>
      let written := w_total b in
      let (b', r) := buffer_write b (ins_text (k_ins k)) in
      match r with
      | None => Some (firstn written (w_mem b'), n)
      | Some _ =>
          match packet_fits c tcp (firstn (w_total b') (w_mem b')) (skipn (w_total b') (w_mem b')) with
          | None => None
          | Some true => fill c tcp b' t (S n)
          | Some false => Some (firstn written (w_mem b'), n)
          end
      end
  end.

Inductive dres := DError (sent : list msg) | DDone (sent : list msg) (deleted rest : list link).

(** rd_delete_fill_and_send_single_packet with rd_partition_links and rd_delete_send_packet, rd_client.c:210-288.  The
    request is sent even if no link fitted; then the result is an error. *)
Definition delete_single (c : cfg) (tcp ok : bool) (mem id : list N) (links : list link) : option dres :=
  match prepare mem id with
  | None => Some (DError [])
  | Some b =>
      match fill c tcp b links 0 with
      | None => None
      | Some (q, n) =>
          if ok then match n with O => Some (DError [MDelete q]) | _ => Some (DDone [MDelete q] (firstn n links) (skipn n links)) end
          else Some (DError [])
      end
  end.

(** rd_delete, rd_client.c:290-314: the buffer has COAP_MAX_HEADER_SIZE bytes. *)
Definition rd_delete (v : renv) (links : list link) : option dres :=
  delete_single (v_cfg v) (v_tcp v) (v_del v) (repeat 0 (N.to_nat (c_max_hdr (v_cfg v)))) (v_di v) links.

(** * The lists (oc_cloud_rd.c) *)

Definition of_res (r : res) (k : link) : bool := match k_res k with Some x => (r_id x =? r_id r)%nat | None => false end.
(** rd_link_find, lines 40-48. *)
Definition find_res (r : res) (l : list link) : option link := find (of_res r) l.
(** rd_link_remove, lines 96-113, of the link found. *)
Fixpoint remove_first (f : link -> bool) (l : list link) : list link :=
  match l with [] => [] | k :: t => if f k then t else k :: remove_first f t end.
(** rd_link_find_by_href, lines 84-94.  [None]: a link without resource is read. *)
Fixpoint find_href (l : list link) (href : list N) : option (option link) :=
  match l with
  | [] => Some None
  | k :: t => match k_res k with None => None | Some r => if list_eqb (r_uri r) href then Some (Some k) else find_href t href end
  end.
Definition of_href (href : list N) (k : link) : bool := match k_res k with Some r => list_eqb (r_uri r) href | None => false end.

(** The loop of cloud_publish_resources_handler, lines 132-156. *)
Fixpoint publish_answer (l : list (list rep)) (s : rd) : option rd :=
  match l with
  | [] => Some s
  | o :: t =>
      match get_s o (str "href"), get_i o (str "ins") with
      | Some href, Some ins =>
          match find_href (s_publish s) href with
          | None => None
          | Some None => publish_answer t s
          | Some (Some k) =>
              publish_answer t (with_published (with_publish s (remove_first (of_href href) (s_publish s))) (s_published s ++ [mk_link (k_res k) ins]))
          end
      | _, _ => publish_answer t s
      end
  end.
(** cloud_publish_resources_handler, lines 115-157 for an answer that is OC_STATUS_CHANGED, or is not. *)
Definition publish_handler (changed : bool) (payload : list rep) (s : rd) : option rd :=
  if negb (s_in s) || negb changed then Some s
  else match get_oa payload (str "links") with None => Some s | Some l => publish_answer l s end.

(** cloud_publish_resources, lines 159-179. *)
Definition cloud_publish (v : renv) (s : rd) : option (list msg) :=
  if negb (v_rfnop v) || negb (s_in s) then Some [] else rd_publish v (s_publish s).

(** cloud_delete_resources, lines 251-286.  [None]: the assertion on line 254, or undefined behaviour. *)
Definition cloud_delete (v : renv) (s : rd) : option (rd * list msg) :=
  match s_delete s with
  | [] => None
  | l => if negb (v_rfnop v) || negb (s_in s) then Some (s, [])
         else match rd_delete v l with
              | None => None
              | Some (DError m) => Some (s, m)
              | Some (DDone m _ rest) => Some (with_delete s rest, m)
              end
  end.
Definition cloud_delete_if (v : renv) (s : rd) : option (rd * list msg) :=
  match s_delete s with [] => Some (s, []) | _ => cloud_delete v s end.

(** move_published_to_publish_resources, lines 214-221. *)
Definition move (s : rd) : rd := with_published (with_publish s (s_publish s ++ s_published s)) [].

Inductive op :=
| Add (r : res)                                  (* oc_cloud_add_resource *)
| Del (r : res)                                  (* oc_cloud_delete_resource *)
| Status (logged refreshed : bool)               (* a new status, reported to cloud_rd_manager_status_changed *)
| Quiet (logged refreshed : bool)                (* a new status without report *)
| Hourly                                         (* the callback publish_published_resources *)
| Publish                                        (* oc_cloud_publish_resources *)
| Published (changed : bool) (payload : list rep) (* an answer to a publish request *)
| Deleted (internal : bool)                      (* an answer to an unpublish request, or a local failure *)
| Reset_                                         (* cloud_rd_reset_context *)
| Deinit.                                        (* cloud_rd_deinit *)

Definition seq_msgs (a : list msg) (r : option (rd * list msg)) : option (rd * list msg) :=
  match r with Some (s, b) => Some (s, a ++ b) | None => None end.

(** One step: the new lists and what is sent.  [None]: undefined behaviour. *)
Definition step (v : renv) (s : rd) (o : op) : option (rd * list msg) :=
  match o with
  | Add r =>  (* lines 181-212 *)
      if match find_res r (s_publish s), find_res r (s_published s) with None, None => false | _, _ => true end then Some (s, [])
      else
        let s1 := with_delete s (remove_first (of_res r) (s_delete s)) in
        if v_alloc v then
          let s2 := with_publish s1 (s_publish s1 ++ [mk_link (Some r) (v_rand v)]) in
          match cloud_publish v s2 with Some m => Some (s2, m) | None => None end
        else Some (s1, [])
  | Del r =>  (* lines 331-367 *)
      let s1 := with_publish s (remove_first (of_res r) (s_publish s)) in
      let s2 := with_published s1 (remove_first (of_res r) (s_published s1)) in
      if v_resets v then Some (with_delete s2 (remove_first (of_res r) (s_delete s2)), [])
      else match find_res r (s_published s1) with
           | None => Some (s2, [])
           | Some k => cloud_delete v (with_delete s2 (s_delete s2 ++ [mk_link None (k_ins k)]))
           end
  | Status a b =>  (* lines 288-310 *)
      let s1 := mk_rd (s_publish s) (s_published s) (s_delete s) a b (s_timer s) in
      if negb a then Some (with_timer s1 false, [])
      else if b then Some (s1, [])
      else match (match s_publish s1 with [] => Some [] | _ => cloud_publish v s1 end) with
           | None => None
           | Some m => match seq_msgs m (cloud_delete_if v s1) with
                       | None => None
                       | Some (s2, m2) => Some (with_timer s2 (negb (v_ttl v =? 0)), m2)   (* RD_PUBLISH_TTL_UNLIMITED *)
                       end
           end
  | Quiet a b => Some (mk_rd (s_publish s) (s_published s) (s_delete s) a b (s_timer s), [])
  | Hourly =>  (* lines 223-230; the callback only runs when it is set *)
      if s_timer s then match cloud_publish v (move s) with Some m => Some (move s, m) | None => None end else Some (s, [])
  | Publish =>  (* lines 369-382 *)
      match cloud_publish v (move s) with Some m => seq_msgs m (cloud_delete_if v (move s)) | None => None end
  | Published c p => match publish_handler c p s with Some s' => Some (s', []) | None => None end
  | Deleted i => if i then Some (s, []) else cloud_delete_if v s   (* lines 234-249 *)
  | Reset_ => Some (with_timer (move (with_delete s [])) false, [])   (* lines 322-329 *)
  | Deinit => Some (mk_rd [] [] [] (s_in s) (s_refreshed s) false, [])   (* lines 312-320 *)
  end.

Fixpoint run (s : rd) (l : list (renv * op)) : option (rd * list msg) :=
  match l with [] => Some (s, []) | (v, o) :: t => match step v s o with Some (s', m) => seq_msgs m (run s' t) | None => None end end.

Definition start : rd := mk_rd [] [] [] false false false.
