(** The CoAP message codec over UDP and TCP.  Sources: messaging/coap/coap.c,
    messaging/coap/options.c, messaging/coap/constants.h, messaging/coap/signal_internal.h,
    messaging/coap/oscore.c, include/oc_ri.h, include/oc_endpoint.h. *)
From Verif Require Import Common Oscore_Model.
Local Open Scope N_scope.

(** ** Constants *)

(** messaging/coap/constants.h:79-112 *)
Definition COAP_HEADER_LEN : nat := 4.
Definition COAP_TOKEN_LEN : nat := 8.
Definition COAP_ETAG_LEN : nat := 8.
Definition TCP_EXT1_DEFAULT : N := 13.
Definition TCP_EXT2_DEFAULT : N := 269.
Definition TCP_EXT3_DEFAULT : N := 65805.
(** messaging/coap/constants.h:177-200 *)
Definition OPT_URI_HOST : N := 3.
Definition OPT_ETAG : N := 4.
Definition OPT_OBSERVE : N := 6.
Definition OPT_URI_PORT : N := 7.
Definition OPT_OSCORE : N := 9.
Definition OPT_URI_PATH : N := 11.
Definition OPT_CONTENT_FORMAT : N := 12.
Definition OPT_MAX_AGE : N := 14.
Definition OPT_URI_QUERY : N := 15.
Definition OPT_ACCEPT : N := 17.
Definition OPT_BLOCK2 : N := 23.
Definition OPT_BLOCK1 : N := 27.
Definition OPT_SIZE2 : N := 28.
Definition OPT_PROXY_URI : N := 35.
Definition OPT_SIZE1 : N := 60.
Definition OPT_ACCEPT_VER : N := 2049.
Definition OPT_CF_VER : N := 2053.
(** messaging/coap/constants.h:118-168 (values: 32 * class + detail) *)
Definition BAD_REQUEST : N := 128.
Definition BAD_OPTION : N := 130.
Definition NOT_ACCEPTABLE : N := 134.
Definition UNSUPPORTED_MEDIA : N := 143.
(** messaging/coap/signal_internal.h:36-51 *)
Definition CSM : N := 225.
Definition PING : N := 226.
Definition PONG : N := 227.
Definition RELEASE : N := 228.
Definition ABORT : N := 229.
(** include/oc_ri.h:125-156, include/oc_endpoint.h:38 *)
Definition FMT_LINK_FORMAT : N := 40.
Definition FMT_JSON : N := 50.
Definition FMT_CBOR : N := 60.
Definition FMT_TD_JSON : N := 432.
Definition FMT_OCF_CBOR : N := 10000.
Definition OCF_VER : N := 2048.
Definition OIC_VER : N := 2112.

(** Build options that change the codec: OC_TCP, OC_OSCORE && OC_SECURITY, OC_SPEC_VER_OIC,
    OC_JSON_ENCODER, OC_WKCORE, and COAP_MAX_HEADER_SIZE (messaging/coap/conf.h:62-92). *)
Record cfg := mkCfg { c_tcp : bool; c_oscore : bool; c_oic : bool; c_json : bool; c_wkcore : bool; c_max_hdr : N }.

(** Block1/Block2 fields of coap_packet_t. *)
Record block := mkB { b_num : N; b_more : N; b_size : N; b_offset : N }.

(** coap_packet_t, messaging/coap/coap_internal.h:94-177.  A field guarded by a bit of
    [packet->options] is an [option]: every setter of options.c and the parser set bit and field
    together.  The bits of unknown elective options are dropped.  The six signal fields (bits 2 and 4
    again) are separate because their meaning depends on the code.  [p_observe] is the bit pattern of
    the int32_t. *)
Record packet := mkP {
  p_tcp : bool;
  p_type : N;
  p_code : N;
  p_mid : N;
  p_token : list N;
  p_uri_host : option (list N);
  p_etag : option (list N);
  p_observe : option N;
  p_uri_port : option N;
  p_oscore : option oscore_fields;
  p_path : option (list N);
  p_cf : option N;
  p_max_age : option N;
  p_query : option (list N);
  p_accept : option N;
  p_block2 : option block;
  p_block1 : option block;
  p_size2 : option N;
  p_proxy_uri : option (list N);
  p_size1 : option N;
  p_max_msg : option N;
  p_bert : bool;
  p_custody : bool;
  p_alt : option (list N);
  p_hold : option N;
  p_bad_csm : option N;
  p_payload : list N }.

Definition set_tcp (p : packet) (v : bool) : packet :=
  mkP v (p_type p) (p_code p) (p_mid p) (p_token p) (p_uri_host p) (p_etag p) (p_observe p) (p_uri_port p) (p_oscore p) (p_path p) (p_cf p) (p_max_age p) (p_query p) (p_accept p) (p_block2 p) (p_block1 p) (p_size2 p) (p_proxy_uri p) (p_size1 p) (p_max_msg p) (p_bert p) (p_custody p) (p_alt p) (p_hold p) (p_bad_csm p) (p_payload p).
Definition set_type (p : packet) (v : N) : packet :=
  mkP (p_tcp p) v (p_code p) (p_mid p) (p_token p) (p_uri_host p) (p_etag p) (p_observe p) (p_uri_port p) (p_oscore p) (p_path p) (p_cf p) (p_max_age p) (p_query p) (p_accept p) (p_block2 p) (p_block1 p) (p_size2 p) (p_proxy_uri p) (p_size1 p) (p_max_msg p) (p_bert p) (p_custody p) (p_alt p) (p_hold p) (p_bad_csm p) (p_payload p).
Definition set_code (p : packet) (v : N) : packet :=
  mkP (p_tcp p) (p_type p) v (p_mid p) (p_token p) (p_uri_host p) (p_etag p) (p_observe p) (p_uri_port p) (p_oscore p) (p_path p) (p_cf p) (p_max_age p) (p_query p) (p_accept p) (p_block2 p) (p_block1 p) (p_size2 p) (p_proxy_uri p) (p_size1 p) (p_max_msg p) (p_bert p) (p_custody p) (p_alt p) (p_hold p) (p_bad_csm p) (p_payload p).
Definition set_mid (p : packet) (v : N) : packet :=
  mkP (p_tcp p) (p_type p) (p_code p) v (p_token p) (p_uri_host p) (p_etag p) (p_observe p) (p_uri_port p) (p_oscore p) (p_path p) (p_cf p) (p_max_age p) (p_query p) (p_accept p) (p_block2 p) (p_block1 p) (p_size2 p) (p_proxy_uri p) (p_size1 p) (p_max_msg p) (p_bert p) (p_custody p) (p_alt p) (p_hold p) (p_bad_csm p) (p_payload p).
Definition set_token (p : packet) (v : list N) : packet :=
  mkP (p_tcp p) (p_type p) (p_code p) (p_mid p) v (p_uri_host p) (p_etag p) (p_observe p) (p_uri_port p) (p_oscore p) (p_path p) (p_cf p) (p_max_age p) (p_query p) (p_accept p) (p_block2 p) (p_block1 p) (p_size2 p) (p_proxy_uri p) (p_size1 p) (p_max_msg p) (p_bert p) (p_custody p) (p_alt p) (p_hold p) (p_bad_csm p) (p_payload p).
Definition set_uri_host (p : packet) (v : option (list N)) : packet :=
  mkP (p_tcp p) (p_type p) (p_code p) (p_mid p) (p_token p) v (p_etag p) (p_observe p) (p_uri_port p) (p_oscore p) (p_path p) (p_cf p) (p_max_age p) (p_query p) (p_accept p) (p_block2 p) (p_block1 p) (p_size2 p) (p_proxy_uri p) (p_size1 p) (p_max_msg p) (p_bert p) (p_custody p) (p_alt p) (p_hold p) (p_bad_csm p) (p_payload p).
Definition set_etag (p : packet) (v : option (list N)) : packet :=
  mkP (p_tcp p) (p_type p) (p_code p) (p_mid p) (p_token p) (p_uri_host p) v (p_observe p) (p_uri_port p) (p_oscore p) (p_path p) (p_cf p) (p_max_age p) (p_query p) (p_accept p) (p_block2 p) (p_block1 p) (p_size2 p) (p_proxy_uri p) (p_size1 p) (p_max_msg p) (p_bert p) (p_custody p) (p_alt p) (p_hold p) (p_bad_csm p) (p_payload p).
Definition set_observe (p : packet) (v : option N) : packet :=
  mkP (p_tcp p) (p_type p) (p_code p) (p_mid p) (p_token p) (p_uri_host p) (p_etag p) v (p_uri_port p) (p_oscore p) (p_path p) (p_cf p) (p_max_age p) (p_query p) (p_accept p) (p_block2 p) (p_block1 p) (p_size2 p) (p_proxy_uri p) (p_size1 p) (p_max_msg p) (p_bert p) (p_custody p) (p_alt p) (p_hold p) (p_bad_csm p) (p_payload p).
Definition set_uri_port (p : packet) (v : option N) : packet :=
  mkP (p_tcp p) (p_type p) (p_code p) (p_mid p) (p_token p) (p_uri_host p) (p_etag p) (p_observe p) v (p_oscore p) (p_path p) (p_cf p) (p_max_age p) (p_query p) (p_accept p) (p_block2 p) (p_block1 p) (p_size2 p) (p_proxy_uri p) (p_size1 p) (p_max_msg p) (p_bert p) (p_custody p) (p_alt p) (p_hold p) (p_bad_csm p) (p_payload p).
Definition set_oscore (p : packet) (v : option oscore_fields) : packet :=
  mkP (p_tcp p) (p_type p) (p_code p) (p_mid p) (p_token p) (p_uri_host p) (p_etag p) (p_observe p) (p_uri_port p) v (p_path p) (p_cf p) (p_max_age p) (p_query p) (p_accept p) (p_block2 p) (p_block1 p) (p_size2 p) (p_proxy_uri p) (p_size1 p) (p_max_msg p) (p_bert p) (p_custody p) (p_alt p) (p_hold p) (p_bad_csm p) (p_payload p).
Definition set_path (p : packet) (v : option (list N)) : packet :=
  mkP (p_tcp p) (p_type p) (p_code p) (p_mid p) (p_token p) (p_uri_host p) (p_etag p) (p_observe p) (p_uri_port p) (p_oscore p) v (p_cf p) (p_max_age p) (p_query p) (p_accept p) (p_block2 p) (p_block1 p) (p_size2 p) (p_proxy_uri p) (p_size1 p) (p_max_msg p) (p_bert p) (p_custody p) (p_alt p) (p_hold p) (p_bad_csm p) (p_payload p).
Definition set_cf (p : packet) (v : option N) : packet :=
  mkP (p_tcp p) (p_type p) (p_code p) (p_mid p) (p_token p) (p_uri_host p) (p_etag p) (p_observe p) (p_uri_port p) (p_oscore p) (p_path p) v (p_max_age p) (p_query p) (p_accept p) (p_block2 p) (p_block1 p) (p_size2 p) (p_proxy_uri p) (p_size1 p) (p_max_msg p) (p_bert p) (p_custody p) (p_alt p) (p_hold p) (p_bad_csm p) (p_payload p).
Definition set_max_age (p : packet) (v : option N) : packet :=
  mkP (p_tcp p) (p_type p) (p_code p) (p_mid p) (p_token p) (p_uri_host p) (p_etag p) (p_observe p) (p_uri_port p) (p_oscore p) (p_path p) (p_cf p) v (p_query p) (p_accept p) (p_block2 p) (p_block1 p) (p_size2 p) (p_proxy_uri p) (p_size1 p) (p_max_msg p) (p_bert p) (p_custody p) (p_alt p) (p_hold p) (p_bad_csm p) (p_payload p).
Definition set_query (p : packet) (v : option (list N)) : packet :=
  mkP (p_tcp p) (p_type p) (p_code p) (p_mid p) (p_token p) (p_uri_host p) (p_etag p) (p_observe p) (p_uri_port p) (p_oscore p) (p_path p) (p_cf p) (p_max_age p) v (p_accept p) (p_block2 p) (p_block1 p) (p_size2 p) (p_proxy_uri p) (p_size1 p) (p_max_msg p) (p_bert p) (p_custody p) (p_alt p) (p_hold p) (p_bad_csm p) (p_payload p).
Definition set_accept (p : packet) (v : option N) : packet :=
  mkP (p_tcp p) (p_type p) (p_code p) (p_mid p) (p_token p) (p_uri_host p) (p_etag p) (p_observe p) (p_uri_port p) (p_oscore p) (p_path p) (p_cf p) (p_max_age p) (p_query p) v (p_block2 p) (p_block1 p) (p_size2 p) (p_proxy_uri p) (p_size1 p) (p_max_msg p) (p_bert p) (p_custody p) (p_alt p) (p_hold p) (p_bad_csm p) (p_payload p).
Definition set_block2 (p : packet) (v : option block) : packet :=
  mkP (p_tcp p) (p_type p) (p_code p) (p_mid p) (p_token p) (p_uri_host p) (p_etag p) (p_observe p) (p_uri_port p) (p_oscore p) (p_path p) (p_cf p) (p_max_age p) (p_query p) (p_accept p) v (p_block1 p) (p_size2 p) (p_proxy_uri p) (p_size1 p) (p_max_msg p) (p_bert p) (p_custody p) (p_alt p) (p_hold p) (p_bad_csm p) (p_payload p).
Definition set_block1 (p : packet) (v : option block) : packet :=
  mkP (p_tcp p) (p_type p) (p_code p) (p_mid p) (p_token p) (p_uri_host p) (p_etag p) (p_observe p) (p_uri_port p) (p_oscore p) (p_path p) (p_cf p) (p_max_age p) (p_query p) (p_accept p) (p_block2 p) v (p_size2 p) (p_proxy_uri p) (p_size1 p) (p_max_msg p) (p_bert p) (p_custody p) (p_alt p) (p_hold p) (p_bad_csm p) (p_payload p).
Definition set_size2 (p : packet) (v : option N) : packet :=
  mkP (p_tcp p) (p_type p) (p_code p) (p_mid p) (p_token p) (p_uri_host p) (p_etag p) (p_observe p) (p_uri_port p) (p_oscore p) (p_path p) (p_cf p) (p_max_age p) (p_query p) (p_accept p) (p_block2 p) (p_block1 p) v (p_proxy_uri p) (p_size1 p) (p_max_msg p) (p_bert p) (p_custody p) (p_alt p) (p_hold p) (p_bad_csm p) (p_payload p).
Definition set_proxy_uri (p : packet) (v : option (list N)) : packet :=
  mkP (p_tcp p) (p_type p) (p_code p) (p_mid p) (p_token p) (p_uri_host p) (p_etag p) (p_observe p) (p_uri_port p) (p_oscore p) (p_path p) (p_cf p) (p_max_age p) (p_query p) (p_accept p) (p_block2 p) (p_block1 p) (p_size2 p) v (p_size1 p) (p_max_msg p) (p_bert p) (p_custody p) (p_alt p) (p_hold p) (p_bad_csm p) (p_payload p).
Definition set_size1 (p : packet) (v : option N) : packet :=
  mkP (p_tcp p) (p_type p) (p_code p) (p_mid p) (p_token p) (p_uri_host p) (p_etag p) (p_observe p) (p_uri_port p) (p_oscore p) (p_path p) (p_cf p) (p_max_age p) (p_query p) (p_accept p) (p_block2 p) (p_block1 p) (p_size2 p) (p_proxy_uri p) v (p_max_msg p) (p_bert p) (p_custody p) (p_alt p) (p_hold p) (p_bad_csm p) (p_payload p).
Definition set_max_msg (p : packet) (v : option N) : packet :=
  mkP (p_tcp p) (p_type p) (p_code p) (p_mid p) (p_token p) (p_uri_host p) (p_etag p) (p_observe p) (p_uri_port p) (p_oscore p) (p_path p) (p_cf p) (p_max_age p) (p_query p) (p_accept p) (p_block2 p) (p_block1 p) (p_size2 p) (p_proxy_uri p) (p_size1 p) v (p_bert p) (p_custody p) (p_alt p) (p_hold p) (p_bad_csm p) (p_payload p).
Definition set_bert (p : packet) (v : bool) : packet :=
  mkP (p_tcp p) (p_type p) (p_code p) (p_mid p) (p_token p) (p_uri_host p) (p_etag p) (p_observe p) (p_uri_port p) (p_oscore p) (p_path p) (p_cf p) (p_max_age p) (p_query p) (p_accept p) (p_block2 p) (p_block1 p) (p_size2 p) (p_proxy_uri p) (p_size1 p) (p_max_msg p) v (p_custody p) (p_alt p) (p_hold p) (p_bad_csm p) (p_payload p).
Definition set_custody (p : packet) (v : bool) : packet :=
  mkP (p_tcp p) (p_type p) (p_code p) (p_mid p) (p_token p) (p_uri_host p) (p_etag p) (p_observe p) (p_uri_port p) (p_oscore p) (p_path p) (p_cf p) (p_max_age p) (p_query p) (p_accept p) (p_block2 p) (p_block1 p) (p_size2 p) (p_proxy_uri p) (p_size1 p) (p_max_msg p) (p_bert p) v (p_alt p) (p_hold p) (p_bad_csm p) (p_payload p).
Definition set_alt (p : packet) (v : option (list N)) : packet :=
  mkP (p_tcp p) (p_type p) (p_code p) (p_mid p) (p_token p) (p_uri_host p) (p_etag p) (p_observe p) (p_uri_port p) (p_oscore p) (p_path p) (p_cf p) (p_max_age p) (p_query p) (p_accept p) (p_block2 p) (p_block1 p) (p_size2 p) (p_proxy_uri p) (p_size1 p) (p_max_msg p) (p_bert p) (p_custody p) v (p_hold p) (p_bad_csm p) (p_payload p).
Definition set_hold (p : packet) (v : option N) : packet :=
  mkP (p_tcp p) (p_type p) (p_code p) (p_mid p) (p_token p) (p_uri_host p) (p_etag p) (p_observe p) (p_uri_port p) (p_oscore p) (p_path p) (p_cf p) (p_max_age p) (p_query p) (p_accept p) (p_block2 p) (p_block1 p) (p_size2 p) (p_proxy_uri p) (p_size1 p) (p_max_msg p) (p_bert p) (p_custody p) (p_alt p) v (p_bad_csm p) (p_payload p).
Definition set_bad_csm (p : packet) (v : option N) : packet :=
  mkP (p_tcp p) (p_type p) (p_code p) (p_mid p) (p_token p) (p_uri_host p) (p_etag p) (p_observe p) (p_uri_port p) (p_oscore p) (p_path p) (p_cf p) (p_max_age p) (p_query p) (p_accept p) (p_block2 p) (p_block1 p) (p_size2 p) (p_proxy_uri p) (p_size1 p) (p_max_msg p) (p_bert p) (p_custody p) (p_alt p) (p_hold p) v (p_payload p).
Definition set_payload (p : packet) (v : list N) : packet :=
  mkP (p_tcp p) (p_type p) (p_code p) (p_mid p) (p_token p) (p_uri_host p) (p_etag p) (p_observe p) (p_uri_port p) (p_oscore p) (p_path p) (p_cf p) (p_max_age p) (p_query p) (p_accept p) (p_block2 p) (p_block1 p) (p_size2 p) (p_proxy_uri p) (p_size1 p) (p_max_msg p) (p_bert p) (p_custody p) (p_alt p) (p_hold p) (p_bad_csm p) v.

Definition blank : packet :=
  mkP false 0 0 0 [] None None None None None None None None None None None None None None None None false false None None None [].

(** ** Option headers and values *)

(** coap_option_nibble, coap.c:166-176 *)
Definition option_nibble (v : N) : N :=
  if v <? 13 then v else if v <=? 255 + 13 then 13 else 14.

(** The extended bytes, coap.c:188-218. *)
Definition ext_bytes (v : N) : list N :=
  if 268 <? v then [N.land (N.shiftr (v - 269) 8) 255; N.land (v - 269) 255]
  else if 12 <? v then [(v - 13) mod 256] else [].

(** coap_set_option_header with a buffer, coap.c:178-225. *)
Definition set_option_header (delta len : N) : list N :=
  N.lor (N.shiftl (option_nibble delta) 4) (option_nibble len) :: ext_bytes delta ++ ext_bytes len.

(** coap_set_option_header with buffer = NULL: only the returned size. *)
Definition ext_size (v : N) : N := if 268 <? v then 2 else if 12 <? v then 1 else 0.
Definition option_header_size (delta len : N) : N := ext_size delta + ext_size len + 1.

(** The value bytes of coap_serialize_int_option, coap.c:227-277: one byte per mask that hits. *)
Definition int_bytes (v : N) : list N :=
  (if N.land 0xFF000000 v =? 0 then [] else [N.shiftr v 24 mod 256]) ++
  (if N.land 0xFFFF0000 v =? 0 then [] else [N.shiftr v 16 mod 256]) ++
  (if N.land 0xFFFFFF00 v =? 0 then [] else [N.shiftr v 8 mod 256]) ++
  (if N.land 0xFFFFFFFF v =? 0 then [] else [v mod 256]).
Definition int_size (v : N) : N :=
  (if N.land 0xFF000000 v =? 0 then 0 else 1) + (if N.land 0xFFFF0000 v =? 0 then 0 else 1) +
  (if N.land 0xFFFFFF00 v =? 0 then 0 else 1) + (if N.land 0xFFFFFFFF v =? 0 then 0 else 1).

Definition nlen {A} (l : list A) : N := N.of_nat (List.length l).

(** coap_serialize_int_option *)
Definition int_option (number cur v : N) : list N :=
  set_option_header (number - cur) (int_size v) ++ int_bytes v.
Definition int_option_size (number cur v : N) : N :=
  option_header_size (number - cur) (int_size v) + int_size v.

(** coap_serialize_array_option with split_char = '\0', coap.c:291-308. *)
Definition arr_option (number cur : N) (a : list N) : list N :=
  set_option_header (number - cur) (nlen a) ++ a.
Definition arr_option_size (number cur : N) (a : list N) : N :=
  option_header_size (number - cur) (nlen a) + nlen a.

(** The loop of coap_serialize_array_option over a split string, coap.c:310-343: the parts in order.
    [arr] is the readable memory from the first byte of the string on, [len] the string length; the
    loop reads array[j] for j up to len + 1.  [None] is a read past the readable memory. *)
Fixpoint split_loop (fuel : nat) (sep : N) (arr : list N) (len j start : nat) : option (list (list N)) :=
  match fuel with
  | O => Some []
  | S f =>
    if (j <=? len + 1)%nat then
      match nth_error arr j with
      | None => None
      | Some c =>
        if (c =? sep) || (j =? len)%nat then
          match split_loop f sep arr len (j + 2) (j + 1) with
          | None => None
          | Some r => Some (firstn (j - start) (skipn start arr) :: r)
          end
        else split_loop f sep arr len (j + 1) start
      end
    else Some []
  end.
Definition split_parts (sep : N) (s after : list N) : option (list (list N)) :=
  split_loop (List.length s + 2) sep (s ++ after) (List.length s) 0 0.

Fixpoint parts_bytes (number cur : N) (parts : list (list N)) : list N :=
  match parts with
  | [] => []
  | p :: r => arr_option number cur p ++ parts_bytes number number r
  end.
Fixpoint parts_size (number cur : N) (parts : list (list N)) : N :=
  match parts with
  | [] => 0
  | p :: r => arr_option_size number cur p + parts_size number number r
  end.

(** coap_log_2, options.c:443-454; coap_options_block_encode, options.c:456-465. *)
Definition log_2 (v : N) : N := N.log2 v.
Definition block_encode (b : block) : N :=
  N.lor (N.lor (N.shiftl (b_num b) 4 mod 2 ^ 32) (if b_more b =? 0 then 0 else 8))
        (N.land 0xF (log_2 (b_size b / 16))).
(** coap_options_block_decode, options.c:467-475. *)
Definition block_decode (v : N) : block :=
  mkB (N.land (N.shiftr v 4) 0xFFFFF) (N.shiftr (N.land v 8) 3)
      (N.shiftl 16 (N.land v 7) mod 2 ^ 16)
      (N.shiftl (N.land v 0xFFFFFFF0) (N.land v 7) mod 2 ^ 32).

(** coap_options_set_block1 and coap_options_set_block2, options.c:380-398, 423-441. *)
Definition set_block1_checked (p : packet) (num more size offset : N) : option packet :=
  if 0x0FFFFF <? num then None else if (size <? 16) || (2048 <? size) then None
  else Some (set_block1 p (Some (mkB num more size offset))).
Definition set_block2_checked (p : packet) (num more size offset : N) : option packet :=
  if 0x0FFFFF <? num then None else if (size <? 16) || (2048 <? size) then None
  else Some (set_block2 p (Some (mkB num (if more =? 0 then 0 else 1) size offset))).

(** coap_options_set_uri_path / coap_options_set_uri_query, options.c:169-181, 195-207. *)
Fixpoint strip_leading (c : N) (s : list N) : list N :=
  match s with
  | x :: r => if x =? c then strip_leading c r else s
  | [] => []
  end.
Definition set_uri_path (p : packet) (s : list N) : packet := set_path p (Some (strip_leading 47 s)).
Definition set_uri_query (p : packet) (s : list N) : packet := set_query p (Some (strip_leading 63 s)).

(** ** Serialising the options *)

(** The macros COAP_SERIALIZE_*_OPTION, coap.c:74-143: (current_number, bytes so far). *)
Definition sstate : Type := (N * list N)%type.
Definition put_int (number : N) (o : option N) (s : sstate) : sstate :=
  match o with None => s | Some v => (number, snd s ++ int_option number (fst s) v) end.
Definition put_arr (number : N) (o : option (list N)) (s : sstate) : sstate :=
  match o with None => s | Some a => (number, snd s ++ arr_option number (fst s) a) end.
Definition put_block (number : N) (o : option block) (s : sstate) : sstate :=
  put_int number (option_map block_encode o) s.
Definition put_split (number sep : N) (o : option (list N)) (after : list N) (s : sstate) : option sstate :=
  match o with
  | None => Some s
  | Some a =>
    match split_parts sep a after with
    | None => None
    | Some parts => Some (number, snd s ++ parts_bytes number (fst s) parts)
    end
  end.
(** coap_serialize_oscore_option, oscore.c:327-388 *)
Definition put_oscore (o : option oscore_fields) (s : sstate) : sstate :=
  match o with
  | None => s
  | Some f => (OPT_OSCORE, snd s ++ set_option_header (OPT_OSCORE - fst s) (N.of_nat (oscore_value_length f))
                           ++ serialize_oscore_value f)
  end.

(** coap_serialize_accept_option / coap_serialize_content_format_option, coap.c:455-489: the version
    written for a format, if any. *)
Definition format_version (c : cfg) (fmt : N) : option N :=
  if fmt =? FMT_OCF_CBOR then Some OCF_VER
  else if c_oic c && (fmt =? FMT_CBOR) then Some OIC_VER else None.

(** coap.c:587-603: current_number becomes 2049 whenever Accept is present, and is not advanced
    after the content-format version. *)
Definition put_versions (c : cfg) (p : packet) (s : sstate) : sstate :=
  let s1 :=
    match p_accept p with
    | None => s
    | Some a => (OPT_ACCEPT_VER,
                 match format_version c a with
                 | None => snd s
                 | Some v => snd s ++ int_option OPT_ACCEPT_VER (fst s) v
                 end)
    end in
  match p_cf p with
  | None => s1
  | Some f => (fst s1,
               match format_version c f with
               | None => snd s1
               | Some v => snd s1 ++ int_option OPT_CF_VER (fst s1) v
               end)
  end.

(** coap_check_signal_message, messaging/coap/signal.c:30-35, compiled with OC_TCP. *)
Definition is_signal (c : cfg) (code : N) : bool := c_tcp c && (CSM <=? code) && (code <=? ABORT).

(** coap_serialize_signal_options, coap.c:406-453.  The value of the Bert and Custody options is the
    field minus itself. *)
Definition signal_options (p : packet) : sstate :=
  let s := (0, []) in
  let flag (b : bool) := if b then Some 0 else None in
  if p_code p =? CSM then put_int 4 (flag (p_bert p)) (put_int 2 (p_max_msg p) s)
  else if (p_code p =? PING) || (p_code p =? PONG) then put_int 2 (flag (p_custody p)) s
  else if p_code p =? RELEASE then put_int 4 (p_hold p) (put_arr 2 (p_alt p) s)
  else put_int 2 (p_bad_csm p) s.

(** Bytes readable behind the Uri-Path and Uri-Query strings of the packet. *)
Record env := mkE { after_path : list N; after_query : list N }.

Definition on {A} (b : bool) (o : option A) : option A := if b then o else None.

(** coap_serialize_options, coap.c:491-611. *)
Definition serialize_options (c : cfg) (e : env) (p : packet) (inner outer oscore : bool) : option sstate :=
  if is_signal c (p_code p) then Some (signal_options p)
  else
    let s := (0, []) in
    let s := put_arr OPT_URI_HOST (on outer (p_uri_host p)) s in
    let s := put_arr OPT_ETAG (on inner (p_etag p)) s in
    let s := put_int OPT_OBSERVE (p_observe p) s in
    let s := put_int OPT_URI_PORT (on outer (p_uri_port p)) s in
    let s := put_oscore (on (c_oscore c && oscore && outer) (p_oscore p)) s in
    match put_split OPT_URI_PATH 47 (on inner (p_path p)) (after_path e) s with
    | None => None
    | Some s =>
      let s := put_int OPT_CONTENT_FORMAT (on inner (p_cf p)) s in
      let s := put_int OPT_MAX_AGE (on outer (p_max_age p)) s in
      match put_split OPT_URI_QUERY 38 (on inner (p_query p)) (after_query e) s with
      | None => None
      | Some s =>
        let s := put_int OPT_ACCEPT (on inner (p_accept p)) s in
        let s := put_block OPT_BLOCK2 (on inner (p_block2 p)) s in
        let s := put_block OPT_BLOCK1 (on inner (p_block1 p)) s in
        let s := put_int OPT_SIZE2 (on inner (p_size2 p)) s in
        let s := put_arr OPT_PROXY_URI (on outer (p_proxy_uri p)) s in
        let s := put_int OPT_SIZE1 (on inner (p_size1 p)) s in
        Some (if inner then put_versions c p s else s)
      end
    end.

(** The same function with option_array = NULL: (current_number, size so far). *)
Definition nstate : Type := (N * N)%type.
Definition cnt_int (number : N) (o : option N) (s : nstate) : nstate :=
  match o with None => s | Some v => (number, snd s + int_option_size number (fst s) v) end.
Definition cnt_arr (number : N) (o : option (list N)) (s : nstate) : nstate :=
  match o with None => s | Some a => (number, snd s + arr_option_size number (fst s) a) end.
Definition cnt_block (number : N) (o : option block) (s : nstate) : nstate :=
  cnt_int number (option_map block_encode o) s.
Definition cnt_split (number sep : N) (o : option (list N)) (after : list N) (s : nstate) : option nstate :=
  match o with
  | None => Some s
  | Some a =>
    match split_parts sep a after with
    | None => None
    | Some parts => Some (number, snd s + parts_size number (fst s) parts)
    end
  end.
Definition cnt_oscore (o : option oscore_fields) (s : nstate) : nstate :=
  match o with
  | None => s
  | Some f => (OPT_OSCORE, snd s + option_header_size (OPT_OSCORE - fst s) (N.of_nat (oscore_value_length f))
                           + N.of_nat (oscore_value_length f))
  end.
Definition cnt_versions (c : cfg) (p : packet) (s : nstate) : nstate :=
  let s1 :=
    match p_accept p with
    | None => s
    | Some a => (OPT_ACCEPT_VER,
                 match format_version c a with
                 | None => snd s
                 | Some v => snd s + int_option_size OPT_ACCEPT_VER (fst s) v
                 end)
    end in
  match p_cf p with
  | None => s1
  | Some f => (fst s1,
               match format_version c f with
               | None => snd s1
               | Some v => snd s1 + int_option_size OPT_CF_VER (fst s1) v
               end)
  end.
Definition signal_size (p : packet) : nstate :=
  let s := (0, 0) in
  let flag (b : bool) := if b then Some 0 else None in
  if p_code p =? CSM then cnt_int 4 (flag (p_bert p)) (cnt_int 2 (p_max_msg p) s)
  else if (p_code p =? PING) || (p_code p =? PONG) then cnt_int 2 (flag (p_custody p)) s
  else if p_code p =? RELEASE then cnt_int 4 (p_hold p) (cnt_arr 2 (p_alt p) s)
  else cnt_int 2 (p_bad_csm p) s.
Definition options_size (c : cfg) (e : env) (p : packet) (inner outer oscore : bool) : option nstate :=
  if is_signal c (p_code p) then Some (signal_size p)
  else
    let s := (0, 0) in
    let s := cnt_arr OPT_URI_HOST (on outer (p_uri_host p)) s in
    let s := cnt_arr OPT_ETAG (on inner (p_etag p)) s in
    let s := cnt_int OPT_OBSERVE (p_observe p) s in
    let s := cnt_int OPT_URI_PORT (on outer (p_uri_port p)) s in
    let s := cnt_oscore (on (c_oscore c && oscore && outer) (p_oscore p)) s in
    match cnt_split OPT_URI_PATH 47 (on inner (p_path p)) (after_path e) s with
    | None => None
    | Some s =>
      let s := cnt_int OPT_CONTENT_FORMAT (on inner (p_cf p)) s in
      let s := cnt_int OPT_MAX_AGE (on outer (p_max_age p)) s in
      match cnt_split OPT_URI_QUERY 38 (on inner (p_query p)) (after_query e) s with
      | None => None
      | Some s =>
        let s := cnt_int OPT_ACCEPT (on inner (p_accept p)) s in
        let s := cnt_block OPT_BLOCK2 (on inner (p_block2 p)) s in
        let s := cnt_block OPT_BLOCK1 (on inner (p_block1 p)) s in
        let s := cnt_int OPT_SIZE2 (on inner (p_size2 p)) s in
        let s := cnt_arr OPT_PROXY_URI (on outer (p_proxy_uri p)) s in
        let s := cnt_int OPT_SIZE1 (on inner (p_size1 p)) s in
        Some (if inner then cnt_versions c p s else s)
      end
    end.

(** ** Serialising a message *)

(** coap_tcp_compute_message_length, coap.c:1131-1182: (extended bytes, nibble, extended length). *)
Definition tcp_message_length (total : N) : nat * N * N :=
  if total <? TCP_EXT1_DEFAULT then (0%nat, total, 0)
  else if total <? TCP_EXT2_DEFAULT then (1%nat, 13, total - TCP_EXT1_DEFAULT)
  else if total <? TCP_EXT3_DEFAULT then (2%nat, 14, total - TCP_EXT2_DEFAULT)
  else (4%nat, 15, total - TCP_EXT3_DEFAULT).
Definition tcp_total (opts payload : N) : N := if 0 <? payload then opts + (1 + payload) else opts.

(** coap_tcp_set_header_length, coap.c:1101-1119: byte i (1-based) of n is ext >> 8(n - i). *)
Fixpoint be_bytes (n : nat) (v : N) : list N :=
  match n with
  | O => []
  | S k => N.shiftr v (8 * N.of_nat k) mod 256 :: be_bytes k v
  end.
Definition tcp_header (tkl code : N) (l : nat * N * N) : list N :=
  let '(n, nib, ext) := l in
  N.lor (N.land 0xF0 (N.shiftl nib 4)) (N.land 0x0F tkl) :: be_bytes n ext ++ [code].

(** coap_udp_set_header_fields, coap.c:1267-1280, with version = 1 (coap.c:1337). *)
Definition udp_header (type tkl code mid : N) : list N :=
  [N.lor (N.lor (N.land 0xC0 (N.shiftl 1 6)) (N.land 0x30 (N.shiftl type 4))) (N.land 0x0F tkl);
   code; N.shiftr mid 8 mod 256; mid mod 256].

Inductive ser := S_oob | S_fail | S_abort | S_ok (bytes : list N).

(** coap_check_header_size, coap.c:1282-1296. *)
Definition check_header_size (c : cfg) (hdr buf : N) : bool :=
  (hdr <=? c_max_hdr c) && negb ((0 <? buf) && (buf <? hdr)).

(** coap_oscore_serialize_message, coap.c:1330-1428.  buffer_size - hdr.size wraps modulo 2^64 when
    buffer_size is 0.  [S_abort] is the failing assert of line 1398.  The result lists the bytes
    written from buffer[0] on, up to the returned length. *)
Definition serialize_message (c : cfg) (e : env) (p : packet) (buf : N) (inner outer oscore : bool) : ser :=
  match options_size c e p inner outer oscore with
  | None => S_oob
  | Some (_, osize) =>
    let tcp := c_tcp c && p_tcp p in
    let tl := tcp_message_length (tcp_total osize (nlen (p_payload p))) in
    let token_location := if tcp then 2 + N.of_nat (fst (fst tl)) else 4 in
    let hsize := if outer then osize + nlen (p_token p) + token_location else osize in
    if negb (check_header_size c hsize buf) then S_fail
    else
      let head :=
        if outer then
          if tcp then tcp_header (nlen (p_token p)) (p_code p) tl
          else udp_header (p_type p) (nlen (p_token p)) (p_code p) (p_mid p)
        else [] in
      if outer && (p_code p =? 0) then S_ok head
      else
        let hsize' := if outer then hsize else hsize + 1 in
        let start := if outer then head ++ p_token p else [p_code p] in
        if negb outer && negb (check_header_size c hsize' buf) then S_fail
        else
          match serialize_options c e p inner outer oscore with
          | None => S_oob
          | Some (_, opts) =>
            let left := ((Z.of_N buf - Z.of_N hsize') mod 2 ^ 64)%Z in
            if negb (hsize' =? nlen (start ++ opts)) then S_abort
            else if 0 <? nlen (p_payload p) then
              if (left <? Z.of_N (nlen (p_payload p)) + 1)%Z then S_fail
              else S_ok (start ++ opts ++ 0xFF :: p_payload p)
            else S_ok (start ++ opts)
          end
  end.

(** coap_serialize_message, coap.c:1448-1454. *)
Definition coap_serialize_message (c : cfg) (e : env) (p : packet) (buf : N) : ser :=
  serialize_message c e p buf true true false.
(** oscore_serialize_plaintext and oscore_serialize_message, oscore.c:391-405. *)
Definition oscore_serialize_plaintext (c : cfg) (e : env) (p : packet) (buf : N) : ser :=
  serialize_message c e p buf true false true.
Definition oscore_serialize_message (c : cfg) (e : env) (p : packet) (buf : N) : ser :=
  serialize_message c e p buf false true true.

(** ** Parsing *)

(** coap_parse_int_option, coap.c:152-164; [None] is -1. *)
Definition parse_int (v : list N) : option N :=
  if (4 <? List.length v)%nat then None
  else Some (fold_left (fun acc b => N.lor (N.shiftl acc 8 mod 2 ^ 32) b) v 0).

(** Outcome of a parse: a read outside the readable memory (or past a packet field, from the OSCORE
    option), an error status, or the packet. *)
Inductive pres := P_oob | P_err (status : N) | P_ok (p : packet).

(** coap_merge_multi_option, coap.c:348-367, as values: the code concatenates in place inside the
    received buffer. *)
Definition merge_multi (sep : N) (o : option (list N)) (v : list N) : list N :=
  match o with
  | None => v
  | Some d => if (0 <? List.length d)%nat then d ++ sep :: v else v
  end.

(** coap_parse_is_valid_content_format_option / ..._accept_option, coap.c:683-705. *)
Definition valid_cf (c : cfg) (v : N) : bool :=
  (v =? FMT_OCF_CBOR) || (c_oic c && (v =? FMT_CBOR)) || (c_json c && ((v =? FMT_JSON) || (v =? FMT_TD_JSON))).
Definition valid_accept (c : cfg) (v : N) : bool := valid_cf c v || (c_wkcore c && (v =? FMT_LINK_FORMAT)).

(** coap_parse_signal_options, coap.c:613-681. *)
Definition parse_signal (p : packet) (num : N) (v : list N) (inner : bool) : pres :=
  if negb inner then P_err BAD_OPTION
  else if p_code p =? CSM then
    if num =? 2 then match parse_int v with None => P_err BAD_OPTION | Some x => P_ok (set_max_msg p (Some x)) end
    else if num =? 4 then P_ok (set_bert p true) else P_ok p
  else if (p_code p =? PING) || (p_code p =? PONG) then
    if num =? 2 then P_ok (set_custody p true) else P_ok p
  else if p_code p =? RELEASE then
    if num =? 2 then P_ok (set_alt p (Some v))
    else if num =? 4 then match parse_int v with None => P_err BAD_OPTION | Some x => P_ok (set_hold p (Some x)) end
    else P_ok p
  else if p_code p =? ABORT then
    if num =? 2 then
      match parse_int v with
      | None => P_err BAD_OPTION
      | Some x => if 65535 <? x then P_err BAD_OPTION else P_ok (set_bad_csm p (Some x))
      end
    else P_ok p
  else P_err BAD_REQUEST.

(** coap_oscore_parse_inner_option, coap.c:707-863.  With [validate] the strings are left alone. *)
Definition parse_inner_option (c : cfg) (p : packet) (num : N) (v : list N) (validate : bool) : pres :=
  let with_int (bad : N) (f : N -> pres) := match parse_int v with None => P_err bad | Some x => f x end in
  if num =? OPT_CONTENT_FORMAT then
    with_int UNSUPPORTED_MEDIA (fun x => if valid_cf c x then P_ok (set_cf p (Some (x mod 2 ^ 16))) else P_err UNSUPPORTED_MEDIA)
  else if num =? OPT_ETAG then P_ok (set_etag p (Some (firstn COAP_ETAG_LEN v)))
  else if num =? OPT_ACCEPT then
    with_int NOT_ACCEPTABLE (fun x => if valid_accept c x then P_ok (set_accept p (Some (x mod 2 ^ 16))) else P_err NOT_ACCEPTABLE)
  else if num =? OPT_URI_PATH then
    P_ok (if validate then p else set_path p (Some (merge_multi 47 (p_path p) v)))
  else if num =? OPT_URI_QUERY then
    P_ok (if validate then p else set_query p (Some (merge_multi 38 (p_query p) v)))
  else if num =? OPT_BLOCK2 then with_int BAD_OPTION (fun x => P_ok (set_block2 p (Some (block_decode x))))
  else if num =? OPT_BLOCK1 then with_int BAD_OPTION (fun x => P_ok (set_block1 p (Some (block_decode x))))
  else if num =? OPT_SIZE2 then with_int BAD_OPTION (fun x => P_ok (set_size2 p (Some x)))
  else if num =? OPT_SIZE1 then with_int BAD_OPTION (fun x => P_ok (set_size1 p (Some x)))
  else (* OCF_OPTION_CONTENT_FORMAT_VER, OCF_OPTION_ACCEPT_CONTENT_FORMAT_VER *)
    with_int UNSUPPORTED_MEDIA (fun x => if (x <? OCF_VER) && negb (c_oic c && (x =? OIC_VER))
                                         then P_err UNSUPPORTED_MEDIA else P_ok p).

(** coap_oscore_parse_outer_option, coap.c:865-907. *)
Definition parse_outer_option (p : packet) (num : N) (v : list N) (validate : bool) : pres :=
  if num =? OPT_PROXY_URI then P_ok (if validate then p else set_proxy_uri p (Some v))
  else if num =? OPT_URI_HOST then P_ok (set_uri_host p (Some v))
  else match parse_int v with
       | None => P_err BAD_OPTION
       | Some x => if 65535 <? x then P_err BAD_OPTION else P_ok (set_uri_port p (Some x))
       end.

Definition is_inner_number (n : N) : bool :=
  existsb (N.eqb n) [OPT_CONTENT_FORMAT; OPT_ETAG; OPT_ACCEPT; OPT_URI_PATH; OPT_URI_QUERY; OPT_BLOCK2; OPT_BLOCK1;
                     OPT_SIZE2; OPT_SIZE1; OPT_CF_VER; OPT_ACCEPT_VER].
Definition is_outer_number (n : N) : bool := existsb (N.eqb n) [OPT_PROXY_URI; OPT_URI_HOST; OPT_URI_PORT].

(** coap_oscore_parse_option, coap.c:909-1006. *)
Definition parse_option (c : cfg) (p : packet) (num : N) (v : list N) (inner outer oscore validate : bool) : pres :=
  if is_signal c (p_code p) then parse_signal p num v inner
  else if is_inner_number num then
    if negb inner then P_err BAD_OPTION else parse_inner_option c p num v validate
  else if c_oscore c && (num =? OPT_OSCORE) then
    if negb outer || negb oscore then P_err BAD_OPTION
    else match parse_oscore_option v with
         | O_ok (Some f) => P_ok (set_oscore p (Some f))
         | O_ok None => P_ok (set_oscore p (Some (match p_oscore p with Some f => f | None => mkF 0 [] [] [] end)))
         | O_reject => P_err BAD_OPTION
         | _ => P_oob
         end
  else if is_outer_number num then
    if negb outer then P_err BAD_OPTION else parse_outer_option p num v validate
  else if num =? OPT_MAX_AGE then
    match parse_int v with None => P_err BAD_OPTION | Some x => P_ok (set_max_age p (Some x)) end
  else if num =? OPT_OBSERVE then
    match parse_int v with None => P_err BAD_OPTION | Some x => P_ok (set_observe p (Some x)) end
  else if N.odd num then P_err BAD_OPTION else P_ok p.

(** The extended delta or length, coap.c:1041-1061, read from memory [m]. *)
Definition read_ext (nib : N) (m : list N) : option (N * list N) :=
  if nib =? 13 then match m with b :: r => Some (13 + b, r) | [] => None end
  else if nib =? 14 then match m with b1 :: b2 :: r => Some (14 + 255 + N.shiftl b1 8 + b2, r) | _ => None end
  else Some (nib, m).

(** The loop of coap_oscore_parse_options, coap.c:1028-1096.  [mem] is the readable memory from
    current_option on, [left] = data + data_len - current_option.  [last] is last_error. *)
Fixpoint parse_loop (fuel : nat) (c : cfg) (inner outer oscore validate : bool)
         (mem : list N) (left : Z) (num : N) (last : N) (p : packet) : pres :=
  match fuel with
  | O => P_oob
  | S f =>
    if (left <=? 0)%Z then if last =? 0 then P_ok p else P_err last
    else
      match mem with
      | [] => P_oob
      | b :: m1 =>
        if N.land b 0xF0 =? 0xF0 then
          if (Z.of_nat (List.length m1) <? left - 1)%Z then P_oob
          else if last =? 0 then P_ok (set_payload p (firstn (Z.to_nat (left - 1)) m1)) else P_err last
        else
          match read_ext (N.shiftr b 4) m1 with
          | None => P_oob
          | Some (delta, m2) =>
            match read_ext (N.land b 0x0F) m2 with
            | None => P_oob
            | Some (len, m3) =>
              let num' := (num + delta) mod 2 ^ 32 in
              let left' := (left - (Z.of_nat (List.length mem) - Z.of_nat (List.length m3)))%Z in
              if (left' <? Z.of_N len)%Z then P_err BAD_REQUEST
              else if (List.length m3 <? N.to_nat len)%nat then P_oob
              else
                let rest := skipn (N.to_nat len) m3 in
                let left'' := (left' - Z.of_N len)%Z in
                match parse_option c p num' (firstn (N.to_nat len) m3) inner outer oscore validate with
                | P_oob => P_oob
                | P_ok p' => parse_loop f c inner outer oscore validate rest left'' num' last p'
                | P_err s =>
                  if negb validate then P_err s
                  else if s =? BAD_REQUEST then P_err s
                  else parse_loop f c inner outer oscore validate rest left'' num' (N.max last s) p
                end
            end
          end
      end
  end.

(** coap_oscore_parse_options, coap.c:1008-1097; [total] is data_len, [pos] current_option - data. *)
Definition parse_options (c : cfg) (inner outer oscore validate : bool) (mem : list N) (total pos : N) (p : packet) : pres :=
  if 0xFFFFFFFF <? total then P_err BAD_REQUEST
  else parse_loop (S (List.length mem)) c inner outer oscore validate mem (Z.of_N total - Z.of_N pos)%Z 0 0 p.

(** coap_udp_parse_message, coap.c:1456-1506: [data] is the message, [after] what is readable behind
    it. *)
Definition udp_parse (c : cfg) (validate : bool) (data after : list N) : pres :=
  if 65535 <? nlen data then P_err BAD_REQUEST
  else
    match data ++ after with
    | b0 :: b1 :: b2 :: b3 :: m =>
      let version := N.shiftr (N.land 0xC0 b0) 6 in
      let type := N.shiftr (N.land 0x30 b0) 4 in
      let tkl := N.land 0x0F b0 in
      if negb (version =? 1) then P_err BAD_REQUEST
      else if 8 <? tkl then P_err BAD_REQUEST
      else if (List.length m <? N.to_nat tkl)%nat then P_oob
      else
        let p := set_token (set_mid (set_code (set_type blank type) b1) (N.lor (N.shiftl b2 8) b3))
                           (firstn (N.to_nat tkl) m) in
        parse_options c true true false validate (skipn (N.to_nat tkl) m) (nlen data) (4 + tkl) p
    | _ => P_oob
    end.

(** coap_tcp_parse_message_length, coap.c:1184-1224: [None] is [false]; otherwise (message length,
    extended bytes).  [TL_abort] is the failing assert (data_size > 0). *)
Inductive tlen := TL_abort | TL_false | TL_ok (len : N) (ext : nat).
Definition be_read (l : list N) : N := fold_left (fun acc b => N.lor (N.shiftl acc 8) b) l 0.
Definition tcp_parse_length (data : list N) : tlen :=
  match data with
  | [] => TL_abort
  | b0 :: r =>
    let nib := N.shiftr (N.land 0xF0 b0) 4 in
    if nib <? 13 then TL_ok nib 0
    else
      let ext := N.to_nat (N.shiftl 1 (nib - 13)) in
      if (List.length data <? ext + 1)%nat then TL_false
      else
        let v := be_read (firstn ext r) in
        TL_ok (v + (if nib =? 13 then TCP_EXT1_DEFAULT else if nib =? 14 then TCP_EXT2_DEFAULT else TCP_EXT3_DEFAULT)) ext
  end.

(** coap_tcp_get_packet_size, coap.c:1510-1526; [None] is -1 (or the assert). *)
Definition tcp_packet_size (data : list N) : option N :=
  match tcp_parse_length data with
  | TL_ok len ext => Some (2 + N.of_nat ext + N.land 0x0F (hd 0 data) + len)
  | _ => None
  end.

(** coap_tcp_parse_message, coap.c:1528-1580. *)
Definition tcp_parse (c : cfg) (validate : bool) (data after : list N) : pres :=
  if 0xFFFFFFFF <? nlen data then P_err BAD_REQUEST
  else
    match tcp_parse_length data with
    | TL_abort => P_oob
    | TL_false => P_err BAD_REQUEST
    | TL_ok _ ext =>
      let tkl := N.land 0x0F (hd 0 data) in
      match nth_error (data ++ after) (1 + ext) with
      | None => P_oob
      | Some code =>
        if 8 <? tkl then P_err BAD_REQUEST
        else
          let m := skipn (2 + ext) (data ++ after) in
          if (List.length m <? N.to_nat tkl)%nat then P_oob
          else
            let p := set_token (set_code (set_type (set_tcp blank true) 1) code) (firstn (N.to_nat tkl) m) in
            parse_options c true true false validate (skipn (N.to_nat tkl) m) (nlen data) (2 + N.of_nat ext + tkl) p
      end
    end.

(** oscore_parse_inner_message, oscore.c:407-431. *)
Definition inner_parse (c : cfg) (data after : list N) : pres :=
  match data ++ after with
  | [] => P_oob
  | code :: m => parse_options c true false true false m (nlen data) 1 (set_code blank code)
  end.

(** oscore_parse_outer_message over UDP, oscore.c:511-583. *)
Definition outer_parse_udp (c : cfg) (data after : list N) : pres :=
  match data ++ after with
  | b0 :: b1 :: b2 :: b3 :: m =>
    let tkl := N.land 0x0F b0 in
    if negb (N.shiftr (N.land 0xC0 b0) 6 =? 1) then P_err BAD_REQUEST
    else if 8 <? tkl then P_err BAD_REQUEST
    else if (List.length m <? N.to_nat tkl)%nat then P_oob
    else
      let p := set_token (set_mid (set_code (set_type blank (N.shiftr (N.land 0x30 b0) 4)) b1) (N.lor (N.shiftl b2 8) b3))
                         (firstn (N.to_nat tkl) m) in
      parse_options c false true true false (skipn (N.to_nat tkl) m) (nlen data) (4 + tkl) p
  | _ => P_oob
  end.
