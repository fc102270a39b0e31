(** RFC 7252 / RFC 8323 layout and the well-formed messages, independent of the codec functions. *)
From Verif Require Import Common Oscore_Model Oscore_Spec Coap_Model.
Local Open Scope N_scope.

(** RFC 7252, 3.1: the nibble and extended bytes of an option delta or length. *)
Inductive rfc_ext : N -> N -> list N -> Prop :=
| ext0 v : v < 13 -> rfc_ext v v []
| ext1 v : 13 <= v < 269 -> rfc_ext v 13 [v - 13]
| ext2 v : 269 <= v < 65805 -> rfc_ext v 14 [(v - 269) / 256; (v - 269) mod 256].

(** One option: nibbles, extended delta, extended length, value. *)
Inductive rfc_option : N -> list N -> list N -> Prop :=
| rfc_opt delta value dn de ln le :
    rfc_ext delta dn de -> rfc_ext (N.of_nat (List.length value)) ln le ->
    rfc_option delta value ((16 * dn + ln) :: de ++ le ++ value).

(** A list of (number, value) options in ascending order, the first relative to [prev]. *)
Inductive rfc_options : N -> list (N * list N) -> list N -> Prop :=
| rfc_nil prev : rfc_options prev [] []
| rfc_cons prev n v r b br :
    prev <= n -> rfc_option (n - prev) v b -> rfc_options n r br ->
    rfc_options prev ((n, v) :: r) (b ++ br).

(** RFC 7252, 3.2: unsigned integers are big endian without leading zero bytes, 0 is empty. *)
Definition rfc_uint (v : N) (l : list N) : Prop :=
  be_val l = v /\ bytes_ok l /\ (forall r, l <> 0 :: r).

(** RFC 7252, 3: payload marker only in front of a non-empty payload. *)
Definition rfc_payload (payload l : list N) : Prop :=
  payload = [] /\ l = [] \/ payload <> [] /\ l = 255 :: payload.

(** RFC 7252, 3: a UDP message. *)
Definition rfc_udp (type code mid : N) (token : list N) (opts : list (N * list N)) (payload msg : list N) : Prop :=
  exists ob pb, rfc_options 0 opts ob /\ rfc_payload payload pb /\
    msg = [64 + 16 * type + N.of_nat (List.length token); code; mid / 256; mid mod 256] ++ token ++ ob ++ pb.

(** RFC 8323, 3.2: the Len nibble and the extended length for options plus payload (with marker). *)
Inductive rfc_tcp_len : N -> N -> list N -> Prop :=
| tl0 n : n < 13 -> rfc_tcp_len n n []
| tl1 n : 13 <= n < 269 -> rfc_tcp_len n 13 [n - 13]
| tl2 n : 269 <= n < 65805 -> rfc_tcp_len n 14 [(n - 269) / 256; (n - 269) mod 256]
| tl3 n b1 b2 b3 b4 : 65805 <= n -> bytes_ok [b1; b2; b3; b4] ->
    n - 65805 = ((b1 * 256 + b2) * 256 + b3) * 256 + b4 -> rfc_tcp_len n 15 [b1; b2; b3; b4].
Definition rfc_tcp (code : N) (token : list N) (opts : list (N * list N)) (payload msg : list N) : Prop :=
  exists ob pb nib ext, rfc_options 0 opts ob /\ rfc_payload payload pb /\
    rfc_tcp_len (N.of_nat (List.length (ob ++ pb))) nib ext /\
    msg = (16 * nib + N.of_nat (List.length token)) :: ext ++ [code] ++ token ++ ob ++ pb.

(** The segments of a string: cut at every separator. *)
Fixpoint segments (sep : N) (s : list N) : list (list N) :=
  match s with
  | [] => [[]]
  | c :: r => if c =? sep then [] :: segments sep r
              else match segments sep r with
                   | [] => [[c]]
                   | w :: ws => (c :: w) :: ws
                   end
  end.
(** Join with the separator between consecutive parts. *)
Fixpoint join (sep : N) (l : list (list N)) : list N :=
  match l with
  | [] => []
  | [w] => w
  | w :: r => w ++ sep :: join sep r
  end.

(** Strings that neither begin nor end with the separator. *)
Definition trimmed (sep : N) (s : list N) : Prop := hd_error s <> Some sep /\ hd_error (rev s) <> Some sep.

Definition opt_all {A} (P : A -> Prop) (o : option A) : Prop := match o with None => True | Some x => P x end.

(** Block options with one of the sizes a block option can carry; the offset is num * size. *)
Definition wf_block (b : block) : Prop :=
  b_num b < 2 ^ 20 /\ b_more b <= 1 /\ (exists szx, szx <= 7 /\ b_size b = 2 ^ (szx + 4)) /\
  b_offset b = b_num b * b_size b.

(** Content formats the peer accepts in this build. *)
Definition known_format (c : cfg) (v : N) : Prop :=
  v = 10000 \/ (c_oic c = true /\ v = 60) \/ (c_json c = true /\ (v = 50 \/ v = 432)).
Definition known_accept (c : cfg) (v : N) : Prop :=
  known_format c v \/ (c_wkcore c = true /\ v = 40).
(** Formats that carry an OCF version option. *)
Definition versioned (c : cfg) (v : N) : Prop := v = 10000 \/ (c_oic c = true /\ v = 60).

(** No signal fields. *)
Definition no_signal (p : packet) : Prop :=
  p_max_msg p = None /\ p_bert p = false /\ p_custody p = false /\ p_alt p = None /\ p_hold p = None /\ p_bad_csm p = None.
(** No option carried by requests and responses. *)
Definition no_options (p : packet) : Prop :=
  p_uri_host p = None /\ p_etag p = None /\ p_observe p = None /\ p_uri_port p = None /\ p_oscore p = None /\
  p_path p = None /\ p_cf p = None /\ p_max_age p = None /\ p_query p = None /\ p_accept p = None /\
  p_block2 p = None /\ p_block1 p = None /\ p_size2 p = None /\ p_proxy_uri p = None /\ p_size1 p = None.

(** Codes 7.01 to 7.05 when CoAP over TCP is compiled in. *)
Definition signal_code (c : cfg) (code : N) : Prop := c_tcp c = true /\ 225 <= code <= 229.

(** A request or response whose fields are in range.  The last line excludes the one combination
    that the sender gets wrong (C01_version_delta_refuted). *)
Definition wf_request (c : cfg) (p : packet) : Prop :=
  p_code p <> 0 /\ ~ signal_code c (p_code p) /\ no_signal p /\ p_oscore p = None /\
  opt_all (fun t => (List.length t <= 8)%nat) (p_etag p) /\
  opt_all (fun v => v < 2 ^ 32) (p_observe p) /\
  opt_all (fun v => v < 2 ^ 16) (p_uri_port p) /\
  opt_all (trimmed 47) (p_path p) /\
  opt_all (known_format c) (p_cf p) /\
  opt_all (fun v => v < 2 ^ 32) (p_max_age p) /\
  opt_all (trimmed 38) (p_query p) /\
  opt_all (known_accept c) (p_accept p) /\
  opt_all wf_block (p_block2 p) /\ opt_all wf_block (p_block1 p) /\
  opt_all (fun v => v < 2 ^ 32) (p_size2 p) /\
  opt_all (fun v => v < 2 ^ 32) (p_size1 p) /\
  opt_all (fun a => opt_all (fun f => versioned c f -> versioned c a) (p_cf p)) (p_accept p).

(** A signal message: only the options of its code. *)
Definition wf_signal (c : cfg) (p : packet) : Prop :=
  signal_code c (p_code p) /\ no_options p /\
  opt_all (fun v => v < 2 ^ 32) (p_max_msg p) /\
  opt_all (fun v => v < 2 ^ 32) (p_hold p) /\
  opt_all (fun v => v < 2 ^ 16) (p_bad_csm p) /\
  (p_code p <> 225 -> p_max_msg p = None /\ p_bert p = false) /\
  (p_code p <> 226 -> p_code p <> 227 -> p_custody p = false) /\
  (p_code p <> 228 -> p_alt p = None /\ p_hold p = None) /\
  (p_code p <> 229 -> p_bad_csm p = None).

(** An empty message: nothing but the header. *)
Definition wf_empty (p : packet) : Prop :=
  p_code p = 0 /\ p_token p = [] /\ no_options p /\ no_signal p /\ p_payload p = [].

Definition wf_message (c : cfg) (p : packet) : Prop :=
  p_type p < 4 /\ p_mid p < 2 ^ 16 /\ (List.length (p_token p) <= 8)%nat /\
  (wf_request c p \/ wf_signal c p \/ wf_empty p).

(** COAP_MAX_HEADER_SIZE stays below what an option length can express (it is 173, 300, ...). *)
Definition cfg_ok (c : cfg) : Prop := c_max_hdr c <= 65804.

(** A packet without the strings the validity check does not collect. *)
Definition strings_cleared (p : packet) : packet := set_proxy_uri (set_query (set_path p None) None) None.
