(** Endpoints (api/oc_endpoint.c, port/common/oc_ip.c), built with IPv4 and TCP support.

    The address part of an endpoint is a union of an IPv6 and an IPv4 address (include/oc_endpoint.h:44-59,
    96-100), both starting with the port and followed by the bytes: [e_addr] holds the sixteen bytes, the IPv4
    address being the first four.  Bluetooth addresses are not modelled (the functions below do not look at them).
    Texts are byte lists without their terminator. *)
From Verif Require Import Common.
From Coq Require Import String.
Local Open Scope string_scope.
Local Open Scope list_scope.
Local Open Scope N_scope.

(** oc_endpoint_t, include/oc_endpoint.h:90-112. *)
Record ep := mk_ep { e_flags : N; e_dev : N; e_addr : list N; e_port : N; e_if : N; e_sess : N }.

(** transport_flags, include/oc_endpoint.h:75-84. *)
Definition SECURED : N := 2.
Definition IPV4 : N := 4.
Definition IPV6 : N := 8.
Definition TCP : N := 16.
Definition GATT : N := 32.
Definition MULTICAST : N := 64.
Definition ACCEPTED : N := 128.
Definition has (fl b : N) : bool := negb (N.land fl b =? 0).

(** oc_endpoint_compare_session_ids, api/oc_endpoint.c:683-693; [true] is the result 0. *)
Definition compare_sessions (a b : ep) : bool :=
  (e_sess a =? 0) || (e_sess b =? 0) || (e_sess a =? e_sess b).

(** oc_endpoint_compare, api/oc_endpoint.c:695-733; [true] is the result 0.  The complement of the two flags is
    taken in eight bits, all flags being below 256. *)
Definition flag_mask : N := 63.
Definition ep_compare (a b : ep) : bool :=
  if negb (N.land (e_flags a) flag_mask =? N.land (e_flags b) flag_mask) || negb (e_dev a =? e_dev b) then false
  else if has (e_flags a) IPV6 then
    list_eqb (firstn 16 (e_addr a)) (firstn 16 (e_addr b)) && (e_port a =? e_port b) && compare_sessions a b
  else if has (e_flags a) IPV4 then
    list_eqb (firstn 4 (e_addr a)) (firstn 4 (e_addr b)) && (e_port a =? e_port b) && compare_sessions a b
  else false.

(** oc_endpoint_compare_address, api/oc_endpoint.c:658-681. *)
Definition compare_address (a b : ep) : bool :=
  let fl := N.land (e_flags a) (e_flags b) in
  if has fl IPV6 then list_eqb (firstn 16 (e_addr a)) (firstn 16 (e_addr b))
  else if has fl IPV4 then list_eqb (firstn 4 (e_addr a)) (firstn 4 (e_addr b))
  else false.

(** * Printing *)

(** The conversion %u. *)
Fixpoint dec_aux (f : nat) (n : N) : list N :=
  match f with
  | O => []
  | S f => (if n <? 10 then [] else dec_aux f (n / 10)) ++ [48 + n mod 10]
  end.
Definition dec (n : N) : list N := dec_aux (S (N.size_nat n)) n.

(** The conversion %x. *)
Definition xdigit (d : N) : N := if d <? 10 then 48 + d else 87 + d.
Fixpoint hex_aux (f : nat) (n : N) : list N :=
  match f with
  | O => []
  | S f => (if n <? 16 then [] else hex_aux f (n / 16)) ++ [xdigit (n mod 16)]
  end.
Definition hex (n : N) : list N := hex_aux (S (N.size_nat n)) n.

(** endpoint_flags_to_scheme, api/oc_endpoint.c:92-107 (the texts: api/oc_endpoint_internal.h:39-42). *)
Definition scheme_of (fl : N) : list N :=
  if has fl TCP then (if has fl SECURED then str "coaps+tcp://" else str "coap+tcp://")
  else if has fl SECURED then str "coaps://" else str "coap://".

(** The text of an IPv4 address, port/common/oc_ip.c:84-97. *)
Definition text4 (a : list N) : list N :=
  dec (nth 0 a 0) ++ [46] ++ dec (nth 1 a 0) ++ [46] ++ dec (nth 2 a 0) ++ [46] ++ dec (nth 3 a 0).

(** inet_ntop for IPv6 is a C library function; this is the algorithm of the GNU library (and of BIND): the first
    longest run of at least two zero words is left out, and addresses with an embedded IPv4 address end with it. *)
Fixpoint words (a : list N) : list N :=
  match a with
  | x :: y :: r => 256 * x + y :: words r
  | _ => []
  end.
Definition better (cur best : option (nat * nat)) : option (nat * nat) :=
  match cur, best with
  | Some (b, l), Some (b', l') => if (l' <? l)%nat then Some (b, l) else Some (b', l')
  | Some c, None => Some c
  | None, _ => best
  end.
Fixpoint runs (i : nat) (zs : list bool) (cur best : option (nat * nat)) : option (nat * nat) :=
  match zs with
  | [] => better cur best
  | true :: zs => runs (S i) zs (match cur with Some (b, l) => Some (b, S l) | None => Some (i, 1%nat) end) best
  | false :: zs => runs (S i) zs None (better cur best)
  end.
Definition best_run (zs : list bool) : option (nat * nat) :=
  match runs 0 zs None None with
  | Some (b, l) => if (l <? 2)%nat then None else Some (b, l)
  | None => None
  end.
Definition embedded (ws : list N) (r : option (nat * nat)) : bool :=
  match r with
  | Some (O, l) => (l =? 6)%nat || ((l =? 5)%nat && (nth 5 ws 0 =? 65535))
  | _ => false
  end.
Fixpoint ntop_words (i : nat) (ws : list N) (r : option (nat * nat)) (emb : option (list N)) : list N :=
  match ws with
  | [] => match r with Some (b, l) => if (b + l =? i)%nat then [58] else [] | None => [] end
  | w :: rest =>
      match r with
      | Some (b, l) =>
          if (b <=? i)%nat && (i <? b + l)%nat then
            (if (i =? b)%nat then [58] else []) ++ ntop_words (S i) rest r emb
          else
            (if (i =? 0)%nat then [] else [58]) ++
            (match emb with
             | Some t => if (i =? 6)%nat then t else hex w ++ ntop_words (S i) rest r emb
             | None => hex w ++ ntop_words (S i) rest r emb
             end)
      | None => (if (i =? 0)%nat then [] else [58]) ++ hex w ++ ntop_words (S i) rest r emb
      end
  end.
Definition ntop6 (a : list N) : list N :=
  let ws := words a in
  let r := best_run (map (fun w => w =? 0) ws) in
  ntop_words 0 ws r (if embedded ws r then Some (text4 (skipn 12 a)) else None).

(** oc_ipv6_address_to_string and oc_ipv6_address_and_port_to_string, port/common/oc_ip.c:41-80; [n] is the size of
    the buffer, [None] the result -1. *)
Definition addr_port6 (a : list N) (port : N) (n : N) : option (list N) :=
  if n <? 8 then None
  else
    let t := ntop6 a in
    if n - 1 <? N.of_nat (List.length t) + 1 then None
    else
      let p := str "]:" ++ dec port in
      if n - (1 + N.of_nat (List.length t)) <=? N.of_nat (List.length p) then None
      else Some ([91] ++ t ++ p).

(** oc_ipv4_address_to_string and oc_ipv4_address_and_port_to_string, port/common/oc_ip.c:84-119. *)
Definition addr_port4 (a : list N) (port : N) (n : N) : option (list N) :=
  let t := text4 a in
  if n <=? N.of_nat (List.length t) then None
  else
    let p := [58] ++ dec port in
    if n - N.of_nat (List.length t) <=? N.of_nat (List.length p) then None
    else Some (t ++ p).

(** oc_endpoint_address_and_port_to_cstring, api/oc_endpoint.c:139-154. *)
Definition addr_port (e : ep) (n : N) : option (list N) :=
  if has (e_flags e) IPV4 then addr_port4 (e_addr e) (e_port e) n
  else if has (e_flags e) IPV6 then addr_port6 (e_addr e) (e_port e) n
  else None.

(** oc_endpoint_flags_to_scheme and oc_endpoint_to_cstring, api/oc_endpoint.c:109-123, 156-176. *)
Definition to_cstring (e : ep) (n : N) : option (list N) :=
  let s := scheme_of (e_flags e) in
  if N.of_nat (List.length s) <? n then
    match addr_port e (n - N.of_nat (List.length s)) with
    | Some t => Some (s ++ t)
    | None => None
    end
  else None.

(** oc_endpoint_to_string64 and oc_endpoint_to_string, api/oc_endpoint.c:178-208: a buffer of 64 bytes. *)
Definition to_string (e : ep) : option (list N) := to_cstring e 64.

(** * Parsing *)

(** The value of strtoul(s, &next, 10), 64 bits wide, and the number of bytes consumed. *)
Definition is_digit (c : N) : bool := (48 <=? c) && (c <=? 57).
Definition is_space (c : N) : bool := (c =? 32) || ((9 <=? c) && (c <=? 13)).
Fixpoint span (p : N -> bool) (s : list N) : list N :=
  match s with
  | c :: r => if p c then c :: span p r else []
  | [] => []
  end.
Definition dval (d : list N) : N := fold_left (fun v c => v * 10 + (c - 48)) d 0.
Definition strtoul10 (s : list N) : N * nat :=
  let k1 := List.length (span is_space s) in
  let s1 := skipn k1 s in
  let '(neg, k2, s2) := match s1 with
                        | 45 :: r => (true, 1%nat, r)
                        | 43 :: r => (false, 1%nat, r)
                        | _ => (false, 0%nat, s1)
                        end in
  match span is_digit s2 with
  | [] => (0, 0%nat)
  | d => let v := dval d in
         ((if 2 ^ 64 <=? v then 2 ^ 64 - 1 else if neg : bool then (2 ^ 64 - v) mod 2 ^ 64 else v),
          (k1 + k2 + List.length d)%nat)
  end.

Definition pad (n : nat) (a : list N) : list N := a ++ repeat 0 (n - List.length a).

(** oc_parse_ipv4_address, api/oc_endpoint.c:226-240: [s] is the rest of the text, [rem] the number of its bytes that
    belong to the host, [cnt] the number of address bytes to fill. *)
Fixpoint parse4 (cnt : nat) (s : list N) (rem : nat) : list N :=
  match cnt with
  | O => []
  | S cnt =>
      match rem with
      | O => []
      | _ => let (v, k) := strtoul10 s in
             v mod 256 :: parse4 cnt (skipn (k + 1) s) (rem - (k + 1))
      end
  end.

(** hex_to_bin, api/oc_endpoint.c:242-311: one or two characters; anything else stands for itself. *)
Definition hexval (c : N) : N :=
  if (48 <=? c) && (c <=? 57) then c - 48
  else if (97 <=? c) && (c <=? 102) then c - 87
  else if (65 <=? c) && (c <=? 70) then c - 55
  else c.
Definition bin1 (a : N) : N := hexval a.
Definition bin2 (a b : N) : N := N.lor (hexval a * 16 mod 256) (hexval b).

(** oc_parse_ipv6_address, api/oc_endpoint.c:313-379.  The loop: [s] is the rest of the text between the brackets
    (it is followed by the closing bracket, so looking two bytes ahead never leaves it), [a] the bytes written so
    far, [split] the place of the double colon. *)
Fixpoint parse6_loop (f : nat) (s : list N) (a : list N) (split : option nat) : option (list N * option nat) :=
  match f with
  | O => None
  | S f =>
      match s with
      | [] => Some (a, split)
      | _ =>
          if (15 <=? List.length a)%nat then Some (a, split)
          else
            let '(s, split) := match split, s with
                               | None, 58 :: 58 :: r => (r, Some (List.length a))
                               | _, _ => (s, split)
                               end in
            match span (fun c => negb (c =? 58)) s with
            | [p; q; r; t] => parse6_loop f (skipn 4 s) (a ++ [bin2 p q; bin2 r t]) split
            | [p; q; r] => parse6_loop f (skipn 3 s) (a ++ [bin1 p; bin2 q r]) split
            | [p; q] => parse6_loop f (skipn 2 s) (a ++ [0; bin2 p q]) split
            | [p] => parse6_loop f (skipn 1 s) (a ++ [0; bin1 p]) split
            | [] => parse6_loop f (tl s) a split
            | _ => None
            end
      end
  end.
(** The loop that moves what follows the double colon to the end, lines 363-376. *)
Fixpoint upd (a : list N) (i : nat) (v : N) : list N :=
  match a, i with
  | [], _ => []
  | _ :: r, O => v :: r
  | x :: r, S i => x :: upd r i v
  end.
Fixpoint shift (cnt : nat) (a : list N) (i j : nat) : list N :=
  match cnt with
  | O => a
  | S cnt => shift cnt (upd (upd a j (nth i a 0)) i 0) (i - 1) (j - 1)
  end.
Definition parse6 (s : list N) : option (list N) :=
  match parse6_loop (S (List.length s)) s [] None with
  | None => None
  | Some (a, None) => Some (pad 16 a)
  | Some (a, Some k) => Some (shift (List.length a - k) (pad 16 a) (List.length a - 1) 15)
  end.

(** parse_endpoint_flags, api/oc_endpoint.c:391-417: the flags and the text after the scheme. *)
Definition prefix_of (p s : list N) : bool := (List.length p <? List.length s)%nat && list_eqb (firstn (List.length p) s) p.
Definition parse_scheme (s : list N) : option (N * list N) :=
  let try (fl : N) (k : option (N * list N)) :=
    let p := scheme_of fl in if prefix_of p s then Some (fl, skipn (List.length p) s) else k in
  try (TCP + SECURED) (try TCP (try SECURED (try 0 None))).

(** memchr: the index of a byte. *)
Fixpoint index_of (c : N) (s : list N) : option nat :=
  match s with
  | [] => None
  | x :: r => if x =? c then Some O else option_map S (index_of c r)
  end.

(** parse_endpoint_uri, api/oc_endpoint.c:419-494: the length of the host, the port and the path.  When the first
    colon comes after the first slash the length of the port text wraps around, and the loop over its digits stops at
    the latest at the terminator of the text, with an error. *)
Definition colon_of (addr : list N) : option (option nat) :=
  match addr with
  | 91 :: _ =>
      match index_of 93 addr with
      | None => None
      | Some k => Some (option_map (fun i => (k + i)%nat) (index_of 58 (firstn (List.length addr - (k + 1)) (skipn k addr))))
      end
  | _ => Some (index_of 58 addr)
  end.
Definition parse_uri (fl : N) (addr : list N) : option (nat * N * option (list N)) :=
  let u := index_of 47 addr in
  let uri := option_map (fun i => skipn i addr) u in
  match colon_of addr with
  | None => None
  | Some (Some p) =>
      let d := skipn (p + 1) addr in
      let ok := match u with
                | Some i => (p + 1 <=? i)%nat && forallb is_digit (firstn (i - (p + 1)) d)
                | None => forallb is_digit d
                end in
      if ok then Some (p, fst (strtoul10 d) mod 65536, uri) else None
  | Some None =>
      Some (match u with Some i => i | None => List.length addr end, if has fl SECURED then 5684 else 5683, uri)
  end.

(** oc_parse_endpoint_string and oc_string_to_endpoint, api/oc_endpoint.c:518-602, with the path asked for.  A host
    ending in a letter is looked up in the domain name system (lines 534-561), which is outside the model: the result
    is then the name.  With an empty host line 534 looks at the slash that ends the scheme. *)
Inductive parsed :=
| PError
| PName (host : list N) (fl port : N) (uri : option (list N))
| PAddress (e : ep) (uri : option (list N)).
Definition is_letter (c : N) : bool := ((65 <=? c) && (c <=? 90)) || ((97 <=? c) && (c <=? 122)).
Definition of_string (s : list N) : parsed :=
  match parse_scheme s with
  | None => PError
  | Some (fl, addr) =>
      match parse_uri fl addr with
      | None => PError
      | Some (hl, port, uri) =>
          let host := firstn hl addr in
          let lastc := last host 47 in
          if is_letter lastc then
            (if (254 <? hl)%nat then PError else PName host fl port uri)
          else if (1 <? hl)%nat && (hd 0 addr =? 91) && (lastc =? 93) then
            match parse6 (firstn (hl - 2) (tl addr)) with
            | None => PError
            | Some a => PAddress (mk_ep (fl + IPV6) 0 a port 0 0) uri
            end
          else PAddress (mk_ep (fl + IPV4) 0 (pad 16 (pad 4 (parse4 4 addr hl))) port 0 0) uri
      end
  end.

(** strstr for the separator that ends the scheme, then oc_endpoint_string_parse_path, api/oc_endpoint.c:604-643. *)
Fixpoint after_sep (s : list N) : option (list N) :=
  match s with
  | 58 :: 47 :: 47 :: r => Some r
  | _ :: r => after_sep r
  | [] => None
  end.
Definition parse_path (s : list N) : option (list N) :=
  match after_sep s with
  | None => None
  | Some addr =>
      match index_of 47 addr with
      | None => None
      | Some i =>
          let p := skipn i addr in
          Some (match index_of 63 p with Some q => firstn q p | None => p end)
      end
  end.
