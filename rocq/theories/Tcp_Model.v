(** Receiving CoAP messages from a TCP stream: cutting the byte stream into messages
    (port/linux/tcpsession.c, api/oc_tcp.c), cutting decrypted TLS data into messages
    (security/oc_tls.c), recognising OSCORE messages (messaging/coap/oscore.c), and sending a message
    to a stream.

    Simplifications: one connection; the session list, the file descriptor sets and the locking are
    left out; a decrypted TLS record is the unit in which mbedtls_ssl_read hands out bytes, its
    errors are left out; OC_SECURITY and OC_TCP are on. *)
From Coq Require Import NArith List Bool Arith Lia.
From Verif Require Import Common Coap_Model.
Import ListNotations.
Local Open Scope N_scope.

(** size_t subtraction. *)
Definition sub64 (a b : N) : N := (a + 2 ^ 64 - b) mod 2 ^ 64.

(** OC_TCP_DEFAULT_RECEIVE_SIZE, api/oc_tcp_internal.h:35-36 (2 + 4, messaging/coap/constants.h:95-98). *)
Definition FIRST_READ : N := 6.

(** oc_tcp_is_valid_header, api/oc_tcp.c:99-166.  Record types: change cipher spec 20, alert 21,
    handshake 22, application data 23, CID 25. *)
Definition valid_header (tls : bool) (data : list N) : bool :=
  if tls then
    match data with
    | ty :: major :: minor :: _ =>
      existsb (N.eqb ty) [22; 20; 21; 23; 25] && (major =? 3) && existsb (N.eqb minor) [1; 2; 3; 4]
    | _ => false
    end
  else
    match data with
    | [] => false
    | b0 :: _ => N.land 0x0F b0 <=? 8
    end.

(** oc_tcp_get_total_length_from_header, api/oc_tcp.c:202-223; [None] is -1. *)
Definition total_length (tls : bool) (data : list N) : option N :=
  if negb (valid_header tls data) then None
  else if tls then
    match data with
    | _ :: _ :: _ :: hi :: lo :: _ => Some (5 + N.lor (N.shiftl hi 8) lo)
    | _ => None
    end
  else tcp_packet_size data.

(** oscore_is_oscore_message, oscore.c:433-509.  [mem] is the whole buffer, [len] the length of the
    message in it, [off] the position of current_option.  [O_oob]: a byte outside the buffer is read;
    [O_abort]: the assert of coap_tcp_parse_message_length. *)
Inductive oscr := O_yes | O_no | O_oob | O_abort | O_fuel.

(** The extended form of a delta or a length, oscore.c:476-496: (value, next position). *)
Definition osc_ext (mem : list N) (v : N) (off : nat) : option (N * nat) :=
  if v =? 13 then option_map (fun b => (v + b, S off)) (nth_error mem off)
  else if v =? 14 then
    match nth_error mem off, nth_error mem (S off) with
    | Some b, Some b' => Some (v + 255 + N.shiftl b 8 + b', S (S off))
    | _, _ => None
    end
  else Some (v, off).

(** The loop over the options, oscore.c:467-506. *)
Fixpoint osc_loop (fuel : nat) (mem : list N) (len off : nat) (num : N) : oscr :=
  match fuel with
  | O => O_fuel
  | S f =>
    if (len <=? off)%nat then O_no
    else
      match nth_error mem off with
      | None => O_oob
      | Some b =>
        if N.land b 0xF0 =? 0xF0 then O_no
        else
          match osc_ext mem (N.shiftr b 4) (S off) with
          | None => O_oob
          | Some (d, o1) =>
            match osc_ext mem (N.land b 0x0F) o1 with
            | None => O_oob
            | Some (l, o2) =>
              let num' := (num + d) mod 2 ^ 32 in
              if num' =? 9 then O_yes else osc_loop f mem len (o2 + N.to_nat l) num'
            end
          end
      end
  end.

(** oscore_is_oscore_message, oscore.c:433-464: where the options start. *)
Definition is_oscore (tcp : bool) (data after : list N) : oscr :=
  let mem := data ++ after in
  let start (hdr : nat) :=
    match mem with
    | [] => O_oob
    | b0 :: _ =>
      osc_loop (S (List.length data)) mem (List.length data) (hdr + N.to_nat (N.land 0x0F b0)) 0
    end in
  if tcp then
    match tcp_parse_length data with
    | TL_abort => O_abort
    | TL_false => O_no
    | TL_ok _ ext => start (2 + ext)%nat
    end
  else start 4%nat.

(** oc_tcp_is_valid_message, api/oc_tcp.c:168-193; [osc] is OC_OSCORE. *)
Inductive vres := V_ok | V_bad | V_abort.
Definition valid_message (c : cfg) (osc tls : bool) (data after : list N) : vres :=
  if tls then V_ok
  else
    let parse :=
      match tcp_parse c true data after with
      | P_ok _ => V_ok
      | P_err _ => V_bad
      | P_oob => V_abort
      end in
    if osc then
      match is_oscore true data after with
      | O_yes => V_ok
      | O_no => parse
      | _ => V_abort
      end
    else parse.

(** What one call of recv meets: [Got k]: k bytes have arrived (at least one, or the end of the
    stream); [Intr]: EINTR; [Fail]: another error. *)
Inductive rcv := Got (k : nat) | Intr | Fail.

(** How receiving a message ends: [R_none]: the peer has closed the stream; [R_error]: the connection
    is closed by this side; [R_wait]: recv has not returned yet; [R_abort]: an assert fails or the
    program reads outside the buffer; [R_over]: bytes are written behind the buffer. *)
Inductive result := R_msg (m rest : list N) | R_none | R_error | R_wait | R_abort | R_over.

(** tcp_session_receive_message_locked, tcpsession.c:428-494.  [buf]: the message's buffer before (its
    length is oc_message_buffer_size), [evs]: what the calls of recv meet, [stream]: the bytes the
    peer has sent and that are not read yet, [msg]: the bytes read so far, [want]: want_read,
    [total]: total_length. *)
Definition finish (c : cfg) (osc tls : bool) (buf stream msg : list N) : result :=
  match valid_message c osc tls msg (skipn (List.length msg) buf) with
  | V_ok => R_msg msg stream
  | V_bad => R_error
  | V_abort => R_abort
  end.

Fixpoint receive_loop (c : cfg) (osc tls : bool) (buf : list N) (evs : list rcv) (stream msg : list N)
    (want total : N) : result :=
  match evs with
  | [] => R_wait
  | Fail :: _ => R_error
  | Intr :: r =>
    if nlen msg <? total then receive_loop c osc tls buf r stream msg want total
    else finish c osc tls buf stream msg
  | Got k :: r =>
    let count := N.min want (N.of_nat (Nat.min (Nat.max 1 k) (List.length stream))) in
    if count =? 0 then R_none
    else
      let n := N.to_nat count in
      let msg' := msg ++ firstn n stream in
      let stream' := skipn n stream in
      if nlen buf <? nlen msg' then R_over
      else if total =? 0 then
        match total_length tls msg' with
        | None => R_error
        | Some t =>
          if nlen buf <? t then R_error
          else if nlen msg' <? t then receive_loop c osc tls buf r stream' msg' (sub64 t count) t
          else finish c osc tls buf stream' msg'
        end
      else if nlen msg' <? total then receive_loop c osc tls buf r stream' msg' (sub64 want count) total
      else finish c osc tls buf stream' msg'
  end.

Definition receive (c : cfg) (osc tls : bool) (buf : list N) (evs : list rcv) (stream : list N) : result :=
  receive_loop c osc tls buf evs stream [] FIRST_READ 0.

(** tcp_receive_message for one session, tcpsession.c:496-524, called again and again: the messages
    delivered and what is left of the stream, or how it ended. *)
Inductive final := S_open (rest : list N) | S_end (r : result).
Fixpoint session (c : cfg) (osc tls : bool) (buf : list N) (scheds : list (list rcv)) (stream : list N)
    : list (list N) * final :=
  match scheds with
  | [] => ([], S_open stream)
  | evs :: r =>
    match receive c osc tls buf evs stream with
    | R_msg m rest => let (ms, f) := session c osc tls buf r rest in (m :: ms, f)
    | x => ([], S_end x)
    end
  end.

(** tcp_send_message, tcpsession.c:938-966: what the calls of send meet; the result is (bytes put on
    the stream, return value); [None]: send has not returned yet. *)
Inductive snd_ev := Put (k : nat) | SIntr | SFail.
Inductive sret := S_minus1 | S_bytes (n : N).
Fixpoint send_loop (evs : list snd_ev) (sent rest : list N) : option (list N * sret) :=
  match evs with
  | [] => None
  | SFail :: _ => Some (sent, match sent with [] => S_minus1 | _ => S_bytes (nlen sent) end)
  | SIntr :: r => match rest with [] => Some (sent, S_bytes (nlen sent)) | _ => send_loop r sent rest end
  | Put k :: r =>
    let sent' := sent ++ firstn k rest in
    match skipn k rest with
    | [] => Some (sent', S_bytes (nlen sent'))
    | rest' => send_loop r sent' rest'
    end
  end.
Definition send_message (evs : list snd_ev) (m : list N) : option (list N * sret) := send_loop evs [] m.

(** The message being put together from decrypted data (processed_recv_message): its bytes and the
    size of its buffer. *)
Record part := mkPart { t_data : list N; t_cap : N }.

(** mbedtls_ssl_read as far as the caller sees it: at most [want] bytes of the oldest record that has
    bytes left; [None]: MBEDTLS_ERR_SSL_WANT_READ. *)
Fixpoint ssl_read (want : N) (recs : list (list N)) : option (list N * list (list N)) :=
  match recs with
  | [] => None
  | [] :: r => ssl_read want r
  | bs :: r =>
    let n := N.to_nat (N.min want (nlen bs)) in
    Some (firstn n bs, skipn n bs :: r)
  end.

(** oc_message_shrink_buffer, api/oc_message.c:230-247 (realloc does not fail). *)
Definition shrink (p : part) (size : N) : part :=
  if size =? t_cap p then p else mkPart (firstn (N.to_nat size) (t_data p)) size.

(** What a call of tls_read_application_data_tcp comes to: [T_wait]: it returns waiting for more;
    [T_msg]: a message is posted to the CoAP engine; [T_free]: the peer is freed; [T_over]: bytes are
    written behind the buffer. *)
Inductive tres := T_wait (p : part) (recs : list (list N)) | T_msg (m : list N) (recs : list (list N))
  | T_free | T_over | T_fuel.

(** The loop of tls_read_application_data_tcp, security/oc_tls.c:2810-2866; [dyn] is
    OC_HAS_FEATURE_MESSAGE_DYNAMIC_BUFFER, [pdu] is OC_PDU_SIZE. *)
Fixpoint tls_loop (dyn : bool) (pdu : N) (fuel : nat) (p : part) (recs : list (list N)) : tres :=
  match fuel with
  | O => T_fuel
  | S f =>
    let go (want total : N) (p : part) :=
      match ssl_read want recs with
      | None => T_wait p recs
      | Some ([], recs') => T_wait p recs'
      | Some (bs, recs') =>
        let d := t_data p ++ bs in
        if t_cap p <? nlen d then T_over
        else if negb (total =? 0) && (nlen d =? total) then T_msg d recs'
        else tls_loop dyn pdu f (mkPart d (t_cap p)) recs'
      end in
    if nlen (t_data p) <? FIRST_READ then go (FIRST_READ - nlen (t_data p)) 0 p
    else
      match tcp_packet_size (t_data p) with
      | None => T_free
      | Some total =>
        if pdu <? total then T_free
        else go (sub64 total (nlen (t_data p))) total (if dyn then shrink p total else p)
      end
  end.

(** The state of a connected TLS peer over TCP. *)
Record peer := mkPeer { p_part : option part; p_recs : list (list N) }.

(** tls_read_application_data_tcp, security/oc_tls.c:2799-2867 (oc_allocate_message succeeds). *)
Definition tls_read (dyn : bool) (pdu : N) (s : peer) : tres :=
  let p := match p_part s with Some p => p | None => mkPart [] pdu end in
  tls_loop dyn pdu (S (List.length (List.concat (p_recs s)))) p (p_recs s).

(** oc_tls_recv_message, security/oc_tls.c:3083-3085: a record arrives and one reading is scheduled.
    The result: the peer ([None]: gone), the messages posted. *)
Inductive tstate := T_up (s : peer) | T_down | T_broken.
Definition tls_recv (dyn : bool) (pdu : N) (s : peer) (record : list N) : tstate * list (list N) :=
  match tls_read dyn pdu (mkPeer (p_part s) (p_recs s ++ [record])) with
  | T_wait p recs => (T_up (mkPeer (Some p) recs), [])
  | T_msg m recs => (T_up (mkPeer None recs), [m])
  | T_free => (T_down, [])
  | T_over | T_fuel => (T_broken, [])
  end.

Fixpoint tls_run (dyn : bool) (pdu : N) (s : peer) (records : list (list N)) : tstate * list (list N) :=
  match records with
  | [] => (T_up s, [])
  | r :: rs =>
    match tls_recv dyn pdu s r with
    | (T_up s', ms) => let (x, ms') := tls_run dyn pdu s' rs in (x, ms ++ ms')
    | x => x
    end
  end.
Definition fresh_peer : peer := mkPeer None [].
