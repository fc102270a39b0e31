(** OSCORE building blocks: partial IV, AEAD nonce, OSCORE option, replay window, sender sequence
    number life cycle.  Sources: messaging/coap/oscore.c, security/oc_oscore_crypto.c,
    security/oc_oscore_engine.c, security/oc_oscore_context.c, security/oc_cred.c,
    messaging/coap/oscore_constants.h. *)
From Verif Require Import Common.
Local Open Scope N_scope.

(** messaging/coap/oscore_constants.h:22-43 *)
Definition NONCE_LEN : nat := 13.
Definition PIV_LEN : nat := 5.
Definition CTXID_LEN : nat := 7.
Definition IDCTX_LEN : nat := 16.
Definition RWIN_SIZE : nat := 32.
Definition SSN_WRITE_FREQ_K : N := 32.
Definition SSN_PAD_F : N := SSN_WRITE_FREQ_K * 4.

(** The three-step 64-bit byte swap, oscore.c:85-91 and oscore.c:110-115.  No step can exceed 64
    bits because the mask clears the bits that would be shifted out. *)
Definition bswap64 (x : N) : N :=
  let x := N.lor (N.shiftl (N.land x 0x00ff00ff00ff00ff) 8) (N.shiftr (N.land x 0xff00ff00ff00ff00) 8) in
  let x := N.lor (N.shiftl (N.land x 0x0000ffff0000ffff) 16) (N.shiftr (N.land x 0xffff0000ffff0000) 16) in
  N.lor (N.shiftl (N.land x 0x00000000ffffffff) 32) (N.shiftr (N.land x 0xffffffff00000000) 32).

(** Little-endian memory image of a uint64_t (the code tests the byte order at run time; the model
    takes the little-endian branch). *)
Definition byte_at (v : N) (i : N) : N := N.land (N.shiftr v (8 * i)) 255.
Definition mem64 (v : N) : list N := map (byte_at v) [0;1;2;3;4;5;6;7].
Fixpoint of_mem (l : list N) : N :=
  match l with [] => 0 | b :: r => N.lor b (N.shiftl (of_mem r) 8) end.

(** oscore_read_piv, oscore.c:74-95: copy the PIV to the end of the 8 bytes and swap. *)
Definition read_piv (piv : list N) : N :=
  bswap64 (of_mem (repeat 0 (8 - List.length piv) ++ piv)).

(** Skip leading zero bytes, oscore.c:120-122. *)
Fixpoint skip_zeros (l : list N) : list N :=
  match l with
  | [] => []
  | b :: r => if b =? 0 then skip_zeros r else l
  end.

(** oscore_store_piv, oscore.c:97-130; the result is piv[0..piv_len). *)
Definition store_piv (ssn : N) : list N :=
  if ssn =? 0 then [0]
  else skip_zeros (skipn (8 - PIV_LEN) (mem64 (bswap64 ssn))).

(** memcpy (dst + off) src. *)
Definition write_at (off : nat) (src dst : list N) : list N :=
  firstn off dst ++ src ++ skipn (off + List.length src) dst.

Fixpoint xor_lists (a b : list N) : list N :=
  match a, b with
  | x :: a', y :: b' => N.lxor x y :: xor_lists a' b'
  | _, _ => a
  end.

(** oc_oscore_AEAD_nonce, oc_oscore_crypto.c:157-197, with nonce_len = OSCORE_AEAD_NONCE_LEN as in
    every call. *)
Definition aead_nonce (id piv civ : list N) : list N :=
  let nonce := repeat 0 NONCE_LEN in
  let nonce := write_at (NONCE_LEN - List.length piv) piv nonce in
  let nonce := if Nat.ltb 0 (List.length id)
               then write_at (NONCE_LEN - 5 - List.length id) id nonce else nonce in
  let nonce := write_at 0 [N.of_nat (List.length id)] nonce in
  xor_lists nonce civ.

(** ** OSCORE option *)

(** The OSCORE fields of coap_packet_t, coap_internal.h:171-177. *)
Record oscore_fields := mkF { f_flags : N; f_piv : list N; f_kidctx : list N; f_kid : list N }.

(** Outcome of coap_parse_oscore_option: a memory error is a distinct outcome. *)
Inductive opt_outcome :=
| O_read_past_end            (** a byte after the option value was read *)
| O_write_past_field         (** more bytes than the destination array holds were copied *)
| O_reject                   (** return -1 *)
| O_ok (f : option oscore_fields).  (** return 0; [None]: empty option, packet untouched *)

(** memcpy(dst, opt + pos, len) with dst of [cap] bytes. *)
Definition copy_field (opt : list N) (pos len cap : nat) : opt_outcome + list N :=
  if Nat.ltb cap len then inl O_write_past_field
  else if Nat.ltb (List.length opt) (pos + len) then inl O_read_past_end
  else inr (firstn len (skipn pos opt)).

(** coap_parse_oscore_option, oscore.c:229-323.  [option_length] is size_t and is decremented
    without a check: the arithmetic below is modulo 2^64. *)
Definition W64 : Z := 18446744073709551616.
Definition parse_oscore_option (opt : list N) : opt_outcome :=
  match opt with
  | [] => O_ok None                                                      (* :249-252 *)
  | flags :: _ =>
    let len1 := (Z.of_nat (List.length opt) - 1)%Z in                    (* :254-256 *)
    let piv_len := N.to_nat (N.land flags 7) in                          (* :261 *)
    match (if Nat.ltb 0 piv_len then copy_field opt 1 piv_len PIV_LEN else inr []) with
    | inl e => e
    | inr piv =>
      let pos := (1 + piv_len)%nat in
      let len2 := ((len1 - Z.of_nat piv_len) mod W64)%Z in               (* :266 *)
      match
        (if N.land flags 0x10 =? 0 then inr ([], pos, len2)
         else match nth_error opt pos with                               (* :277 *)
              | None => inl O_read_past_end
              | Some l =>
                let len3 := ((len2 - 1) mod W64)%Z in
                if Nat.ltb IDCTX_LEN (N.to_nat l) then inl O_reject      (* :282-285 *)
                else match copy_field opt (pos + 1) (N.to_nat l) IDCTX_LEN with
                     | inl e => inl e
                     | inr c => inr (c, (pos + 1 + N.to_nat l)%nat,
                                     ((len3 - Z.of_N l) mod W64)%Z)
                     end
              end)
      with
      | inl e => e
      | inr (kidctx, pos', len') =>
        if N.land flags 8 =? 0 then O_ok (Some (mkF flags piv kidctx []))
        else if (Z.of_nat CTXID_LEN <? len')%Z then O_reject              (* :299-302 *)
        else match copy_field opt pos' (Z.to_nat len') CTXID_LEN with
             | inl e => e
             | inr kid => O_ok (Some (mkF flags piv kidctx kid))
             end
      end
    end
  end.

(** coap_set_header_oscore, oscore.c:197-226; [code] is the outer code, OC_FETCH = 5. *)
Definition set_header_oscore (code : N) (piv kid kidctx : list N) : oscore_fields :=
  let fl := N.of_nat (List.length piv) in
  let fl := if code <=? 5 then N.lor fl 8 else fl in
  let fl := match kidctx with [] => fl | _ => N.lor fl 16 end in
  mkF fl piv kidctx kid.

(** The option value written by coap_serialize_oscore_option, oscore.c:327-389. *)
Definition serialize_oscore_value (f : oscore_fields) : list N :=
  if f_flags f =? 0 then []
  else f_flags f :: f_piv f ++
       (match f_kidctx f with [] => [] | c => N.of_nat (List.length c) :: c end) ++
       f_kid f.
(** The announced option length, oscore.c:331-338. *)
Definition oscore_value_length (f : oscore_fields) : nat :=
  List.length (f_piv f) + List.length (f_kid f) + List.length (f_kidctx f) +
  (match f_kidctx f with [] => 0 | _ => 1 end) + (if f_flags f =? 0 then 0 else 1).

(** ** Replay window *)

(** rwin and rwin_idx of oc_oscore_context_t (oc_oscore_context_internal.h:54-55); a new context is
    zeroed by oc_memb_alloc. *)
Record window := mkW { w_vals : list N; w_idx : nat }.
Definition window_init : window := mkW (repeat 0 RWIN_SIZE) 0.

Fixpoint set_nth (i : nat) (v : N) (l : list N) : list N :=
  match l, i with
  | [], _ => []
  | _ :: r, O => v :: r
  | x :: r, S i' => x :: set_nth i' v r
  end.

(** check_if_replayed_request, oc_oscore_engine.c:52-68.  The boolean is its return value. *)
Definition check_replayed (w : window) (piv : N) : bool * window :=
  let fresh := (false, let i := Nat.modulo (w_idx w + 1) RWIN_SIZE in
                       mkW (set_nth i piv (w_vals w)) i) in
  if (piv =? 0) && (nth 0 (w_vals w) 0 =? 0) && (nth (RWIN_SIZE - 1) (w_vals w) 0 =? 0)
  then fresh
  else if existsb (N.eqb piv) (w_vals w) then (true, w)
  else fresh.

(** The part of oscore_parse_message that decides whether a request with a partial IV is delivered:
    the replay check (oc_oscore_engine.c:190-197) comes before decryption (:256-265).  [authentic]
    is the result of oc_oscore_decrypt. *)
Inductive recv_outcome :=
| R_delivered       (** passed on to the CoAP layer *)
| R_replayed        (** answered 4.01, oc_oscore_engine.c:195 *)
| R_not_authentic.  (** answered 4.00, oc_oscore_engine.c:263 *)
Definition recv_request (w : window) (r : N * bool) : recv_outcome * window :=
  let '(piv, authentic) := r in
  let '(replayed, w') := check_replayed w piv in
  (if replayed then R_replayed else if authentic then R_delivered else R_not_authentic, w').

(** Outcomes of a sequence of received requests, oldest first. *)
Fixpoint recv_all (w : window) (rs : list (N * bool)) : list recv_outcome :=
  match rs with
  | [] => []
  | r :: rest => let '(o, w') := recv_request w r in o :: recv_all w' rest
  end.

(** ** Sender sequence number *)

(** Events in the life of one sending context. *)
Inductive sevent :=
| SUnicast      (** oc_oscore_send_message protects a message, oc_oscore_engine.c:626-630, 682-687 *)
| SUnicastFail  (** request whose client callback is gone: the number is consumed and the function
                    leaves before line 717, oc_oscore_engine.c:630-641 *)
| SMulticast    (** oc_oscore_send_multicast_message, oc_oscore_engine.c:404-408 *)
| SPersist      (** the delayed callback dump_cred runs (oc_oscore_engine.c:44-50), or any other
                    caller of oc_sec_dump_cred *)
| SCrash.       (** power loss, then boot: oc_sec_load_cred -> oc_oscore_add_context with
                    from_storage (oc_oscore_context.c:157-163), which schedules a dump
                    (oc_cred.c:1449-1451) *)

Record sender := mkS { s_ssn : N; s_stored : N; s_pending : bool; s_used : list (list N) }.

(** uint64_t increments; the partial IV put on the wire is appended to [s_used]. *)
Definition W64N : N := 18446744073709551616.
Definition sstep (s : sender) (e : sevent) : sender :=
  let next := (s_ssn s + 1) mod W64N in
  match e with
  | SUnicast => mkS next (s_stored s) (s_pending s || (next mod SSN_WRITE_FREQ_K =? 0))
                    (store_piv (s_ssn s) :: s_used s)
  | SUnicastFail => mkS next (s_stored s) (s_pending s) (s_used s)
  | SMulticast => mkS next (s_stored s) (s_pending s) (store_piv (s_ssn s) :: s_used s)
  | SPersist => mkS (s_ssn s) (s_ssn s) false (s_used s)
  | SCrash => mkS ((s_stored s + (SSN_WRITE_FREQ_K + SSN_PAD_F)) mod W64N) (s_stored s) true (s_used s)
  end.
Definition srun (s : sender) (es : list sevent) : sender := fold_left sstep es s.

(** A context just provisioned: ssn 0, and the credential resource is dumped right after the POST
    (oc_cred.c:1550). *)
Definition sender_init : sender := mkS 0 0 false [].
