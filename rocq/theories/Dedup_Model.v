(** Duplicate detection for requests over UDP (OC_REQUEST_HISTORY). messaging/coap/engine.c. *)
From Verif Require Import Common.
Local Open Scope N_scope.

(** OC_REQUEST_HISTORY_SIZE, engine.c:97. *)
Definition SIZE : nat := 25.
(** g_history, g_history_dev (paired slot by slot) and g_idx, engine.c:98-100. *)
Record hist := mkH { slots : list (N * N); idx : nat }.
(** oc_request_history_init, engine.c:102-108; also the state of the zeroed statics. *)
Definition init : hist := mkH (repeat (0, 0) SIZE) 0.

(** A request: confirmable or not, the message id, the device of the endpoint and the peer it came from. *)
Record req := mkR { r_con : bool; r_mid : N; r_dev : N; r_peer : N }.

(** oc_coap_check_if_duplicate, engine.c:110-134: any slot with this message id and device; the peer is
    not looked at. *)
Definition is_dup (h : hist) (mid dev : N) : bool := existsb (fun e => (fst e =? mid) && (snd e =? dev)) (slots h).

Fixpoint write (n : nat) (v : N * N) (l : list (N * N)) : list (N * N) :=
  match l, n with
  | [], _ => []
  | _ :: r, O => v :: r
  | x :: r, S k => x :: write k v r
  end.

(** coap_receive_init_response over UDP, engine.c:246-279: [true] means the request goes on to the
    handler, [false] is COAP_RECEIVE_SKIP_DUPLICATE_MESSAGE.  Only requests that are not confirmable are
    looked up and recorded.  mid is a uint16_t, the device is stored as a uint32_t. *)
Definition accept (h : hist) (r : req) : hist * bool :=
  if r_con r then (h, true)
  else if is_dup h (r_mid r) (r_dev r) then (h, false)
  else (mkH (write (idx h) (r_mid r, r_dev r) (slots h)) (Nat.modulo (idx h + 1) SIZE), true).

(** The answers to a sequence of requests. *)
Fixpoint answers (h : hist) (rs : list req) : list bool :=
  match rs with
  | [] => []
  | r :: rest => let (h', a) := accept h r in a :: answers h' rest
  end.
