(** The way of messages through the processes of the stack: oc_recv_message
    and oc_send_message (api/oc_message_buffer.c), the message buffer handler,
    the OSCORE handler (security/oc_oscore_engine.c), the handling of message
    events by the TLS handler (security/oc_tls.c) and the CoAP engine
    (messaging/coap/engine.c), over the event queue of util/oc_process.c.

    Simplifications, all stated in DESIGN.md:
    - OC_SECURITY is on; OC_OSCORE, OC_CLIENT and OC_DYNAMIC_ALLOCATION are
      parameters;
    - the queue is the first-in first-out list that the area of the event
      queue shows it to be, of at most ten events without dynamic allocation;
    - one reference to a message is followed at a time; the count of
      references is an area of its own;
    - whether a message is protected by OSCORE, whether it can be verified,
      whether there is a context and memory, and what TLS does with a message,
      are inputs;
    - the processes run; shutdown stops them when the queue is empty
      (api/oc_ri.c:1938-1948). *)

From Coq Require Import List Bool Arith.
Import ListNotations.

Record cfg : Type := mkcfg { dyn : bool; oscore : bool; client : bool }.

(** Where a message comes from: the network, oc_send_message, a TLS session
    (decrypted). *)
Inductive origin : Type := In_ | Out | Dec.

(** A message: its number, whether it is the copy made by OSCORE, its origin,
    its endpoint with the flags MULTICAST, SECURED and DISCOVERY, the field
    encrypted, and whether OSCORE has opened or protected it. *)
Record item : Type := mkitem {
  no : nat; copy : bool; org : origin; ep : nat;
  enc : bool; multi : bool; sec : bool; disc : bool; osc : bool }.

(** The events with a message, api/oc_events_internal.h. *)
Inductive what : Type :=
| NetIn     (* INBOUND_NETWORK_EVENT, message buffer *)
| NetOut    (* OUTBOUND_NETWORK_EVENT, message buffer *)
| FromNet   (* UDP_TO_TLS_EVENT, TLS *)
| ToTls     (* RI_TO_TLS_EVENT, TLS *)
| OscIn     (* INBOUND_OSCORE_EVENT, OSCORE *)
| OscOut    (* OUTBOUND_OSCORE_EVENT, OSCORE *)
| OscGroup  (* OUTBOUND_GROUP_OSCORE_EVENT, OSCORE *)
| CoapIn.   (* INBOUND_RI_EVENT, CoAP engine *)

Inductive qev : Type := Ev (w : what) (i : item) | Misc.

(** What happens to messages. *)
Inductive ev : Type :=
| EBorn (i : item)    (* a reference is handed to the stack, or a copy is made *)
| EFree (i : item)    (* oc_message_unref *)
| EClear (i : item)   (* oc_send_buffer by the message buffer: as it is *)
| EDisc (i : item)    (* oc_send_discovery_request: multicast as it is *)
| EGroup (i : item)   (* the same, protected with the group context *)
| ETls (i : item)     (* given to TLS to be written into a session *)
| EWrite (i : item)   (* written into a session *)
| ETlsIn (i : item)   (* given to TLS to be decrypted *)
| ECoap (i : item)    (* processed by the CoAP engine *)
| ENull.              (* a null pointer was followed *)

Record st : Type := mkst { queue : list qev; tls : list item; next : nat; tr : list ev }.

Definition init : st := mkst [] [] 0 [].

Definition emit (e : ev) (s : st) : st := mkst (queue s) (tls s) (next s) (tr s ++ [e]).

Definition full (c : cfg) (s : st) : bool := negb (dyn c) && (10 <=? length (queue s)).

Definition push (e : qev) (s : st) : st := mkst (queue s ++ [e]) (tls s) (next s) (tr s).

(** oc_process_post with the result ignored, util/oc_process.c:441-481. *)
Definition forward (c : cfg) (e : qev) (s : st) : st :=
  if full c s then s else push e s.

(** oc_process_post with the message released if the queue is full. *)
Definition pass (c : cfg) (w : what) (i : item) (s : st) : st :=
  if full c s then emit (EFree i) s else push (Ev w i) s.

(** A new reference, with the next number. *)
Definition hand (c : cfg) (w : what) (i : nat -> item) (s : st) : st :=
  let x := i (next s) in
  pass c w x (mkst (queue s) (tls s) (S (next s)) (tr s ++ [EBorn x])).

(** Endpoint and flags of a message to be sent. *)
Record dest : Type := mkdest { d_ep : nat; d_multi : bool; d_sec : bool; d_disc : bool }.

Definition outgoing (d : dest) (n : nat) : item :=
  mkitem n false Out (d_ep d) false (d_multi d) (d_sec d) (d_disc d) false.

(** oc_send_message, api/oc_message_buffer.c:55-64. *)
Definition send_message (c : cfg) (d : dest) (s : st) : st := hand c NetOut (outgoing d) s.

(** oc_recv_message, api/oc_message_buffer.c:45-53; the ports set SECURED
    together with encrypted (port/linux/ipadapter.c:755-781,
    port/linux/tcpsession.c:458-462). *)
Definition recv_message (c : cfg) (e : nat) (en mu : bool) (s : st) : st :=
  hand c NetIn (fun n => mkitem n false In_ e en mu en false false) s.

(** tls_read_application_data_udp, security/oc_tls.c:2920-3001: a decrypted
    message goes to OSCORE, or to the CoAP engine. *)
Definition decrypted (c : cfg) (e : nat) (s : st) : st :=
  hand c (if oscore c then OscIn else CoapIn)
       (fun n => mkitem n false Dec e false false true false false) s.

(** What TLS does with a message: it is written at once, kept in a queue of
    the peer, or given up. *)
Inductive fate : Type := TWrite | TKeep | TDrop.

(** What OSCORE makes of a message to be sent to a peer with a context:
    protected, left as it is (the answer to a request without OSCORE), or an
    error. *)
Inductive cover : Type := Protected | Plain | Fails.

(** The inputs of one turn of the event loop. *)
Record input : Type := mkin {
  x_osc : bool;          (* the received message is an OSCORE message *)
  x_ok : bool;           (* it, or the group message, can be processed *)
  x_ctx : bool;          (* there is an OSCORE context *)
  x_mem : bool;          (* there is memory for the copy *)
  x_cover : cover;
  x_tls : fate;
  x_err : bool;          (* an error answer is made *)
  x_posts : list dest;   (* messages sent by the CoAP engine *)
  x_misc : nat }.        (* other events posted *)

Definition secured (i : item) : item :=
  mkitem (no i) (copy i) (org i) (ep i) (enc i) (multi i) true (disc i) (osc i).
Definition opened (i : item) : item :=
  mkitem (no i) (copy i) (org i) (ep i) (enc i) (multi i) true (disc i) true.
Definition clone (i : item) : item :=
  mkitem (no i) true (org i) (ep i) false (multi i) (sec i) (disc i) false.
Definition protect (i : item) : item :=
  mkitem (no i) (copy i) (org i) (ep i) (enc i) (multi i) (sec i) (disc i) true.

(** handle_inbound_network_event, api/oc_message_buffer.c:89-112. *)
Definition net_in (c : cfg) (i : item) (s : st) : st :=
  if enc i then forward c (Ev FromNet i) s
  else if oscore c && multi i then forward c (Ev OscIn i) s
  else forward c (Ev CoapIn i) s.

(** handle_outbound_network_event, api/oc_message_buffer.c:114-155. *)
Definition net_out (c : cfg) (i : item) (s : st) : st :=
  if client c && disc i then emit (EFree i) (emit (EDisc i) s)
  else if client c && oscore c && (multi i && sec i) then forward c (Ev OscGroup i) s
  else if sec i then
    (if oscore c then forward c (Ev OscOut i) s else forward c (Ev ToTls i) s)
  else emit (EFree i) (emit (EClear i) s).

(** oc_oscore_recv_message, security/oc_oscore_engine.c:290-351: a message
    that is none of OSCORE goes on as it is; oscore_parse_message (:106-288)
    marks the others as secured and opens them; an error is answered unless
    the message was multicast (oscore_send_error, messaging/coap/oscore.c:32-76). *)
Definition osc_in (c : cfg) (x : input) (i : item) (s : st) : st :=
  if x_osc x then
    if x_ok x then pass c CoapIn (opened i) s
    else
      let s := if x_err x && negb (multi i)
               then send_message c (mkdest (ep i) false true (disc i)) s else s in
      emit (EFree (secured i)) s
  else pass c CoapIn i s.

(** oc_oscore_send_multicast_message, security/oc_oscore_engine.c:353-507. *)
Definition osc_group (x : input) (i : item) (s : st) : st :=
  if x_ctx x && x_ok x then emit (EFree i) (emit (EGroup (protect i)) s)
  else emit (EFree i) s.

(** oc_oscore_send_message, security/oc_oscore_engine.c:509-820; that there
    is memory for the copy is not checked (:566-567). *)
Definition osc_out (c : cfg) (x : input) (i : item) (s : st) : st :=
  if x_ctx x then
    if multi i then emit (EFree i) s
    else if x_mem x then
      let s := emit (EFree i) (emit (EBorn (clone i)) s) in
      match x_cover x with
      | Fails => emit (EFree (clone i)) s
      | Plain => forward c (Ev ToTls (clone i)) s
      | Protected => forward c (Ev ToTls (protect (clone i))) s
      end
    else emit ENull s
  else forward c (Ev ToTls i) s.

Definition keep (i : item) (s : st) : st := mkst (queue s) (tls s ++ [i]) (next s) (tr s).

Fixpoint others (c : cfg) (n : nat) (s : st) : st :=
  match n with
  | O => s
  | S n' => others c n' (forward c Misc s)
  end.

(** oc_tls_send_message, security/oc_tls.c:2756-2766, with
    oc_tls_send_message_internal (:2560-2590) and oc_tls_init_connection
    (:2677-2753, where a reference is taken for the queue and that of the
    event released). *)
Definition to_tls (c : cfg) (x : input) (i : item) (s : st) : st :=
  let s := emit (ETls i) s in
  others c (x_misc x)
    match x_tls x with
    | TWrite => emit (EFree i) (emit (EWrite i) s)
    | TKeep => keep i s
    | TDrop => emit (EFree i) s
    end.

(** oc_tls_recv_message, security/oc_tls.c:3026-3086. *)
Definition from_net (c : cfg) (x : input) (i : item) (s : st) : st :=
  let s := emit (ETlsIn i) s in
  others c (x_misc x)
    match x_tls x with
    | TKeep | TWrite => keep i s
    | TDrop => emit (EFree i) s
    end.

(** The CoAP engine, messaging/coap/engine.c:1224-1248: the message is
    processed, which may send others, and released. *)
Definition coap_in (c : cfg) (x : input) (i : item) (s : st) : st :=
  emit (EFree i) (fold_left (fun s d => send_message c d s) (x_posts x) (emit (ECoap i) s)).

Definition handle (c : cfg) (x : input) (w : what) (i : item) (s : st) : st :=
  match w with
  | NetIn => net_in c i s
  | NetOut => net_out c i s
  | FromNet => from_net c x i s
  | ToTls => to_tls c x i s
  | OscIn => osc_in c x i s
  | OscOut => osc_out c x i s
  | OscGroup => osc_group x i s
  | CoapIn => coap_in c x i s
  end.

(** do_event, util/oc_process.c:288-343. *)
Definition turn (c : cfg) (x : input) (s : st) : st :=
  match queue s with
  | [] => s
  | e :: q =>
      let s := mkst q (tls s) (next s) (tr s) in
      match e with
      | Ev w i => handle c x w i s
      | Misc => others c (x_misc x) s
      end
  end.

(** tls_drop_endpoint_events, security/oc_tls.c:451-466, with
    tls_process_drop_event_for_removed_endpoint (:401-449): the events with
    messages of an endpoint leave the queue, except those for group OSCORE. *)
Definition dropped (e : nat) (q : qev) : bool :=
  match q with
  | Ev OscGroup _ => false
  | Ev _ i => ep i =? e
  | Misc => false
  end.

Definition items (l : list qev) : list item :=
  flat_map (fun q => match q with Ev _ i => [i] | Misc => [] end) l.

Definition drop_endpoint (e : nat) (s : st) : st :=
  mkst (filter (fun q => negb (dropped e q)) (queue s)) (tls s) (next s)
       (tr s ++ map EFree (items (filter (dropped e) (queue s)))).

(** A message kept by TLS is written (write_application_data,
    security/oc_tls.c:2610-2642) or decrypted, or goes with its peer. *)
Definition release (k : nat) (written : bool) (s : st) : st :=
  match nth_error (tls s) k with
  | None => s
  | Some i =>
      let s := mkst (queue s) (firstn k (tls s) ++ skipn (S k) (tls s)) (next s) (tr s) in
      emit (EFree i) (if written && match org i with Out => true | _ => false end
                      then emit (EWrite i) s else s)
  end.

Inductive op : Type :=
| ORecv (e : nat) (en mu : bool)
| OSend (d : dest)
| ODecrypted (e : nat)
| OMisc
| ODrop (e : nat)
| ORelease (k : nat) (written : bool)
| OTurn (x : input).

Definition step (c : cfg) (s : st) (o : op) : st :=
  match o with
  | ORecv e en mu => recv_message c e en mu s
  | OSend d => send_message c d s
  | ODecrypted e => decrypted c e s
  | OMisc => forward c Misc s
  | ODrop e => drop_endpoint e s
  | ORelease k b => release k b s
  | OTurn x => turn c x s
  end.

Definition run (c : cfg) (ops : list op) : st := fold_left (step c) ops init.
