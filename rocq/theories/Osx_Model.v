(** Messages protected with OSCORE between devices (security/oc_oscore_engine.c). *)
From Verif Require Import Common Oscore_Model.
Local Open Scope N_scope.

(** Encryption is ideal: a ciphertext is what it was made of, and is opened by the same key, nonce
    and additional data only.  A key is what it is derived from (master secret, identifier;
    security/oc_oscore_context.c:139-222, oc_oscore_add_context). *)
Definition key : Type := list N * list N.

(** What is inside: code, Observe option, and everything else (other options and payload). *)
Record inner := Inner { i_code : N; i_obs : option N; i_body : list N }.
Inductive ct := Ct (k : key) (nonce aad : list N) (i : inner) | Junk.

(** The outer message: type, message id, token, code, Observe option, the partial IV and kid of
    the OSCORE option, ciphertext. *)
Record pkt := Pkt { o_type : N; o_mid : N; o_token : list N; o_code : N; o_obs : option N;
                    o_piv : list N; o_kid : list N; o_ct : ct }.

(** Types of credentials: oic.sec.cred.pairwise/group client/group server. *)
Inductive ctype := Pair | McClient | McServer.
(** security/oc_oscore_context_internal.h:33-57, oc_oscore_context_t, with subject and type of its
    credential *)
Record ctx := Ctx { x_subject : N; x_type : ctype; x_secret : list N; x_send : list N; x_recv : list N;
                    x_ssn : N; x_win : window }.
(** A client callback: token, peer, partial IV of its request. *)
Record cb := Cb { b_token : list N; b_peer : N; b_piv : list N }.
(** A message to be sent: endpoint (peer, partial IV), header, contents, the received message it
    answers (by its place in the history). *)
Record msg := Msg { g_peer : N; g_piv : list N; g_type : N; g_mid : N; g_token : list N; g_inner : inner;
                    g_ans : option nat }.
(** A device: contexts, client callbacks, messages waiting for an acknowledgement (transactions),
    whether in normal operation. *)
Record dev := Dev { d_ctxs : list ctx; d_cbs : list cb; d_trs : list msg; d_rfnop : bool }.

(** History of the messages protected: by whom, with which identifiers and sequence number; answer
    to which received message and bound to which partial IV ([None]: a request). *)
Record sent_ := Sent { e_dev : nat; e_secret : list N; e_send : list N; e_mid : N; e_token : list N;
                       e_ssn : N; e_to : option (list N); e_ans : option nat; e_inner : inner; e_ct : ct }.
(** History of the messages accepted: by whom, from which subject, in which context, as answer to
    the message of which partial IV ([None]: a request), partial IV, outer fields, contents. *)
Record acc_ := Acc { a_dev : nat; a_from : N; a_type : ctype; a_secret : list N; a_send : list N; a_recv : list N;
                     a_mcast : bool; a_to : option (list N); a_piv : list N; a_mid : N; a_token : list N;
                     a_obs : option N; a_inner : inner }.
Record st := St { devs : nat -> dev; prot : list sent_; acc : list acc_ }.

Definition upd (f : nat -> dev) (d : nat) (x : dev) : nat -> dev := fun e => if Nat.eqb e d then x else f e.
Fixpoint upd_first {A} (p : A -> bool) (f : A -> A) (l : list A) : list A :=
  match l with [] => [] | x :: r => if p x then f x :: r else x :: upd_first p f r end.
Fixpoint upd_nth {A} (n : nat) (y : A) (l : list A) : list A :=
  match l, n with [], _ => [] | _ :: r, O => y :: r | x :: r, S n => x :: upd_nth n y r end.
Fixpoint del_nth {A} (n : nat) (l : list A) : list A :=
  match l, n with [], _ => [] | _ :: r, O => r | x :: r, S n => x :: del_nth n r end.

Definition set_ssn (v : N) (c : ctx) : ctx := Ctx (x_subject c) (x_type c) (x_secret c) (x_send c) (x_recv c) v (x_win c).
Definition set_win (w : window) (c : ctx) : ctx := Ctx (x_subject c) (x_type c) (x_secret c) (x_send c) (x_recv c) (x_ssn c) w.
Definition set_cb_piv (v : list N) (b : cb) : cb := Cb (b_token b) (b_peer b) v.
Definition set_g_piv (v : list N) (m : msg) : msg := Msg (g_peer m) v (g_type m) (g_mid m) (g_token m) (g_inner m) (g_ans m).
Definition set_ctxs (l : list ctx) (d : dev) : dev := Dev l (d_cbs d) (d_trs d) (d_rfnop d).
Definition set_cbs (l : list cb) (d : dev) : dev := Dev (d_ctxs d) l (d_trs d) (d_rfnop d).
Definition set_trs (l : list msg) (d : dev) : dev := Dev (d_ctxs d) (d_cbs d) l (d_rfnop d).

Definition bytes_eqb (a b : list N) : bool := list_eqb a b.
(** security/oc_oscore_context.c:49-65, oc_oscore_find_context_by_kid; 118-131,
    oc_oscore_find_context_by_UUID; 33-47, oc_oscore_find_group_context; all contexts of one
    logical device *)
Definition has_kid (kid : list N) (c : ctx) : bool := bytes_eqb kid (x_recv c).
Definition has_subject (u : N) (c : ctx) : bool := x_subject c =? u.
Definition is_group (c : ctx) : bool := match x_type c with McClient => true | _ => false end.
Definition has_token (t : list N) (b : cb) : bool := bytes_eqb t (b_token b).

(** CBOR byte string shorter than 24 bytes *)
Definition bstr (l : list N) : list N := (64 + N.of_nat (List.length l)) :: l.
(** security/oc_oscore_crypto.c:210-275, oc_oscore_compose_AAD *)
Definition compose_aad (kid piv : list N) : list N :=
  [0x83; 0x68; 69; 110; 99; 114; 121; 112; 116; 48] ++ bstr [] ++
  bstr ([0x85; 0x01; 0x81; 10] ++ bstr kid ++ bstr piv ++ bstr []).

(** include/oc_ri.h:43-50: GET 1, POST 2, PUT 3, DELETE 4, FETCH 5 *)
Definition is_request (code : N) : bool := (1 <=? code) && (code <=? 4).
(** messaging/coap/oscore.c:132-163, oscore_get_outer_code (without signals of TCP) *)
Definition outer_code (i : inner) : N :=
  match i_obs i with
  | Some _ => if is_request (i_code i) then 5 else 69
  | None => if is_request (i_code i) then 2 else 68
  end.
(** security/oc_oscore_engine.c:729-738: the Observe value of a notification (2 or more) is left
    out of the inner message *)
Definition inner_obs (i : inner) : inner :=
  Inner (i_code i) (match i_obs i with Some v => Some (if 2 <=? v then 0 else v) | None => None end) (i_body i).

Section Engine.
(** The common IV derived from a master secret. *)
Variable civ : list N -> list N.

(** security/oc_oscore_engine.c:509-813, oc_oscore_send_message: the message sent, if it is
    protected, and the message with its endpoint as the transaction has it then (693-697).
    ([None]: sent to the TLS layer as it is, or an error.) *)
Definition protect (s : st) (d : nat) (m : msg) : st * msg * option pkt :=
  let D := devs s d in
  match find (has_subject (g_peer m)) (d_ctxs D) with
  | None => (s, m, None)
  | Some c =>
    let i := inner_obs (g_inner m) in
    let piv := store_piv (x_ssn c) in
    let D1 := set_ctxs (upd_first (has_subject (g_peer m)) (set_ssn (x_ssn c + 1)) (d_ctxs D)) D in
    let k := (x_secret c, x_send c) in
    let nonce := aead_nonce (x_send c) piv (civ (x_secret c)) in
    if is_request (i_code (g_inner m)) then
      if d_rfnop D then
        match find (has_token (g_token m)) (d_cbs D) with
        | None => (St (upd (devs s) d D1) (prot s) (acc s), m, None)
        | Some _ =>
          let D2 := set_cbs (upd_first (has_token (g_token m)) (set_cb_piv piv) (d_cbs D1)) D1 in
          let x := Ct k nonce (compose_aad (x_send c) piv) i in
          (St (upd (devs s) d D2)
              (prot s ++ [Sent d (x_secret c) (x_send c) (g_mid m) (g_token m) (x_ssn c) None (g_ans m) i x]) (acc s),
           set_g_piv piv m,
           Some (Pkt (g_type m) (g_mid m) (g_token m) (outer_code (g_inner m)) (i_obs (g_inner m)) piv (x_send c) x))
        end
      else (s, m, None)
    else
      match g_piv m with
      | [] => (s, m, None)
      | _ :: _ =>
        let x := Ct k nonce (compose_aad (x_recv c) (g_piv m)) i in
        (St (upd (devs s) d D1)
            (prot s ++ [Sent d (x_secret c) (x_send c) (g_mid m) (g_token m) (x_ssn c) (Some (g_piv m)) (g_ans m) i x]) (acc s),
         set_g_piv piv m,
         Some (Pkt (g_type m) (g_mid m) (g_token m) (outer_code (g_inner m)) (i_obs (g_inner m)) piv [] x))
      end
  end.

(** security/oc_oscore_engine.c:372-507, oc_oscore_send_multicast_message *)
Definition protect_group (s : st) (d : nat) (mid : N) (tok : list N) (i : inner) : st * option pkt :=
  let D := devs s d in
  match find is_group (d_ctxs D) with
  | None => (s, None)
  | Some c =>
    let piv := store_piv (x_ssn c) in
    let D1 := set_ctxs (upd_first is_group (set_ssn (x_ssn c + 1)) (d_ctxs D)) D in
    let x := Ct (x_secret c, x_send c) (aead_nonce (x_send c) piv (civ (x_secret c))) (compose_aad (x_send c) piv) i in
    (St (upd (devs s) d D1)
        (prot s ++ [Sent d (x_secret c) (x_send c) mid tok (x_ssn c) None None i x]) (acc s),
     Some (Pkt 1 mid tok 2 (i_obs i) piv (x_send c) x))
  end.

(** security/oc_oscore_context.c:67-116, oc_oscore_find_context_by_token_mid (over UDP): the peer
    and the partial IV of the message that is answered *)
Definition answered (D : dev) (tok : list N) (mid : N) : option (N * list N) :=
  match find (has_token tok) (d_cbs D) with
  | Some b => Some (b_peer b, b_piv b)
  | None =>
    match find (fun t => bytes_eqb tok (g_token t)) (d_trs D) with
    | Some t => Some (g_peer t, g_piv t)
    | None => match find (fun t => g_mid t =? mid) (d_trs D) with
              | Some t => Some (g_peer t, g_piv t)
              | None => None
              end
    end
  end.

(** oc_oscore_decrypt with a key, nonce and additional data *)
Definition open (k : key) (nonce aad : list N) (x : ct) : option inner :=
  match x with
  | Ct k' n' a' i => if bytes_eqb (fst k) (fst k') && bytes_eqb (snd k) (snd k') && bytes_eqb nonce n' && bytes_eqb aad a'
                     then Some i else None
  | Junk => None
  end.

(** security/oc_oscore_engine.c:110-288, oscore_parse_message, with 70-107,
    oscore_parse_and_process_inner_message: the Observe option is there if it is inside, its value
    is that of the outer message.  [dup]: the message id is known from that endpoint (C08);
    inner messages always parse. *)
Definition accept (s : st) (d : nat) (p : pkt) (mcast dup : bool) : st :=
  let D := devs s d in
  let request := o_code p <=? 5 in
  let found : option (ctx * (ctx -> bool) * list N) :=
    match o_kid p with
    | _ :: _ => match find (has_kid (o_kid p)) (d_ctxs D) with Some c => Some (c, has_kid (o_kid p), []) | None => None end
    | [] =>
      if request then None
      else match answered D (o_token p) (o_mid p) with
           | Some (u, rp) => match find (has_subject u) (d_ctxs D) with Some c => Some (c, has_subject u, rp) | None => None end
           | None => None
           end
    end in
  if request && dup then s
  else
    match found with
    | None => s
    | Some (c, pred, rp) =>
      if negb mcast && match x_type c with Pair => false | _ => true end then s
      else
        let '(replayed, D1) :=
          match o_piv p with
          | _ :: _ => if request && (1 <=? o_code p)
                      then let '(r, w) := check_replayed (x_win c) (read_piv (o_piv p)) in
                           (r, set_ctxs (upd_first pred (set_win w) (d_ctxs D)) D)
                      else (false, D)
          | [] => (false, D)
          end in
        let s1 := St (upd (devs s) d D1) (prot s) (acc s) in
        if replayed then s1
        else
          let ep_piv := match o_piv p with _ :: _ => o_piv p | [] => if request then [] else rp end in
          let nonce := match o_piv p with
                       | _ :: _ => aead_nonce (x_recv c) (o_piv p) (civ (x_secret c))
                       | [] => if request then repeat 0 NONCE_LEN else aead_nonce (x_send c) rp (civ (x_secret c))
                       end in
          let aad := if request
                     then match o_piv p with _ :: _ => if 1 <=? o_code p then compose_aad (x_recv c) (o_piv p) else [] | [] => [] end
                     else compose_aad (x_send c) rp in
          match open (x_secret c, x_recv c) nonce aad (o_ct p) with
          | None => s1
          | Some i =>
            if match x_type c with McServer => negb (i_code i =? 2) | _ => false end then s1
            else
              let a := Acc d (x_subject c) (x_type c) (x_secret c) (x_send c) (x_recv c) mcast
                           (if request then None else Some rp) ep_piv (o_mid p) (o_token p)
                           (match i_obs i with
                            | Some _ => Some (match o_obs p with Some v => v | None => 0 end)
                            | None => None
                            end) i in
              St (devs s1) (prot s1) (acc s1 ++ [a])
          end
    end.

(** What happens: a client sends a request (with a token not in use); a device answers the [n]-th
    message of the history of accepted ones; a group request; a confirmable message is sent again
    (messaging/coap/transactions.c); a transaction or a client callback ends; a message arrives. *)
Inductive op :=
| Request (d : nat) (peer ty mid : N) (tok : list N) (i : inner) (con : bool)
| Respond (d n : nat) (ty mid : N) (tok : list N) (i : inner) (con : bool)
| Group (d : nat) (mid : N) (tok : list N) (i : inner)
| Again (d k : nat)
| EndTr (d k : nat)
| EndCb (d : nat) (tok : list N)
| Deliver (d : nat) (p : pkt) (mcast dup : bool).

Definition dispatch (s : st) (d : nat) (m : msg) (con : bool) : st :=
  let '(s1, m1, _) := protect s d m in
  if con then St (upd (devs s1) d (set_trs (d_trs (devs s1 d) ++ [m1]) (devs s1 d))) (prot s1) (acc s1) else s1.

Definition step (s : st) (o : op) : st :=
  match o with
  | Request d peer ty mid tok i con =>
    let D := devs s d in
    if is_request (i_code i) && negb (existsb (has_token tok) (d_cbs D)) &&
       negb (existsb (fun t => bytes_eqb tok (g_token t)) (d_trs D)) then
      let s1 := St (upd (devs s) d (set_cbs (d_cbs D ++ [Cb tok peer []]) D)) (prot s) (acc s) in
      dispatch s1 d (Msg peer [] ty mid tok i None) con
    else s
  | Respond d n ty mid tok i con =>
    match nth_error (acc s) n with
    | Some a =>
      if Nat.eqb (a_dev a) d && negb (a_mcast a) && negb (is_request (i_code i))
      then dispatch s d (Msg (a_from a) (a_piv a) ty mid tok i (Some n)) con
      else s
    | None => s
    end
  | Group d mid tok i => fst (protect_group s d mid tok i)
  | Again d k =>
    match nth_error (d_trs (devs s d)) k with
    | Some m => let '(s1, m1, _) := protect s d m in
                St (upd (devs s1) d (set_trs (upd_nth k m1 (d_trs (devs s1 d))) (devs s1 d))) (prot s1) (acc s1)
    | None => s
    end
  | EndTr d k => St (upd (devs s) d (set_trs (del_nth k (d_trs (devs s d))) (devs s d))) (prot s) (acc s)
  | EndCb d tok => St (upd (devs s) d (set_cbs (filter (fun b => negb (has_token tok b)) (d_cbs (devs s d))) (devs s d))) (prot s) (acc s)
  | Deliver d p mcast dup => accept s d p mcast dup
  end.
(** The protected message a step sends. *)
Definition emits (s : st) (o : op) : option pkt :=
  match o with
  | Request d peer ty mid tok i con =>
    let D := devs s d in
    if is_request (i_code i) && negb (existsb (has_token tok) (d_cbs D)) &&
       negb (existsb (fun t => bytes_eqb tok (g_token t)) (d_trs D)) then
      let s1 := St (upd (devs s) d (set_cbs (d_cbs D ++ [Cb tok peer []]) D)) (prot s) (acc s) in
      snd (protect s1 d (Msg peer [] ty mid tok i None))
    else None
  | Respond d n ty mid tok i con =>
    match nth_error (acc s) n with
    | Some a =>
      if Nat.eqb (a_dev a) d && negb (a_mcast a) && negb (is_request (i_code i))
      then snd (protect s d (Msg (a_from a) (a_piv a) ty mid tok i (Some n)))
      else None
    | None => None
    end
  | Group d mid tok i => snd (protect_group s d mid tok i)
  | Again d k =>
    match nth_error (d_trs (devs s d)) k with
    | Some m => snd (protect s d m)
    | None => None
    end
  | _ => None
  end.
Fixpoint run (s : st) (l : list op) : st := match l with [] => s | o :: r => run (step s o) r end.
End Engine.
