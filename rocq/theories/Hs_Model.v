(** How a secured connection is set up: the key of a PSK handshake, the cipher suites, the own
    certificate, the verification of the peer and the device onboarding connection
    (security/oc_tls.c). *)
From Verif Require Import Common.
From Coq Require Import String.
Local Open Scope string_scope.
Local Open Scope list_scope.
Local Open Scope N_scope.

(** OC_DOS_* (security/oc_pstat_internal.h:48-52), OC_OXMTYPE_* (security/oc_doxm_internal.h:42-44);
    4: no method selected. *)
Definition RESET_ := 0.
Definition RFOTM := 1.
Definition RFPRO := 2.
Definition RFNOP := 3.
Definition OXM_JW := 0.
Definition OXM_RDP := 1.
Definition OXM_MFG := 2.
Definition OXM_NONE := 4.

(** What the code reads of a credential: type (1: PSK), usage (0: none, 4: identity certificate,
    32: manufacturer certificate), subject, key, credid. *)
Record cred := Cred { k_type : N; k_use : N; k_sub : list N; k_key : list N; k_id : Z }.
Definition PSK := 1.
Definition USE_NONE := 0.
Definition USE_IDENTITY := 4.
Definition USE_MFG := 32.

(** A device: state, selected method, owned, uuid, PIN, credentials, and those of its credentials
    that are own certificates (g_identity_certs). *)
Record dev := Dev { v_dos : N; v_oxm : N; v_owned : bool; v_uuid : list N; v_pin : list N;
                    v_creds : list cred; v_certs : list cred }.

(** ** PSK *)

(** Result of the PSK callback: refused, a key and the uuid of the peer, or bytes beyond the
    identity were read. *)
Inductive psk := PskNo | PskKey (key uuid : list N) | PskOver.

(** security/oc_cred.c:337-359, oc_sec_find_cred, over the bytes at the start of the identity:
    the comparison of the uuid comes last and reads 16 bytes. *)
Fixpoint find_psk (identity : list N) (l : list cred) : option (option cred) :=
  match l with
  | [] => Some None
  | k :: r =>
    if (k_type k =? PSK) && (k_use k =? USE_NONE) then
      if Nat.ltb (List.length identity) 16 then None
      else if list_eqb (k_sub k) (firstn 16 identity) then Some (Some k)
      else find_psk identity r
    else find_psk identity r
  end.

(** security/oc_tls.c:855-858: the prefix of a device that is being taken over. *)
Definition RDP : list N := str "oic.sec.doxm.rdp".
Definition strip (dos : N) (identity : list N) : list N :=
  if (dos =? RFNOP) && Nat.ltb 16 (List.length identity) && list_eqb (firstn 17 identity) (str "oic.sec.doxm.rdp:")
  then skipn 17 identity else identity.

(** security/oc_tls.c:831-908, get_psk_cb, for the peer of the session; [kdf pin uuid] is
    oc_tls_pbkdf2 with 1000 rounds of SHA-256.  (Handing the key to mbedtls succeeds.) *)
Definition get_psk (kdf : list N -> list N -> list N) (v : dev) (identity0 : list N) : psk :=
  let identity := strip (v_dos v) identity0 in
  match find_psk identity (v_creds v) with
  | None => PskOver
  | Some (Some k) => PskKey (k_key k) (firstn 16 identity)
  | Some None =>
    if (v_dos v =? RFOTM) && (v_oxm v =? OXM_RDP) then
      if negb (Nat.eqb (List.length identity) 16) || negb (list_eqb identity RDP) then PskNo
      else PskKey (kdf (v_pin v) (v_uuid v)) (firstn 16 identity)
    else PskNo
  end.

(** ** Setting up a connection *)

(** The lists of cipher suites (security/oc_tls.c:232-310), by the kinds of suites in them. *)
Inductive suites := SDefault | SPsk | SAnon | SJw | SPin | SCertOtm | SCert | SCloud.

(** g_ciphers, g_selected_mfg_cred, g_selected_id_cred (any: -1) and use_pin_obt_psk_identity
    (security/oc_tls.c:173,227-231). *)
Record sel := Sel { g_ciphers : option suites; g_mfg : Z; g_id : Z; g_pin : bool }.
Definition no_sel : sel := Sel None (-1) (-1) false.

(** A peer: number, device, endpoint, whether we are the client, onboarding connection, suites,
    own certificate, MBEDTLS_SSL_VERIFY_REQUIRED set, verified as a cloud, our PSK identity. *)
Record peer := Peer { p_n : nat; p_dev : nat; p_ep : nat; p_client : bool; p_doc : bool; p_suites : suites;
                      p_cert : option cred; p_required : bool; p_cloud : bool; p_identity : list N }.

Record st := St { devs : nat -> dev; peers : list peer; gl : sel; cnt : nat }.

(** security/oc_tls.c:1442-1514: the first own certificate of that usage and, unless any will do,
    with that credid; for identity certificates a smaller number than -1 deselects. *)
Definition pick (l : list cred) (use : N) (credid : Z) : option cred :=
  find (fun k => (k_use k =? use) && (Z.eqb credid (-1) || Z.eqb (k_id k) credid)) l.

(** security/oc_tls.c:1648-1657, oc_tls_load_cert_chain *)
Definition load_chain (v : dev) (g : sel) : option cred :=
  match (if v_owned v && negb (Z.ltb (g_id g) (-1)) then pick (v_certs v) USE_IDENTITY (g_id g) else None) with
  | Some k => Some k
  | None => pick (v_certs v) USE_MFG (g_mfg g)
  end.

(** security/oc_tls.c:1661-1730, oc_tls_set_ciphersuites; [di] is the uuid in the endpoint.
    (oc_sec_find_creds_for_subject: the first credential for the subject.) *)
Definition choose (v : dev) (client : bool) (g : option suites) (chain : bool) (di : list N) : suites :=
  if negb client && (v_dos v =? RFOTM) then
    if v_oxm v =? OXM_JW then SJw else if v_oxm v =? OXM_RDP then SPin
    else if v_oxm v =? OXM_MFG then SCertOtm else SDefault
  else
    match g with
    | Some x => x
    | None =>
      if client then
        match find (fun k => list_eqb (k_sub k) di) (v_creds v) with
        | Some k => if k_type k =? PSK then SPsk else if chain then SCert else SDefault
        | None => if chain then SCert else SDefault
        end
      else SDefault
    end.

(** security/oc_tls.c:1947-2007, oc_tls_populate_ssl_config: our PSK identity. *)
Definition own_identity (v : dev) (client pin : bool) : list N :=
  if client && pin then RDP
  else if (v_dos v =? RFOTM) && (v_oxm v =? OXM_RDP) then str "oic.sec.doxm.rdp:" ++ v_uuid v
  else v_uuid v.

Definition of_dev (d : nat) (l : list peer) : list peer := filter (fun p => Nat.eqb (p_dev p) d) l.

(** security/oc_tls.c:2114-2132, tls_is_valid_doc *)
Definition valid_doc (s : st) (d : nat) : bool :=
  negb (v_oxm (devs s d) =? OXM_NONE) && Nat.eqb (List.length (of_dev d (peers s))) 0.

(** security/oc_tls.c:2162-2216, oc_tls_add_new_peer, with the parameters of
    oc_tls_peer_pki_default_verification_params (2136-2149).  (There is room for a peer and
    mbedtls accepts the configuration.) *)
Definition new_peer (s : st) (d ep : nat) (client : bool) (di : list N) : st :=
  let v := devs s d in
  let g := gl s in
  if (v_dos v =? RFOTM) && negb (valid_doc s d) then s
  else
    let chain := load_chain v g in
    let p := Peer (cnt s) d ep client (v_dos v =? RFOTM)
               (choose v client (g_ciphers g) (match chain with Some _ => true | None => false end) di)
               chain ((RFOTM <? v_dos v) || client)
               (match g_ciphers g with Some SCloud => true | _ => false end)
               (own_identity v client (g_pin g)) in
    St (devs s) (peers s ++ [p]) (Sel None (-1) (-1) (if client then false else g_pin g)) (S (cnt s)).

(** security/oc_tls.c:2218-2248, oc_tls_add_or_get_peer.  (Endpoints are compared as a whole.) *)
Definition get_peer (s : st) (ep : nat) : option peer := find (fun p => Nat.eqb (p_ep p) ep) (peers s).
Definition add_or_get (s : st) (d ep : nat) (client : bool) (di : list N) : st :=
  match get_peer s ep with Some _ => s | None => new_peer s d ep client di end.

(** security/oc_tls.c:468-555, oc_tls_free_peer: the peer leaves the list; true: its device is
    reset.  (What else is released is in other areas.) *)
Definition free_peer (s : st) (n : nat) (from_reset : bool) : st * list nat :=
  match find (fun p => Nat.eqb (p_n p) n) (peers s) with
  | None => (s, [])
  | Some p =>
    (St (devs s) (filter (fun q => negb (Nat.eqb (p_n q) n)) (peers s)) (gl s) (cnt s),
     if p_doc p && (v_dos (devs s (p_dev p)) =? RFOTM) && negb from_reset then [p_dev p] else [])
  end.

(** What happens: the application selects suites, certificates or the PIN identity for its next
    connection or takes the selection of suites back (1580-1617,1731-1744,172-178), a connection starts (as server: a message from an
    unknown endpoint; as client: a message to one), one ends, and the state, method or
    credentials of a device change in any way. *)
Inductive op :=
| Select (x : suites)
| Unselect
| SelectMfg (credid : Z)
| SelectId (credid : Z)
| UsePin
| Open (d ep : nat) (client : bool) (di : list N)
| Close (n : nat) (from_reset : bool)
| Change (d : nat) (v : dev).

Definition set_gl (s : st) (g : sel) : st := St (devs s) (peers s) g (cnt s).
Definition step (s : st) (o : op) : st :=
  match o with
  | Select x => set_gl s (Sel (Some x) (g_mfg (gl s)) (g_id (gl s)) (g_pin (gl s)))
  | Unselect => set_gl s (Sel None (g_mfg (gl s)) (g_id (gl s)) (g_pin (gl s)))
  | SelectMfg z => set_gl s (Sel (g_ciphers (gl s)) z (g_id (gl s)) (g_pin (gl s)))
  | SelectId z => set_gl s (Sel (g_ciphers (gl s)) (g_mfg (gl s)) z (g_pin (gl s)))
  | UsePin => set_gl s (Sel (g_ciphers (gl s)) (g_mfg (gl s)) (g_id (gl s)) true)
  | Open d ep client di => add_or_get s d ep client di
  | Close n fr => fst (free_peer s n fr)
  | Change d v => St (fun x => if Nat.eqb x d then v else devs s x) (peers s) (gl s) (cnt s)
  end.
Fixpoint run (s : st) (l : list op) : st := match l with [] => s | o :: r => run (step s o) r end.
Definition init (dv : nat -> dev) : st := St dv [] no_sel 0.
