(* The settings of the provisioning client that come with a DHCP lease
   (api/plgd/device-provisioning-client/plgd_dps_dhcp.c, plgd_dps.c,
   plgd_dps_endpoints.c) and the check of the certificates of the provisioning
   server against a pinned fingerprint (plgd_dps_verify_certificate.c,
   security/oc_tls.c).

   Simplifications.  mbedTLS is represented by a table of hash algorithms and,
   for the chain of certificates, by the flags it hands to the callback and by
   what the original callback and the one of the application answer.  It calls
   the callback from the highest depth down to the leaf and stops at the first
   failure.  Closing the session and notifying observers (dps_set_endpoint) are
   left out. *)
From Coq Require Import List NArith Bool.
Import ListNotations.
From Verif Require Import Common.
From Verif Require Ea_Model.
Local Open Scope N_scope.

Definition colon : N := 58.

(* hexchar_to_decimal (plgd_dps_dhcp.c:84-97) *)
Definition hexchar (c : N) : option N :=
  if (48 <=? c) && (c <=? 57) then Some (c - 48)
  else if (65 <=? c) && (c <=? 70) then Some (10 + (c - 65))
  else if (97 <=? c) && (c <=? 102) then Some (10 + (c - 97))
  else None.

(* hex_to_value (plgd_dps_dhcp.c:99-132): the loop from index i on. *)
Fixpoint hex_loop (data : list N) (i : nat) (used : nat) (val : N)
  : option (nat * N) :=
  match data with
  | [] => Some (used, val)
  | c :: rest =>
      if c =? colon then Some (S used, val)
      else match hexchar c with
           | None => None
           | Some v =>
               if Nat.eqb i 2 then Some (used, val)
               else
                 let val1 := if Nat.eqb i 1 then N.shiftl val 4 mod 256 else val in
                 hex_loop rest (S i) (S used) (N.lor val1 v)
           end
  end.

Definition hex_to_value (data : list N) : option (nat * N) :=
  hex_loop data 0 0 0.

(* plgd_dps_hex_string_to_bytes (plgd_dps_dhcp.c:134-162): the loop at index i.
   The result of running out of fuel differs from every result of the code. *)
Inductive hexres := HFuel | HErr | HOk (needed : nat) (buf : option (list N)).

Definition put (b : option (list N)) (n : nat) (v : N) : option (list N) :=
  match b with
  | None => None
  | Some l => if Nat.ltb n (length l)
              then Some (firstn n l ++ v :: skipn (S n) l) else Some l
  end.

Fixpoint hex_bytes (fuel : nat) (s : list N) (i needed : nat)
  (buf : option (list N)) : hexres :=
  match fuel with
  | O => HFuel
  | S f =>
      if Nat.ltb i (length s) then
        match hex_to_value (skipn i s) with
        | None => HErr
        | Some (used, val) =>
            hex_bytes f s (i + used) (S needed) (put buf needed val)
        end
      else HOk needed buf
  end.

Definition hex_string_to_bytes (s : list N) (buf : option (list N)) : hexres :=
  hex_bytes (S (length s)) s 0 0 (option_map (map (fun _ => 0)) buf).

(* plgd_dps_dhcp_t (plgd_dps_dhcp_internal.h:30-36) *)
Record codes := mkCodes { c_ep : N; c_fp : N; c_md : N }.
(* plgd_dps_dhcp_init (plgd_dps_dhcp.c:41-50) *)
Definition codes0 : codes := mkCodes 200 201 202.

(* dhcp_parse_data_t (plgd_dps_dhcp_internal.h:46-67) *)
Record found := mkFound {
  f_ep : option (list N); f_fp : option (list N); f_md : option (list N) }.

(* plgd_dps_dhcp_set_option_cbk (plgd_dps_dhcp.c:191-229) *)
Definition set_option (k : codes) (code : N) (d : list N) (f : found)
  : option found :=
  match d with
  | [] => None
  | _ =>
      if code =? c_ep k then Some (mkFound (Some d) (f_fp f) (f_md f))
      else if code =? c_fp k then Some (mkFound (f_ep f) (Some d) (f_md f))
      else if code =? c_md k then Some (mkFound (f_ep f) (f_fp f) (Some d))
      else None
  end.

Inductive parsed := PFuel | PBad | PFalse | POk (f : found).

(* The bytes from off on, len of them; None when that is outside the array. *)
Definition slice (l : list N) (off len : nat) : option (list N) :=
  if Nat.leb (off + len) (length l) then Some (firstn len (skipn off l)) else None.

(* dps_dhcp_parse_vendor_encapsulated_options (plgd_dps_dhcp.c:231-251) with
   parse_option (168-189). *)
Fixpoint parse_loop (fuel : nat) (k : codes) (l : list N) (i : nat) (f : found)
  : parsed :=
  match fuel with
  | O => PFuel
  | S fu =>
      if Nat.ltb (i + 1) (length l) then
        match nth_error l i, nth_error l (i + 1) with
        | Some code, Some sz =>
            let data_size := (length l - (i + 1))%nat in
            if Nat.ltb (data_size - 1) (N.to_nat sz) then PFalse
            else match slice l (i + 2) (N.to_nat sz) with
                 | None => PBad
                 | Some d =>
                     match set_option k code d f with
                     | None => PFalse
                     | Some f1 => parse_loop fu k l (i + (N.to_nat sz + 1) + 1) f1
                     end
                 end
        | _, _ => PBad
        end
      else POk f
  end.

Definition parse (k : codes) (l : list N) : parsed :=
  parse_loop (S (length l)) k l 0 (mkFound None None None).

(* Hash algorithms of mbedTLS: mbedtls_md_info_from_string, mbedtls_md_get_size
   of mbedtls_md_info_from_type and oc_sec_certs_md_algorithm_is_allowed
   (security/oc_certs.c:109-114).  0 is MBEDTLS_MD_NONE. *)
Record mdlib := mkLib {
  md_named : list N -> option N;
  md_size : N -> option nat;
  md_allowed : N -> bool }.

(* The parts of plgd_dps_context_t used here: dhcp, certificate_fingerprint and
   store.endpoints. *)
Record ctx := mkCtx {
  dh : codes;
  fp_md : N;
  fp_data : option (list N);
  eps : Ea_Model.eas }.

(* dps_is_equal_string_len (plgd_dps_apis.c:36-44) *)
Definition equal_len (a b : option (list N)) : bool :=
  match a, b with
  | None, None => true
  | Some x, Some y => list_eqb x y
  | _, _ => false
  end.

Definition osize (d : option (list N)) : nat :=
  match d with Some l => length l | None => 0 end.

(* dps_set_certificate_fingerprint (plgd_dps.c:282-315) *)
Definition set_fingerprint (lib : mdlib) (md : N) (d : option (list N)) (c : ctx)
  : bool * ctx :=
  let ok :=
    if md =? 0 then true
    else md_allowed lib md
         && match md_size lib md with
            | None => false
            | Some n => Nat.eqb n (osize d)
            end in
  if negb ok then (false, c)
  else if (fp_md c =? md) && equal_len (fp_data c) d then (true, c)
  else (true, mkCtx (dh c) md d (eps c)).

Definition view (d : option (list N)) : list N :=
  match d with Some l => l | None => [] end.

(* dps_set_endpoint (plgd_dps_endpoints.c:36-63).  mem is the memory for the
   address. *)
Definition set_endpoint (u : list N) (mem : option N) (c : ctx) : ctx :=
  if Nat.eqb (length (Ea_Model.l_items (eps c))) 1 && Ea_Model.contains (eps c) u
  then c
  else mkCtx (dh c) (fp_md c) (fp_data c)
         (fst (Ea_Model.reinit (eps c) u (Ea_Model.MName None) mem)).

(* dhcp_set_endpoint (plgd_dps_dhcp.c:253-277) *)
Definition dhcp_set_endpoint (f : found) (mem : option N) (c : ctx)
  : bool * ctx :=
  if Ea_Model.is_selected (eps c) (view (f_ep f)) then (false, c)
  else (true, set_endpoint (firstn 255 (view (f_ep f))) mem c).

(* dhcp_parse_md_type (plgd_dps_dhcp.c:279-306); a name ends at a zero byte. *)
Fixpoint cstr (l : list N) : list N :=
  match l with [] => [] | x :: r => if x =? 0 then [] else x :: cstr r end.

Definition parse_md (lib : mdlib) (f : found) : option N :=
  match f_md f with
  | None | Some [] => Some 0
  | Some d => md_named lib (cstr (firstn 255 d))
  end.

Inductive setres := RError | RNotChanged | RUpdated | RReprovision.

(* plgd_dps_dhcp_set_values_from_vendor_encapsulated_options
   (plgd_dps_dhcp.c:308-355).  prov is dps_is_provisioned. *)
Definition set_values (lib : mdlib) (prov : bool) (l : list N) (mem : option N)
  (c : ctx) : setres * ctx :=
  match parse (dh c) l with
  | POk f =>
      match parse_md lib f with
      | None => (RError, c)
      | Some md =>
          if (fp_md c =? md) && Ea_Model.is_selected (eps c) (view (f_ep f))
             && equal_len (fp_data c) (f_fp f)
          then (RNotChanged, c)
          else
            let (ok, c1) := set_fingerprint lib md (f_fp f) c in
            if negb ok then (RError, c)
            else
              let (ch, c2) := dhcp_set_endpoint f mem c1 in
              (if ch || negb prov then RReprovision else RUpdated, c2)
      end
  | _ => (RError, c)
  end.

(* What may happen to the settings: lease options, a fingerprint set by the
   application, other codes, an address set by the application. *)
Inductive op :=
| OLease (prov : bool) (l : list N) (mem : option N)
| OFp (md : N) (d : option (list N))
| OCodes (k : codes)
| OEp (u : list N) (mem : option N).

Definition step (lib : mdlib) (c : ctx) (o : op) : ctx :=
  match o with
  | OLease prov l mem => snd (set_values lib prov l mem c)
  | OFp md d => snd (set_fingerprint lib md d c)
  | OCodes k => mkCtx k (fp_md c) (fp_data c) (eps c)
  | OEp u mem => set_endpoint u mem c
  end.

Definition ctx0 : ctx := mkCtx codes0 0 None (Ea_Model.mk_eas [] None []).

(* A certificate of the chain: its hashes, the flags of mbedTLS, the answers of
   the original callback and of the callback of the application to flags. *)
Record cert := mkCert {
  hash : N -> option (list N);
  flags : N;
  orig : N -> bool * N;
  appl : N -> bool * N }.

(* dps_verify_certificate_data_t (plgd_dps_verify_certificate_internal.h) behind
   peer->user_data: whether it is still there, fingerprint_verified, how often
   it was freed. *)
Record vdata := mkVd { there : bool; verified : bool; freed : nat }.
(* dps_verify_certificate_data_new (plgd_dps_verify_certificate.c:30-43) *)
Definition vnew : vdata := mkVd true false 0.

(* calculate_fingerprint (plgd_dps_verify_certificate.c:104-135) *)
Definition calc (md : N) (x : cert) : option (list N) :=
  if md =? 0 then Some [] else hash x md.

(* dps_verify_certificate (plgd_dps_verify_certificate.c:137-219); skip is
   ctx->skip_verify. *)
Definition dps_verify (md : N) (pin : option (list N)) (skip : bool)
  (depth : nat) (x : cert) (fl : N) (d : vdata) : bool * N * vdata :=
  if negb (there d) then (false, fl, d)
  else
    match calc md x with
    | None => (false, fl, d)
    | Some fpr =>
        let d1 :=
          if negb (md =? 0) && equal_len pin (Some fpr)
          then mkVd (there d) true (freed d) else d in
        let (r, fl1) := orig x fl in
        if r && (fl1 =? 0) then (true, fl1, d1)
        else if negb (md =? 0) then
          if Nat.ltb 0 depth then (true, 0, d1)
          else if verified d1 then (true, 0, mkVd false true (S (freed d1)))
          else (false, fl1, d1)
        else if skip then (true, 0, d1)
        else (r, fl1, d1)
    end.

(* tls_verify_certificate (security/oc_tls.c:1748-1790) *)
Definition tls_verify (md : N) (pin : option (list N)) (skip : bool)
  (depth : nat) (x : cert) (d : vdata) : bool * N * vdata :=
  match dps_verify md pin skip depth x (flags x) d with
  | (true, fl, d1) =>
      let (r, fl1) := appl x fl in
      (if fl1 =? 0 then r else false, fl1, d1)
  | (false, fl, d1) => (false, fl, d1)
  end.

(* mbedtls_x509_crt_verify calling the callback: the certificates above the leaf
   come first. *)
Fixpoint chain (md : N) (pin : option (list N)) (skip : bool) (depth : nat)
  (l : list cert) (d : vdata) : bool * vdata :=
  match l with
  | [] => (true, d)
  | x :: up =>
      match chain md pin skip (S depth) up d with
      | (true, d1) =>
          match tls_verify md pin skip depth x d1 with
          | (ok, fl, d2) => (ok && (fl =? 0), d2)
          end
      | (false, d1) => (false, d1)
      end
  end.

Definition handshake (c : ctx) (skip : bool) (l : list cert) : bool * vdata :=
  chain (fp_md c) (fp_data c) skip 0 l vnew.

(* oc_tls_free_peer (security/oc_tls.c:484-486) frees what is left of the user data. *)
Definition free_peer (d : vdata) : vdata :=
  if there d then mkVd false (verified d) (S (freed d)) else d.

(* verify_cloud_certificate (security/oc_tls.c:1927-1943) and
   default_verify_certificate_cb (security/oc_pki.c:413-452) leave the flags as
   they are and do not refuse. *)
Definition cloud_cb (fl : N) : bool * N := (true, fl).
