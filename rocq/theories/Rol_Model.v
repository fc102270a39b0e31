(** The roles asserted by clients, all sessions of all devices: security/oc_roles.c with OC_PKI, over the credentials of [Cred_Model]. *)
From Verif Require Import Common Rep_Model Ob_Model Cred_Model.
From Verif Require Acl_Model.
From Coq Require Import String.
Local Open Scope string_scope.
Local Open Scope list_scope.
Local Open Scope N_scope.

(** oc_sec_roles_t (security/oc_roles.c:121-127); a client is the address of its oc_tls_peer_t, which is used again after the
    session has ended. *)
Record rrec := mk_r { r_client : nat; r_device : nat; r_creds : list cred }.

(** roles_get_for_client, oc_sec_roles_get (security/oc_roles.c:134-145, 197-205) *)
Definition get_for (p : nat) (l : list rrec) : option rrec := find (fun r => Nat.eqb (r_client r) p) l.
Definition roles_get (p : nat) (l : list rrec) : list cred := match get_for p l with Some r => r_creds r | None => [] end.
(** The roles after oc_sec_roles_add and the functions that take single roles away (security/oc_roles.c:147-195, 218-234, 275-289). A record
    without roles for a client that has none yet is left out: it is not told apart from none. *)
Fixpoint set_roles (p dev : nat) (cs : list cred) (l : list rrec) : list rrec :=
  match l with
  | [] => match cs with [] => [] | _ => [mk_r p dev cs] end
  | r :: t => if Nat.eqb (r_client r) p then mk_r (r_client r) (r_device r) cs :: t else r :: set_roles p dev cs t
  end.
(** oc_sec_free_roles (security/oc_roles.c:252-271) *)
Fixpoint free_roles (p : nat) (l : list rrec) : list rrec :=
  match l with [] => [] | r :: t => if Nat.eqb (r_client r) p then t else r :: free_roles p t end.
(** oc_sec_free_roles_for_device (security/oc_roles.c:236-250) *)
Definition free_for_device (dev : nat) (l : list rrec) : list rrec :=
  fold_left (fun acc r => if Nat.eqb (r_device r) dev then free_roles (r_client r) acc else acc) l l.

(** What is known of a session (oc_tls_peer_t, security/oc_tls_internal.h): the device, the public key of the certificate of the client,
    empty when it had none, and its id (security/oc_tls.c:1835-1855). *)
Record ses := mk_ses { ss_dev : nat; ss_key : list N; ss_uuid : list N }.
(** g_clients; the sessions (security/oc_tls.c, g_tls_peers); the credentials of the devices. *)
Record st := mk_st { t_clients : list rrec; t_open : list (nat * ses); t_dev : nat -> cs }.
Definition session (t : st) (p : nat) : option ses := option_map snd (find (fun x => Nat.eqb (fst x) p) (t_open t)).
Definition with_clients (t : st) (l : list rrec) : st := mk_st l (t_open t) (t_dev t).
Definition set_dev (dev : nat) (s : cs) (f : nat -> cs) : nat -> cs := fun d => if Nat.eqb d dev then s else f d.
(** oc_tls_free_peer (security/oc_tls.c:468-530) takes the peer off the list; one peer per address *)
Fixpoint close (p : nat) (l : list (nat * ses)) : list (nat * ses) :=
  match l with [] => [] | x :: t => if Nat.eqb (fst x) p then t else x :: close p t end.

(** Who asks: a session, or nobody over an open connection to a device. *)
Inductive who : Type := Session (p : nat) | Plain (dev : nat).
(** oc_sec_verify_role_cred (security/oc_cred.c:400-416, 425-454): both keys are compared over the length of the key in the certificate,
    counted from their ends; when the key of the session is shorter the comparison starts before it. [cn] is the id a certificate
    names as its subject. *)
Inductive vres : Type := VNo | VOk | VUB.
Definition verify (client : option ses) (cn : list N -> option (list N)) (key pub : list N) : vres :=
  match client with
  | None => VNo
  | Some x =>
      let named := match cn pub with Some u => if list_eqb u (uuid_str (ss_uuid x)) then VOk else VNo | None => VNo end in
      match ss_key x with
      | [] => named
      | _ => if (List.length (ss_key x) <? List.length key)%nat then VUB
             else if list_eqb key (skipn (List.length (ss_key x) - List.length key) (ss_key x)) then named else VNo
      end
  end.
Definition env_of (client : option ses) (cn : list N -> option (list N)) (E : cenv) : cenv :=
  mk_ce (ce_key E) (ce_role E) (ce_pair E) (fun key pub => match verify client cn key pub with VOk => true | _ => false end) (ce_psk E) (ce_rand E) (ce_alloc E) (ce_octx E) (ce_state E).
(** A certificate of the request, reached or not, makes the comparison start before the key of the session. *)
Definition overruns (client : option ses) (cn : list N -> option (list N)) (E : cenv) (l : list rep) : bool :=
  existsb (fun r => match snd r with
    | RObjArr a => existsb (fun x => match parse_props false item0 x with
        | Some it => (i_type it =? CERT) && match ce_key E (od (sd_data (i_pub it))) with
            | Some key => match verify client cn key (od (sd_data (i_pub it))) with VUB => true | _ => false end
            | None => false end
        | None => false end) a
    | _ => false end) l.

(** roles_resource_post (security/oc_roles.c:351-366), oc_sec_apply_cred (security/oc_cred.c:1456-1524). *)
Definition post (client : option (nat * ses)) (dev : nat) (E : cenv) (cn : list N -> option (list N)) (l : list rep) (t : st) : option (st * bool) :=
  let x := option_map snd client in
  let old := match client with Some (p, _) => roles_get p (t_clients t) | None => [] end in
  let put s := mk_st (match client with Some (p, _) => set_roles p dev (s_roles s) (t_clients t) | None => t_clients t end) (t_open t)
                     (set_dev dev (with_roles s []) (t_dev t)) in
  if overruns x cn E l then None
  else match apply_cred (env_of x cn E) true l (with_roles (t_dev t dev) old) with
  | POk s => Some (put s, true)
  | PFail s => Some (put s, false)
  | _ => None
  end.

(** The roles that are left when access is checked (security/oc_acl_util.c:316-337): those that do not validate are dropped, up to the
    first of the owner. *)
Fixpoint walk (valid : cred -> bool) (l : list cred) : list cred :=
  match l with
  | [] => []
  | c :: t => if negb (valid c) then walk valid t else if list_eqb (od (c_role c)) (str "oic.role.owner") then l else c :: walk valid t
  end.
(** The session as the access check sees it. *)
Definition acl_peer (doc psk : bool) (valid : cred -> bool) (t : st) (p : nat) : Acl_Model.peer :=
  Acl_Model.mk_peer doc psk (map (fun c => Acl_Model.mk_rc (od (c_role c)) (od (c_auth c)) (valid c)) (roles_get p (t_clients t))).

Inductive op : Type :=
| Open (p : nat) (x : ses)                          (* a handshake *)
| Close (p : nat)                                   (* the session ends: oc_tls_free_peer *)
| Post (w : who) (E : cenv) (cn : list N -> option (list N)) (l : list rep)
| Get (w : who)
| Delete (w : who) (q : option Z)                   (* with the number the query gives *)
| Access (p : nat) (valid : cred -> bool)           (* access of a session with a certificate is checked *)
| Creds (dev : nat) (E : cenv) (o : cop)            (* the credentials of a device change *)
| Factory (dev : nat).                              (* the device goes to RESET *)
Inductive answer : Type := Nothing | Told (l : list rep) | Status (ok : bool).

(** The client of a request, oc_tls_get_peer (security/oc_tls.c:557-569), and its device. *)
Definition client_of (t : st) (w : who) : option (nat * ses) :=
  match w with Session p => match session t p with Some x => Some (p, x) | None => None end | Plain _ => None end.
Definition device_of (t : st) (w : who) : option nat := match w with Session p => option_map ss_dev (session t p) | Plain dev => Some dev end.

(** roles_resource_get, roles_resource_post, roles_resource_delete (security/oc_roles.c:341-400), oc_tls_free_peer (security/oc_tls.c:468-530),
    oc_pstat_handle_state (security/oc_pstat.c:298, 318). A request of a session that is not open is none. [None]: undefined behaviour, or no
    random value left. *)
Definition step (t : st) (o : op) : option (st * answer) :=
  match o with
  | Open p x => Some (match session t p with Some _ => t | None => mk_st (t_clients t) (t_open t ++ [(p, x)]) (t_dev t) end, Nothing)
  | Close p => Some (mk_st (free_roles p (t_clients t)) (close p (t_open t)) (t_dev t), Nothing)
  | Post w E cn l =>
      match device_of t w with
      | None => Some (t, Nothing)
      | Some dev => match post (client_of t w) dev E cn l t with Some (t', ok) => Some (t', Status ok) | None => None end
      end
  | Get w =>
      match device_of t w with
      | None => Some (t, Nothing)
      | Some dev => Some (t, Told (encode_roles (with_roles (t_dev t dev) (match client_of t w with Some (p, _) => roles_get p (t_clients t) | None => [] end))))
      end
  | Delete w q =>
      match device_of t w, client_of t w with
      | None, _ => Some (t, Nothing)
      | Some _, None => Some (t, Status false)
      | Some dev, Some (p, _) =>
          match q with
          | None => Some (with_clients t (free_roles p (t_clients t)), Status true)
          | Some _ => let r := delete_role q (with_roles (t_dev t dev) (roles_get p (t_clients t))) in
                      Some (if fst r then with_clients t (set_roles p dev (s_roles (snd r)) (t_clients t)) else t, Status (fst r))
          end
      end
  | Access p valid =>
      match session t p with
      | None => Some (t, Nothing)
      | Some x => Some (with_clients t (set_roles p (ss_dev x) (walk valid (roles_get p (t_clients t))) (t_clients t)), Nothing)
      end
  | Creds dev E o =>
      match o with
      | RolePost _ | RoleDel _ => Some (t, Nothing)
      | _ => match cstep E (with_roles (t_dev t dev) []) o with Some s => Some (mk_st (t_clients t) (t_open t) (set_dev dev (with_roles s []) (t_dev t)), Nothing) | None => None end
      end
  | Factory dev => Some (mk_st (free_for_device dev (t_clients t)) (t_open t) (set_dev dev (mk_cs [] Acl_Model.nil_uuid [] (s_next (t_dev t dev))) (t_dev t)), Nothing)
  end.
Fixpoint run (t : st) (l : list op) : option st := match l with [] => Some t | o :: k => match step t o with Some (t', _) => run t' k | None => None end end.

(** No sessions; any credentials. *)
Definition start (f : nat -> cs) : st := mk_st [] [] f.
