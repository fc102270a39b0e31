(** C102 and C103: the keys and the set-up of secured connections. *)
From Verif Require Import Common Hs_Model Hs_Spec Hs_Proofs.
From Coq Require Import String.
Local Open Scope string_scope.
Local Open Scope list_scope.
Local Open Scope N_scope.

Definition uuid_a : list N := str "aaaaaaaaaaaaaaaa".
Definition uuid_b : list N := str "bbbbbbbbbbbbbbbb".
Definition psk_b : cred := Cred 1 0 uuid_b (str "secret") 1.
Definition normal : dev := Dev 3 4 true uuid_a [] [Cred 8 4 uuid_b [] 2; psk_b] [Cred 8 32 uuid_a [] 3; Cred 8 4 uuid_a [] 2].
Definition fresh (oxm : N) : dev := Dev 1 oxm false uuid_b (str "12345678") [] [Cred 8 32 uuid_b [] 1].
Definition demo_kdf (pin uuid : list N) : list N := pin ++ uuid.

(** ** C102 *)

(** The key of the first PSK credential for the peer is found. *)
Theorem C102_known : forall kdf v identity id key,
  stands_for v identity id -> first_key v id key -> get_psk kdf v identity = PskKey key id.
Proof. exact psk_known. Qed.

Example C102_known_ex :
  get_psk demo_kdf normal uuid_b = PskKey (str "secret") uuid_b /\
  get_psk demo_kdf normal (str "oic.sec.doxm.rdp:" ++ uuid_b) = PskKey (str "secret") uuid_b.
Proof. split; vm_compute; reflexivity. Qed.
Example C102_known_hyp : stands_for normal (str "oic.sec.doxm.rdp:" ++ uuid_b) uuid_b /\ first_key normal uuid_b (str "secret").
Proof.
  split; [split; [reflexivity|right; split; reflexivity]|].
  exists [Cred 8 4 uuid_b [] 2], psk_b, []. split; [reflexivity|]. split; [split; [|split]; reflexivity|]. split; [reflexivity|].
  intros x [<-|[]] [E _]. cbn in E. lia.
Qed.

(** A peer without one is refused. *)
Theorem C102_refused : forall kdf v identity id, stands_for v identity id -> no_key v id ->
  ~ (pin_otm v /\ identity = str "oic.sec.doxm.rdp") -> get_psk kdf v identity = PskNo.
Proof. exact psk_refused. Qed.

Example C102_refused_ex : get_psk demo_kdf normal uuid_a = PskNo /\ get_psk demo_kdf (fresh 0) uuid_a = PskNo /\
  get_psk demo_kdf (fresh 0) (str "oic.sec.doxm.rdp") = PskNo /\ get_psk demo_kdf (fresh 1) uuid_b = PskNo.
Proof. vm_compute. repeat split. Qed.

(** During the random PIN method the PIN is the key. *)
Theorem C102_pin : forall kdf v, pin_otm v -> no_key v (str "oic.sec.doxm.rdp") ->
  get_psk kdf v (str "oic.sec.doxm.rdp") = PskKey (kdf (v_pin v) (v_uuid v)) (str "oic.sec.doxm.rdp").
Proof. exact psk_pin. Qed.

Example C102_pin_ex : get_psk demo_kdf (fresh 1) (str "oic.sec.doxm.rdp") = PskKey (str "12345678bbbbbbbbbbbbbbbb") (str "oic.sec.doxm.rdp").
Proof. vm_compute. reflexivity. Qed.

(** No other key is ever given: whatever the peer sends, a key comes from the first PSK credential
    for the uuid at the start of the identity, or from the PIN while that method is in progress. *)
Theorem C102_only : forall kdf v identity key u, get_psk kdf v identity = PskKey key u ->
  (exists rest, first_key v u key /\ List.length u = 16%nat /\
     (identity = u ++ rest \/ v_dos v = 3 /\ identity = str "oic.sec.doxm.rdp:" ++ u ++ rest)) \/
  (pin_otm v /\ identity = str "oic.sec.doxm.rdp" /\ u = identity /\ key = kdf (v_pin v) (v_uuid v)).
Proof. exact psk_only. Qed.

(** The identity a device shows is understood by the other side: it finds its credential for that
    device (a device in the random PIN method shows it to one in normal operation). *)
Theorem C102_agree : forall kdf v w client key, List.length (v_uuid v) = 16%nat -> (pin_otm v -> v_dos w = 3) ->
  first_key w (v_uuid v) key -> get_psk kdf w (own_identity v client false) = PskKey key (v_uuid v).
Proof. intros kdf v w client key L P K. apply psk_known; [now apply own_identity_stands|exact K]. Qed.

Example C102_agree_ex : get_psk demo_kdf normal (own_identity (fresh 1) false false) = PskKey (str "secret") uuid_b /\
  get_psk demo_kdf normal (own_identity (fresh 0) true false) = PskKey (str "secret") uuid_b.
Proof. vm_compute. split; reflexivity. Qed.

(** The identity of an onboarding tool with the PIN is understood by the device. *)
Theorem C102_agree_pin : forall kdf v w, pin_otm w -> no_key w (str "oic.sec.doxm.rdp") ->
  get_psk kdf w (own_identity v true true) = PskKey (kdf (v_pin w) (v_uuid w)) (str "oic.sec.doxm.rdp").
Proof. intros kdf v w. exact (psk_pin kdf w). Qed.

(** A longer identity is accepted by its first 16 bytes. *)
Theorem C102_longer_refuted : exists kdf v identity key,
  List.length identity = 20%nat /\ v_dos v = 3 /\ get_psk kdf v identity = PskKey key uuid_b.
Proof. exists demo_kdf, normal, (uuid_b ++ str "more"), (str "secret"). split; [|split]; vm_compute; reflexivity. Qed.

(** An identity shorter than 16 bytes, also after the prefix, is compared beyond its end. *)
Theorem C102_short_refuted : exists kdf v,
  get_psk kdf v (str "b") = PskOver /\ get_psk kdf v (str "oic.sec.doxm.rdp:") = PskOver.
Proof. exists demo_kdf, normal. split; vm_compute; reflexivity. Qed.

(** ** C103 *)

(** Never are there two onboarding connections of a device, nor two connections of an endpoint. *)
Theorem C103_single : forall dv ops d, (List.length (docs (run (init dv) ops) d) <= 1)%nat.
Proof. intros dv ops d. apply (inv_run dv ops). Qed.
Theorem C103_endpoints : forall dv ops, NoDup (map p_ep (peers (run (init dv) ops))).
Proof. intros dv ops. apply (inv_run dv ops). Qed.

(** In RFOTM a connection is opened exactly for a new endpoint when a method is selected and the
    device has none yet; it is the onboarding connection, and outside of RFOTM none is. *)
Theorem C103_onboarding : forall s d ep client di, v_dos (devs s d) = 1 ->
  let s' := step s (Open d ep client di) in
  (exists p, opened s p s' /\ p_dev p = d /\ p_ep p = ep /\ p_doc p = true /\ v_oxm (devs s d) <> 4 /\
     (forall q, In q (peers s) -> p_dev q <> d /\ p_ep q <> ep)) \/
  (s' = s /\ (v_oxm (devs s d) = 4 \/ exists q, In q (peers s) /\ (p_dev q = d \/ p_ep q = ep))).
Proof.
  intros s d ep client di D s'. subst s'. destruct (open_cases s d ep client di) as [[-> O]|(p & O & NE & RF & _ & _ & _ & _ & P2 & P3 & _ & P5 & _)].
  - right. split; [reflexivity|]. destruct O as [(p & I & E)|[_ [O|(p & I & E)]]]; [right; exists p; auto|now left|right; exists p; auto].
  - left. exists p. destruct (RF D) as [O4 AL]. rewrite P5, D. repeat split; auto.
Qed.

Example C103_onboarding_ex :
  let s := run (init (fun _ => fresh 0)) [Open 0 7 false []; Open 0 8 false []; Open 1 9 false []] in
  map p_ep (peers s) = [7%nat; 9%nat] /\ map p_doc (peers s) = [true; true] /\
  peers (run (init (fun _ => fresh 4)) [Open 0 7 false []]) = [].
Proof. vm_compute. repeat split. Qed.

(** Outside of RFOTM every new endpoint gets a connection, which is no onboarding connection. *)
Theorem C103_normal : forall s d ep client di, v_dos (devs s d) <> 1 -> (forall q, In q (peers s) -> p_ep q <> ep) ->
  exists p, opened s p (step s (Open d ep client di)) /\ p_dev p = d /\ p_ep p = ep /\ p_client p = client /\ p_doc p = false.
Proof.
  intros s d ep client di D NE. destruct (open_cases s d ep client di) as [[_ O]|(p & O & _ & _ & _ & _ & _ & _ & P2 & P3 & P4 & P5 & _)].
  - exfalso. destruct O as [(q & I & E)|[O _]]; [exact (NE q I E)|exact (D O)].
  - exists p. repeat split; auto. rewrite P5. apply N.eqb_neq. exact D.
Qed.

(** A server in RFOTM offers the suites of the selected method and no others. *)
Theorem C103_method : forall s d ep di p, v_dos (devs s d) = 1 -> opened s p (step s (Open d ep false di)) ->
  let x := p_suites p in
  (v_oxm (devs s d) = 0 -> offers_anonymous x /\ ~ offers_psk x /\ ~ offers_certificates x) /\
  (v_oxm (devs s d) = 1 -> offers_psk x /\ ~ offers_anonymous x /\ ~ offers_certificates x) /\
  (v_oxm (devs s d) = 2 -> offers_certificates x /\ ~ offers_psk x /\ ~ offers_anonymous x).
Proof.
  intros s d ep di p D O x. destruct (open_cases s d ep false di) as [[E _]|(q & O' & _ & _ & _ & _ & _ & _ & _ & _ & _ & _ & _ & P & _)].
  - exfalso. unfold opened in O. rewrite E in O. apply (f_equal (@List.length _)) in O. rewrite app_length in O. cbn in O. lia.
  - unfold opened in *. rewrite O in O'. apply app_inj_tail in O'. destruct O' as [_ <-]. subst x. rewrite P. unfold choose. rewrite D.
    cbn [negb andb]. unfold offers_anonymous, offers_psk, offers_certificates, RFOTM, OXM_JW, OXM_RDP, OXM_MFG.
    split; [|split]; intros ->; vm_compute; (split; [tauto|]); split; intuition discriminate.
Qed.

Lemma opened_new s d ep client di p : opened s p (step s (Open d ep client di)) ->
  devs (step s (Open d ep client di)) = devs s /\
  gl (step s (Open d ep client di)) = Sel None (-1) (-1) (if client then false else g_pin (gl s)) /\
  p_client p = client /\ p_doc p = (v_dos (devs s d) =? RFOTM) /\
  p_cert p = load_chain (devs s d) (gl s) /\
  p_suites p = choose (devs s d) client (g_ciphers (gl s)) (match p_cert p with Some _ => true | None => false end) di /\
  p_required p = ((RFOTM <? v_dos (devs s d)) || client)%bool /\
  p_cloud p = (match g_ciphers (gl s) with Some SCloud => true | _ => false end) /\
  p_identity p = own_identity (devs s d) client (g_pin (gl s)).
Proof.
  intros O. destruct (open_cases s d ep client di) as [[E _]|(q & O' & _ & _ & E1 & _ & E2 & _ & _ & _ & H)].
  - exfalso. unfold opened in O. rewrite E in O. apply (f_equal (@List.length _)) in O. rewrite app_length in O. cbn in O. lia.
  - unfold opened in *. rewrite O in O'. apply app_inj_tail in O'. destruct O' as [_ <-]. split; [exact E1|]. split; [exact E2|exact H].
Qed.

(** Without a selection by the application anonymous suites are only offered by a server in RFOTM
    with the just-works method, and no peer is taken for a cloud. *)
Theorem C103_anonymous : forall s d ep client di p, g_ciphers (gl s) = None ->
  opened s p (step s (Open d ep client di)) ->
  p_cloud p = false /\
  (offers_anonymous (p_suites p) -> client = false /\ v_dos (devs s d) = 1 /\ v_oxm (devs s d) = 0).
Proof.
  intros s d ep client di p G O. destruct (opened_new _ _ _ _ _ _ O) as (_ & _ & _ & _ & _ & PS & _ & PC & _).
  rewrite G in PC, PS. split; [exact PC|]. rewrite PS. unfold choose, offers_anonymous, RFOTM, OXM_JW, OXM_RDP, OXM_MFG.
  destruct client; cbn [negb andb].
  - destruct (find _ _) as [k|]; [destruct (k_type k =? PSK)|]; destruct (p_cert p); intuition discriminate.
  - destruct (v_dos (devs s d) =? 1) eqn:D; [|intuition discriminate].
    destruct (v_oxm (devs s d) =? 0) eqn:X; [intros _; split; [reflexivity|lia]|].
    destruct (v_oxm (devs s d) =? 1); [intuition discriminate|]. destruct (v_oxm (devs s d) =? 2); intuition discriminate.
Qed.

Example C103_anonymous_ex :
  map p_suites (peers (run (init (fun _ => fresh 0)) [Open 0 7 false []])) = [SJw] /\
  map p_suites (peers (run (init (fun _ => normal)) [Open 0 7 false []; Open 0 8 true uuid_b; Open 0 9 true uuid_a])) = [SDefault; SCert; SCert] /\
  map p_suites (peers (run (init (fun _ => fresh 1)) [Open 0 7 false []; Open 1 8 true uuid_b])) = [SPin; SCert].
Proof. vm_compute. repeat split. Qed.

(** What the application selected is used by the next connection, unless that is one of a server in
    RFOTM, and by no later one. *)
Theorem C103_selected : forall s d ep client di p x, g_ciphers (gl s) = Some x ->
  client = true \/ v_dos (devs s d) <> 1 -> opened s p (step s (Open d ep client di)) ->
  p_suites p = x /\ (p_cloud p = true <-> x = SCloud).
Proof.
  intros s d ep client di p x G C O. destruct (opened_new _ _ _ _ _ _ O) as (_ & _ & _ & _ & _ & PS & _ & PC & _).
  rewrite G in PC, PS. rewrite PS, PC. unfold choose.
  assert (B : negb client && (v_dos (devs s d) =? RFOTM) = false).
  { destruct C as [->|C]; [reflexivity|]. apply N.eqb_neq in C. unfold RFOTM. rewrite C. apply andb_false_r. }
  rewrite B. split; [reflexivity|]. destruct x; split; intros; congruence.
Qed.
Theorem C103_once : forall s d ep client di p, opened s p (step s (Open d ep client di)) ->
  let g := gl (step s (Open d ep client di)) in
  g_ciphers g = None /\ g_mfg g = (-1)%Z /\ g_id g = (-1)%Z /\ (client = true -> g_pin g = false).
Proof.
  intros s d ep client di p O g. destruct (opened_new _ _ _ _ _ _ O) as (_ & G & _). subst g. rewrite G.
  repeat split. intros ->. reflexivity.
Qed.

Example C103_once_ex :
  map p_suites (peers (run (init (fun _ => normal)) [Select SAnon; Open 0 7 true []; Open 0 8 true []; Select SPin; Unselect; Open 0 9 false []]))
  = [SAnon; SCert; SDefault].
Proof. vm_compute. reflexivity. Qed.

(** The peer must authenticate itself unless we are the server of a device that is not owned yet. *)
Theorem C103_verified : forall s d ep client di p, opened s p (step s (Open d ep client di)) ->
  (p_required p = true <-> client = true \/ 1 < v_dos (devs s d)).
Proof.
  intros s d ep client di p O. destruct (opened_new _ _ _ _ _ _ O) as (_ & _ & _ & _ & _ & _ & R & _).
  rewrite R, orb_true_iff, N.ltb_lt. unfold RFOTM. tauto.
Qed.

(** The own certificate: an owned device shows its first selected identity certificate if there is
    one and these are not deselected, otherwise the first selected manufacturer's certificate. *)
Theorem C103_certificate : forall s d ep client di p k, opened s p (step s (Open d ep client di)) ->
  p_cert p = Some k ->
  let v := devs s d in
  (v_owned v = true /\ (-1 <= g_id (gl s))%Z /\ first_cert v 4 (g_id (gl s)) k) \/
  (first_cert v 32 (g_mfg (gl s)) k /\
   (v_owned v = true -> (-1 <= g_id (gl s))%Z -> forall k', ~ first_cert v 4 (g_id (gl s)) k')).
Proof.
  intros s d ep client di p k O C v. destruct (opened_new _ _ _ _ _ _ O) as (_ & _ & _ & _ & PC & _).
  rewrite PC in C. fold v in C. unfold load_chain in C.
  destruct (v_owned v) eqn:OW; cbn [andb] in C.
  - destruct (Z.ltb (g_id (gl s)) (-1)) eqn:Z; cbn [negb] in C.
    + right. split; [now apply pick_ok|]. intros _ H. lia.
    + destruct (pick (v_certs v) USE_IDENTITY (g_id (gl s))) as [k0|] eqn:P.
      * injection C as <-. left. split; [reflexivity|]. split; [lia|]. now apply pick_ok.
      * right. split; [now apply pick_ok|]. intros _ _. now apply pick_none.
  - right. split; [now apply pick_ok|]. discriminate.
Qed.
Theorem C103_no_certificate : forall s d ep client di p, opened s p (step s (Open d ep client di)) ->
  p_cert p = None ->
  let v := devs s d in
  (forall k, ~ first_cert v 32 (g_mfg (gl s)) k) /\
  (v_owned v = true -> (-1 <= g_id (gl s))%Z -> forall k, ~ first_cert v 4 (g_id (gl s)) k).
Proof.
  intros s d ep client di p O C v. destruct (opened_new _ _ _ _ _ _ O) as (_ & _ & _ & _ & PC & _).
  rewrite PC in C. fold v in C. unfold load_chain in C.
  destruct (v_owned v) eqn:OW; cbn [andb] in C.
  - destruct (Z.ltb (g_id (gl s)) (-1)) eqn:Z; cbn [negb] in C.
    + split; [now apply pick_none|]. intros _ H. lia.
    + destruct (pick (v_certs v) USE_IDENTITY (g_id (gl s))) as [k0|] eqn:P; [discriminate|].
      split; [now apply pick_none|]. intros _ _. now apply pick_none.
  - split; [now apply pick_none|]. discriminate.
Qed.

Example C103_certificate_ex :
  map (fun p => match p_cert p with Some k => k_id k | None => 0%Z end)
    (peers (run (init (fun d => match d with O => normal | _ => fresh 2 end))
      [Open 0 7 true []; SelectId (-2); Open 0 8 true []; Open 1 9 false []; SelectId 5; SelectMfg 5; Open 0 10 true []]))
  = [2%Z; 3%Z; 1%Z; 0%Z].
Proof. vm_compute. reflexivity. Qed.

(** The end of the onboarding connection while the device is still in RFOTM resets the device; no
    other end of a connection does, and other connections stay. *)
Theorem C103_reset : forall dv ops p from_reset, let s := run (init dv) ops in In p (peers s) ->
  let r := free_peer s (p_n p) from_reset in
  (forall d, In d (snd r) <-> d = p_dev p /\ p_doc p = true /\ v_dos (devs s d) = 1 /\ from_reset = false) /\
  (forall q, In q (peers (fst r)) <-> In q (peers s) /\ q <> p).
Proof.
  intros dv ops p fr s I r. assert (IV := inv_run dv ops). fold s in IV. destruct IV as [_ N _ _].
  assert (F : find (fun q => Nat.eqb (p_n q) (p_n p)) (peers s) = Some p).
  { revert N I. generalize (peers s) as l. induction l as [|q l IH]; intros N I; [contradiction|]. cbn [map] in N. inversion N as [|? ? N1 N2]; subst.
    cbn [find]. destruct (Nat.eqb (p_n q) (p_n p)) eqn:E.
    - destruct I as [<-|I]; [reflexivity|]. exfalso. apply Nat.eqb_eq in E. apply N1. rewrite E. now apply in_map.
    - destruct I as [<-|I]; [rewrite Nat.eqb_refl in E; discriminate|auto]. }
  subst r. unfold free_peer. rewrite F. cbn [fst snd peers]. split.
  - intros d. destruct (p_doc p) eqn:D1; cbn [andb]; [|split; [contradiction|intros (_ & X & _); discriminate]].
    destruct (v_dos (devs s (p_dev p)) =? RFOTM) eqn:D2; cbn [andb].
    + apply N.eqb_eq in D2. destruct fr; cbn [negb].
      * split; [contradiction|intros (_ & _ & _ & X); discriminate].
      * split; [intros [<-|[]]; auto|]. intros (-> & _). now left.
    + apply N.eqb_neq in D2. split; [contradiction|]. intros (-> & _ & X & _). exfalso. exact (D2 X).
  - intros q. rewrite filter_In, negb_true_iff, Nat.eqb_neq. split; intros [Q1 Q2]; (split; [exact Q1|]); [intros ->; apply Q2; reflexivity|].
    intros E. apply Q2. clear -N I Q1 E. revert N I Q1. generalize (peers s) as l. induction l as [|z l IH]; intros N I Q; [contradiction|].
    cbn [map] in N. inversion N as [|? ? N1 N2]; subst. destruct I as [<-|I], Q as [<-|Q]; auto.
    + exfalso. apply N1. rewrite <- E. now apply in_map.
    + exfalso. apply N1. rewrite E. now apply in_map.
Qed.

Example C103_reset_ex :
  let s := run (init (fun _ => fresh 0)) [Open 0 7 false []; Open 1 9 false []; Change 1 normal] in
  snd (free_peer s 0 false) = [0%nat] /\ snd (free_peer s 0 true) = [] /\ snd (free_peer s 1 false) = [] /\
  map p_n (peers (fst (free_peer s 0 false))) = [1%nat].
Proof. vm_compute. repeat split. Qed.

(** Changes of the state of a device leave its connections as they were set up. *)
Theorem C103_stable : forall s o p, In p (peers (step s o)) ->
  In p (peers s) \/ exists d ep client di, o = Open d ep client di /\ opened s p (step s o).
Proof.
  intros s o p I. destruct o as [x| |z|z| |d ep client di|n fr|d v]; try (left; exact I).
  - destruct (open_cases s d ep client di) as [[E _]|(q & O & _)]; [left; rewrite E in I; exact I|].
    unfold opened in O. rewrite O in I. apply in_app_iff in I. destruct I as [I|[<-|[]]]; [now left|].
    right. exists d, ep, client, di. split; [reflexivity|exact O].
  - left. cbn [step] in I. unfold free_peer in I. destruct (find _ (peers s)); [|exact I]. cbn [fst peers] in I. now apply filter_In in I.
Qed.

(** A selection meant for the next connection of the application is taken by a client that happens
    to connect before: an owned device in normal operation then offers anonymous suites as a
    server, and the connection of the application is set up without its selection. *)
Theorem C103_anonymous_refuted : exists dv ops p q, ops = [Select SAnon; Open 0 7 false []; Open 0 8 true uuid_a] /\
  peers (run (init dv) ops) = [p; q] /\ v_dos (dv 0%nat) = 3 /\ v_owned (dv 0%nat) = true /\
  p_client p = false /\ offers_anonymous (p_suites p) /\ p_client q = true /\ ~ offers_anonymous (p_suites q).
Proof.
  exists (fun _ => normal). eexists. eexists. eexists. split; [reflexivity|]. split; [vm_compute; reflexivity|].
  repeat split; cbn; unfold offers_anonymous; [tauto|intuition discriminate].
Qed.

(** Likewise that client is verified as a cloud, that is, without the authorisation of C101. *)
Theorem C103_cloud_refuted : exists dv ops p, ops = [Select SCloud; Open 0 7 false []] /\
  peers (run (init dv) ops) = [p] /\ v_dos (dv 0%nat) = 3 /\ p_client p = false /\ p_cloud p = true.
Proof.
  exists (fun _ => normal). eexists. eexists. split; [reflexivity|]. split; [vm_compute; reflexivity|]. repeat split.
Qed.

(** The selections of certificates are lost in the same way, but not the PIN identity. *)
Theorem C103_certificate_refuted : exists dv ops p q, ops = [SelectId (-2); UsePin; Open 0 7 false []; Open 0 8 true []] /\
  peers (run (init dv) ops) = [p; q] /\ option_map k_use (p_cert p) = Some 32 /\ option_map k_use (p_cert q) = Some 4 /\
  p_identity q = str "oic.sec.doxm.rdp".
Proof.
  exists (fun _ => normal). eexists. eexists. eexists. split; [reflexivity|]. split; [vm_compute; reflexivity|]. repeat split.
Qed.

Print Assumptions C102_known.
Print Assumptions C102_refused.
Print Assumptions C102_pin.
Print Assumptions C102_only.
Print Assumptions C102_agree.
Print Assumptions C102_agree_pin.
Print Assumptions C102_longer_refuted.
Print Assumptions C102_short_refuted.
Print Assumptions C103_single.
Print Assumptions C103_endpoints.
Print Assumptions C103_onboarding.
Print Assumptions C103_normal.
Print Assumptions C103_method.
Print Assumptions C103_anonymous.
Print Assumptions C103_selected.
Print Assumptions C103_once.
Print Assumptions C103_verified.
Print Assumptions C103_certificate.
Print Assumptions C103_no_certificate.
Print Assumptions C103_reset.
Print Assumptions C103_stable.
Print Assumptions C103_anonymous_refuted.
Print Assumptions C103_cloud_refuted.
Print Assumptions C103_certificate_refuted.
