(** C100: the profile of certificates; C101: who may connect with a certificate. *)
From Verif Require Import Common Hex_Model Hex_Spec Hex_Proofs Acl_Model Crt_Model Crt_Spec Crt_Proofs Crt2_Proofs.
From Coq Require Import String.
Local Open Scope string_scope.
Local Open Scope list_scope.
Local Open Scope N_scope.

(** ** C100 *)

(** Certificates of peers: exactly the profile of identity certificates. *)
Theorem C100_identity : forall g c, (exists f, validate_end g c = Some f) <-> end_profile g c identity_mark role_mark.
Proof.
  intros g c. split; [intros [f H]; apply validate_end_ok in H; apply H|].
  intros P. eexists. apply validate_end_ok. split; [exact P|reflexivity].
Qed.

(** Certificates of roles: exactly the profile of role certificates. *)
Theorem C100_role : forall g c, (exists f, validate_role g c = Some f) <-> end_profile g c role_mark identity_mark.
Proof.
  intros g c. split; [intros [f H]; apply validate_role_ok in H; apply H|].
  intros P. eexists. apply validate_role_ok. split; [exact P|reflexivity].
Qed.

(** Certificates of authorities have the profile of authorities. *)
Theorem C100_authority : forall g c root otm depth f, validate_ca g c root otm depth = Some f -> ca_profile g c otm depth.
Proof. intros g c root otm depth f H. apply validate_ca_ok in H. apply H. Qed.

(** Roots: all with the profile whose issuer is their subject. *)
Theorem C100_root : forall g c otm depth, root_profile g c otm depth ->
  exists f, validate_ca g c true otm depth = Some f.
Proof.
  intros g c otm depth [P E]. eexists. apply validate_ca_ok. split; [exact P|]. split; [now apply self_issued_eq|].
  split; [discriminate|reflexivity].
Qed.

(** Which of two kinds of authority a certificate is taken for depends on the lengths of its
    names alone; for names that are the same or differ in length that is right. *)
Theorem C100_names : forall g c otm depth, der_name (c_issuer c) -> der_name (c_subject c) ->
  ((exists f, validate_ca g c true otm depth = Some f) <->
     ca_profile g c otm depth /\ List.length (c_issuer c) = List.length (c_subject c)) /\
  ((exists f, validate_ca g c false otm depth = Some f) <->
     ca_profile g c otm depth /\ List.length (c_issuer c) <> List.length (c_subject c) /\ (otm = true -> c_pathlen c = 1)).
Proof.
  intros g c otm depth A B. assert (S1 := self_issued_der c A B). split.
  - split.
    + intros [f H]. apply validate_ca_ok in H. destruct H as (P & S & _). split; [exact P|now apply S1].
    + intros [P L]. eexists. apply validate_ca_ok. split; [exact P|]. split; [now apply S1|]. split; [discriminate|reflexivity].
  - split.
    + intros [f H]. apply validate_ca_ok in H. destruct H as (P & S & O & _). split; [exact P|]. split; [|now apply O].
      intros L. apply S1 in L. congruence.
    + intros (P & L & O). eexists. apply validate_ca_ok. split; [exact P|]. split.
      { destruct (self_issued c); [|reflexivity]. exfalso. apply L. now apply S1. }
      split; [intros _; exact O|reflexivity].
Qed.

Theorem C100_kinds : forall g c otm depth, der_name (c_issuer c) -> der_name (c_subject c) ->
  (c_issuer c = c_subject c \/ List.length (c_issuer c) <> List.length (c_subject c)) ->
  ((exists f, validate_ca g c true otm depth = Some f) <-> root_profile g c otm depth) /\
  ((exists f, validate_ca g c false otm depth = Some f) <-> middle_profile g c otm depth).
Proof.
  intros g c otm depth A B D. destruct (C100_names g c otm depth A B) as [-> ->]. unfold root_profile, middle_profile.
  destruct D as [D|D].
  - rewrite D. tauto.
  - assert (E : c_issuer c <> c_subject c) by (intros E; apply D; now rewrite E). tauto.
Qed.

(** The validity period is reported and nothing else is raised. *)
Theorem C100_dates : forall g c f root otm depth,
  (validate_end g c = Some f \/ validate_role g c = Some f \/ validate_ca g c root otm depth = Some f) ->
  (f = false <-> in_time c).
Proof.
  intros g c f root otm depth H. assert (E : f = (c_future c || c_past c)%bool).
  { destruct H as [H|[H|H]]; [apply validate_end_ok in H|apply validate_role_ok in H|apply validate_ca_ok in H]; apply H. }
  rewrite E. apply orb_false_iff.
Qed.

(** The kinds exclude each other. *)
Theorem C100_apart : forall g c f, validate_end g c = Some f ->
  validate_role g c = None /\ forall root otm depth, validate_ca g c root otm depth = None.
Proof.
  intros g c f H. apply validate_end_ok in H. destruct H as [P _]. split.
  - destruct (validate_role g c) as [f'|] eqn:E; [|reflexivity]. apply validate_role_ok in E. destruct E as [Q _].
    destruct P as (_ & _ & _ & _ & l & E1 & _ & _ & I1 & _), Q as (_ & _ & _ & _ & l' & E2 & _ & _ & _ & I2 & _).
    exfalso. apply I2. congruence.
  - intros root otm depth. destruct (validate_ca g c root otm depth) as [f'|] eqn:E; [|reflexivity].
    apply validate_ca_ok in E. destruct E as [Q _]. destruct P as (_ & _ & P & _), Q as (_ & _ & Q & _). congruence.
Qed.

(** A common name that spells a uuid is read as that uuid. *)
Theorem C100_common_name : forall c u old, says c u -> exists t, cn_uuid c = Some t /\ set_uuid old t = u.
Proof. exact says_uuid. Qed.

(** Sample certificates. *)
Definition conf0 : conf := Conf 32 4.
Definition der (l : list N) : list N := 48 :: N.of_nat (List.length l) :: l.
Definition anyone : cert := Cert [1] 6 3 false false 4 3 (der (str "ca-1")) (der (str "dev")) [] 136 false 0
  (Some [OID_SERVER_AUTH; OID_CLIENT_AUTH; OID_IDENTITY]) (Some (str "uuid:3b962fc4-0506-4708-590a-0b0c0d0e0fff")) true false.
Definition ca_cert (raw : list N) (issuer subject : String.string) (pathlen : N) : cert :=
  Cert raw 6 3 false false 4 3 (der (str issuer)) (der (str subject)) [48] 134 true pathlen None None true false.

(** A certificate that was issued by another authority passes as a root when the two names have
    the same length. *)
Theorem C100_root_refuted : exists g c otm depth,
  der_name (c_issuer c) /\ der_name (c_subject c) /\ c_issuer c <> c_subject c /\
  validate_ca g c true otm depth = Some false.
Proof.
  exists conf0, (ca_cert [2] "abc" "xyz" 0), false, 1. split; [exists (str "abc"); split; reflexivity|].
  split; [exists (str "xyz"); split; reflexivity|]. split; [discriminate|reflexivity].
Qed.

(** For the same reason an intermediate certificate with the whole profile is not recognised. *)
Theorem C100_intermediate_refuted : exists g c depth, middle_profile g c true depth /\ validate_ca g c false true depth = None.
Proof.
  exists conf0, (ca_cert [2] "abc" "xyz" 1), 1. split; [|reflexivity].
  split; [|split; [discriminate|reflexivity]].
  assert (E : exists f, validate_ca conf0 (ca_cert [2] "abc" "xyz" 1) true true 1 = Some f) by (exists false; reflexivity).
  destruct E as [f E]. exact (C100_authority _ _ _ _ _ _ E).
Qed.

Example C100_example :
  validate_end conf0 anyone = Some false /\ validate_role conf0 anyone = None /\
  validate_ca conf0 (ca_cert [7] "root" "root" 0) true true 2 = Some false /\
  validate_ca conf0 (ca_cert [8] "root" "ca-17" 1) false true 1 = Some false /\
  validate_ca conf0 (ca_cert [8] "root" "ca-17" 1) false false 2 = None /\
  validate_ca conf0 (ca_cert [8] "root" "ca-17" 1) true false 1 = None /\
  cn_uuid anyone = Some (str "3b962fc4-0506-4708-590a-0b0c0d0e0fff").
Proof. vm_compute. repeat split. Qed.

(** ** C101 *)

(** A peer let in through an identity certificate has a chain that starts at a trust anchor of
    that device for that peer, as long as the only trust anchors around are those of that
    device for identity certificates, and the own certificate remembers no earlier root.
    (Missing: devices that also hold manufacturer trust anchors or share the list with another
    device, and later handshakes; see the refuted theorems.) *)
Theorem C101_only_partial : forall g ops i o otm chain s' u,
  find_own (run g empty ops) i = Some o -> o_use o = UIdentity -> o_ctx o = None ->
  (forall a, In a (cas (run g empty ops)) -> a_dev a = o_dev o /\ a_use a = UTrustca) ->
  step g (run g empty ops) (Shake (Some i) otm chain) = (s', VYes u) ->
  anchored (run g empty ops) (o_dev o) chain u.
Proof. intros g ops i o otm chain s' u F U C A H. assert (IV := inv_run g ops). eapply only; [apply IV|apply IV|eauto..]. Qed.

(** The same in later handshakes when the root of the chain is one of the trust anchors. *)
Theorem C101_again_partial : forall g ops i o otm root rest s' u,
  find_own (run g empty ops) i = Some o -> o_use o = UIdentity ->
  (forall a, In a (cas (run g empty ops)) -> a_dev a = o_dev o /\ a_use a = UTrustca) ->
  self_issued root = true -> (exists a, In a (cas (run g empty ops)) /\ a_raw a = c_raw root) -> rest <> [] ->
  step g (run g empty ops) (Shake (Some i) otm (root :: rest)) = (s', VYes u) ->
  anchored (run g empty ops) (o_dev o) (root :: rest) u.
Proof.
  intros g ops i o otm root rest s' u F U A S E NE H. assert (IV := inv_run g ops).
  eapply only_again; [apply IV|apply IV|eauto..].
Qed.

(** In all cases: nobody gets in before a trust anchor of the device has been configured and has
    been the root of a chain shown to that own certificate. *)
Theorem C101_floor : forall g ops i o otm chain s' u,
  find_own (run g empty ops) i = Some o -> o_use o = UIdentity ->
  step g (run g empty ops) (Shake (Some i) otm chain) = (s', VYes u) ->
  exists raw sub, In (AddCa (o_dev o) UTrustca raw sub) ops /\
    presented (ops ++ [Shake (Some i) otm chain]) i raw.
Proof. exact floor. Qed.

(** In all cases: every certificate of the chain has its profile and is within its validity
    period, and mbedtls found no fault with it. *)
Theorem C101_chain : forall g ops oid otm chain s' u,
  step g (run g empty ops) (Shake oid otm chain) = (s', VYes u) -> chain <> [] /\ chain_ok g otm chain.
Proof. intros g ops oid otm chain s' u H. eapply verify_chain_ok; [apply (inv_run g ops)|exact H]. Qed.

(** The name of the peer is the one in its own certificate; only without an identity certificate
    of ours it may be nameless. *)
Theorem C101_name : forall g ops oid otm chain s' u,
  step g (run g empty ops) (Shake oid otm chain) = (s', VYes u) ->
  exists pre leaf, chain = pre ++ [leaf] /\
    ((cn_uuid leaf = None /\ u = wildcard /\
      forall i o, oid = Some i -> find_own (run g empty ops) i = Some o -> o_use o <> UIdentity) \/
     exists t, cn_uuid leaf = Some t /\ u = set_uuid (repeat 0 16) t).
Proof. intros g ops oid otm chain s' u H. eapply named; [apply (inv_run g ops)|exact H]. Qed.

(** A peer whose chain starts at a trust anchor of the device for it, or for any peer, is let in. *)
Theorem C101_admits : forall g ops i o otm root pre leaf a u,
  find_own (run g empty ops) i = Some o -> o_use o = UIdentity ->
  In a (cas (run g empty ops)) -> a_dev a = o_dev o -> a_use a = UTrustca -> a_raw a = c_raw root ->
  says leaf u -> (a_sub a = u \/ a_sub a = wildcard) ->
  validate_ca g root true otm (N.of_nat (S (List.length pre))) = Some false -> c_bad root = false ->
  (forall n c, nth_error pre n = Some c ->
     validate_ca g c false otm (N.of_nat (List.length pre - n)) = Some false /\ c_bad c = false) ->
  validate_end g leaf = Some false -> c_bad leaf = false -> c_key leaf = true ->
  snd (step g (run g empty ops) (Shake (Some i) otm (root :: pre ++ [leaf]))) = VYes u.
Proof.
  intros g ops i o otm root pre leaf a u F U IA AD AU AR SY SB VR BR VP VE BL KL. assert (IV := inv_run g ops).
  destruct (says_uuid leaf u (repeat 0 16) SY) as (t & CN & SU). cbn [step]. rewrite <- SU in *.
  eapply admitted; eauto; apply IV.
Qed.

(** As long as no trust anchor is removed, none that is gone is looked at. *)
Theorem C101_safe : forall g ops oid otm chain s', no_removal ops ->
  step g (run g empty ops) (Shake oid otm chain) <> (s', VUb).
Proof. exact never_freed. Qed.

(** Examples and counterexamples. *)
Definition me : list N := [59; 150; 47; 196; 5; 6; 71; 8; 89; 10; 11; 12; 13; 14; 15; 255].
Definition other : list N := repeat 7 16.
Definition root1 : cert := ca_cert [7] "root" "root" 0.
Definition mfg1 : cert := ca_cert [9] "make" "make" 0.

Example C101_example :
  let s := run conf0 empty [AddOwn 0 UIdentity; AddCa 0 UTrustca [7] other; AddCa 0 UTrustca [7] me] in
  let s2 := run conf0 empty [AddOwn 0 UIdentity; AddCa 0 UTrustca [7] other] in
  snd (step conf0 s (Shake (Some 0%nat) false [root1; anyone])) = VYes me /\
  snd (step conf0 s2 (Shake (Some 0%nat) false [root1; anyone])) = VNo /\
  snd (step conf0 s (Shake (Some 0%nat) false [mfg1; anyone])) = VNo /\ says anyone me.
Proof.
  split; [vm_compute; reflexivity|]. split; [vm_compute; reflexivity|]. split; [vm_compute; reflexivity|].
  exists (str "3b962fc4-0506-4708-590a-0b0c0d0e0fff"). split; [|reflexivity].
  destruct (uuid_to_str_spec me 37) as (t & E & T & _); [apply bytes_okb_spec; reflexivity|reflexivity|discriminate|lia|].
  vm_compute in E. injection E as <-. exact T.
Qed.

(** A trust anchor that is meant for another peer lets this one in when a manufacturer trust
    anchor is listed after it: the search stops there and takes that as success. *)
Theorem C101_manufacturer_refuted : exists g ops i o otm chain u,
  ops = [AddOwn 0 UIdentity; AddCa 0 UTrustca [7] other; AddCa 0 UMfgTrustca [9] wildcard] /\
  find_own (run g empty ops) i = Some o /\ o_use o = UIdentity /\ o_ctx o = None /\
  snd (step g (run g empty ops) (Shake (Some i) otm chain)) = VYes u /\
  ~ anchored (run g empty ops) (o_dev o) chain u.
Proof.
  exists conf0, [AddOwn 0 UIdentity; AddCa 0 UTrustca [7] other; AddCa 0 UMfgTrustca [9] wildcard], 0%nat,
    (Own 0 0 UIdentity None), false, [root1; anyone], me.
  split; [reflexivity|]. split; [reflexivity|]. split; [reflexivity|]. split; [reflexivity|]. split; [vm_compute; reflexivity|].
  intros (a & c & I & D & U & IC & R & S). vm_compute in I. destruct I as [<-|[<-|[]]]; [|discriminate].
  destruct S as [S|S]; discriminate.
Qed.

(** Likewise when a trust anchor of another device is listed. *)
Theorem C101_device_refuted : exists g ops i o otm chain u,
  ops = [AddOwn 0 UIdentity; AddCa 0 UTrustca [7] other; AddCa 1 UTrustca [9] other] /\
  find_own (run g empty ops) i = Some o /\ o_use o = UIdentity /\ o_ctx o = None /\
  snd (step g (run g empty ops) (Shake (Some i) otm chain)) = VYes u /\
  ~ anchored (run g empty ops) (o_dev o) chain u.
Proof.
  exists conf0, [AddOwn 0 UIdentity; AddCa 0 UTrustca [7] other; AddCa 1 UTrustca [9] other], 0%nat,
    (Own 0 0 UIdentity None), false, [root1; anyone], me.
  split; [reflexivity|]. split; [reflexivity|]. split; [reflexivity|]. split; [reflexivity|]. split; [vm_compute; reflexivity|].
  intros (a & c & I & D & U & IC & R & S). vm_compute in I. destruct I as [<-|[<-|[]]]; [|discriminate].
  destruct S as [S|S]; discriminate.
Qed.

(** The root of one handshake is used for later ones: after a peer with the right root, a peer
    whose chain starts at a manufacturer trust anchor is let in. *)
Theorem C101_stale_refuted : exists g ops i o otm chain u,
  ops = [AddOwn 0 UIdentity; AddCa 0 UTrustca [7] wildcard; AddCa 0 UMfgTrustca [9] wildcard;
         Shake (Some 0%nat) false [root1; anyone]] /\
  find_own (run g empty ops) i = Some o /\ o_use o = UIdentity /\
  chain = [mfg1; anyone] /\ snd (step g (run g empty ops) (Shake (Some i) otm chain)) = VYes u /\
  snd (step g (run g empty (removelast ops)) (Shake (Some i) otm chain)) = VNo /\
  ~ anchored (run g empty ops) (o_dev o) chain u.
Proof.
  exists conf0, [AddOwn 0 UIdentity; AddCa 0 UTrustca [7] wildcard; AddCa 0 UMfgTrustca [9] wildcard;
         Shake (Some 0%nat) false [root1; anyone]], 0%nat, (Own 0 0 UIdentity (Some 1%nat)), false, [mfg1; anyone], me.
  split; [reflexivity|]. split; [vm_compute; reflexivity|]. split; [reflexivity|]. split; [reflexivity|].
  split; [vm_compute; reflexivity|]. split; [vm_compute; reflexivity|].
  intros (a & c & I & D & U & IC & R & S). vm_compute in I. destruct I as [<-|[<-|[]]]; [|discriminate].
  cbn [removelast In] in IC. destruct IC as [<-|[]]. discriminate.
Qed.

(** A removed trust anchor stays remembered and is looked at by the next handshake. *)
Theorem C101_freed_refuted : exists g ops i otm chain,
  ops = [AddOwn 0 UIdentity; AddCa 0 UTrustca [7] wildcard; Shake (Some 0%nat) false [root1; anyone]; DelCa 1] /\
  snd (step g (run g empty ops) (Shake (Some i) otm chain)) = VUb.
Proof.
  exists conf0, [AddOwn 0 UIdentity; AddCa 0 UTrustca [7] wildcard; Shake (Some 0%nat) false [root1; anyone]; DelCa 1],
    0%nat, false, [mfg1; anyone]. split; [reflexivity|vm_compute; reflexivity].
Qed.

Print Assumptions C100_identity.
Print Assumptions C100_role.
Print Assumptions C100_authority.
Print Assumptions C100_root.
Print Assumptions C100_names.
Print Assumptions C100_kinds.
Print Assumptions C100_dates.
Print Assumptions C100_apart.
Print Assumptions C100_common_name.
Print Assumptions C100_root_refuted.
Print Assumptions C100_intermediate_refuted.
Print Assumptions C101_only_partial.
Print Assumptions C101_again_partial.
Print Assumptions C101_floor.
Print Assumptions C101_chain.
Print Assumptions C101_name.
Print Assumptions C101_admits.
Print Assumptions C101_safe.
Print Assumptions C101_manufacturer_refuted.
Print Assumptions C101_device_refuted.
Print Assumptions C101_stale_refuted.
Print Assumptions C101_freed_refuted.
