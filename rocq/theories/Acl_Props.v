(** C26, C27, C47: the access decision, the access control list and its storage. *)
From Verif Require Import Common Rep_Model Hex_Model Acl_Model Acl_Spec Acl_Proofs Acl2_Proofs.
From Coq Require Import String.
Local Open Scope string_scope.
Local Open Scope list_scope.
Local Open Scope N_scope.

Definition with_acl (d : device) (l : list ace) : device :=
  mk_device (d_dos d) l (d_creds d) (d_acl_owner d) (d_doxm_owner d) (d_pstat_owner d) (d_cred_owner d) (d_peers d).

(** Sample device data. *)
Definition idA : list N := repeat 65 16.
Definition idB : list N := repeat 66 16.
Definition light : resource := mk_resource (str "/light") None true true false 0.
Definition acl2 : resource := mk_resource (str "/oic/sec/acl2") (Some SEC_ACL) true true false 0.
Definition aceA (i : Z) : ace := mk_ace i (SUuid idA) 6 None [mk_res (str "/light") NoWc].
Definition dev (s : dos) (l : list ace) : device := mk_device s l [] idB idB idB idB 2.
Definition hub (s : dos) (l : list ace) : device := mk_device s l [] nil_uuid nil_uuid nil_uuid nil_uuid 2.

(** * C26 *)

(** Every request is decided, and it is allowed exactly for the reasons the specification names. *)
Theorem C26_decision_is_the_specified_one :
  forall m r d ep p, rooted (r_uri r) -> exists b, check_acl m r d ep p = Some b /\ (b = true <-> allowed m r d ep p).
Proof. exact check_acl_spec. Qed.
Print Assumptions C26_decision_is_the_specified_one.

Example C26_decision_case :
  check_acl POST light (dev RFNOP [aceA 7]) (mk_ep true idA) None = Some true /\
  check_acl DELETE light (dev RFNOP [aceA 7]) (mk_ep true idA) None = Some false /\
  check_acl POST light (dev RFNOP [aceA 7]) (mk_ep true idB) None = Some false /\
  check_acl POST light (dev RFNOP [aceA 7]) (mk_ep false idA) None = Some false /\
  check_acl POST light (dev RFPRO [aceA 7]) (mk_ep true idA) None = Some false /\
  check_acl DELETE acl2 (dev RFPRO []) (mk_ep true idB) None = Some true.
Proof. vm_compute. repeat split. Qed.

(** Adding an entry anywhere in the list never takes access away, so removing one never gives access. *)
Theorem C26_more_entries_allow_more :
  forall m r d ep p l1 a l2, rooted (r_uri r) ->
  check_acl m r (with_acl d (l1 ++ l2)) ep p = Some true ->
  check_acl m r (with_acl d (l1 ++ a :: l2)) ep p = Some true.
Proof.
  intros m r d ep p l1 a l2 Hr H.
  destruct (check_acl_spec m r (with_acl d (l1 ++ l2)) ep p Hr) as (b & E & Hb). rewrite H in E. injection E as <-. destruct Hb as [Hb _]. specialize (Hb eq_refl).
  destruct (check_acl_spec m r (with_acl d (l1 ++ a :: l2)) ep p Hr) as (b' & E' & Hb'). rewrite E'. f_equal. apply Hb'.
  destruct Hb as [Hb|[Hn Hb]]; [left; exact Hb|right; split; [exact Hn|]].
  destruct Hb as [Hb|[Hb|[Hb|(H1 & H2 & Hb)]]]; [left; exact Hb|right; left; exact Hb|right; right; left; exact Hb|].
  right; right; right. split; [exact H1|]. split; [exact H2|]. destruct Hb as [Hb|[Hb|[Hb|(x & Hin & Hx)]]]; [left; exact Hb|right; left; exact Hb|right; right; left; exact Hb|].
  right; right; right. exists x. split; [|exact Hx]. cbn [with_acl d_acl] in *. apply in_app_iff. apply in_app_iff in Hin. cbn [In]. tauto.
Qed.
Print Assumptions C26_more_entries_allow_more.

Example C26_more_case :
  check_acl POST light (with_acl (dev RFNOP []) ([] ++ [aceA 7])) (mk_ep true idA) None = Some true /\
  check_acl POST light (with_acl (dev RFNOP []) ([] ++ aceA 3 :: [aceA 7])) (mk_ep true idA) None = Some true.
Proof. vm_compute. split; reflexivity. Qed.

(** An entry that does not describe the requester, does not cover the resource or does not permit the
    method has no influence. *)
Theorem C26_other_entries_have_no_influence :
  forall m r d ep p l1 a l2, rooted (r_uri r) -> ~ ace_grants a m r d ep p ->
  check_acl m r (with_acl d (l1 ++ a :: l2)) ep p = check_acl m r (with_acl d (l1 ++ l2)) ep p.
Proof.
  intros m r d ep p l1 a l2 Hr Hg.
  destruct (check_acl_spec m r (with_acl d (l1 ++ l2)) ep p Hr) as (b & E & Hb). rewrite E.
  destruct (check_acl_spec m r (with_acl d (l1 ++ a :: l2)) ep p Hr) as (b' & E' & Hb'). rewrite E'. f_equal.
  assert (X : allowed m r (with_acl d (l1 ++ a :: l2)) ep p <-> allowed m r (with_acl d (l1 ++ l2)) ep p).
  { unfold allowed. assert (Y : reason m r (with_acl d (l1 ++ a :: l2)) ep p <-> reason m r (with_acl d (l1 ++ l2)) ep p); [|unfold barred in *; cbn [with_acl d_dos d_peers] in *; tauto].
    unfold reason. cbn [with_acl d_dos d_peers d_acl].
    assert (Z : (exists x, In x (l1 ++ a :: l2) /\ ace_grants x m r (with_acl d (l1 ++ a :: l2)) ep p) <-> (exists x, In x (l1 ++ l2) /\ ace_grants x m r (with_acl d (l1 ++ l2)) ep p)).
    { split; intros (x & Hin & Hx); exists x; (split; [|exact Hx]); apply in_app_iff; apply in_app_iff in Hin; cbn [In] in *; [|tauto].
      destruct Hin as [Hin|[<-|Hin]]; [tauto| |tauto]. exfalso. apply Hg. exact Hx. }
    unfold owner_of. cbn [with_acl d_acl_owner d_doxm_owner d_pstat_owner d_cred_owner]. rewrite Z. reflexivity. }
  rewrite <- Hb, <- Hb' in X. destruct b, b'; intuition congruence.
Qed.
Print Assumptions C26_other_entries_have_no_influence.

Example C26_other_case : ~ ace_grants (aceA 7) POST light (dev RFNOP []) (mk_ep true idB) None /\ rooted (r_uri light).
Proof. split; [intros ([=] & _)|eexists; reflexivity]. Qed.

(** An application resource is out of reach of requests that are not encrypted and outside normal
    operation, unless it was opened for the time before ownership. *)
Theorem C26_application_resources_need_encryption_and_normal_operation :
  forall m r d ep p, rooted (r_uri r) -> application r -> r_rfotm r = false ->
  check_acl m r d ep p = Some true -> e_secured ep = true /\ d_dos d = RFNOP.
Proof.
  intros m r d ep p Hr Ha Hf H. destruct (check_acl_spec m r d ep p Hr) as (b & E & Hb). rewrite H in E. injection E as <-.
  destruct Hb as [Hb _]. destruct (Hb eq_refl) as [(_ & _ & _ & Hx & _)|[Hn _]]; [congruence|].
  unfold barred in Hn. assert (Hd : ~ dcr r) by (intros (c & Hc & _); unfold application in Ha; congruence).
  split; [destruct (e_secured ep); tauto|]. destruct (d_dos d); tauto || (exfalso; apply Hn; right; left; split; [exact Hd|discriminate]).
Qed.
Print Assumptions C26_application_resources_need_encryption_and_normal_operation.

Example C26_application_case : check_acl POST light (dev RFNOP [aceA 7]) (mk_ep true idA) None = Some true /\ application light /\ r_rfotm light = false.
Proof. vm_compute. repeat split. Qed.

(** Once the device is owned, a security resource is only accessible over an encrypted session. *)
Theorem C26_security_resources_need_encryption_once_owned :
  forall m r d ep p, rooted (r_uri r) -> svr r -> provisioned (d_dos d) -> r_uri r <> str "/x.plgd.dev/time" -> r_uri r <> str "/.well-known/core" ->
  p = None \/ (exists pr, p = Some pr /\ p_doc pr = false) ->
  check_acl m r d ep p = Some true -> e_secured ep = true.
Proof.
  intros m r d ep p Hr Hs Hp U1 U2 Hdoc H. destruct (check_acl_spec m r d ep p Hr) as (b & E & Hb). rewrite H in E. injection E as <-.
  assert (N0 : d_dos d <> RFOTM) by (destruct Hp as [->|[->| ->]]; discriminate).
  destruct Hb as [Hb _]. destruct (Hb eq_refl) as [(X & _)|[_ Hre]]; [contradiction|].
  destruct Hre as [(_ & pr & -> & Hd)|[(_ & Hra)|[(X & _)|(_ & Hn & _)]]]; try contradiction.
  - destruct Hdoc as [[=]|(q & [= <-] & Hq)]. congruence.
  - destruct Hra as [X|[X|[X _]]]; contradiction.
  - destruct (e_secured ep); [reflexivity|]. exfalso. apply Hn. auto.
Qed.
Print Assumptions C26_security_resources_need_encryption_once_owned.

Example C26_security_case : check_acl POST acl2 (dev RFPRO []) (mk_ep true idB) None = Some true /\ svr acl2 /\ check_acl POST acl2 (dev RFPRO []) (mk_ep false idB) None = Some false.
Proof. split; [reflexivity|]. split; [exists SEC_ACL; cbn; tauto|reflexivity]. Qed.

(** Defect: before a device has an owner every owner field is the nil UUID, which is also the identity of
    a requester that has not authenticated.  In RESET, or in RFOTM while two sessions are open, an
    unencrypted request of an unauthenticated requester may therefore write security resources. *)
Theorem C26_only_authenticated_owners_refuted :
  exists d ep, d_acl d = [] /\ e_secured ep = false /\ e_di ep = nil_uuid /\
  check_acl POST acl2 d ep None = Some true.
Proof. exists (hub RFOTM []), (mk_ep false nil_uuid). vm_compute. repeat split. Qed.
Print Assumptions C26_only_authenticated_owners_refuted.

(** * C27 *)

(** Whatever updates, deletions, resets and reloads have been made, with whatever payloads, identifiers are
    unique and none is the value -1 that stands for no identifier. *)
Theorem C27_identifiers_are_unique :
  forall os rnd a rnd', arun (mk_acl [] nil_uuid) rnd os = Some (a, rnd') ->
  unique_ids (l_aces a) /\ ~ In (-1)%Z (map a_id (l_aces a)).
Proof. intros os rnd a rnd' H. exact (arun_inv os _ _ _ _ H (NoDup_nil _) (fun x => x)). Qed.
Print Assumptions C27_identifiers_are_unique.

Definition ace_of (i : Z) (u : list N) (perm : Z) (href : list N) : list rep :=
  [(str "subject", RObj [(str "uuid", RStr (match uuid_to_str u 37 with Some t => t | None => [] end))]);
   (str "resources", RObjArr [[(str "href", RStr href)]]); (str "permission", RInt perm); (str "aceid", RInt i)].
Definition post (l : list (list rep)) : list rep := [(str "aclist2", RObjArr l)].

Example C27_unique_case :
  arun (mk_acl [] nil_uuid) [14; 14; 20] [OpPost RFPRO false (post [ace_of (-1) idA 6 (str "/light")]); OpPost RFPRO false (post [ace_of (-1) idB 6 (str "/light"); ace_of 7 idB 2 (str "/b")])]
  = Some (mk_acl [mk_ace 10 (SUuid idB) 6 None [mk_res (str "/light") NoWc]; mk_ace 7 (SUuid idB) 2 None [mk_res (str "/b") NoWc]] nil_uuid, []).
Proof. vm_compute. reflexivity. Qed.

(** In normal operation no request changes the list or its owner. *)
Theorem C27_normal_operation_changes_nothing :
  forall a rnd payload q,
  (match decode_acl RFNOP false a rnd payload with AOk a' r | AErr a' r => a' = a /\ r = rnd | AStuck => False end) /\
  acl_delete RFNOP a q = (DForbidden, a).
Proof. intros a rnd payload q. split; [apply decode_rfnop_unchanged|reflexivity]. Qed.
Print Assumptions C27_normal_operation_changes_nothing.

Example C27_normal_case : decode_acl RFNOP false (mk_acl [aceA 7] idB) [] (post [ace_of 7 idB 2 (str "/b")]) = AErr (mk_acl [aceA 7] idB) [].
Proof. vm_compute. reflexivity. Qed.

(** An entry is left alone by an update unless some entry of the payload carries its identifier, or has no
    identifier and the same subject, tag and permissions (permission 0 matching all). *)
Theorem C27_updates_touch_only_what_they_name :
  forall a l rnd aces,
  (forall o d, In o aces -> decode_ace dec0 o = Some d ->
     a_id a <> ad_id d /\ (ad_id d = (-1)%Z -> (ad_perm d <> 0 /\ ad_perm d <> a_perm a) \/ a_tag a <> ad_tag d \/ match_subject a (ad_subj d) = false)) ->
  match decode_aces l rnd aces with DOk l' _ | DErr l' _ => In a l' <-> In a l | DStuck => True end.
Proof.
  intros a l rnd aces H. apply decode_aces_frame. intros o d Hin E. destruct (H o d Hin E) as [H1 H2]. split; [|exact H1].
  unfold subj_sel. destruct (Z.eqb_spec (ad_id d) (-1)) as [E1|E1]; cbn [orb].
  - destruct (H2 E1) as [[A B]|[A|A]].
    + destruct (N.eqb_spec (ad_perm d) 0); [contradiction|]. destruct (N.eqb_spec (a_perm a) (ad_perm d)); [congruence|]. reflexivity.
    + unfold match_tag. destruct (ad_tag d) as [x|], (a_tag a) as [y|]; rewrite ?andb_false_r; try reflexivity; [|congruence].
      destruct (list_eqb x y) eqn:Ex; [apply list_eqb_spec in Ex; congruence|rewrite andb_false_r; reflexivity].
    + rewrite A. apply andb_false_r.
  - destruct (Z.eqb_spec (a_id a) (ad_id d)); [contradiction|]. reflexivity.
Qed.
Print Assumptions C27_updates_touch_only_what_they_name.

Example C27_touch_case :
  match decode_aces [aceA 7; aceA 9] [] [ace_of 9 idB 2 (str "/b")] with DOk l' _ => In (aceA 7) l' | _ => False end.
Proof. vm_compute. tauto. Qed.

(** A deletion by identifier removes that entry and no other. *)
Theorem C27_delete_removes_exactly_one :
  forall d a i st a', d <> RFNOP -> unique_ids (l_aces a) -> i <> 0%Z -> acl_delete d a (Some i) = (st, a') ->
  (st = DDeleted <-> exists x, In x (l_aces a) /\ a_id x = i) /\ l_owner a' = l_owner a /\
  forall x, In x (l_aces a') <-> In x (l_aces a) /\ a_id x <> i.
Proof.
  intros d a i st a' Hd Hu Hi H. unfold acl_delete in H. destruct (dos_eqb d RFNOP) eqn:Ed; [destruct d; try discriminate; contradiction|].
  destruct (Z.eqb_spec i 0); [contradiction|]. cbn [negb andb] in H.
  destruct (unique_aceid (l_aces a) i) eqn:E; cbn [negb] in H; injection H as <- <-.
  - apply unique_aceid_spec in E. split; [split; [discriminate|intros (x & Hx & Ex); destruct E; apply in_map_iff; exists x; auto]|]. split; [reflexivity|].
    intros x. split; [intros Hx; split; [exact Hx|]|tauto]. intros Ex. apply E. apply in_map_iff. exists x. auto.
  - split; [|split; [reflexivity|]].
    + split; [|auto]. intros _. destruct (in_dec Z.eq_dec i (map a_id (l_aces a))) as [K|K]; [apply in_map_iff in K; destruct K as (x & A & B); exists x; auto|].
      apply unique_aceid_spec in K. congruence.
    + intros x. cbn [l_aces]. split.
      * intros Hx. split; [apply (upd_first_rm _ _ _ Hx)|]. intros Ex. apply (remove_id_gone _ i Hu). apply in_map_iff. exists x. auto.
      * intros [Hx Ex]. apply (upd_first_frame (fun a => (a_id a =? i)%Z)); [apply Z.eqb_neq; exact Ex|intros b b' [=]|exact Hx].
Qed.
Print Assumptions C27_delete_removes_exactly_one.

Example C27_delete_case : acl_delete RFPRO (mk_acl [aceA 7; aceA 9] idB) (Some 7%Z) = (DDeleted, mk_acl [aceA 9] idB).
Proof. vm_compute. reflexivity. Qed.

(** Defects.  A rejected update is not undone: the entries before the bad one stay, and an entry the
    update was to replace is gone. *)
Theorem C27_rejected_update_changes_nothing_refuted :
  exists a payload a', decode_acl RFPRO false a [] payload = AErr a' [] /\ l_aces a <> [] /\ l_aces a' = [].
Proof.
  exists (mk_acl [aceA 7] idB), (post [[(str "aceid", RInt 7); (str "resources", RObjArr [[(str "href", RInt 1)]])]]). eexists.
  split; [vm_compute; reflexivity|]. split; [discriminate|reflexivity].
Qed.
Print Assumptions C27_rejected_update_changes_nothing_refuted.

Theorem C27_rejected_update_adds_nothing_refuted :
  exists payload a', decode_acl RFPRO false (mk_acl [] idB) [] payload = AErr a' [] /\
  check_acl POST light (dev RFNOP []) (mk_ep true idA) None = Some false /\
  check_acl POST light (dev RFNOP (l_aces a')) (mk_ep true idA) None = Some true.
Proof.
  exists (post [ace_of 7 idA 6 (str "/light"); [(str "bad", RBool true)]]). eexists. split; [vm_compute; reflexivity|]. vm_compute. split; reflexivity.
Qed.
Print Assumptions C27_rejected_update_adds_nothing_refuted.

(** A resource that names neither an href nor a wildcard deletes the entry it was meant to extend, and the
    update is reported as accepted. *)
Theorem C27_accepted_update_keeps_other_permissions_refuted :
  exists a payload a', decode_acl RFPRO false a [] payload = AOk a' [] /\
  check_acl POST light (dev RFNOP (l_aces a)) (mk_ep true idA) None = Some true /\
  check_acl POST light (dev RFNOP (l_aces a')) (mk_ep true idA) None = Some false.
Proof.
  exists (mk_acl [aceA 7] idB), (post [[(str "subject", RObj [(str "uuid", RStr (match uuid_to_str idA 37 with Some t => t | None => [] end))]); (str "permission", RInt 6); (str "resources", RObjArr [[]])]]).
  eexists. split; [vm_compute; reflexivity|]. vm_compute. split; reflexivity.
Qed.
Print Assumptions C27_accepted_update_keeps_other_permissions_refuted.

(** An update for a role under one authority extends an entry for that role under any authority: a
    requester holding the role from another authority gains access the update did not name. *)
Definition holder : peer := mk_peer false false [mk_rc (str "admin") (str "other") true].
Theorem C27_update_grants_only_its_subject_refuted :
  exists a payload a', decode_acl RFPRO false a [] payload = AOk a' [] /\
  check_acl POST light (dev RFNOP (l_aces a)) (mk_ep true idA) (Some holder) = Some false /\
  check_acl POST light (dev RFNOP (l_aces a')) (mk_ep true idA) (Some holder) = Some true.
Proof.
  exists (mk_acl [mk_ace 7 (SRole (str "admin") []) 6 None [mk_res (str "/b") NoWc]] idB),
   (post [[(str "subject", RObj [(str "role", RStr (str "admin")); (str "authority", RStr (str "acme"))]); (str "permission", RInt 6); (str "resources", RObjArr [[(str "href", RStr (str "/light"))]])]]).
  eexists. split; [vm_compute; reflexivity|]. vm_compute. split; reflexivity.
Qed.
Print Assumptions C27_update_grants_only_its_subject_refuted.

(** An entry without a subject is accepted and stored for the nil UUID. *)
Theorem C27_subject_is_required_refuted :
  exists payload a', decode_acl RFPRO false (mk_acl [] idB) [] payload = AOk a' [] /\ map a_subj (l_aces a') = [SUuid nil_uuid] /\
  forall o, In o (match payload with (_, RObjArr l) :: _ => l | _ => [] end) -> forall v, ~ In (str "subject", v) o.
Proof.
  exists (post [[(str "aceid", RInt 7); (str "permission", RInt 6); (str "resources", RObjArr [[(str "href", RStr (str "/light"))]])]]). eexists.
  split; [vm_compute; reflexivity|]. split; [reflexivity|]. intros o [<-|[]] v [H|[H|[H|[]]]]; vm_compute in H; discriminate H.
Qed.
Print Assumptions C27_subject_is_required_refuted.

(** The entry with identifier 0, which updates may create, cannot be deleted by its identifier. *)
Theorem C27_every_entry_can_be_deleted_refuted :
  exists rnd payload a, arun (mk_acl [] nil_uuid) rnd [OpPost RFPRO false payload] = Some (a, []) /\ In 0%Z (map a_id (l_aces a)) /\
  acl_delete RFPRO a (Some 0%Z) = (DNotFound, a).
Proof.
  exists [1], (post [ace_of (-1) idA 6 (str "/light")]). eexists. split; [vm_compute; reflexivity|]. split; [left; reflexivity|reflexivity].
Qed.
Print Assumptions C27_every_entry_can_be_deleted_refuted.

(** * C47 *)

(** A list built by any history and written to storage is the list read back at the next start, in any
    onboarding state, if its entries have storable form: no empty tag, and each resource entry naming
    one href or one wildcard. *)
Theorem C47_stored_list_is_read_back :
  forall os rnd a rnd' d owner, arun (mk_acl [] nil_uuid) rnd os = Some (a, rnd') ->
  Forall storable (l_aces a) -> typed_uuid (l_owner a) ->
  decode_acl d true (mk_acl [] owner) rnd' (encode_acl a true) = AOk a rnd'.
Proof. intros os rnd a rnd' d owner H Hs Ho. exact (reload a (mk_acl [] owner) rnd rnd' os d H Hs Ho eq_refl). Qed.
Print Assumptions C47_stored_list_is_read_back.

Definition mixed : list aop :=
  [OpPost RFOTM false [(str "rowneruuid", RStr (match uuid_to_str idB 37 with Some t => t | None => [] end));
     (str "aclist2", RObjArr [ace_of 7 idA 6 (str "/light");
      [(str "subject", RObj [(str "conntype", RStr (str "auth-crypt"))]); (str "permission", RInt 2); (str "tag", RStr (str "t"));
       (str "resources", RObjArr [[(str "wc", RStr (str "*"))]; [(str "wc", RStr (str "+"))]; [(str "href", RStr (str "/x"))]])]])];
   OpUpdate (SRole (str "r") (str "a")) 31 (str "/y")].
Definition mixed_acl : acl :=
  mk_acl [aceA 7; mk_ace 2 (SConn AuthCrypt) 2 (Some (str "t")) [mk_res [] WcAll; mk_res (str "/x") NoWc]; mk_ace 3 (SRole (str "r") (str "a")) 31 None [mk_res (str "/y") NoWc]] idB.
Example C47_case : arun (mk_acl [] nil_uuid) [5; 6] mixed = Some (mixed_acl, []) /\ Forall storable (l_aces mixed_acl) /\ typed_uuid (l_owner mixed_acl).
Proof.
  split; [vm_compute; reflexivity|].
  assert (U : forall b, b < 256 -> typed_uuid (repeat b 16)) by (intros b Hb; split; [repeat constructor; exact Hb|reflexivity]).
  split; [|apply U; lia].
  repeat apply Forall_cons; [| | |apply Forall_nil]; (split; [|split]).
  all: try discriminate.
  all: try (split; [cbn [a_id mixed_acl aceA]; lia|split; [reflexivity|try exact I; apply U; lia]]).
  all: repeat apply Forall_cons; try apply Forall_nil; first [left; split; [discriminate|reflexivity]|right; split; [reflexivity|discriminate]].
Qed.

(** Every request is decided after the restart as it was before. *)
Theorem C47_access_survives_restart :
  forall os rnd a rnd' s owner m r d ep p, arun (mk_acl [] nil_uuid) rnd os = Some (a, rnd') ->
  Forall storable (l_aces a) -> typed_uuid (l_owner a) ->
  exists a', decode_acl s true (mk_acl [] owner) rnd' (encode_acl a true) = AOk a' rnd' /\ l_owner a' = l_owner a /\
  check_acl m r (with_acl d (l_aces a')) ep p = check_acl m r (with_acl d (l_aces a)) ep p.
Proof. intros os rnd a rnd' s owner m r d ep p H Hs Ho. exists a. split; [apply (C47_stored_list_is_read_back os rnd); assumption|]. split; reflexivity. Qed.
Print Assumptions C47_access_survives_restart.

(** Defect: an entry that restricts an href by a wildcard loses the wildcard in storage; a resource that
    was not accessible before the restart is accessible after it. *)
Definition hidden : resource := mk_resource (str "/light") None false true false 0.
Theorem C47_no_access_gained_by_restart_refuted :
  exists payload a a', arun (mk_acl [] nil_uuid) [] [OpPost RFPRO false payload] = Some (a, []) /\
  decode_acl RFNOP true (mk_acl [] nil_uuid) [] (encode_acl a true) = AOk a' [] /\
  check_acl POST hidden (dev RFNOP (l_aces a)) (mk_ep true idA) None = Some false /\
  check_acl POST hidden (dev RFNOP (l_aces a')) (mk_ep true idA) None = Some true.
Proof.
  exists (post [[(str "subject", RObj [(str "uuid", RStr (match uuid_to_str idA 37 with Some t => t | None => [] end))]); (str "permission", RInt 6); (str "aceid", RInt 7);
            (str "resources", RObjArr [[(str "href", RStr (str "/light")); (str "wc", RStr (str "+"))]])]]).
  eexists. eexists. split; [vm_compute; reflexivity|]. split; [vm_compute; reflexivity|]. vm_compute. split; reflexivity.
Qed.
Print Assumptions C47_no_access_gained_by_restart_refuted.
