(** C30, C31, C49: credentials. *)
From Verif Require Import Common Rep_Model Hex_Model Acl_Model Acl_Spec Ob_Model Ob_Spec Cred_Model Cred_Spec Cred_Proofs Cred2_Proofs Cred3_Proofs Cred4_Proofs.
From Coq Require Import String.
Local Open Scope string_scope.
Local Open Scope list_scope.
Local Open Scope N_scope.

(** * Data of the examples *)

(** A device in the given state; a role certificate is verified when the anchor [9] is there. *)
Definition en (st : N) : cenv :=
  mk_ce (fun _ => Some [1]) (fun a _ => if existsb (list_eqb [9]) a then Some (str "admin", []) else None) (fun _ _ => None) (fun _ _ => true) (Some (repeat 3 16)) [8; 10; 12; 14] (fun _ => true) true st.
Lemma en_keys st : keys_ok (en st).
Proof. split; [reflexivity|]. split; [discriminate|]. intros k [= <-]. reflexivity. Qed.
Lemma en_res st : resources_ok (en st).
Proof. split; reflexivity. Qed.
Definition start : cs := mk_cs [] nil_uuid [] 0.
Definition after (l : list (cenv * cop)) : cs := match crun start l with Some s => s | None => start end.
Lemma reach_after l s : Forall (fun x => keys_ok (fst x) /\ cop_ok (snd x)) l -> crun start l = Some s -> creach s.
Proof. intros F H. exists (en S_RFPRO), [], l, start. split; [reflexivity|]. split; [apply en_keys|]. split; assumption. Qed.

Definition u1 := str "11111111-1111-1111-1111-111111111111".
Definition u2 := str "22222222-2222-2222-2222-222222222222".
Definition raw := str "oic.sec.encoding.raw".
Definition pem := str "oic.sec.encoding.pem".
Definition key (b : N) (n : nat) : rep := (str "privatedata", RObj [(str "data", RBytes (repeat b n)); (str "encoding", RStr raw)]).
Definition psk (id : Z) (u : list N) (k : list rep) : list rep := [(str "credid", RInt id); (str "credtype", RInt 1); (str "subjectuuid", RStr u)] ++ k.
Definition cert (id : Z) (use : list N) (p : list N) : list rep :=
  [(str "credid", RInt id); (str "credtype", RInt 8); (str "subjectuuid", RStr u1); (str "credusage", RStr use); (str "publicdata", RObj [(str "data", RStr p); (str "encoding", RStr pem)])].
Definition creds (l : list (list rep)) : list rep := [(str "creds", RObjArr l)].
Definition ca := str "oic.sec.cred.trustca".
Definition rolecert := str "oic.sec.cred.rolecert".
Definition posts (st : N) (l : list (list rep)) : list (cenv * cop) := map (fun p => (en st, Post p)) l.
Lemma posts_ok st l : Forall (fun x => keys_ok (fst x) /\ cop_ok (snd x)) (posts st l).
Proof. apply Forall_forall. intros x H. apply in_map_iff in H. destruct H as (p & <- & _). split; [apply en_keys|exact I]. Qed.

(** Two keys and a trust anchor. *)
Definition dev : cs := after (posts S_RFPRO [creds [psk 1 u1 [key 5 16]; psk 2 u2 [key 6 32]]; creds [cert 5 ca [7]]]).
Lemma dev_reach : creach dev.
Proof. apply (reach_after (posts S_RFPRO [creds [psk 1 u1 [key 5 16]; psk 2 u2 [key 6 32]]; creds [cert 5 ca [7]]])); [apply posts_ok|vm_compute; reflexivity]. Qed.

(** * C30 *)

(** After any history the credentials of the device have different identifiers, and so have the role
    credentials of a client; none is the number that means no identifier. *)
Theorem C30_identifiers_are_unique :
  forall s, creach s -> NoDup (ids (s_creds s)) /\ ~ In (-1)%Z (ids (s_creds s)) /\ NoDup (ids (s_roles s)) /\ ~ In (-1)%Z (ids (s_roles s)).
Proof.
  intros s H. apply reach_good in H. split; [exact (gd_ids _ H)|]. split; [|split; [exact (gd_rids _ H)|]].
  - intros X. apply in_map_iff in X. destruct X as (c & E & X). pose proof (gd_ok _ H) as O. rewrite Forall_forall in O. exact (proj2 (co_id _ (O c X)) E).
  - intros X. apply in_map_iff in X. destruct X as (c & E & X). pose proof (gd_rok _ H) as O. rewrite Forall_forall in O. exact (proj2 (O c X) E).
Qed.
Print Assumptions C30_identifiers_are_unique.

Example C30_unique_case : creach dev /\ ids (s_creds dev) = [1; 2; 5]%Z /\ ids (s_creds (after (posts S_RFPRO [creds [psk (-1) u1 [key 5 16]; psk (-1) u2 [key 5 16]]]))) = [4; 5]%Z.
Proof. split; [exact dev_reach|]. vm_compute. split; reflexivity. Qed.

(** Adding one credential: it is there with what was asked for, in place of the one it names if any; or it was there
    already; or the same certificate is there under another identifier; or nothing was added. *)
Theorem C30_adding_a_credential :
  forall E it s, creach s -> keys_ok E -> item_ok it ->
  match add_cred E false it s with
  | AOk i s' _ _ => added it (s_creds s) (Some i) (s_creds s')
  | AFail s' => added it (s_creds s) None (s_creds s')
  | ALoop => True
  end.
Proof. intros E it s R K I. apply reach_good in R. pose proof (add_dev E it s R K I) as A. destruct (add_cred E false it s); try exact I; apply A. Qed.
Print Assumptions C30_adding_a_credential.

Definition new_psk : item := mk_item 2 PSK 0 (Some u1) (mk_sd (Some (str "AAECAwQFBgcICQoLDA0ODw==")) E_B64) (mk_sd None 0) None None (Some (str "t")) false None None None 0.
Example C30_adding_case : item_ok new_psk /\
  exists s', add_cred (en S_RFPRO) false new_psk dev = AOk 2 s' (nth_error (s_creds dev) 1) true /\ ids (s_creds s') = [1; 5; 2]%Z /\
  match by_id 2 (s_creds s') with Some c => c_priv c = mk_cd (Some [0; 1; 2; 3; 4; 5; 6; 7; 8; 9; 10; 11; 12; 13; 14; 15]) E_RAW /\ c_tag c = Some (str "t") | None => False end.
Proof.
  split.
  - unfold item_ok, new_psk. cbn [i_id i_type i_usage i_priv i_pub sd_enc sd_data]. unfold typed_int. split; [lia|]. split; [reflexivity|]. split; [left; reflexivity|]. split; [unfold E_B64; lia|]. split; [lia|]. unfold PSK, OSC, OSC_MC, OSC_MS. cbn [In]. intros H. exfalso. lia.
  - eexists. vm_compute. repeat split.
Qed.

(** An update of the credential resource, accepted or not, keeps every credential it does not name, entirely unless it
    is a certificate; of a certificate the owner mark and the OSCORE context may change.  It does not touch roles. *)
Theorem C30_update_keeps_the_other_credentials :
  forall E l s s', creach s -> keys_ok E -> apply_cred E false l s = POk s' \/ apply_cred E false l s = PFail s' ->
  (forall c, In c (s_creds s) -> ~ In (c_id c) (given_ids l) -> exists c', In c' (s_creds s') /\ kept c c' /\ (c_type c <> CERT -> c' = c)) /\ s_roles s' = s_roles s.
Proof.
  intros E l s s' R K H. apply reach_good in R. pose proof (apply_eff E false l s K R) as A.
  assert (X : surv false (nm false (given_ids l)) s s' /\ (false = false -> s_roles s' = s_roles s)) by (destruct H as [H|H]; rewrite H in A; apply A).
  split; [|apply (proj2 X); reflexivity]. intros c Hc N. destruct (proj1 X c Hc) as (c' & C1 & C2 & C3); [intros [_ Y]; exact (N Y)|]. exists c'. split; [exact C1|]. split; [exact C2|]. intros T. apply C3; [reflexivity|exact T].
Qed.
Print Assumptions C30_update_keeps_the_other_credentials.

(** A client that presents roles does not remove or replace any credential of the device. *)
Theorem C30_presenting_roles_keeps_the_credentials :
  forall E l s s', creach s -> keys_ok E -> apply_cred E true l s = POk s' \/ apply_cred E true l s = PFail s' ->
  forall c, In c (s_creds s) -> exists c', In c' (s_creds s') /\ kept c c'.
Proof.
  intros E l s s' R K H. apply reach_good in R. pose proof (apply_eff E true l s K R) as A.
  assert (X : surv true (nm true (given_ids l)) s s') by (destruct H as [H|H]; rewrite H in A; apply A).
  intros c Hc. destruct (X c Hc) as (c' & C1 & C2 & _); [intros [Y _]; discriminate|]. exists c'. split; assumption.
Qed.
Print Assumptions C30_presenting_roles_keeps_the_credentials.

Example C30_keeps_case :
  (exists s', apply_cred (en S_RFPRO) false (creds [psk 2 u1 [key 1 16]; psk 9 u2 [key 1 5]]) dev = PFail s' /\ ids (s_creds s') = [1; 5; 2]%Z) /\
  (exists s', apply_cred (en S_RFNOP) true [(str "roles", RObjArr [cert 3 rolecert [8]])] (after (posts S_RFPRO [creds [cert 5 ca [9]]])) = POk s' /\ ids (s_roles s') = [3]%Z /\ ids (s_creds s') = [5]%Z).
Proof. split; eexists; vm_compute; repeat split. Qed.

(** An accepted update with one credential: the credential is there as asked for, with its owner mark and its OSCORE
    context, and no other identifier appeared. *)
Theorem C30_accepted_update_takes_effect :
  forall E l x s s', creach s -> keys_ok E -> objects l = [x] -> x <> [] -> apply_cred E false l s = POk s' ->
  exists it i l1 c1 c', parse_props false item0 x = Some it /\ i_id it = given_id x /\ added it (s_creds s) (Some i) l1 /\ In c1 l1 /\ c_id c1 = i /\ In c' (s_creds s') /\
    c_id c' = i /\ c_type c' = c_type c1 /\ c_usage c' = c_usage c1 /\ c_subject c' = c_subject c1 /\ c_pub c' = c_pub c1 /\ c_role c' = c_role c1 /\ c_auth c' = c_auth c1 /\ c_tag c' = c_tag c1 /\
    (od (sd_data (i_priv it)) <> [] -> c_priv c' = c_priv c1) /\ (i_owner it = true -> c_owner c' = true) /\
    (some (i_sid it) || some (i_rid it) = true -> c_osc c' = Some (mk_os (hex7 (i_sid it)) (hex7 (i_rid it)) (i_ssn it) (i_desc it))) /\
    (forall d, In d (s_creds s') -> exists d1, In d1 l1 /\ c_id d = c_id d1).
Proof. intros E l x s s' R K. apply reach_good in R. exact (accepted_one E l x s s' K R). Qed.
Print Assumptions C30_accepted_update_takes_effect.

Definition osc_obj : list rep := psk 3 u1 [key 1 16] ++ [(str "oscore", RObj [(str "senderid", RStr (str "01020304050607")); (str "recipientid", RStr (str "a1a2a3a4a5a6a7"))])].
Example C30_accepted_case : objects (creds [osc_obj]) = [osc_obj] /\ exists s', apply_cred (en S_RFPRO) false (creds [osc_obj]) dev = POk s' /\
  match by_id 3 (s_creds s') with Some c => c_osc c = Some (mk_os [1; 2; 3; 4; 5; 6; 7] [161; 162; 163; 164; 165; 166; 167] 0 None) | None => False end.
Proof. split; [reflexivity|]. eexists. vm_compute. repeat split. Qed.

(** Deleting removes the named credential and only that one, all of them without a name, and is refused in normal
    operation, for numbers that are no identifiers and for unknown ones. *)
Theorem C30_delete :
  forall st q s, creach s ->
  let r := delete_cred st q s in
  s_owner (snd r) = s_owner s /\ s_roles (snd r) = s_roles s /\
  match q with
  | None => fst r = negb (st =? S_RFNOP) /\ s_creds (snd r) = if fst r then [] else s_creds s
  | Some i => (fst r = true <-> st <> S_RFNOP /\ (0 <= i)%Z /\ In i (ids (s_creds s))) /\ s_creds (snd r) = if fst r then without i (s_creds s) else s_creds s
  end.
Proof.
  intros st q s R. apply reach_good in R. cbv zeta. unfold delete_cred. destruct (N.eqb_spec st S_RFNOP) as [e|e].
  - split; [reflexivity|]. split; [reflexivity|]. destruct q as [i|]; cbn [fst snd negb]; [split; [split; [discriminate|tauto]|reflexivity]|split; reflexivity].
  - destruct q as [i|]; [|repeat split; reflexivity]. destruct (Z.ltb_spec i 0) as [L|L]; cbn [orb].
    { repeat (split; [reflexivity|]). split; [split; [discriminate|intros (_ & X & _); lia]|reflexivity]. }
    destruct (Z.ltb_spec 2147483647 i) as [L'|L'].
    { repeat (split; [reflexivity|]). split; [split; [discriminate|]|reflexivity]. intros (_ & _ & X). exfalso. apply in_map_iff in X. destruct X as (c & Ec & X). pose proof (gd_ok _ R) as O. rewrite Forall_forall in O. pose proof (proj1 (co_id _ (O c X))) as T. unfold typed_int in T. lia. }
    destruct (by_id i (s_creds s)) as [c|] eqn:B; cbn [fst snd].
    + repeat (split; [reflexivity|]). split; [|apply remove_without; exact (gd_ids _ R)]. apply by_id_some in B. destruct B as [B1 B2]. split; [|reflexivity]. intros _. split; [exact e|]. split; [exact L|]. rewrite <- B2. apply in_map. exact B1.
    + repeat (split; [reflexivity|]). split; [|reflexivity]. apply by_id_none in B. split; [discriminate|tauto].
Qed.
Print Assumptions C30_delete.

Example C30_delete_case : let r := delete_cred S_RFPRO (Some 2%Z) dev in fst r = true /\ ids (s_creds (snd r)) = [1; 5]%Z /\ delete_cred S_RFPRO (Some 3%Z) dev = (false, dev).
Proof. vm_compute. repeat split. Qed.

(** A client can present any role of its own, but of the reserved ones only the owner's. *)
Theorem C30_reserved_roles_are_not_presented :
  forall s c, creach s -> In c (s_roles s) -> allowed_role (od (c_role c)).
Proof. intros s c R. pose proof (reach_fines s R) as F. unfold fines in F. rewrite Forall_forall in F. apply F. Qed.
Print Assumptions C30_reserved_roles_are_not_presented.

Definition en_role (r : list N) : cenv :=
  mk_ce (fun _ => Some [1]) (fun a _ => if existsb (list_eqb [9]) a then Some (r, []) else None) (fun _ _ => None) (fun _ _ => true) (Some (repeat 3 16)) [8; 10; 12; 14] (fun _ => true) true S_RFNOP.
Example C30_reserved_case :
  let d := after (posts S_RFPRO [creds [cert 5 ca [9]]]) in let rq := [(str "roles", RObjArr [cert 3 rolecert [8]])] in
  (exists s', apply_cred (en_role (str "oic.role.owner")) true rq d = POk s' /\ map c_role (s_roles s') = [Some (str "oic.role.owner")]) /\
  (exists s', apply_cred (en_role (str "oic.role.admin")) true rq d = PFail s' /\ s_roles s' = []).
Proof. cbv zeta. split; eexists; (split; [vm_compute; reflexivity|vm_compute; reflexivity]). Qed.

(** In an accepted update every OSCORE credential is complete, and none sets the sequence number. *)
Theorem C30_accepted_oscore_credentials :
  forall E roles l s s', apply_cred E roles l s = POk s' -> forall x, In x (objects l) ->
  (exists it, parse_props false item0 x = Some it /\ oscore_complete it) /\
  (forall o z, In (str "oscore", RObj o) x -> ~ In (str "ssn", RInt z) o).
Proof.
  intros E roles l s s' H x Hx. destruct (apply_read _ _ _ _ _ H x Hx) as (it & P & O). split; [exists it; split; [exact P|apply osc_ok_spec; exact O]|].
  intros o z Ho Hz. rewrite (props_ssn x o z Ho Hz) in P. discriminate.
Qed.
Print Assumptions C30_accepted_oscore_credentials.

Definition osc_real (t : Z) (o : list rep) (n : nat) : list rep := [(str "credid", RInt 3); (str "credtype", RInt t); (str "subjectuuid", RStr u1); key 1 n; (str "oscore", RObj o)].
Definition sid7 : rep := (str "senderid", RStr (str "01020304050607")).
Definition rid7 : rep := (str "recipientid", RStr (str "a1a2a3a4a5a6a7")).
Example C30_oscore_case :
  let run x := apply_cred (en S_RFPRO) false (creds [x]) dev in
  (exists s', run (osc_real 64 [sid7; rid7] 16) = POk s' /\ ids (s_creds s') = [1; 2; 5; 3]%Z) /\ (exists s', run (osc_real 256 [rid7] 16) = POk s') /\
  run (osc_real 64 [sid7] 16) = PFail dev /\ run (osc_real 64 [sid7; rid7] 15) = PFail dev /\ run (osc_real 64 [sid7; rid7; (str "ssn", RInt 7)] 16) = PFail dev.
Proof. cbv zeta. split; [eexists; split; vm_compute; reflexivity|]. split; [eexists; vm_compute; reflexivity|]. vm_compute. repeat split; reflexivity. Qed.

(** Clearing with a filter removes exactly what the filter names. *)
Theorem C30_clear :
  forall E f s s', cstep E s (ClearIf f) = Some s' ->
  (forall c, In c (s_creds s') <-> In c (s_creds s) /\ f c = false) /\ s_roles s' = s_roles s /\ s_owner s' = s_owner s.
Proof.
  intros E f s s' H. cbn [cstep] in H. injection H as <-. split; [|split; reflexivity]. intros c. cbn [s_creds with_creds]. rewrite filter_In, negb_true_iff. reflexivity.
Qed.
Print Assumptions C30_clear.

Example C30_clear_case : exists s', cstep (en S_RFNOP) dev (ClearIf (fun c => c_type c =? PSK)) = Some s' /\ ids (s_creds dev) = [1; 2; 5]%Z /\ ids (s_creds s') = [5]%Z.
Proof. eexists. vm_compute. repeat split; reflexivity. Qed.

(** Credentials are written only while the device is being provisioned or reset, and the owner of the resource only
    while it is being taken over or reset: otherwise the request fails and nothing changes. *)
Theorem C30_no_update_in_other_states :
  forall E l s, (exists n a, In (n, RObjArr a) l /\ ~ In (ce_state E) [S_RFOTM; S_RFPRO; S_SRESET]) \/ (exists v, In (str "rowneruuid", RStr v) l /\ ~ In (ce_state E) [S_RFOTM; S_SRESET]) ->
  apply_cred E false l s = PFail s.
Proof.
  intros E l s H. unfold apply_cred, decode_cred. cbn [orb]. assert (X : forallb (state_ok (ce_state E)) l = false); [|rewrite X; reflexivity].
  apply not_true_iff_false. intros F. rewrite forallb_forall in F. destruct H as [(n & a & Hin & Hs)|(v & Hin & Hs)]; specialize (F _ Hin); unfold state_ok in F; cbn [fst snd] in F.
  - apply Hs. cbn [In]. apply orb_true_iff in F. destruct F as [F|F]; [apply orb_true_iff in F; destruct F as [F|F]|]; apply N.eqb_eq in F; rewrite F; tauto.
  - rewrite list_eqb_refl in F. cbn [negb orb] in F. apply Hs. cbn [In]. apply orb_true_iff in F. destruct F as [F|F]; apply N.eqb_eq in F; rewrite F; tauto.
Qed.
Print Assumptions C30_no_update_in_other_states.

Example C30_states_case : apply_cred (en S_RFNOP) false (creds [psk 1 u2 [key 9 16]]) dev = PFail dev /\ apply_cred (en S_RFPRO) false [(str "rowneruuid", RStr u2)] dev = PFail dev /\ exists s', apply_cred (en S_RFOTM) false [(str "rowneruuid", RStr u2)] dev = POk s' /\ s_owner s' = repeat 34 16.
Proof. split; [vm_compute; reflexivity|]. split; [vm_compute; reflexivity|]. eexists. vm_compute. repeat split. Qed.

(** When the identifiers of an update are different and only its last credential may omit one, no credential that
    was freed is used. *)
Theorem C30_no_freed_credential_is_used :
  forall E l s, creach s -> keys_ok E -> NoDup (given_ids l) -> ~ In (-1)%Z (removelast (given_ids l)) -> apply_cred E false l s <> PUB.
Proof. intros E l s R K N T. apply no_dangling; [exact K|apply reach_good; exact R|split; assumption]. Qed.
Print Assumptions C30_no_freed_credential_is_used.

Definition two_owner : list rep := creds [psk 3 u1 []; psk 4 u2 [key 4 16]; psk 1 u2 []].
Example C30_no_freed_case : given_ids two_owner = [3; 4; 1]%Z /\ exists s', apply_cred (en S_RFPRO) false two_owner dev = POk s' /\ ids (s_creds s') = [2; 5; 3; 4; 1]%Z.
Proof. split; [vm_compute; reflexivity|]. eexists. vm_compute. repeat split. Qed.

(** Not so otherwise: two credentials with one identifier, the first to be an owner credential. *)
Theorem C30_no_freed_credential_refuted :
  exists s l, creach s /\ ~ In (-1)%Z (given_ids l) /\ apply_cred (en S_RFOTM) false l s = PUB.
Proof. exists start, (creds [psk 1 u1 []; psk 1 u2 [key 4 16]]). split; [apply (reach_after []); [constructor|reflexivity]|]. vm_compute. split; [|reflexivity]. intros [H|[H|[]]]; discriminate. Qed.
Print Assumptions C30_no_freed_credential_refuted.

(** Not so: an update that fails leaves the credentials as they were.  A replacement that is refused because of its key
    has removed the credential; in a list the ones before the refused one are added. *)
Theorem C30_failed_update_changes_nothing_refuted :
  (exists s l s', creach s /\ apply_cred (en S_RFPRO) false l s = PFail s' /\ In 2%Z (ids (s_creds s)) /\ ~ In 2%Z (ids (s_creds s'))) /\
  (exists s l s', creach s /\ apply_cred (en S_RFPRO) false l s = PFail s' /\ ~ In 8%Z (ids (s_creds s)) /\ In 8%Z (ids (s_creds s'))).
Proof.
  split.
  - exists dev, (creds [psk 2 u2 [key 6 5]]), (with_creds dev (remove_id 2 (s_creds dev))). split; [exact dev_reach|]. vm_compute. split; [reflexivity|]. split; [right; left; reflexivity|]. intros [H|[H|[]]]; discriminate.
  - exists dev, (creds [psk 8 u2 [key 6 16]; psk 9 u2 [key 6 5]]). eexists. split; [exact dev_reach|]. split; [vm_compute; reflexivity|]. split; vm_compute; [intros [H|[H|[H|[]]]]; discriminate|]. right. right. right. left. reflexivity.
Qed.
Print Assumptions C30_failed_update_changes_nothing_refuted.

(** Not so: after an accepted update the credential it names exists.  When the certificate is there under another
    identifier, the named credential is removed and none is added. *)
Theorem C30_accepted_update_has_the_named_credential_refuted :
  exists s l s', creach s /\ given_ids l = [2%Z] /\ apply_cred (en S_RFPRO) false l s = POk s' /\ In 2%Z (ids (s_creds s)) /\ ~ In 2%Z (ids (s_creds s')).
Proof.
  exists dev, (creds [cert 2 ca [7]]), (with_creds dev (remove_id 2 (s_creds dev))). split; [exact dev_reach|]. vm_compute. split; [reflexivity|]. split; [reflexivity|]. split; [right; left; reflexivity|]. intros [H|[H|[]]]; discriminate.
Qed.
Print Assumptions C30_accepted_update_has_the_named_credential_refuted.

(** Not so: a client that presents roles cannot write the credential resource.  In normal operation it can set the owner
    of the resource, and mark a credential whose identifier it gives as owner credential. *)
Theorem C30_roles_do_not_write_credentials_refuted :
  (exists s s', creach s /\ apply_cred (en S_RFNOP) true [(str "rowneruuid", RStr u2)] s = POk s' /\ s_owner s' <> s_owner s) /\
  (exists s l s', creach s /\ apply_cred (en S_RFNOP) true l s = POk s' /\ In 1%Z (ids (s_creds s)) /\
     (forall c, In c (s_creds s) -> c_owner c = false) /\ exists c, In c (s_creds s') /\ c_id c = 1%Z /\ c_owner c = true).
Proof.
  split.
  - exists dev, (mk_cs (s_creds dev) (repeat 34 16) (s_roles dev) (s_next dev)). split; [exact dev_reach|]. split; [vm_compute; reflexivity|]. vm_compute. discriminate.
  - pose (d := after (posts S_RFPRO [creds [psk 1 u1 [key 5 16]; cert 5 ca [9]]])). exists d, [(str "roles", RObjArr [cert 1 rolecert [8] ++ [(str "owner_cred", RBool true)]])]. eexists.
    split; [apply (reach_after (posts S_RFPRO [creds [psk 1 u1 [key 5 16]; cert 5 ca [9]]])); [apply posts_ok|vm_compute; reflexivity]|].
    split; [vm_compute; reflexivity|]. split; [vm_compute; left; reflexivity|]. split; [vm_compute; intros c [<-|[<-|[]]]; reflexivity|].
    eexists. vm_compute. split; [left; reflexivity|]. split; reflexivity.
Qed.
Print Assumptions C30_roles_do_not_write_credentials_refuted.

(** * C31 *)

(** What the credential and roles resources answer does not depend on private data. *)
Theorem C31_reads_do_not_depend_on_private_data :
  forall s s', Forall2 same_but_private (s_creds s) (s_creds s') -> Forall2 same_but_private (s_roles s) (s_roles s') -> s_owner s' = s_owner s ->
  encode_cred false s' = encode_cred false s /\ encode_roles s' = encode_roles s.
Proof.
  intros s s' F R O. unfold encode_cred, encode_roles. rewrite O.
  assert (M : map (encode_one false) (s_creds s') = map (encode_one false) (s_creds s)).
  { clear - F. induction F as [|c c' l l' (H1 & H2 & H3 & H4 & H5 & H6 & H7 & H8 & H9 & H10 & H11) _ IH]; [reflexivity|]. cbn [map]. rewrite IH. f_equal. unfold encode_one. rewrite H1, H2, H3, H4, H5, H6, H7, H8, H11. reflexivity. }
  assert (M' : map encode_role (s_roles s') = map encode_role (s_roles s)).
  { clear - R. induction R as [|c c' l l' (H1 & H2 & H3 & H4 & H5 & H6 & _) _ IH]; [reflexivity|]. cbn [map]. rewrite IH. f_equal. unfold encode_role. rewrite H1, H2, H3, H6. reflexivity. }
  rewrite M, M'. split; reflexivity.
Qed.
Print Assumptions C31_reads_do_not_depend_on_private_data.

Definition other_keys (s : cs) : cs := with_creds s (map (fun c => mk_cred (c_name c) (c_id c) (c_type c) (c_usage c) (c_subject c) (mk_cd (Some (repeat 77 32)) (cd_enc (c_priv c))) (c_pub c) (c_role c) (c_auth c) (c_tag c) (c_owner c) (c_osc c)) (s_creds s)).
Example C31_case : Forall2 same_but_private (s_creds dev) (s_creds (other_keys dev)) /\ encode_cred false (other_keys dev) = encode_cred false dev /\ encode_cred true (other_keys dev) <> encode_cred true dev.
Proof. split; [vm_compute; repeat constructor|]. vm_compute. split; [reflexivity|discriminate]. Qed.

(** * C49 *)

(** Storing the credentials and starting again gives the same ones, in the same order, and the same resource owner. *)
Theorem C49_credentials_read_back :
  forall E s, creach s -> Forall storable (s_creds s) -> readable E (s_creds s) -> resources_ok E ->
  exists s', load E (encode_cred true s) = Some s' /\ Forall2 restored (s_creds s) (s_creds s') /\ s_owner s' = s_owner s.
Proof. intros E s R. apply reach_good in R. exact (stored_restored E s R). Qed.
Print Assumptions C49_credentials_read_back.

Definition osc_dev : cs := after (posts S_RFPRO [creds [osc_obj; cert 5 ca [9]; cert 6 rolecert [8]; psk 7 (str "*") [key 3 32]]]).
Example C49_case : creach osc_dev /\ Forall storable (s_creds osc_dev) /\ readable (en S_RFNOP) (s_creds osc_dev) /\ resources_ok (en S_RFNOP) /\ ids (s_creds osc_dev) = [3; 5; 6; 7]%Z.
Proof.
  split; [apply (reach_after (posts S_RFPRO [creds [osc_obj; cert 5 ca [9]; cert 6 rolecert [8]; psk 7 (str "*") [key 3 32]]])); [apply posts_ok|vm_compute; reflexivity]|].
  split.
  { let l := eval vm_compute in (s_creds osc_dev) in replace (s_creds osc_dev) with l by (vm_compute; reflexivity). repeat apply Forall_cons; try apply Forall_nil; unfold storable; cbn [c_subject c_type c_osc c_role c_auth hd]; (split; [discriminate || (intros _; reflexivity)|]); (split; [unfold OSC, OSC_MC, OSC_MS; cbn [In]; intros H; (discriminate || (exfalso; lia))|]); (split; [|cbn [od]; (discriminate || reflexivity)]); intros o Ho; try discriminate.
    injection Ho as <-. cbn [os_send os_recv os_ssn os_desc]. unfold ctx_id, bytes_ok, is_byte. split; [intros _; split; [repeat constructor|reflexivity]|]. split; [intros _; split; [repeat constructor|reflexivity]|]. split; [reflexivity|]. cbn [od]. tauto. }
  split.
  { intros a c b. let l := eval vm_compute in (s_creds osc_dev) in replace (s_creds osc_dev) with l by (vm_compute; reflexivity). intros H. destruct a as [|x a]; [|destruct a as [|y a]; [|destruct a as [|z a]; [|destruct a as [|w a]]]]; cbn [app] in H; inversion H; subst; (split; [vm_compute; discriminate|]); try (vm_compute; discriminate).
    - intros _. exists (str "admin"), []. vm_compute. split; [reflexivity|]. split; [right; discriminate|left; reflexivity].
    - destruct a; discriminate. }
  split; [apply en_res|]. vm_compute. reflexivity.
Qed.

(** Not so without the conditions.  A subject that starts with the byte 0x2a becomes the wildcard. *)
Theorem C49_subject_read_back_refuted :
  exists s s', creach s /\ load (en S_RFNOP) (encode_cred true s) = Some s' /\ map c_subject (s_creds s) = [42 :: 1 :: repeat 0 14] /\ map c_subject (s_creds s') = [42 :: repeat 0 15].
Proof.
  pose (l := posts S_RFPRO [creds [psk 1 (str "2a010000-0000-0000-0000-000000000000") [key 5 16]]]). exists (after l). eexists. split; [apply (reach_after l); [apply posts_ok|vm_compute; reflexivity]|]. split; [vm_compute; reflexivity|]. split; vm_compute; reflexivity.
Qed.
Print Assumptions C49_subject_read_back_refuted.

(** An OSCORE context with one identifier only is accepted, but cannot be read back: it, the credentials after it and
    the resource owner are lost. *)
Theorem C49_half_context_read_back_refuted :
  exists s s', creach s /\ load (en S_RFNOP) (encode_cred true s) = Some s' /\ ids (s_creds s) = [1; 2; 3]%Z /\ ids (s_creds s') = [1]%Z /\ s_owner s <> nil_uuid /\ s_owner s' = nil_uuid.
Proof.
  pose (l := posts S_RFOTM [creds [psk 1 u1 [key 5 16]; psk 2 u1 [key 1 16; (str "oscore", RObj [(str "senderid", RStr (str "01020304050607"))])]; psk 3 u2 [key 6 16]]; [(str "rowneruuid", RStr u2)]]). exists (after l). eexists.
  split; [apply (reach_after l); [apply posts_ok|vm_compute; reflexivity]|]. split; [vm_compute; reflexivity|]. vm_compute. repeat split. discriminate.
Qed.
Print Assumptions C49_half_context_read_back_refuted.

(** A trust anchor that is updated moves behind the role certificates it verifies; these and what follows cannot be
    read back. *)
Theorem C49_updated_anchor_read_back_refuted :
  exists s s', creach s /\ load (en S_RFNOP) (encode_cred true s) = Some s' /\ ids (s_creds s) = [6; 7; 5]%Z /\ ids (s_creds s') = [].
Proof.
  pose (l := posts S_RFPRO [creds [cert 5 ca [9]; cert 6 rolecert [8]; psk 7 u1 [key 5 16]]; creds [cert 5 ca [9] ++ [(str "tag", RStr (str "new"))]]]). exists (after l). eexists.
  split; [apply (reach_after l); [apply posts_ok|vm_compute; reflexivity]|]. split; [vm_compute; reflexivity|]. vm_compute. repeat split.
Qed.
Print Assumptions C49_updated_anchor_read_back_refuted.
