(** C139: the certificates of the provisioning server. *)
From Verif Require Import Common Rep_Model Hex_Model Base64_Model Acl_Model Ob_Model Cred_Model Ptag_Model Ptag_Spec Ptag_Proofs Ptag2_Proofs.
From Coq Require Import String.
Local Open Scope string_scope.
Local Open Scope list_scope.
Local Open Scope N_scope.

(** Credentials that are not the server's, and whose identifier is not in the
    answer, stay, whether the answer is taken or not; what comes beside them is
    in the answer. *)
Theorem C139_other_credentials_stay : forall E o s s', certificates o -> replace E o s = Taken s' \/ replace E o s = Refused s' ->
  (forall c, In c (s_creds s) -> ~ provisioned c -> ~ passing c -> spared o c -> exists d, In d (s_creds s') /\ bare d = bare c) /\
  (forall d, In d (s_creds s') -> ~ provisioned d ->
     (exists c, In c (s_creds s) /\ bare c = bare d) \/ exists it, sent o it /\ made_of it d).
Proof.
  intros E o s s' C L. split.
  - intros c Ic A B Sp. exact (replace_other E o s s' c C L (conj A B) Sp Ic).
  - intros d Id A. exact (replace_source E o s s' d C L (conj A (replace_no_stale E o s s' d L Id)) Id).
Qed.
Print Assumptions C139_other_credentials_stay.

(** After an answer that was taken, every certificate of the server is in the
    answer: those of earlier answers are gone. *)
Theorem C139_earlier_certificates_are_gone : forall E o s s' c, certificates o ->
  replace E o s = Taken s' -> In c (s_creds s') -> provisioned c -> exists it, sent o it /\ made_of it c.
Proof. intros E o s s' c C L I P. exact (replace_taken_tags E o s s' c C L I P). Qed.
Print Assumptions C139_earlier_certificates_are_gone.

(** Every certificate of an answer that was taken is there. *)
Theorem C139_answer_is_carried_out : forall E o s s' a x it, certificates o -> regular o ->
  (forall c, In c (s_creds s) -> c_id c <> (-1)%Z) -> replace E o s = Taken s' ->
  In (str "creds", RObjArr a) o -> In x a -> x <> [] -> parse_props false item0 x = Some it -> i_tag it <> Some (str "dps-stale") ->
  exists c, In c (s_creds s') /\ serves it c.
Proof. intros E o s s' a x it C R Nd L Io Ix Nx Px Nt. exact (replace_there E o s s' a x it C R Nd L Io Ix Nx Px Nt). Qed.
Print Assumptions C139_answer_is_carried_out.

(** An answer that is not taken leaves the certificates of the server, except
    those whose identifier it has. *)
Theorem C139_refused_answer_keeps_certificates : forall E o s s' c, certificates o ->
  replace E o s = Refused s' -> spared o c -> provisioned c -> In c (s_creds s) -> exists d, In d (s_creds s') /\ bare d = bare c.
Proof. intros E o s s' c C L Sp P I. exact (replace_refused_keeps E o s s' c C L Sp P I). Qed.
Print Assumptions C139_refused_answer_keeps_certificates.

(** No credential is left about to go, the owner stays, and no freed
    credential is used. *)
Theorem C139_nothing_left_halfway : forall E o s, certificates o -> replace E o s <> Freed /\
  forall s', replace E o s = Taken s' \/ replace E o s = Refused s' -> s_owner s' = s_owner s /\ forall c, In c (s_creds s') -> ~ passing c.
Proof.
  intros E o s C. split; [exact (replace_defined E o s C)|]. intros s' L. split; [exact (replace_owner E o s s' C L)|].
  intros c Ic. exact (replace_no_stale E o s s' c L Ic).
Qed.
Print Assumptions C139_nothing_left_halfway.

(** Examples. *)
Definition en : cenv :=
  mk_ce (fun _ => Some [1]) (fun _ _ => None) (fun _ _ => None) (fun _ _ => true) None [8; 10; 12; 14] (fun _ => true) true S_RFNOP.
Definition u1 := str "11111111-1111-1111-1111-111111111111".
Definition cert (t : list rep) (p : list N) : list rep :=
  [(str "credtype", RInt 8); (str "subjectuuid", RStr u1); (str "credusage", RStr (str "oic.sec.cred.trustca"));
   (str "publicdata", RObj [(str "data", RStr p); (str "encoding", RStr (str "oic.sec.encoding.pem"))])] ++ t.
Definition tag (t : list N) : list rep := [(str "tag", RStr t)].
Definition id (i : Z) : rep := (str "credid", RInt i).
Definition creds (l : list (list rep)) : list rep := [(str "creds", RObjArr l)].
Definition bad : list rep := [(str "credtype", RStr (str "x"))].
Definition start : cs := mk_cs [] nil_uuid [] 0.
Definition state (r : outcome) : cs := match r with Taken s => s | Refused s => s | _ => start end.
Definition taken (r : outcome) : option bool := match r with Taken _ => Some true | Refused _ => Some false | _ => None end.
(** What can be seen: identifier, certificate and tag. *)
Definition view (r : outcome) := (taken r, map (fun c => (c_id c, od (cd_data (c_pub c)), c_tag c)) (s_creds (state r))).
(** An anchor of somebody else and one of the server. *)
Definition dev : cs := state (replace en (creds [cert [id 5] [7]; cert (id 6 :: tag (str "dps")) [9]]) start).

Example dev_ex : map (fun c => (c_id c, od (cd_data (c_pub c)), c_tag c)) (s_creds dev) = [(5%Z, [7], None); (6%Z, [9], Some (str "dps"))].
Proof. vm_compute. reflexivity. Qed.

Example taken_ex : view (replace en (creds [cert (tag (str "dps")) [3]]) dev) = (Some true, [(5%Z, [7], None); (4%Z, [3], Some (str "dps"))]).
Proof. vm_compute. reflexivity. Qed.

Example refused_ex : view (replace en (creds [bad]) dev) = (Some false, [(5%Z, [7], None); (6%Z, [9], Some (str "dps"))]).
Proof. vm_compute. reflexivity. Qed.

Lemma sent_creds l it : sent (creds l) it -> exists x, In x l /\ parse_props false item0 x = Some it.
Proof. intros (r & a & x & [<-|[]] & E & Ix & P). cbn [snd] in E. injection E as <-. exists x. auto. Qed.

Example hypotheses_ex : let o := creds [cert (tag (str "dps")) [3]] in
  certificates o /\ regular o /\ Forall (fun c => spared o c /\ c_id c <> (-1)%Z) (s_creds dev) /\
  exists it, parse_props false item0 (cert (tag (str "dps")) [3]) = Some it /\ sent o it /\ i_tag it = Some (str "dps").
Proof.
  cbv zeta. assert (K : forall it, sent (creds [cert (tag (str "dps")) [3]]) it -> i_type it = CERT /\ i_id it = (-1)%Z /\ sd_enc (i_pub it) = E_PEM).
  { intros it H. apply sent_creds in H. destruct H as (x & [<-|[]] & P). vm_compute in P. injection P as <-. vm_compute. auto. }
  split; [intros it H; exact (proj1 (K it H))|]. split; [intros it H; exact (proj2 (K it H))|]. split.
  - assert (Q : Forall (fun c => c_id c <> (-1)%Z) (s_creds dev)) by (vm_compute; repeat constructor; discriminate).
    eapply Forall_impl; [|exact Q]. cbv beta. intros c Hc. split; [|exact Hc]. intros it H. rewrite (proj1 (proj2 (K it H))). exact Hc.
  - destruct (parse_props false item0 (cert (tag (str "dps")) [3])) as [it|] eqn:P; [|vm_compute in P; discriminate P].
    exists it. split; [reflexivity|]. split.
    + eexists. eexists. eexists. split; [left; reflexivity|]. split; [reflexivity|]. split; [left; reflexivity|exact P].
    + vm_compute in P. injection P as <-. reflexivity.
Qed.

(** A certificate without the tag stays for ever. *)
Theorem C139_untagged_certificates_stay_refuted : exists o o', o = creds [cert [] [3]] /\ o' = creds [cert (tag (str "dps")) [4]] /\
  view (replace en o' (state (replace en o start))) = (Some true, [(4%Z, [3], None); (5%Z, [4], Some (str "dps"))]).
Proof. eexists. eexists. split; [reflexivity|]. split; [reflexivity|]. vm_compute. reflexivity. Qed.
Print Assumptions C139_untagged_certificates_stay_refuted.

(** An answer refused for its second certificate has left its first one. *)
Theorem C139_refused_answer_leaves_certificates_refuted : exists o,
  view (replace en o dev) = (Some false, [(5%Z, [7], None); (6%Z, [9], Some (str "dps")); (4%Z, [3], Some (str "dps"))]).
Proof. exists (creds [cert (tag (str "dps")) [3]; bad]). vm_compute. reflexivity. Qed.
Print Assumptions C139_refused_answer_leaves_certificates_refuted.

(** A credential of somebody else that has the tag of those about to go is
    taken out, or becomes the server's. *)
Theorem C139_foreign_stale_tag_refuted : exists s c, s_creds s = [c] /\ passing c /\
  view (replace en (creds []) s) = (Some true, []) /\ view (replace en (creds [bad]) s) = (Some false, [(c_id c, od (cd_data (c_pub c)), Some (str "dps"))]).
Proof.
  exists (with_creds dev (map (with_tag (str "dps-stale")) (remove_id 6 (s_creds dev)))). eexists.
  split; [vm_compute; reflexivity|]. split; [reflexivity|]. split; vm_compute; reflexivity.
Qed.
Print Assumptions C139_foreign_stale_tag_refuted.

(** A credential of somebody else whose identifier is in the answer is replaced. *)
Theorem C139_identifier_replaces_refuted : exists o,
  view (replace en o dev) = (Some true, [(5%Z, [3], Some (str "dps"))]).
Proof. exists (creds [cert (id 5 :: tag (str "dps")) [3]]). vm_compute. reflexivity. Qed.
Print Assumptions C139_identifier_replaces_refuted.
