(** C138: the access control entries of the provisioning server. *)
From Verif Require Import Common Rep_Model Hex_Model Acl_Model Tag_Model Tag_Spec Tag_Proofs Tag2_Proofs.
From Coq Require Import String.
Local Open Scope string_scope.
Local Open Scope list_scope.
Local Open Scope N_scope.

(** Entries that are not the server's, and that no entry of the answer is
    about, are there afterwards exactly if they were before, whether the answer
    is taken or not. *)
Theorem C138_other_entries_stay : forall a rnd o b a' x,
  handle a rnd o = Some (b, a') -> ~ provisioned x -> ~ passing x -> untouched o x ->
  (In x (l_aces a') <-> In x (l_aces a)).
Proof. intros a rnd o b a' x H A B U. exact (handle_other o x a rnd b a' H (conj A B) U). Qed.
Print Assumptions C138_other_entries_stay.

(** After an answer that was taken, the answer accounts for every entry of the
    server: what earlier answers granted is gone. *)
Theorem C138_earlier_grants_are_gone : forall a rnd o a' x,
  handle a rnd o = Some (true, a') -> In x (l_aces a') -> provisioned x -> accounts_for o x.
Proof. intros a rnd o a' x H I P. exact (proj2 (handle_success_tags o a rnd a' x H I) P). Qed.
Print Assumptions C138_earlier_grants_are_gone.

(** A subject the answer does not name has no entry of the server left. *)
Theorem C138_subject_not_named_is_revoked : forall a rnd o a' x,
  handle a rnd o = Some (true, a') -> (forall d, named o d -> ad_subj d <> a_subj x) -> provisioned x -> ~ In x (l_aces a').
Proof.
  intros a rnd o a' x H N P I. destruct (C138_earlier_grants_are_gone a rnd o a' x H I P) as [(d & Nd & _ & E & _) _].
  exact (N d Nd E).
Qed.
Print Assumptions C138_subject_not_named_is_revoked.

(** Everything an answer grants is granted after it was taken. *)
Theorem C138_answer_is_carried_out : forall a rnd o a' d x href w,
  handle a rnd o = Some (true, a') -> regular o -> named o d -> In x (ad_res d) -> decode_res x None NoWc = Some (href, w) ->
  ad_tag d <> Some (str "dps-stale") ->
  exists b, In b (l_aces a') /\ grants d href w b.
Proof. intros a rnd o a' d x href w H R Nd Ix Dx Nt. exact (handle_grants o a rnd a' R H d x href w Nd Ix Dx Nt). Qed.
Print Assumptions C138_answer_is_carried_out.

(** An answer that is not taken leaves the entries of the server, except those
    whose identifier it has. *)
Theorem C138_refused_answer_keeps_grants : forall a rnd o a' x,
  handle a rnd o = Some (false, a') -> spared o x -> provisioned x -> In x (l_aces a) -> In x (l_aces a').
Proof. intros a rnd o a' x H S P I. exact (handle_failure_keeps o a rnd a' x H S P I). Qed.
Print Assumptions C138_refused_answer_keeps_grants.

(** No entry is left about to go, and the owner stays. *)
Theorem C138_nothing_left_halfway : forall a rnd o b a',
  handle a rnd o = Some (b, a') -> l_owner a' = l_owner a /\ forall x, In x (l_aces a') -> ~ passing x.
Proof.
  intros a rnd o b a' H. split; [exact (handle_owner o a rnd b a' H)|].
  intros x I. exact (handle_no_stale o a rnd b a' x H I).
Qed.
Print Assumptions C138_nothing_left_halfway.

(** An answer that would set the owner is not taken and changes nothing. *)
Theorem C138_owner_in_answer_refused : forall a rnd o s,
  In (str "rowneruuid", RStr s) o -> (forall x, In x (l_aces a) -> ~ passing x) -> handle a rnd o = Some (false, a).
Proof.
  intros a rnd o s I N. unfold handle, decode_acl.
  assert (P : precheck RFPRO false o = false).
  { destruct (precheck RFPRO false o) eqn:E; [|reflexivity]. unfold precheck in E. rewrite forallb_forall in E.
    specialize (E _ I). vm_compute in E. discriminate E. }
  rewrite P. cbn [l_aces l_owner]. rewrite (unset_set _ N). destruct a. reflexivity.
Qed.
Print Assumptions C138_owner_in_answer_refused.

(** Examples. *)
Definition idA : list N := [1; 1; 1; 1; 1; 1; 1; 1; 1; 1; 1; 1; 1; 1; 1; 1].
Definition idB : list N := [2; 2; 2; 2; 2; 2; 2; 2; 2; 2; 2; 2; 2; 2; 2; 2].
Definition entry (t : list rep) (u : list N) (href : list N) : list rep :=
  [(str "subject", RObj [(str "uuid", RStr (match uuid_to_str u 37 with Some t => t | None => [] end))]);
   (str "resources", RObjArr [[(str "href", RStr href)]]); (str "permission", RInt 6)] ++ t.
Definition dps : list rep := [(str "tag", RStr (str "dps"))].
Definition answer (l : list (list rep)) : list rep := [(str "aclist2", RObjArr l)].
Definition own : ace := mk_ace 5 (SUuid idA) 6 None [mk_res (str "/own") NoWc].
Definition old : ace := mk_ace 7 (SUuid idA) 6 (Some (str "dps")) [mk_res (str "/light") NoWc].
Definition new_ : ace := mk_ace 10 (SUuid idB) 6 (Some (str "dps")) [mk_res (str "/fan") NoWc].

Example taken_ex : handle (mk_acl [own; old] idA) [20] (answer [entry dps idB (str "/fan")]) = Some (true, mk_acl [own; new_] idA).
Proof. vm_compute. reflexivity. Qed.

Lemma named_answer : forall d, named (answer [entry dps idB (str "/fan")]) d ->
  d = mk_dec (SUuid idB) 6 (-1) (Some (str "dps")) [[(str "href", RStr (str "/fan"))]].
Proof.
  intros d (r & aces & x & [<-|[]] & E & I & D). cbn [snd] in E. injection E as <-. destruct I as [<-|[]].
  vm_compute in D. injection D as <-. vm_compute. reflexivity.
Qed.

Example hypotheses_ex : let o := answer [entry dps idB (str "/fan")] in
  untouched o own /\ ~ provisioned own /\ ~ passing own /\ spared o old /\ provisioned old /\ regular o /\
  (forall d, named o d -> ad_subj d <> a_subj old).
Proof.
  cbv zeta. split; [|split; [|split; [|split; [|split; [|split]]]]].
  - intros d Nd. rewrite (named_answer d Nd). split; [discriminate|]. intros _. left. discriminate.
  - discriminate.
  - discriminate.
  - intros d Nd. rewrite (named_answer d Nd). split; [discriminate|]. vm_compute. intros H. discriminate H.
  - reflexivity.
  - intros d Nd. rewrite (named_answer d Nd). split; [reflexivity|]. intros x [<-|[]] href w D.
    vm_compute in D. injection D as <- <-. split; reflexivity.
  - intros d Nd. rewrite (named_answer d Nd). discriminate.
Qed.

Example refused_ex : handle (mk_acl [own; old] idA) [20] (answer [[(str "permission", RStr (str "x"))]]) = Some (false, mk_acl [own; old] idA).
Proof. vm_compute. reflexivity. Qed.

(** An answer refused for its second entry has granted its first one, beside
    what was granted before. *)
Theorem C138_refused_answer_grants_refuted : exists o,
  handle (mk_acl [own; old] idA) [20] o = Some (false, mk_acl [own; old; new_] idA).
Proof. exists (answer [entry dps idB (str "/fan"); [(str "permission", RStr (str "x"))]]). vm_compute. reflexivity. Qed.
Print Assumptions C138_refused_answer_grants_refuted.

(** What an answer grants without the tag stays for ever. *)
Theorem C138_untagged_grants_stay_refuted : exists o o' a a',
  o = answer [entry [] idB (str "/fan")] /\ o' = answer [entry dps idA (str "/light")] /\
  handle (mk_acl [] idA) [20] o = Some (true, a) /\ handle a [14] o' = Some (true, a') /\
  In (mk_ace 10 (SUuid idB) 6 None [mk_res (str "/fan") NoWc]) (l_aces a').
Proof.
  eexists. eexists. exists (mk_acl [mk_ace 10 (SUuid idB) 6 None [mk_res (str "/fan") NoWc]] idA).
  exists (mk_acl [mk_ace 10 (SUuid idB) 6 None [mk_res (str "/fan") NoWc]; old] idA).
  split; [reflexivity|]. split; [reflexivity|]. split; [vm_compute; reflexivity|]. split; [vm_compute; reflexivity|left; reflexivity].
Qed.
Print Assumptions C138_untagged_grants_stay_refuted.

(** An entry of somebody else that has the tag of entries about to go is taken
    out by an answer that is taken, and becomes the server's by one that is not. *)
Theorem C138_foreign_stale_tag_refuted : exists x,
  passing x /\
  handle (mk_acl [x] idA) [] (answer []) = Some (true, mk_acl [] idA) /\
  handle (mk_acl [x] idA) [] (answer [[(str "permission", RStr (str "x"))]]) =
    Some (false, mk_acl [mk_ace (a_id x) (a_subj x) (a_perm x) (Some (str "dps")) (a_res x)] idA).
Proof.
  exists (mk_ace 3 (SUuid idB) 2 (Some (str "dps-stale")) [mk_res (str "/x") NoWc]).
  split; [reflexivity|]. split; vm_compute; reflexivity.
Qed.
Print Assumptions C138_foreign_stale_tag_refuted.

(** An entry of somebody else whose identifier is in the answer is replaced. *)
Theorem C138_identifier_replaces_refuted : exists o,
  handle (mk_acl [own] idA) [] o =
    Some (true, mk_acl [mk_ace 5 (SUuid idB) 6 (Some (str "dps")) [mk_res (str "/fan") NoWc]] idA).
Proof. exists (answer [entry ((str "aceid", RInt 5) :: dps) idB (str "/fan")]). vm_compute. reflexivity. Qed.
Print Assumptions C138_identifier_replaces_refuted.
