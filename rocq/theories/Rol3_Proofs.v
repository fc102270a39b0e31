(** Proofs about the roles of sessions: the resource. *)
From Verif Require Import Common Rep_Model Ob_Model Cred_Model Cred_Spec Cred_Proofs Rol_Model Rol_Spec Rol_Proofs Rol2_Proofs.
From Verif Require Acl_Model.
From Coq Require Import String Lia.
Local Open Scope string_scope.
Local Open Scope list_scope.
Local Open Scope N_scope.

Lemma encode_describes c : describes c (encode_role c).
Proof.
  unfold describes, encode_role. split; [apply in_app_iff; left; left; reflexivity|]. split; [apply in_app_iff; left; right; left; reflexivity|]. intros H.
  pose proof (proj2 (nonempty_od (cd_data (c_pub c))) H) as H'. rewrite H'. eexists. split; [apply in_app_iff; right; apply in_app_iff; right; left; reflexivity|]. left. reflexivity.
Qed.

Lemma told_spec t w t' l : step t (Get w) = Some (t', Told l) ->
  t' = t /\ exists objs, l = [(str "roles", RObjArr objs)] /\ Forall2 describes (match w with Session p => roles_of t p | Plain _ => [] end) objs.
Proof.
  cbn [step]. destruct (device_of t w) as [dev|] eqn:Dv; [|discriminate]. intros H.
  split; [congruence|]. unfold encode_roles in H. cbn [with_roles s_roles] in H.
  replace (match client_of t w with Some (p, _) => roles_get p (t_clients t) | None => [] end) with (match w with Session p => roles_of t p | Plain _ => [] end) in H
    by (destruct w as [p|d]; [|reflexivity]; unfold client_of; cbn [device_of] in Dv; destruct (session t p); [reflexivity|discriminate Dv]).
  set (rs := match w with Session p => roles_of t p | Plain _ => [] end) in *. clearbody rs. exists (map encode_role rs). split; [congruence|]. clear H.
  induction rs as [|c k IH]; [constructor|]. cbn [map]. constructor; [apply encode_describes|exact IH].
Qed.

Lemma delete_one t p dev c t' a : inv t -> is_open t p dev -> In c (roles_of t p) -> (0 <= c_id c <= 2147483647)%Z ->
  step t (Delete (Session p) (Some (c_id c))) = Some (t', a) -> a = Status true /\ roles_of t' p = filter (fun d => negb (c_id d =? c_id c)%Z) (roles_of t p).
Proof.
  intros V O I B H. cbn [step device_of client_of] in H. rewrite (session_open _ _ _ V O) in H. cbn [option_map] in H. unfold delete_role in H.
  replace ((c_id c <? 0)%Z || (2147483647 <? c_id c)%Z) with false in H by (symmetry; apply orb_false_iff; split; apply Z.ltb_ge; lia).
  cbn [with_roles s_roles] in H. fold (roles_of t p) in H. pose proof (in_ids _ V p) as R. rewrite (by_id_in _ _ (proj1 R) I) in H. cbn [fst snd s_roles] in H.
  done_step H. split; [reflexivity|]. unfold roles_of at 1. cbn [with_clients t_clients]. rewrite get_set, Nat.eqb_refl. rewrite (remove_without _ _ (proj1 R)). reflexivity.
Qed.

Lemma delete_unknown t p dev n t' a : inv t -> is_open t p dev -> ~ In n (ids (roles_of t p)) -> step t (Delete (Session p) (Some n)) = Some (t', a) -> a = Status false /\ t' = t.
Proof.
  intros V O N H. cbn [step device_of client_of] in H. rewrite (session_open _ _ _ V O) in H. cbn [option_map] in H. unfold delete_role in H. cbn [with_roles s_roles] in H. fold (roles_of t p) in H.
  rewrite (proj2 (by_id_none _ _) N) in H. destruct (_ || _)%bool in H; cbn [fst snd] in H; done_step H; split; reflexivity.
Qed.

Definition is_owner (c : cred) : Prop := od (c_role c) = str "oic.role.owner".

Lemma walk_spec v l c : In c (walk v l) <-> In c l /\ (v c = true \/ exists l1 o l2, l = l1 ++ o :: l2 /\ v o = true /\ is_owner o /\ In c l2).
Proof.
  split.
  - intros I. split; [apply (walk_in _ _ _ I)|]. induction l as [|x t IH]; cbn [walk] in I; [destruct I|].
    assert (K : In c (walk v t) -> v c = true \/ exists l1 o l2, x :: t = l1 ++ o :: l2 /\ v o = true /\ is_owner o /\ In c l2).
    { intros J. destruct (IH J) as [H|[l1 [o [l2 [-> H]]]]]; [left; exact H|right; exists (x :: l1), o, l2; split; [reflexivity|exact H]]. }
    destruct (v x) eqn:X; cbn [negb] in I; [|apply K; exact I]. destruct (list_eqb _ _) eqn:O.
    + destruct I as [<-|I]; [left; exact X|]. right. exists [], x, t. split; [reflexivity|]. split; [exact X|]. split; [apply list_eqb_spec; exact O|exact I].
    + destruct I as [<-|I]; [left; exact X|apply K; exact I].
  - induction l as [|x t IH]; intros [I H]; [destruct I|]. cbn [walk]. destruct (v x) eqn:X; cbn [negb].
    + destruct (list_eqb _ _) eqn:O; [exact I|]. destruct I as [<-|I]; [left; reflexivity|]. right. apply IH. split; [exact I|].
      destruct H as [H|[l1 [o [l2 [E [A [B C]]]]]]]; [left; exact H|]. destruct l1 as [|y l1].
      * cbn [app] in E. injection E as E1 E2. subst o. unfold is_owner in B. rewrite B, list_eqb_refl in O. discriminate O.
      * cbn [app] in E. injection E as E1 E2. right. exists l1, o, l2. split; [exact E2|split; [exact A|split; [exact B|exact C]]].
    + destruct H as [H|[l1 [o [l2 [E [A [B C]]]]]]].
      * destruct I as [<-|I]; [congruence|]. apply IH. split; [exact I|left; exact H].
      * destruct l1 as [|y l1]; cbn [app] in E; injection E as E1 E2; [congruence|]. apply IH. split; [rewrite E2; apply in_app_iff; right; right; exact C|].
        right. exists l1, o, l2. split; [exact E2|split; [exact A|split; [exact B|exact C]]].
Qed.

Lemma access_spec t p dev v t' a : inv t -> is_open t p dev -> step t (Access p v) = Some (t', a) ->
  forall c, In c (roles_of t' p) <-> In c (roles_of t p) /\ (v c = true \/ exists l1 o l2, roles_of t p = l1 ++ o :: l2 /\ v o = true /\ is_owner o /\ In c l2).
Proof.
  intros V O H c. cbn [step] in H. rewrite (session_open _ _ _ V O) in H. done_step H. unfold roles_of at 1. cbn [with_clients t_clients]. rewrite get_set, Nat.eqb_refl. apply walk_spec.
Qed.

Lemma accepted t p sn E cn x it key r a t' b : inv t -> is_open t p sn -> parse_props false item0 x = Some it ->
  i_type it = CERT -> i_usage it = ROLECERT -> i_sid it = None -> i_rid it = None -> i_priv it = mk_sd None 0 -> sd_enc (i_pub it) = E_PEM ->
  ce_key E (od (sd_data (i_pub it))) = Some key -> (ss_key sn = [] \/ ss_key sn = key) -> named sn cn (od (sd_data (i_pub it))) ->
  ce_role E (anchors (s_creds (t_dev t (ss_dev sn)))) (od (sd_data (i_pub it))) = Some (r, a) -> allowed_role r -> (forall n, ce_alloc E n = true) ->
  step t (Post (Session p) E cn [(str "roles", RObjArr [x])]) = Some (t', b) ->
  b = Status true /\ exists c, In c (roles_of t' p) /\ od (cd_data (c_pub c)) = od (sd_data (i_pub it)) /\ (In c (roles_of t p) \/ c_role c = Some r /\ c_auth c = Some a).
Proof.
  intros V O Hp T U Si Ri Pr En K Sk Nm R A Al H. cbn [step device_of client_of] in H. rewrite (session_open _ _ _ V O) in H. cbn [option_map] in H.
  destruct (post (Some (p, sn)) (ss_dev sn) E cn _ t) as [[t1 ok]|] eqn:P; [|discriminate H]. done_step H. unfold post in P. cbn [option_map snd] in P. fold (roles_of t p) in P.
  destruct (overruns _ cn E _) in P; [discriminate P|]. set (E1 := env_of (Some sn) cn E) in *.
  assert (Ve : ce_verify E1 key (od (sd_data (i_pub it))) = true).
  { unfold E1, env_of, verify, named in *. cbn [ce_verify]. rewrite Nm, list_eqb_refl. destruct Sk as [Sk|Sk]; rewrite Sk; [reflexivity|]. destruct key as [|k0 ks]; [reflexivity|].
    rewrite Nat.ltb_irrefl, Nat.sub_diag. cbn [skipn]. rewrite list_eqb_refl. reflexivity. }
  change (ce_key E) with (ce_key E1) in K. change (ce_role E) with (ce_role E1) in R. change (ce_alloc E) with (ce_alloc E1) in Al. clearbody E1.
  unfold apply_cred, decode_cred in P. cbn [orb] in P. cbn [decode_props fst snd] in P.
  replace (list_eqb (str "roles") (str "creds") || list_eqb (str "roles") (str "roles")) with true in P by reflexivity. cbn [apply_items] in P.
  rewrite Hp in P. assert (Oc : osc_ok it = true). { unfold osc_ok. rewrite T. reflexivity. } rewrite Oc in P.
  destruct x as [|x0 xs]; [cbn [parse_props] in Hp; injection Hp as <-; discriminate T|].
  unfold apply_item in P. rewrite Si, Ri in P. cbn [some orb andb] in P.
  set (s := with_roles (t_dev t (ss_dev sn)) (roles_of t p)) in *.
  assert (Hs : add_cred E1 true it s = ALoop \/ exists id s' rp cr c, add_cred E1 true it s = AOk id s' rp cr /\ id <> (-1)%Z /\ In c (s_roles s') /\
     od (cd_data (c_pub c)) = od (sd_data (i_pub it)) /\ (In c (roles_of t p) \/ c_role c = Some r /\ c_auth c = Some a)).
  { unfold add_cred. rewrite T, U. change (CERT =? CERT) with true. cbv iota. rewrite K. change (ROLECERT =? ROLECERT) with true. rewrite Ve. cbn [negb orb andb].
    assert (Hsub : exists sub, set_subject (i_subject it) ROLECERT = Some sub).
    { destruct (i_subject it) as [tx|]; [|exists Hex_Model.wildcard; reflexivity]. unfold set_subject. rewrite hd42. destruct (_ =? 42); eexists; reflexivity. }
    destruct Hsub as [sub ->]. change (ROLECERT =? IDENTITY) with false. cbn [andb].
    pose proof (in_ids _ V p) as Rd. destruct (find _ (s_roles s)) as [c|] eqn:F.
    - right. apply find_some in F. destruct F as [F1 F2]. apply andb_true_iff in F2. destruct F2 as [F2 _]. exists (c_id c), s, None, false, c.
      split; [reflexivity|]. split; [intros X; apply (proj2 Rd); unfold ids; rewrite <- X; apply in_map; exact F1|]. split; [exact F1|]. split; [|left; exact F1].
      apply data_eq_spec in F2. destruct F2 as [G1 [G2 _]]. symmetry. apply G2. congruence.
    - unfold create. rewrite Al, U. change (ROLECERT =? ROLECERT) with true. cbn [negb orb andb]. rewrite app_nil_r. change (s_creds s) with (s_creds (t_dev t (ss_dev sn))). rewrite R.
      assert (Ro : role_ok r = true).
      { unfold role_ok. destruct (list_eqb (firstn 9 r) (str "oic.role.")) eqn:F9; [|reflexivity]. apply list_eqb_spec. apply (A (skipn 9 r)). apply list_eqb_spec in F9. rewrite <- F9. symmetry. apply firstn_skipn. }
      cbn [od]. rewrite Ro. cbn [negb]. set (gid := match by_id (i_id it) (s_roles s) with Some _ => (-1)%Z | None => i_id it end).
      set (fresh := mk_cred (s_next s) 0 0 0 [] (mk_cd None 0) (mk_cd None 0) None None None false None).
      destruct (if (gid =? -1)%Z then new_id (s_roles s ++ [fresh]) (ce_rand E1) else Some gid) as [cid|] eqn:G; [|left; reflexivity]. right.
      rewrite Pr. cbn [sd_data nonempty]. eexists cid, _, _, _, _. split; [reflexivity|]. split.
      { destruct (gid =? -1)%Z eqn:M; [destruct (new_id_spec _ _ _ G); lia|]. apply Z.eqb_neq in M. congruence. }
      cbn [s_roles]. split; [apply in_app_iff; right; left; reflexivity|]. cbn [c_pub c_role c_auth]. split; [|right; split; reflexivity].
      destruct (nonempty (sd_data (i_pub it))) eqn:NE; [reflexivity|]. apply nonempty_false in NE. rewrite NE. reflexivity. }
  destruct Hs as [Hs|[id [s' [rp [cr [c [Hs [Hi [I [Hc Hr]]]]]]]]]]; rewrite Hs in P; [discriminate P|].
  replace (id =? -1)%Z with false in P by (symmetry; apply Z.eqb_neq; exact Hi).
  rewrite T in P. change (CERT =? PSK) with false in P. cbn [andb] in P.
  destruct (by_id id (s_creds s')) as [d|]; cbn [with_creds s_roles] in P; injection P as <- <-; (split; [reflexivity|]; exists c;
    unfold roles_of at 1; cbn [t_clients]; rewrite get_set, Nat.eqb_refl; cbn [s_roles with_creds]; split; [exact I|]; split; [exact Hc|exact Hr]).
Qed.

Definition as_cert (v : cred -> bool) (c : cred) : Acl_Model.role_cert := Acl_Model.mk_rc (od (c_role c)) (od (c_auth c)) (v c).
Lemma walk_perms v acl r dcr pub l : forall acc, Acl_Model.pki_perms (map (as_cert v) (walk v l)) acl acc r dcr pub = Acl_Model.pki_perms (map (as_cert v) l) acl acc r dcr pub.
Proof.
  induction l as [|c t IH]; intros acc; [reflexivity|]. cbn [walk map]. destruct (v c) eqn:C; cbn [negb].
  - destruct (list_eqb (od (c_role c)) (str "oic.role.owner")) eqn:O; [reflexivity|]. cbn [map Acl_Model.pki_perms]. cbn [as_cert Acl_Model.rc_valid Acl_Model.rc_role Acl_Model.rc_auth]. rewrite C, O. cbn [negb].
    destruct (Acl_Model.perms_of acl _ 0 r dcr pub) as [n|]; [apply IH|reflexivity].
  - rewrite IH. cbn [Acl_Model.pki_perms]. cbn [as_cert Acl_Model.rc_valid]. rewrite C. reflexivity.
Qed.
