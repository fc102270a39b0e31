(** C90, C91: roles that clients assert. *)
From Verif Require Import Common Rep_Model Ob_Model Cred_Model Cred_Spec Rol_Model Rol_Spec Rol_Proofs Rol2_Proofs Rol3_Proofs.
From Verif Require Acl_Model.
From Coq Require Import String Lia.
Local Open Scope string_scope.
Local Open Scope list_scope.
Local Open Scope N_scope.

(** Two devices with the trust anchor 9; a certificate is for the role of its first byte and the key of the others. *)
Definition f0 (d : nat) : cs := mk_cs [mk_cred 0 1 CERT TRUSTCA (repeat 1 16) (mk_cd None 0) (mk_cd (Some [9]) E_PEM) None None None false None] (repeat 2 16) [] 5.
Definition env0 : cenv :=
  mk_ce (fun p => Some (skipn 1 p))
        (fun an p => if existsb (list_eqb [9]) an then Some (match p with 1 :: _ => str "oic.role.owner" | 2 :: _ => str "oic.role.other" | _ => str "guest" end, []) else None)
        (fun _ _ => None) (fun _ _ => false) (Some (repeat 3 16)) [8; 10; 12; 14] (fun _ => true) true 3.
Definition obj (i : Z) (pub : list N) : list rep :=
  [(str "credid", RInt i); (str "credtype", RInt 8); (str "credusage", RStr (str "oic.sec.cred.rolecert"));
   (str "publicdata", RObj [(str "encoding", RStr (str "oic.sec.encoding.pem")); (str "data", RStr pub)])].
Definition cn0 (p : list N) : option (list N) := Some (uuid_str (repeat 7 16)).
Definition assert_ (p : nat) (l : list (list rep)) : op := Post (Session p) env0 cn0 [(str "roles", RObjArr l)].
(** A session of the client 7 with the key 5. *)
Definition s5 (dev : nat) : ses := mk_ses dev [5] (repeat 7 16).
Definition summary (t : option st) (p : nat) : option (list (Z * option (list N))) := match t with Some s => Some (map (fun c => (c_id c, c_role c)) (roles_of s p)) | None => None end.

(** C90: a role that counts for a session was asserted by a request of that session, with a certificate that the session was verified for
    and that the trust anchors of its device vouched for then; the session has been open since, and nothing has taken its roles away. *)
Theorem C90_origin : forall f ops t p c, reachable f ops t -> In c (roles_of t p) ->
  exists pre E cn l post t0 s x, ops = pre ++ Post (Session p) E cn l :: post /\ reachable f pre t0 /\ is_open t0 p s /\ is_open t p s /\
    Forall (fun o => ~ ends p s o) post /\ in_request x l /\ vouched s E cn (anchors (s_creds (t_dev t0 (ss_dev s)))) x c.
Proof. intros f ops t p c. apply origin. Qed.
Print Assumptions C90_origin.
Example C90_origin_ex : summary (run (start f0) [Open 3 (s5 0); Open 4 (s5 1); assert_ 3 [obj 7 [1; 5]; obj (-1) [4; 5]]; assert_ 4 [obj 7 [4; 5]]; Get (Session 3)]) 3 =
  Some [(7%Z, Some (str "oic.role.owner")); (4%Z, Some (str "guest"))].
Proof. vm_compute. reflexivity. Qed.
(** Refused: the session is not verified for it, a reserved role, no trust anchor, no session. *)
Example C90_origin_ex2 : summary (run (start f0) [Open 3 (s5 0); assert_ 3 [obj 7 [1; 0]]; Post (Session 3) env0 (fun _ => None) [(str "roles", RObjArr [obj 7 [1; 5]])]; assert_ 3 [obj 7 [2; 5]]; assert_ 9 [obj 7 [1; 5]]; Creds 0 env0 Default; assert_ 3 [obj 7 [1; 5]]]) 3 = Some [].
Proof. vm_compute. reflexivity. Qed.

(** A session without a certificate, as one with a pre-shared key, need not have the key of the role certificate. *)
Theorem C90_key_refuted : exists x ops t, x = mk_ses 0 [] (repeat 7 16) /\ ops = [Open 3 x; assert_ 3 [obj 7 [1; 6; 6]]] /\ run (start f0) ops = Some t /\
  summary (Some t) 3 = Some [(7%Z, Some (str "oic.role.owner"))] /\ ce_key env0 [1; 6; 6] = Some [6; 6] /\ ~ has_key x [6; 6].
Proof.
  eexists _, _, _. split; [reflexivity|]. split; [reflexivity|]. split; [vm_compute; reflexivity|]. split; [vm_compute; reflexivity|]. split; [reflexivity|].
  intros [d E]. cbn [ss_key] in E. destruct d; discriminate E.
Qed.
Print Assumptions C90_key_refuted.
(** A certificate with a key longer than that of the session makes the comparison read before the key of the session. *)
Theorem C90_overread_refuted : exists x ops, x = s5 0 /\ ops = [Open 3 x; assert_ 3 [obj 7 [1; 6; 6]]] /\ verify (Some x) cn0 [6; 6] [1; 6; 6] = VUB /\ run (start f0) ops = None.
Proof. eexists _, _. split; [reflexivity|]. split; [reflexivity|]. split; vm_compute; reflexivity. Qed.
Print Assumptions C90_overread_refuted.

(** C90: what other sessions, other devices and requests without a session do leaves the roles of a session as they are. *)
Theorem C90_apart : forall f ops t o t' a p, reachable f ops t -> step t o = Some (t', a) -> (forall dev, is_open t p dev -> ~ concerns p dev o) -> roles_of t' p = roles_of t p.
Proof.
  intros f ops t o t' a p R S N. destruct (proj1 (step_roles _ _ _ _ p (reach_inv _ _ _ R) S)) as [H|[dev [O C]]]; [exact H|]. exfalso. exact (N dev O C).
Qed.
Print Assumptions C90_apart.
Example C90_apart_ex :
  let t := run (start f0) [Open 3 (s5 0); Open 4 (s5 0); Open 5 (s5 1); assert_ 3 [obj 7 [1; 5]]] in
  let t' := run (start f0) [Open 3 (s5 0); Open 4 (s5 0); Open 5 (s5 1); assert_ 3 [obj 7 [1; 5]]; assert_ 4 [obj 7 [4; 5]]; Delete (Session 4) (Some 7%Z); Delete (Session 5) None; Close 4; Factory 1; Post (Plain 0) env0 cn0 [(str "roles", RObjArr [obj 8 [1; 5]])]; Access 5 (fun _ => false)] in
  summary t 3 = Some [(7%Z, Some (str "oic.role.owner"))] /\ summary t' 3 = summary t 3.
Proof. vm_compute. split; reflexivity. Qed.

(** C90: the end of the session, a request to delete all, and the reset of the device leave no role. *)
Theorem C90_gone : forall f ops t o t' a p dev, reachable f ops t -> is_open t p dev -> ends p dev o -> step t o = Some (t', a) -> roles_of t' p = [].
Proof.
  intros f ops t o t' a p dev R O N S. destruct (roles_of t' p) as [|c k] eqn:Q; [reflexivity|]. exfalso.
  assert (I : In c (roles_of t' p)) by (rewrite Q; left; reflexivity).
  destruct (proj2 (step_roles _ _ _ _ p (reach_inv _ _ _ R) S) c I) as [[_ H]|[E [cn [l [d [x [-> _]]]]]]]; [exact (H dev O N)|exact N].
Qed.
Print Assumptions C90_gone.
(** C90: and a session that is not open, or that has just been opened at an address that was in use before, has none. *)
Theorem C90_fresh : forall f ops t p, reachable f ops t -> (forall dev, ~ is_open t p dev) ->
  roles_of t p = [] /\ forall dev t' a, step t (Open p dev) = Some (t', a) -> is_open t' p dev /\ roles_of t' p = [].
Proof.
  intros f ops t p R N. pose proof (reach_inv _ _ _ R) as V. pose proof (closed_none _ _ V N) as Z. split; [exact Z|]. intros dev t' a S. cbn [step] in S.
  destruct (session t p) as [d|] eqn:Q; [exfalso; exact (N d (session_some _ _ _ Q))|]. injection S as <- <-. split; [|exact Z].
  unfold is_open. cbn [t_open]. apply in_app_iff. right. left. reflexivity.
Qed.
Print Assumptions C90_fresh.
Example C90_gone_ex :
  summary (run (start f0) [Open 3 (s5 0); assert_ 3 [obj 7 [1; 5]]; Close 3; Open 3 (s5 1)]) 3 = Some [] /\
  summary (run (start f0) [Open 3 (s5 0); assert_ 3 [obj 7 [1; 5]]; Factory 0]) 3 = Some [] /\
  summary (run (start f0) [Open 3 (s5 0); assert_ 3 [obj 7 [1; 5]]; Delete (Session 3) None]) 3 = Some [].
Proof. vm_compute. split; [reflexivity|split; reflexivity]. Qed.

(** C91: the credential ids of the roles of a session are different, and none is the invalid one. *)
Theorem C91_ids : forall f ops t p, reachable f ops t -> NoDup (ids (roles_of t p)) /\ ~ In (-1)%Z (ids (roles_of t p)).
Proof. intros f ops t p R. exact (in_ids _ (reach_inv _ _ _ R) p). Qed.
Print Assumptions C91_ids.
Example C91_ids_ex : summary (run (start f0) [Open 3 (s5 0); assert_ 3 [obj 7 [1; 5]]; assert_ 3 [obj 7 [4; 5]]; assert_ 3 [obj 5 [6; 5]]]) 3 =
  Some [(7%Z, Some (str "oic.role.owner")); (4%Z, Some (str "guest")); (5%Z, Some (str "guest"))].
Proof. vm_compute. reflexivity. Qed.

(** C91: a certificate that the session is verified for and that the trust anchors vouch for is accepted, and its role counts. *)
Theorem C91_accepted : forall f ops t p s E cn x it key r a t' b, reachable f ops t -> is_open t p s -> parse_props false item0 x = Some it ->
  i_type it = CERT -> i_usage it = ROLECERT -> i_sid it = None -> i_rid it = None -> i_priv it = mk_sd None 0 -> sd_enc (i_pub it) = E_PEM ->
  ce_key E (od (sd_data (i_pub it))) = Some key -> (ss_key s = [] \/ ss_key s = key) -> named s cn (od (sd_data (i_pub it))) ->
  ce_role E (anchors (s_creds (t_dev t (ss_dev s)))) (od (sd_data (i_pub it))) = Some (r, a) -> allowed_role r -> (forall n, ce_alloc E n = true) ->
  step t (Post (Session p) E cn [(str "roles", RObjArr [x])]) = Some (t', b) ->
  b = Status true /\ exists c, In c (roles_of t' p) /\ od (cd_data (c_pub c)) = od (sd_data (i_pub it)) /\ (In c (roles_of t p) \/ c_role c = Some r /\ c_auth c = Some a).
Proof. intros f ops t p s E cn x it key r a t' b R. apply accepted. exact (reach_inv _ _ _ R). Qed.
Print Assumptions C91_accepted.
Example C91_accepted_ex : exists it, parse_props false item0 (obj 7 [1; 5]) = Some it /\ i_type it = CERT /\ i_usage it = ROLECERT /\ i_sid it = None /\ i_rid it = None /\
  i_priv it = mk_sd None 0 /\ sd_enc (i_pub it) = E_PEM /\ ce_key env0 (od (sd_data (i_pub it))) = Some (ss_key (s5 0)) /\
  ce_role env0 (anchors (s_creds (f0 0))) (od (sd_data (i_pub it))) = Some (str "oic.role.owner", []).
Proof. eexists. split; [vm_compute; reflexivity|]. vm_compute. do 7 (split; [reflexivity|]). reflexivity. Qed.

(** C91: GET tells a session its own roles, in order, and nothing to a request without a session. *)
Theorem C91_told : forall t w t' l, step t (Get w) = Some (t', Told l) ->
  t' = t /\ exists objs, l = [(str "roles", RObjArr objs)] /\ Forall2 describes (match w with Session p => roles_of t p | Plain _ => [] end) objs.
Proof. exact told_spec. Qed.
Print Assumptions C91_told.
Example C91_told_ex : exists t, run (start f0) [Open 3 (s5 0); Open 4 (s5 0); assert_ 3 [obj 7 [1; 5]]; assert_ 4 [obj 2 [4; 5]]] = Some t /\
  step t (Get (Session 3)) = Some (t, Told [(str "roles", RObjArr [[(str "credid", RInt 7); (str "credtype", RInt 8);
    (str "publicdata", RObj [(str "data", RStr [1; 5]); (str "encoding", RStr (str "oic.sec.encoding.pem"))])]])]) /\
  step t (Get (Plain 0)) = Some (t, Told [(str "roles", RObjArr [])]).
Proof. eexists. split; [vm_compute; reflexivity|]. split; vm_compute; reflexivity. Qed.
(** The usage of the credential, which every role must be posted with, is never told: it is not stored. *)
Theorem C91_usage_refuted : exists ops t objs, ops = [Open 3 (s5 0); assert_ 3 [obj 7 [1; 5]]] /\ run (start f0) ops = Some t /\
  step t (Get (Session 3)) = Some (t, Told [(str "roles", RObjArr objs)]) /\ objs <> [] /\ forall o v, In o objs -> ~ In (str "credusage", v) o.
Proof.
  eexists _, _, _. split; [reflexivity|]. split; [vm_compute; reflexivity|]. split; [vm_compute; reflexivity|]. split; [discriminate|].
  intros o v [<-|[]] I. destruct I as [I|[I|[I|[]]]]; discriminate I.
Qed.
Print Assumptions C91_usage_refuted.

(** C91: DELETE with the id of a role of the session takes exactly that one away. *)
Theorem C91_delete_one : forall f ops t p dev c t' a, reachable f ops t -> is_open t p dev -> In c (roles_of t p) -> (0 <= c_id c <= 2147483647)%Z ->
  step t (Delete (Session p) (Some (c_id c))) = Some (t', a) -> a = Status true /\ roles_of t' p = filter (fun d => negb (c_id d =? c_id c)%Z) (roles_of t p).
Proof. intros f ops t p dev c t' a R. apply delete_one. exact (reach_inv _ _ _ R). Qed.
Print Assumptions C91_delete_one.
(** C91: with an id that the session has no role with, although another may have, it is refused and changes nothing. *)
Theorem C91_delete_unknown : forall f ops t p dev n t' a, reachable f ops t -> is_open t p dev -> ~ In n (ids (roles_of t p)) ->
  step t (Delete (Session p) (Some n)) = Some (t', a) -> a = Status false /\ t' = t.
Proof. intros f ops t p dev n t' a R. apply delete_unknown. exact (reach_inv _ _ _ R). Qed.
Print Assumptions C91_delete_unknown.
(** C91: without a session nothing is deleted. *)
Theorem C91_delete_plain : forall t dev q t' a, step t (Delete (Plain dev) q) = Some (t', a) -> a = Status false /\ t' = t.
Proof. intros t dev q t' a H. cbn [step device_of client_of] in H. injection H as <- <-. split; reflexivity. Qed.
Print Assumptions C91_delete_plain.
Example C91_delete_ex : exists t, run (start f0) [Open 3 (s5 0); Open 4 (s5 0); assert_ 3 [obj 7 [1; 5]; obj 8 [4; 5]]; assert_ 4 [obj 2 [4; 5]]] = Some t /\
  summary (run t [Delete (Session 3) (Some 7%Z)]) 3 = Some [(8%Z, Some (str "guest"))] /\
  step t (Delete (Session 3) (Some 2%Z)) = Some (t, Status false) /\ step t (Delete (Plain 0) None) = Some (t, Status false).
Proof. eexists. split; [vm_compute; reflexivity|]. split; [vm_compute; reflexivity|]. split; vm_compute; reflexivity. Qed.
(** A role that was posted with a negative id cannot be deleted by its id. *)
Theorem C91_negative_refuted : exists ops t, ops = [Open 3 (s5 0); assert_ 3 [obj (-5) [1; 5]]] /\ run (start f0) ops = Some t /\
  summary (Some t) 3 = Some [((-5)%Z, Some (str "oic.role.owner"))] /\ step t (Delete (Session 3) (Some (-5)%Z)) = Some (t, Status false).
Proof. eexists _, _. split; [reflexivity|]. split; [vm_compute; reflexivity|]. split; vm_compute; reflexivity. Qed.
Print Assumptions C91_negative_refuted.

(** C91: when access is checked the roles whose certificates no longer validate go away for good; the check ends at a valid role of the
    owner, and the roles behind it stay. *)
Theorem C91_expired : forall f ops t p dev v t' a, reachable f ops t -> is_open t p dev -> step t (Access p v) = Some (t', a) ->
  forall c, In c (roles_of t' p) <->
    In c (roles_of t p) /\ (v c = true \/ exists l1 o l2, roles_of t p = l1 ++ o :: l2 /\ v o = true /\ od (c_role o) = str "oic.role.owner" /\ In c l2).
Proof. intros f ops t p dev v t' a R. apply access_spec. exact (reach_inv _ _ _ R). Qed.
Print Assumptions C91_expired.
Example C91_expired_ex : summary (run (start f0) [Open 3 (s5 0); assert_ 3 [obj 6 [4; 5]; obj 7 [1; 5]; obj 8 [6; 5]]; Access 3 (fun c => (c_id c =? 7)%Z)]) 3 =
  Some [(7%Z, Some (str "oic.role.owner")); (8%Z, Some (str "guest"))].
Proof. vm_compute. reflexivity. Qed.

(** C91: dropping roles does not change what the session is permitted. *)
Theorem C91_decision : forall f ops t p dev v t' a d ep doc r dcr pub, reachable f ops t -> is_open t p dev -> step t (Access p v) = Some (t', a) ->
  Acl_Model.peer_perms d ep (acl_peer doc false v t' p) r dcr pub = Acl_Model.peer_perms d ep (acl_peer doc false v t p) r dcr pub.
Proof.
  intros f ops t p dev v t' a d ep doc r dcr pub R O H. cbn [step] in H. rewrite (session_open _ _ _ (reach_inv _ _ _ R) O) in H. injection H as <- <-.
  unfold Acl_Model.peer_perms, acl_peer. cbn [Acl_Model.p_psk Acl_Model.p_roles with_clients t_clients]. rewrite get_set, Nat.eqb_refl. apply walk_perms.
Qed.
Print Assumptions C91_decision.
