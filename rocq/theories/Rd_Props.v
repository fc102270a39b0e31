(** The links of a device in the resource directory of its cloud: C75 - C78. *)
From Verif Require Import Common Rep_Model Repd_Model Coap_Model Rd_Model Rd_Spec Rd_Proofs Rd2_Proofs Rd3_Proofs Rd4_Proofs Rd5_Proofs Rd6_Proofs.
From Coq Require Import String Permutation.
Notation rep := Rep_Model.rep.
Local Open Scope string_scope.
Local Open Scope list_scope.
Local Open Scope N_scope.

(** * Examples *)

Definition x_cfg (hdr : N) : cfg := mkCfg true true true true true hdr.
Definition x_di : list N := str "12345678-1234-1234-1234-123456789012".
Definition x_p : res := mk_res 100 (str "/oic/p") [str "oic.wk.p"] 3 3.
Definition x_d : res := mk_res 101 (str "/oic/d") [str "oic.wk.d"] 3 3.
Definition x_env (hdr : N) (post alloc : bool) : renv := mk_renv (x_cfg hdr) true x_di (str "lamp") 0 x_p x_d true false post true alloc 7%Z.
Definition x_v : renv := x_env 123 true true.
Definition x_off : renv := mk_renv (x_cfg 123) true x_di (str "lamp") 0 x_p x_d false false true true true 7%Z.
Definition x_a : res := mk_res 1 (str "/light/1") [str "core.light"] 34 83.
Definition x_b : res := mk_res 2 (str "/light/2") [str "core.light"] 34 3.
Definition x_a2 : res := mk_res 3 (str "/light/1") [str "core.light"] 34 3.
(** Instances by URI. *)
Definition x_assign (u : list N) : Z := Z.of_N (fold_left (fun n c => (n * 256 + c) mod 65536) (skipn 7 u) 1).

Ltac di_plain := split; [reflexivity|split; [intros H; cbn in H; repeat (destruct H as [H|H]; [discriminate|]); exact H|vm_compute; discriminate]].
Lemma x_ok : env_ok x_v.
Proof. di_plain. Qed.

(** * C75 *)

Lemma k_res_map l : Forall has_res l -> map k_res l = map Some (rlist l).
Proof.
  induction 1 as [|k l H _ IH]; [reflexivity|]. change (k :: l) with ([k] ++ l). rewrite rlist_app, !map_app, IH. f_equal. unfold has_res in H. unfold rlist. cbn [map flat_map]. destruct (k_res k); [reflexivity|contradiction].
Qed.

Theorem C75_each_resource_has_one_link h s m : run start h = Some (s, m) ->
  Permutation (map k_res (links_of s)) (map Some (tracked h)) /\ NoDup (map r_id (tracked h)) /\ (forall k, In k (s_delete s) -> k_res k = None).
Proof.
  intros R. destruct (run_tracks h start [] s m inv_start (Permutation_refl _) R) as [I P]. fold (tracked h) in P. split; [|split].
  - rewrite k_res_map; [apply Permutation_map; exact P|]. apply Forall_app. split; apply I.
  - apply (Permutation_NoDup (l := rids (rlist (links_of s)))); [apply Permutation_map; exact P|apply I].
  - intros k H. pose proof (i_del _ I) as D. rewrite Forall_forall in D. apply (D k H).
Qed.
Print Assumptions C75_each_resource_has_one_link.
Example C75_case : exists s m, run start [(x_v, Add x_a); (x_v, Add x_b); (x_v, Add x_a); (x_v, Status true false); (x_v, Del x_b)] = Some (s, m) /\ map k_res (links_of s) = [Some x_a] /\ List.length m = 1%nat.
Proof. eexists. eexists. split; [vm_compute; reflexivity|split; reflexivity]. Qed.

Theorem C75_no_step_goes_wrong h : Forall good h -> exists s m, run start h = Some (s, m).
Proof. intros F. destruct (run_total h start inv_start) as (s & m & R & _); [repeat split; constructor|exact F|]. exists s, m. exact R. Qed.
Print Assumptions C75_no_step_goes_wrong.
Example C75_good_case : Forall good [(x_v, Add x_a); (x_v, Status true false); (x_v, Publish); (x_v, Published true (answer x_assign [])); (x_v, Deleted false)].
Proof.
  assert (G : forall o, match o with Published _ p => ints_ok p | _ => True end -> good (x_v, o)). { intros o O. split; [apply x_ok|]. split; [vm_compute; split; discriminate|]. destruct o; try reflexivity; exact O. }
  repeat (constructor; [apply G; try exact I|]); [|constructor]. intros os o i [= <-] [].
Qed.

(** Publishing with nothing to publish and no memory for two links: they are used without having been allocated. *)
Theorem C75_publish_without_memory_refuted : exists h, h = [(x_v, Quiet true false); (x_env 123 true false, Publish)] /\ run start h = None.
Proof. eexists. split; [reflexivity|vm_compute; reflexivity]. Qed.

(** * C76 *)

(** The list is sent exactly after these operations, when logged in and the device is in normal operation. *)
Theorem C76_publish_requests s v o s' m : reach s -> step v s o = Some (s', m) ->
  if publishing v s o && v_rfnop v && s_in s' && v_post v then exists p, posts m = [p] /\ publishes v (to_publish v (s_publish s')) p else posts m = [].
Proof. intros R. apply step_posts. apply reach_inv. exact R. Qed.
Print Assumptions C76_publish_requests.
Example C76_request_case : exists s m, run start [(x_v, Add x_a); (x_v, Add x_b); (x_v, Status true false)] = Some (s, m) /\
  exists p, m = [MPublish p] /\ hrefs p = [r_uri x_a; r_uri x_b] /\ get_oa p (str "links") = Some [
    [(str "href", RStr (str "/light/1")); (str "rt", RStrArr [str "core.light"]); (str "if", RStrArr [str "oic.if.rw"; str "oic.if.baseline"]); (str "rel", RStr (str "hosts")); (str "ins", RInt 7); (str "p", RObj [(str "bm", RInt 3)])];
    [(str "href", RStr (str "/light/2")); (str "rt", RStrArr [str "core.light"]); (str "if", RStrArr [str "oic.if.rw"; str "oic.if.baseline"]); (str "rel", RStr (str "hosts")); (str "ins", RInt 7); (str "p", RObj [(str "bm", RInt 3)])]].
Proof. eexists. eexists. split; [vm_compute; reflexivity|]. eexists. split; [reflexivity|]. split; vm_compute; reflexivity. Qed.

(** An answer moves exactly the links it names, with their instances. *)
Theorem C76_answer s v p l s' m : reach s -> s_in s = true -> NoDup (map uri_of (s_publish s)) -> get_oa p (str "links") = Some l -> step v s (Published true p) = Some (s', m) ->
  m = [] /\ s_publish s' = kept l (s_publish s) /\ Permutation (s_published s') (s_published s ++ moved l (s_publish s)) /\ s_delete s' = s_delete s.
Proof.
  intros R On ND G E. apply reach_inv in R. cbn [step] in E. unfold publish_handler in E. rewrite On, G in E. cbn [negb orb] in E. destruct (answer_inv l s R) as (y & Y & _ & _ & D & _). rewrite Y in E. injection E as <- <-. split; [reflexivity|].
  destruct (answer_lists l s y R ND Y) as [A B]. split; [exact A|]. split; [exact B|exact D].
Qed.
Print Assumptions C76_answer.
Theorem C76_other_answers v s c p : s_in s = false \/ c = false \/ get_oa p (str "links") = None -> step v s (Published c p) = Some (s, []).
Proof. cbn [step]. unfold publish_handler. intros [H|[H|H]]; rewrite H; [reflexivity|rewrite orb_true_r; reflexivity|]. destruct (_ || _); reflexivity. Qed.
Print Assumptions C76_other_answers.
Example C76_answer_case : exists s m s', run start [(x_v, Add x_a); (x_v, Add x_b); (x_v, Status true false)] = Some (s, m) /\ NoDup (map uri_of (s_publish s)) /\
  step x_v s (Published true [(str "links", RObjArr [[(str "href", RStr (str "/light/2")); (str "ins", RInt 55)]; [(str "href", RStr (str "/light/1"))]; [(str "href", RStr (str "/x")); (str "ins", RInt 5)]])]) = Some (s', []) /\
  s_publish s' = [mk_link (Some x_a) 7] /\ s_published s' = [mk_link (Some x_b) 55].
Proof.
  eexists. eexists. eexists. split; [vm_compute; reflexivity|]. split; [|split; [vm_compute; reflexivity|split; reflexivity]]. constructor; [intros [H|[]]; discriminate|]. constructor; [intros []|constructor].
Qed.

(** * C77 *)

(** The queue loses exactly the instances that are named in the request, as many as fit and at least one, from its front; the
    instance of a published resource that is deleted is put at its end. *)
Theorem C77_unpublish_requests h s m v o s' m' : Forall good h -> run start h = Some (s, m) -> good (v, o) -> o <> Reset_ -> o <> Deinit -> step v s o = Some (s', m') ->
  let queue := map k_ins (s_delete s) ++ dropped v s o in
  if unpublishing v s o && v_rfnop v && s_in s' && v_del v && negb (empty queue)
  then exists sent q, dels m' = [q] /\ sent <> [] /\ queue = sent ++ map k_ins (s_delete s') /\ asks v sent q /\
         forall i rest, map k_ins (s_delete s') = i :: rest -> too_many v (sent ++ [i])
  else dels m' = [] /\ map k_ins (s_delete s') = queue.
Proof.
  intros F R G N1 N2. destruct (run_total h start inv_start) as (x & y & R' & I & J); [repeat split; constructor|exact F|]. assert (x = s) by congruence. subst x. apply (step_dels v s o s' m' I J); [apply G|exact N1|exact N2].
Qed.
Print Assumptions C77_unpublish_requests.
Example C77_case : exists s c m s', exchanges 9 x_assign start [] [(x_v, Add x_a); (x_v, Add x_b); (x_v, Status true false); (x_v, Status false false); (x_v, Del x_b); (x_v, Del x_a)] = Some (s, c) /\
  map k_ins (s_delete s) = [x_assign (r_uri x_b); x_assign (r_uri x_a)] /\ step x_v s (Status true false) = Some (s', m) /\ dels m = [str "di=12345678-1234-1234-1234-123456789012&ins=306&ins=305"] /\ s_delete s' = [].
Proof. eexists. eexists. eexists. eexists. split; [vm_compute; reflexivity|]. split; [vm_compute; reflexivity|]. split; [vm_compute; reflexivity|]. split; reflexivity. Qed.

(** With a buffer that has no room for one instance the request names none, which unpublishes all. *)
Definition x_small : renv := x_env 64 true true.
Theorem C77_small_buffer_refuted : exists s s' m, s = mk_rd [] [mk_link (Some x_b) 8] [mk_link None 9] true false false /\ step x_small s (Deleted false) = Some (s', m) /\
  dels m = [str "di=12345678-1234-1234-1234-123456789012"] /\ s_delete s' = s_delete s /\ drop [(r_uri x_b, 8%Z); (r_uri x_a, 9%Z)] (str "di=12345678-1234-1234-1234-123456789012") = [].
Proof. eexists. eexists. eexists. split; [reflexivity|]. split; [vm_compute; reflexivity|]. split; [reflexivity|]. split; vm_compute; reflexivity. Qed.

(** * C78 *)

Section Session.
Variable assign : list N -> Z.
Hypothesis small : forall a, int64 (assign a).

(** In each session every link taken for published is in the cloud, and all else there is queued to be unpublished. *)
Theorem C78_covered h s c : session assign h s c -> covered s c.
Proof. apply session_covered; assumption. Qed.

(** Requests and answers come to an end. *)
Theorem C78_requests_end h s c v o : session assign h s c -> env_ok v -> int64 (v_rand v) -> allowed assign v s o ->
  exists s' c', exchange assign v s c o s' c' /\ forall s2 c2, exchange assign v s c o s2 c2 -> s2 = s' /\ c2 = c'.
Proof.
  intros S V R A. destruct (session_mid assign small h s c S) as [M _]. destruct (exchange_mid assign small v s c o V R M A) as (s' & c' & X & _). exists s', c'. split; [exact X|]. intros s2 c2 X2. apply (exchange_unique assign _ _ _ _ _ _ _ _ X2 X).
Qed.

(** After a login the cloud has exactly the resources of the application. *)
Theorem C78_login_converges h s c v s' c' : session assign h s c -> env_ok v -> int64 (v_rand v) -> v_rfnop v = true -> v_post v = true -> v_del v = true ->
  exchange assign v s c (Status true false) s' c' ->
  s_publish s' = [] /\ s_delete s' = [] /\ agrees s' c' /\ mirrors assign (h ++ [(v, Status true false)]) c'.
Proof.
  intros S V R X1 X2 X3 X. destruct (session_mid assign small h s c S) as [M _]. destruct (exchange_mid assign small v s c (Status true false) V R M I) as (s2 & c2 & Y & _ & C & _). destruct (exchange_unique assign _ _ _ _ _ _ _ _ X Y) as [-> ->].
  specialize (C eq_refl X1 X2 X3). pose proof (S_step assign h s c v (Status true false) s2 c2 S V R I Y) as S2. destruct (calm_mirrors assign small _ _ _ S2 C) as [A B]. destruct C as [C1 C2]. auto.
Qed.

(** And it stays so while requests get through. *)
Theorem C78_stays_converged h s c v o s' c' : session assign h s c -> s_publish s = [] -> s_delete s = [] -> env_ok v -> int64 (v_rand v) -> online v s -> allowed assign v s o ->
  match o with Add _ | Del _ | Hourly | Publish => True | _ => False end -> exchange assign v s c o s' c' ->
  s_publish s' = [] /\ s_delete s' = [] /\ agrees s' c' /\ mirrors assign (h ++ [(v, o)]) c'.
Proof.
  intros S C1 C2 V R On A O X. destruct (session_mid assign small h s c S) as [M _]. destruct (exchange_mid assign small v s c o V R M A) as (s2 & c2 & Y & _ & _ & C). destruct (exchange_unique assign _ _ _ _ _ _ _ _ X Y) as [-> ->].
  specialize (C (conj C1 C2) On O). pose proof (S_step assign h s c v o s2 c2 S V R A Y) as S2. destruct (calm_mirrors assign small _ _ _ S2 C) as [E F]. destruct C as [D1 D2]. auto.
Qed.
End Session.
Print Assumptions C78_covered.
Print Assumptions C78_requests_end.
Print Assumptions C78_login_converges.
Print Assumptions C78_stays_converged.

Example C78_case : exists s c, exchanges 9 x_assign start [] [(x_v, Add x_a); (x_v, Add x_b); (x_v, Status true false); (x_v, Status false false); (x_v, Del x_b); (x_v, Status true false); (x_v, Publish)] = Some (s, c) /\
  c = [(r_uri x_a, 305%Z)] /\ s_published s = [mk_link (Some x_a) 305] /\ s_publish s = [] /\ s_delete s = [].
Proof. eexists. eexists. split; [vm_compute; reflexivity|]. repeat split. Qed.

(** A resource deleted and added again while not logged in is lost in the cloud: it is published, then its old instance, which is
    the new one, is unpublished. *)
Theorem C78_added_again_offline_refuted : exists h s c, h = [(x_v, Add x_a); (x_v, Status true false); (x_v, Status false false); (x_v, Del x_a); (x_v, Add x_a2); (x_v, Status true false)] /\
  exchanges 9 x_assign start [] h = Some (s, c) /\ s_published s = [mk_link (Some x_a2) 305] /\ s_publish s = [] /\ s_delete s = [] /\ c = [].
Proof. eexists. eexists. eexists. split; [reflexivity|]. split; [vm_compute; reflexivity|]. repeat split. Qed.
(** A resource deleted before the answer to its publication stays in the cloud. *)
Theorem C78_deleted_before_answer_refuted : exists h s p, h = [(x_v, Status true false); (x_v, Add x_a); (x_v, Del x_a); (x_v, Published true (answer x_assign [(str "links", RObjArr [[(str "href", RStr (str "/light/1"))]])]))] /\
  run start h = Some (s, [MPublish p]) /\ hrefs p = [r_uri x_a] /\ links_of s = [] /\ s_delete s = [].
Proof. eexists. eexists. eexists. split; [reflexivity|]. split; [vm_compute; reflexivity|]. repeat split. Qed.
(** A published resource deleted after oc_cloud_publish_resources was called while not logged in stays in the cloud. *)
Theorem C78_deleted_after_publish_offline_refuted : exists h s c, h = [(x_v, Add x_a); (x_v, Status true false); (x_v, Status false false); (x_v, Publish); (x_v, Del x_a); (x_v, Status true false)] /\
  exchanges 9 x_assign start [] h = Some (s, c) /\ links_of s = [] /\ s_delete s = [] /\ c = [(r_uri x_a, 305%Z)].
Proof. eexists. eexists. eexists. split; [reflexivity|]. split; [vm_compute; reflexivity|]. repeat split. Qed.
(** Publishing nothing publishes two resources that the device does not take for published. *)
Theorem C78_nothing_to_publish_refuted : exists h s c, h = [(x_v, Status true false); (x_v, Publish)] /\ exchanges 9 x_assign start [] h = Some (s, c) /\ links_of s = [] /\ map fst c = [str "/oic/d"; str "/oic/p"].
Proof. eexists. eexists. eexists. split; [reflexivity|]. split; [vm_compute; reflexivity|]. repeat split. Qed.

(** The conditions of these theorems can be met. *)
Lemma x_assign_small u : int64 (x_assign u).
Proof.
  unfold x_assign. assert (B : forall l n, n < 65536 -> fold_left (fun n c => (n * 256 + c) mod 65536) l n < 65536). { induction l as [|c l IH]; intros n H; [exact H|]. cbn [fold_left]. apply IH. apply N.mod_lt. discriminate. }
  specialize (B (skipn 7 u) 1 ltac:(reflexivity)). unfold int64. lia.
Qed.
Example C78_session : exists s c, session x_assign [(x_v, Add x_a); (x_v, Status true false); (x_v, Add x_b); (x_v, Del x_a)] s c /\ c = [(r_uri x_b, 306%Z)] /\ s_published s = [mk_link (Some x_b) 306] /\ online x_v s.
Proof.
  assert (R : int64 (v_rand x_v)) by (vm_compute; split; discriminate). eexists. eexists. split.
  - change [(x_v, Add x_a); (x_v, Status true false); (x_v, Add x_b); (x_v, Del x_a)] with (((([] ++ [(x_v, Add x_a)]) ++ [(x_v, Status true false)]) ++ [(x_v, Add x_b)]) ++ [(x_v, Del x_a)]).
    eapply S_step; [eapply S_step; [eapply S_step; [eapply S_step; [apply S_start|apply x_ok|exact R| |exists 9%nat; vm_compute; reflexivity]|apply x_ok|exact R|exact I|exists 9%nat; vm_compute; reflexivity]|apply x_ok|exact R| |exists 9%nat; vm_compute; reflexivity]|apply x_ok|exact R|reflexivity|exists 9%nat; vm_compute; reflexivity].
    + split; [intros k x []|intros []].
    + split; [|intros []]. intros k x [<-|[]] [= <-] H. vm_compute in H. discriminate.
  - repeat split.
Qed.
