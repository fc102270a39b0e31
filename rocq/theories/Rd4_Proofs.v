(** What is sent, and the answer to a publish request. *)
From Verif Require Import Common Rep_Model Repd_Model Coap_Model Buf_Model Disc_Spec Disc2_Proofs Rd_Model Rd_Spec Rd_Proofs Rd2_Proofs Rd3_Proofs.
From Coq Require Import String Permutation.
Notation rep := Rep_Model.rep.
Local Open Scope string_scope.
Local Open Scope list_scope.
Local Open Scope N_scope.

(** * The publish request *)

Lemma bm_bits p i : i < 8 -> N.testbit (bm_of p) i = N.testbit p i && negb (i =? 4) && negb (i =? 6).
Proof.
  intros H. unfold bm_of. change 256 with (2 ^ 8). rewrite N.mod_pow2_bits_low by exact H. rewrite N.ldiff_spec. rewrite <- andb_assoc. f_equal.
  assert (X : i = 0 \/ i = 1 \/ i = 2 \/ i = 3 \/ i = 4 \/ i = 5 \/ i = 6 \/ i = 7) by lia. destruct X as [->|[->|[->|[->|[->|[->|[->| ->]]]]]]]; reflexivity.
Qed.

Lemma encode_link_shows r z : shows r z (encode_link r z).
Proof.
  constructor; try reflexivity.
  - eexists. split; [reflexivity|apply encode_ifs_names].
  - eexists. exists (bm_of (r_props r)). split; [reflexivity|]. split; [reflexivity|]. split; [apply N.mod_lt; discriminate|apply bm_bits].
Qed.

Lemma encode_links_shows l : forall e, encode_links l = Some e -> Forall2 shows_link l e.
Proof.
  induction l as [|k l IH]; intros e H; cbn [encode_links] in H; [injection H as <-; constructor|]. destruct (k_res k) as [r|] eqn:K; [|discriminate]. destruct (encode_links l) as [x|]; [|discriminate]. injection H as <-. constructor; [|apply IH; reflexivity].
  exists r. split; [exact K|apply encode_link_shows].
Qed.

Lemma publish_encode_spec v l p : publish_encode v l = Some p -> publishes v l (MPublish p).
Proof.
  unfold publish_encode. destruct (encode_links l) as [e|] eqn:E; [|discriminate]. intros [= <-]. eexists. exists e. split; [reflexivity|]. split; [reflexivity|]. split; [reflexivity|]. split; [reflexivity|]. split; [reflexivity|apply encode_links_shows; exact E].
Qed.

Lemma rd_publish_spec v l m : rd_publish v l = Some m -> if v_post v then exists p, m = [p] /\ publishes v (to_publish v l) p else m = [].
Proof.
  intros H. assert (exists p, publish_encode v (to_publish v l) = Some p /\ m = if v_post v then [MPublish p] else []) as (p & P & ->).
  { destruct l as [|k t]; cbn [rd_publish to_publish] in *; [destruct (v_alloc v); [|discriminate]|]; destruct (publish_encode _ _) as [p|]; try discriminate; exists p; split; congruence. }
  destruct (v_post v); [|reflexivity]. eexists. split; [reflexivity|apply publish_encode_spec; exact P].
Qed.

Lemma cloud_publish_spec v s m : cloud_publish v s = Some m -> if v_rfnop v && s_in s && v_post v then exists p, m = [p] /\ publishes v (to_publish v (s_publish s)) p else m = [].
Proof.
  unfold cloud_publish. destruct (v_rfnop v); cbn [negb orb andb]; [|intros [= <-]; reflexivity]. destruct (s_in s); cbn [negb andb]; [|intros [= <-]; reflexivity]. apply rd_publish_spec.
Qed.

Lemma posts_one v l p : publishes v l p -> posts [p] = [p] /\ dels [p] = [].
Proof. intros (q & os & -> & _). split; reflexivity. Qed.
Lemma posts_app a b : posts (a ++ b) = posts a ++ posts b.
Proof. apply filter_app. Qed.
Lemma dels_app a b : dels (a ++ b) = dels a ++ dels b.
Proof. apply flat_map_app. Qed.
Lemma cloud_publish_posts v s m : cloud_publish v s = Some m -> posts m = m /\ dels m = [].
Proof.
  intros H. apply cloud_publish_spec in H. destruct (_ && v_post v); [|subst m; split; reflexivity]. destruct H as (p & -> & P). apply (posts_one _ _ _ P).
Qed.

Definition sends_list v s o s' m : Prop :=
  if publishing v s o && v_rfnop v && s_in s' && v_post v then exists p, posts m = [p] /\ publishes v (to_publish v (s_publish s')) p else posts m = [].

Theorem step_posts v s o s' m : inv s -> step v s o = Some (s', m) -> sends_list v s o s' m.
Proof.
  intros I. unfold sends_list. destruct o as [r|r|a b|a b| | |c p|i| |]; cbn [step publishing andb].
  - rewrite known_spec, existsb_rlist. destruct (existsb _ (links_of s)); [intros [= <- <-]; rewrite andb_false_r; reflexivity|]. rewrite (no_res_remove r (s_delete s)) by apply I. rewrite with_delete_same. rewrite andb_true_r. destruct (v_alloc v); [|intros [= <- <-]; reflexivity]. cbn [andb].
    destruct (cloud_publish _ _) as [x|] eqn:E; [|discriminate]. intros [= <- <-]. destruct (cloud_publish_posts _ _ _ E) as [P _]. rewrite P. apply cloud_publish_spec in E. exact E.
  - destruct (v_resets v); [intros [= <- <-]; reflexivity|]. destruct (find_res _ _) as [k|]; [|intros [= <- <-]; reflexivity]. intros H. apply cloud_delete_lists in H. destruct H as (n & _ & P). exact P.
  - destruct a; cbn [negb andb]; [|intros [= <- <-]; reflexivity]. destruct b; cbn [negb andb]; [intros [= <- <-]; reflexivity|]. set (s1 := mk_rd _ _ _ _ _ _).
    destruct (match s_publish s1 with [] => _ | _ => _ end) as [x|] eqn:E; [|discriminate]. destruct (cloud_delete_if v s1) as [[s2 m2]|] eqn:F; [|discriminate]. cbn [seq_msgs]. intros [= <- <-]. apply cloud_delete_if_lists in F. destruct F as (n & -> & F). rewrite posts_app, F, app_nil_r.
    change (s_publish s) with (s_publish s1). destruct (s_publish s1) as [|k t] eqn:P; [injection E as <-; reflexivity|]. cbn [empty negb andb]. destruct (cloud_publish_posts _ _ _ E) as [Q _]. rewrite Q. apply cloud_publish_spec in E. rewrite P in E. cbn [s_in s_publish with_delete with_timer]. rewrite P. exact E.
  - intros [= <- <-]. reflexivity.
  - destruct (s_timer s); [|intros [= <- <-]; reflexivity]. cbn [andb]. destruct (cloud_publish _ _) as [x|] eqn:E; [|discriminate]. intros [= <- <-]. destruct (cloud_publish_posts _ _ _ E) as [Q _]. rewrite Q. apply cloud_publish_spec in E. exact E.
  - destruct (cloud_publish _ _) as [x|] eqn:E; [|discriminate]. destruct (cloud_delete_if v _) as [[s2 m2]|] eqn:F; [|discriminate]. cbn [seq_msgs]. intros [= <- <-]. apply cloud_delete_if_lists in F. destruct F as (n & -> & F). rewrite posts_app, F, app_nil_r. destruct (cloud_publish_posts _ _ _ E) as [Q _]. rewrite Q. apply cloud_publish_spec in E. exact E.
  - destruct (publish_handler c p s) as [x|]; [|discriminate]. intros [= <- <-]. reflexivity.
  - destruct i; [intros [= <- <-]; reflexivity|]. intros H. apply cloud_delete_if_lists in H. destruct H as (n & _ & P). exact P.
  - intros [= <- <-]. reflexivity.
  - intros [= <- <-]. reflexivity.
Qed.

(** * The unpublish request *)

Lemma cloud_delete_spec v s s' m : env_ok v -> Forall (fun k => int64 (k_ins k)) (s_delete s) -> cloud_delete_if v s = Some (s', m) ->
  if v_rfnop v && s_in s && v_del v && negb (empty (s_delete s)) then exists n q, (0 < n)%nat /\ m = [MDelete q] /\ s' = with_delete s (skipn n (s_delete s)) /\ q = query (v_di v) (texts (firstn n (s_delete s))) /\
    asks v (map k_ins (firstn n (s_delete s))) q /\ ((n < List.length (s_delete s))%nat -> too_many v (map k_ins (firstn (S n) (s_delete s))))
  else m = [] /\ s' = s.
Proof.
  intros V I. unfold cloud_delete_if, cloud_delete. destruct (s_delete s) as [|k l] eqn:E; [intros [= <- <-]; rewrite andb_false_r; split; reflexivity|]. cbn [empty negb]. rewrite andb_true_r.
  destruct (v_rfnop v); cbn [negb orb andb]; [|intros [= <- <-]; split; reflexivity]. destruct (s_in s); cbn [negb andb]; [|intros [= <- <-]; split; reflexivity].
  destruct (rd_delete_spec v (k :: l) V ltac:(discriminate) I) as (n & H1 & H2 & H3 & ->). destruct (v_del v); [|intros [= <- <-]; split; reflexivity]. intros [= <- <-]. exists n. eexists. split; [lia|]. split; [reflexivity|]. split; [reflexivity|]. split; [reflexivity|]. split; [apply asks_query; exact H2|].
  intros X. apply too_many_query. apply H3. exact X.
Qed.

Definition unpublishes v s o s' m : Prop :=
  let queue := map k_ins (s_delete s) ++ dropped v s o in
  if unpublishing v s o && v_rfnop v && s_in s' && v_del v && negb (empty queue)
  then exists sent q, dels m = [q] /\ sent <> [] /\ queue = sent ++ map k_ins (s_delete s') /\ asks v sent q /\
         forall i rest, map k_ins (s_delete s') = i :: rest -> too_many v (sent ++ [i])
  else dels m = [] /\ map k_ins (s_delete s') = queue.

Lemma empty_map {A B} (f : A -> B) l : empty (map f l) = empty l.
Proof. destruct l; reflexivity. Qed.

(** From the state the lists have just before. *)
Lemma unpublishes_of v s1 s' m : env_ok v -> Forall (fun k => int64 (k_ins k)) (s_delete s1) -> cloud_delete_if v s1 = Some (s', m) ->
  s_in s' = s_in s1 /\ if v_rfnop v && s_in s1 && v_del v && negb (empty (map k_ins (s_delete s1)))
  then exists sent q, dels m = [q] /\ sent <> [] /\ map k_ins (s_delete s1) = sent ++ map k_ins (s_delete s') /\ asks v sent q /\
         forall i rest, map k_ins (s_delete s') = i :: rest -> too_many v (sent ++ [i])
  else dels m = [] /\ map k_ins (s_delete s') = map k_ins (s_delete s1).
Proof.
  intros V I E. pose proof (cloud_delete_spec v s1 s' m V I E) as H. rewrite empty_map. destruct (_ && negb (empty (s_delete s1))) eqn:B; [|destruct H as [-> ->]; split; [reflexivity|split; reflexivity]].
  destruct H as (n & q & N & -> & -> & _ & A & T). split; [reflexivity|]. cbn [s_delete with_delete]. exists (map k_ins (firstn n (s_delete s1))), q. split; [reflexivity|].
  apply andb_true_iff in B. destruct B as [_ B]. split; [destruct (s_delete s1), n; try discriminate; lia|]. split; [rewrite <- map_app, firstn_skipn; reflexivity|]. split; [exact A|].
  intros i rest X. assert (L : (n < List.length (s_delete s1))%nat). { destruct (Nat.lt_ge_cases n (List.length (s_delete s1))) as [L|L]; [exact L|]. rewrite skipn_all2 in X by exact L. discriminate. }
  specialize (T L). replace (map k_ins (firstn n (s_delete s1)) ++ [i]) with (map k_ins (firstn (S n) (s_delete s1))); [exact T|]. clear - X. revert n X. induction (s_delete s1) as [|k l IH]; intros n X; [rewrite skipn_nil in X; discriminate|]. destruct n as [|n]; [cbn in X |- *; congruence|]. cbn [firstn map app skipn] in *. f_equal. apply (IH n X).
Qed.

Lemma dropped_find r s : NoDup (rids (rlist (s_published s))) ->
  match filter (fun k => match k_res k with Some x => same r x | None => false end) (s_published s) with [] => [] | k :: _ => [k_ins k] end = match find_res r (s_published s) with Some k => [k_ins k] | None => [] end
  /\ existsb (fun k => match k_res k with Some x => same r x | None => false end) (s_published s) = match find_res r (s_published s) with Some _ => true | None => false end.
Proof.
  intros _. unfold find_res. induction (s_published s) as [|k l [IH1 IH2]]; [split; reflexivity|]. cbn [filter find existsb]. change (of_res r k) with (match k_res k with Some x => same r x | None => false end). destruct (k_res k) as [x|]; [|cbn [orb]; split; assumption]. destruct (same r x); cbn [orb]; split; try reflexivity; assumption.
Qed.

Theorem step_dels v s o s' m : inv s -> ints s -> env_ok v -> o <> Reset_ -> o <> Deinit -> step v s o = Some (s', m) -> unpublishes v s o s' m.
Proof.
  intros I (IA & IB & IC) V N1 N2. unfold unpublishes. cbv zeta. destruct o as [r|r|a b|a b| | |c p|i| |]; cbn [step unpublishing dropped andb]; rewrite ?app_nil_r.
  - destruct (match find_res r (s_publish s) with Some _ => _ | None => _ end); [intros [= <- <-]; split; reflexivity|]. rewrite (no_res_remove r (s_delete s)) by apply I. rewrite with_delete_same. destruct (v_alloc v); [|intros [= <- <-]; split; reflexivity].
    destruct (cloud_publish _ _) as [x|] eqn:E; [|discriminate]. intros [= <- <-]. destruct (cloud_publish_posts _ _ _ E) as [_ P]. split; [exact P|reflexivity].
  - cbn [s_published s_delete with_publish with_published]. rewrite (no_res_remove r (s_delete s)) by apply I. destruct (dropped_find r s (proj2 (inv_lists s I))) as [-> ->]. destruct (v_resets v); [intros [= <- <-]; cbn [negb andb]; rewrite app_nil_r; split; reflexivity|]. cbn [negb andb].
    destruct (find_res r (s_published s)) as [k|] eqn:F; [|intros [= <- <-]; rewrite app_nil_r; split; reflexivity]. cbn [andb]. set (s1 := with_delete _ _). intros E.
    assert (E' : cloud_delete_if v s1 = Some (s', m)). { unfold cloud_delete_if. destruct (s_delete s1) eqn:D; [unfold s1 in D; cbn in D; destruct (s_delete s); discriminate|exact E]. }
    assert (IC' : Forall (fun k => int64 (k_ins k)) (s_delete s1)). { unfold s1. cbn [s_delete with_delete with_published with_publish]. apply Forall_app. split; [exact IC|]. constructor; [|constructor]. apply find_some in F. destruct F as [F _]. rewrite Forall_forall in IB. apply (IB k F). }
    destruct (unpublishes_of v s1 s' m V IC' E') as [X Y]. rewrite X. replace (map k_ins (s_delete s) ++ [k_ins k]) with (map k_ins (s_delete s1)) by (unfold s1; cbn [s_delete with_delete with_published with_publish]; rewrite map_app; reflexivity). exact Y.
  - destruct a; cbn [negb andb]; [|intros [= <- <-]; split; reflexivity]. destruct b; cbn [negb andb]; [intros [= <- <-]; split; reflexivity|]. set (s1 := mk_rd _ _ _ _ _ _).
    destruct (match s_publish s1 with [] => _ | _ => _ end) as [x|] eqn:E; [|discriminate]. destruct (cloud_delete_if v s1) as [[s2 m2]|] eqn:F; [|discriminate]. cbn [seq_msgs]. intros [= <- <-].
    destruct (unpublishes_of v s1 s2 m2 V IC F) as [X Y]. cbn [s_in with_timer s_delete]. rewrite X. rewrite dels_app. replace (dels x) with (@nil (list N)); [exact Y|]. symmetry. destruct (s_publish s1); [injection E as <-; reflexivity|]. apply (cloud_publish_posts _ _ _ E).
  - intros [= <- <-]. split; reflexivity.
  - destruct (s_timer s); [|intros [= <- <-]; split; reflexivity]. destruct (cloud_publish _ _) as [x|] eqn:E; [|discriminate]. intros [= <- <-]. destruct (cloud_publish_posts _ _ _ E) as [_ P]. split; [exact P|reflexivity].
  - destruct (cloud_publish _ _) as [x|] eqn:E; [|discriminate]. destruct (cloud_delete_if v _) as [[s2 m2]|] eqn:F; [|discriminate]. cbn [seq_msgs]. intros [= <- <-]. destruct (cloud_publish_posts _ _ _ E) as [_ P]. rewrite dels_app, P. cbn [app].
    destruct (unpublishes_of v (move s) s2 m2 V IC F) as [X Y]. rewrite X. exact Y.
  - destruct (publish_handler c p s) as [x|] eqn:E; [|discriminate]. intros [= <- <-]. split; [reflexivity|]. unfold publish_handler in E. destruct (_ || _); [injection E as <-; reflexivity|]. destruct (get_oa _ _) as [l|]; [|injection E as <-; reflexivity]. destruct (answer_inv l s I) as (y & Y & _ & _ & D & _). rewrite Y in E. injection E as <-. rewrite D. reflexivity.
  - destruct i; [intros [= <- <-]; split; reflexivity|]. cbn [negb andb]. intros E. destruct (unpublishes_of v s s' m V IC E) as [X Y]. rewrite X. exact Y.
  - contradiction.
  - contradiction.
Qed.
