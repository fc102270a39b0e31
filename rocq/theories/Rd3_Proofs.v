(** What a step does to the lists, and what it sends. *)
From Verif Require Import Common Rep_Model Repd_Model Coap_Model Buf_Model Disc_Spec Disc2_Proofs Rd_Model Rd_Spec Rd_Proofs Rd2_Proofs.
From Coq Require Import String Permutation.
Notation rep := Rep_Model.rep.
Local Open Scope string_scope.
Local Open Scope list_scope.
Local Open Scope N_scope.

Lemma with_delete_same s : with_delete s (s_delete s) = s.
Proof. destruct s; reflexivity. Qed.

Lemma cloud_delete_lists v s s' m : cloud_delete v s = Some (s', m) -> exists n, s' = with_delete s (skipn n (s_delete s)) /\ posts m = [].
Proof.
  unfold cloud_delete. destruct (s_delete s) as [|k l] eqn:E; [discriminate|]. destruct (_ || _); [intros [= <- <-]; exists 0%nat; cbn [skipn]; rewrite <- E, with_delete_same; split; reflexivity|].
  unfold rd_delete, delete_single. destruct (prepare _ _) as [b|]; [|intros [= <- <-]; exists 0%nat; cbn [skipn]; rewrite <- E, with_delete_same; split; reflexivity].
  destruct (fill _ _ _ _ _) as [[q n]|]; [|discriminate]. destruct (v_del v); [|intros [= <- <-]; exists 0%nat; cbn [skipn]; rewrite <- E, with_delete_same; split; reflexivity].
  destruct n as [|n]; intros [= <- <-]; [exists 0%nat; cbn [skipn]; rewrite <- E, with_delete_same; split; reflexivity|exists (S n); split; reflexivity].
Qed.
Lemma cloud_delete_if_lists v s s' m : cloud_delete_if v s = Some (s', m) -> exists n, s' = with_delete s (skipn n (s_delete s)) /\ posts m = [].
Proof.
  unfold cloud_delete_if. destruct (s_delete s) as [|k l] eqn:E; [intros [= <- <-]; exists 0%nat; cbn [skipn]; rewrite <- E, with_delete_same; split; reflexivity|]. rewrite <- E. apply cloud_delete_lists.
Qed.

Lemma inv_delete s n : inv s -> inv (with_delete s (skipn n (s_delete s))).
Proof.
  intros [A B C D]. constructor; cbn [s_publish s_published s_delete with_delete]; [exact A|exact B| |exact D]. apply Forall_forall. rewrite Forall_forall in C. intros k H. apply C. rewrite <- (firstn_skipn n (s_delete s)). apply in_or_app. right. exact H.
Qed.

Lemma perm_filter (f : res -> bool) a b : Permutation a b -> Permutation (filter f a) (filter f b).
Proof. induction 1 as [|x a b H IH|x y l|a b c H1 IH1 H2 IH2]; cbn [filter]; [constructor|destruct (f x); [constructor|]; exact IH|destruct (f x), (f y); try reflexivity; apply perm_swap|transitivity (filter f b); assumption]. Qed.
Lemma perm_existsb (f : res -> bool) a b : Permutation a b -> existsb f a = existsb f b.
Proof. induction 1 as [|x a b H IH|x y l|a b c H1 IH1 H2 IH2]; cbn [existsb]; [reflexivity|rewrite IH; reflexivity|destruct (f x), (f y); reflexivity|congruence]. Qed.

Lemma existsb_false {A} (f : A -> bool) l : existsb f l = false <-> forall x, In x l -> f x = false.
Proof.
  induction l as [|y l IH]; [split; [intros _ x []|reflexivity]|]. cbn [existsb]. rewrite orb_false_iff, IH. split; [intros [U V] x [<-|H]; auto|intros H; split; [apply H; left; reflexivity|intros x X; apply H; right; exact X]].
Qed.

(** Whether a resource is in one of the lists. *)
Lemma known_spec r s : match find_res r (s_publish s), find_res r (s_published s) with None, None => false | _, _ => true end = existsb (same r) (rlist (links_of s)).
Proof.
  unfold links_of. rewrite rlist_app, existsb_app. destruct (find_res r (s_publish s)) as [k|] eqn:E.
  - symmetry. apply orb_true_iff. left. apply not_false_iff_true. intros X. rewrite existsb_false in X. apply (proj2 (find_res_none _ _)) in X. congruence.
  - rewrite find_res_none in E. rewrite <- existsb_false in E. rewrite E. cbn [orb]. destruct (find_res r (s_published s)) as [k|] eqn:F.
    + symmetry. apply not_false_iff_true. intros X. rewrite existsb_false in X. apply (proj2 (find_res_none _ _)) in X. congruence.
    + rewrite find_res_none in F. rewrite <- existsb_false in F. rewrite F. reflexivity.
Qed.
Lemma existsb_rlist r l : existsb (same r) (rlist l) = existsb (fun k => match k_res k with Some x => same r x | None => false end) l.
Proof. induction l as [|k l IH]; [reflexivity|]. change (rlist (k :: l)) with (rlist ([k] ++ l)). rewrite rlist_app, existsb_app, IH. cbn [existsb]. unfold rlist. cbn [flat_map]. destruct (k_res k); cbn [existsb app]; [rewrite orb_false_r|]; reflexivity. Qed.

Lemma no_res_remove r l : Forall no_res l -> remove_first (of_res r) l = l.
Proof. intros H. apply remove_first_none. intros k Hk. rewrite Forall_forall in H. specialize (H k Hk). unfold of_res. unfold no_res in H. rewrite H. reflexivity. Qed.

Lemma inv_add s r z : inv s -> existsb (same r) (rlist (links_of s)) = false -> inv (with_publish s (s_publish s ++ [mk_link (Some r) z])) /\ Permutation (rlist (links_of (with_publish s (s_publish s ++ [mk_link (Some r) z])))) (rlist (links_of s) ++ [r]).
Proof.
  intros [A B C D] E. assert (P : Permutation (rlist (links_of (with_publish s (s_publish s ++ [mk_link (Some r) z])))) (rlist (links_of s) ++ [r])).
  { unfold links_of. cbn [s_publish s_published with_publish]. rewrite !rlist_app. replace (rlist [mk_link (Some r) z]) with [r] by reflexivity. rewrite <- !app_assoc. apply Permutation_app_head. apply Permutation_app_comm. }
  split; [|exact P]. constructor; cbn [s_publish s_published s_delete with_publish]; [apply Forall_app; split; [exact A|constructor; [discriminate|constructor]]|exact B|exact C|].
  eapply Permutation_NoDup; [apply Permutation_map; symmetry; exact P|]. rewrite existsb_false in E. unfold rids in *. rewrite map_app. cbn [map].
  apply (Permutation_NoDup (l := r_id r :: map r_id (rlist (links_of s)))); [apply Permutation_cons_append|]. constructor; [|exact D]. intros X. apply in_map_iff in X. destruct X as (x & X1 & X2). specialize (E x X2). unfold same in E. rewrite X1, Nat.eqb_refl in E. discriminate.
Qed.

Lemma inv_remove s r d : inv s -> Forall no_res d -> let s2 := with_delete (with_published (with_publish s (remove_first (of_res r) (s_publish s))) (remove_first (of_res r) (s_published s))) d in
  inv s2 /\ rlist (links_of s2) = filter (fun x => negb (same r x)) (rlist (links_of s)).
Proof.
  intros I Hd s2. pose proof (inv_lists s I) as [N1 N2]. destruct I as [A B C D].
  assert (E : rlist (links_of s2) = filter (fun x => negb (same r x)) (rlist (links_of s))). { unfold s2, links_of. cbn [s_publish s_published with_publish with_published with_delete]. rewrite !rlist_app, filter_app, !rlist_remove by assumption. reflexivity. }
  split; [|exact E]. constructor; unfold s2; cbn [s_publish s_published s_delete with_publish with_published with_delete]; [apply remove_first_forall; exact A|apply remove_first_forall; exact B|exact Hd|]. fold s2. rewrite E. apply rids_filter. exact D.
Qed.

Lemma inv_move s : inv s -> inv (move s) /\ rlist (links_of (move s)) = rlist (links_of s).
Proof.
  intros [A B C D]. assert (E : links_of (move s) = links_of s) by (unfold links_of, move; cbn; apply app_nil_r). split; [|rewrite E; reflexivity]. constructor; unfold move; cbn [s_publish s_published s_delete with_publish with_published]; [apply Forall_app; split; assumption|constructor|exact C|]. fold (move s). rewrite E. exact D.
Qed.

Lemma inv_flags s a b t : inv s -> inv (mk_rd (s_publish s) (s_published s) (s_delete s) a b t).
Proof. intros [A B C D]. constructor; assumption. Qed.

(** Each resource is in one list, once, from when it is added to when it is deleted. *)
Theorem step_tracks v s o s' m : inv s -> step v s o = Some (s', m) -> inv s' /\ Permutation (rlist (links_of s')) (track (rlist (links_of s)) (v, o)).
Proof.
  intros I. unfold track. cbn [fst snd]. destruct o as [r|r|a b|a b| | |c p|i| |]; cbn [step].
  - rewrite known_spec. destruct (existsb (same r) (rlist (links_of s))) eqn:E; [intros [= <- <-]; split; [exact I|reflexivity]|].
    rewrite (no_res_remove r (s_delete s)) by apply I. rewrite with_delete_same. destruct (v_alloc v); [|intros [= <- <-]; split; [exact I|reflexivity]]. destruct (inv_add s r (v_rand v) I E) as [I2 P]. destruct (cloud_publish _ _) as [x|]; [|discriminate]. intros [= <- <-]. split; assumption.
  - cbn [s_published s_delete with_publish with_published]. rewrite (no_res_remove r (s_delete s)) by apply I. destruct (v_resets v).
    + intros [= <- <-]. destruct (inv_remove s r (s_delete s) I (i_del _ I)) as [I2 E]. split; [exact I2|rewrite E; reflexivity].
    + destruct (find_res r (s_published s)) as [k|].
      * intros H. apply cloud_delete_lists in H. destruct H as (n & -> & _). destruct (inv_remove s r (s_delete s ++ [mk_link None (k_ins k)]) I) as [I2 E]; [apply Forall_app; split; [apply I|constructor; [reflexivity|constructor]]|].
        split; [apply inv_delete; exact I2|]. transitivity (filter (fun x => negb (same r x)) (rlist (links_of s))); [rewrite <- E|]; reflexivity.
      * intros [= <- <-]. destruct (inv_remove s r (s_delete s) I (i_del _ I)) as [I2 E]. split; [|rewrite <- E; reflexivity]. destruct I2 as [A B C D]. constructor; assumption.
  - destruct a; cbn [negb]; [|intros [= <- <-]; split; [destruct I as [I1 I2 I3 I4]; constructor; assumption|reflexivity]]. destruct b; [intros [= <- <-]; split; [destruct I as [I1 I2 I3 I4]; constructor; assumption|reflexivity]|].
    destruct (match s_publish _ with [] => _ | _ => _ end) as [x|]; [|discriminate]. destruct (cloud_delete_if v _) as [[s2 m2]|] eqn:E; [|discriminate]. cbn [seq_msgs]. intros [= <- <-]. apply cloud_delete_if_lists in E. destruct E as (n & -> & _).
    split; [|reflexivity]. pose proof (inv_delete s n I) as [I1 I2 I3 I4]; constructor; assumption.
  - intros [= <- <-]. split; [destruct I as [I1 I2 I3 I4]; constructor; assumption|reflexivity].
  - destruct (s_timer s); [|intros [= <- <-]; split; [exact I|reflexivity]]. destruct (cloud_publish _ _) as [x|]; [|discriminate]. intros [= <- <-]. destruct (inv_move s I) as [I2 E]. rewrite E. split; [exact I2|reflexivity].
  - destruct (cloud_publish _ _) as [x|]; [|discriminate]. destruct (cloud_delete_if v _) as [[s2 m2]|] eqn:E; [|discriminate]. cbn [seq_msgs]. intros [= <- <-]. apply cloud_delete_if_lists in E. destruct E as (n & -> & _). destruct (inv_move s I) as [I2 E].
    split; [apply inv_delete; exact I2|]. rewrite <- E. reflexivity.
  - destruct (publish_handler c p s) as [x|] eqn:E; [|discriminate]. intros [= <- <-]. unfold publish_handler in E. destruct (_ || _); [injection E as <-; split; [exact I|reflexivity]|]. destruct (get_oa _ _) as [l|]; [|injection E as <-; split; [exact I|reflexivity]].
    destruct (answer_inv l s I) as (y & Y & I2 & P & _). rewrite Y in E. injection E as <-. split; assumption.
  - destruct i; [intros [= <- <-]; split; [exact I|reflexivity]|]. intros H. apply cloud_delete_if_lists in H. destruct H as (n & -> & _). split; [apply inv_delete; exact I|reflexivity].
  - intros [= <- <-]. assert (J : inv (with_delete s [])) by (destruct I as [A B C D]; constructor; [exact A|exact B|constructor|exact D]). destruct (inv_move _ J) as [I2 E]. split; [destruct I2 as [A B C D]; constructor; assumption|]. transitivity (rlist (links_of (move (with_delete s [])))); [reflexivity|rewrite E; reflexivity].
  - intros [= <- <-]. split; [constructor; cbn; constructor|reflexivity].
Qed.

Lemma inv_start : inv start.
Proof. constructor; cbn; constructor. Qed.

Lemma track_perm a b vo : Permutation a b -> Permutation (track a vo) (track b vo).
Proof.
  intros P. unfold track. destruct (snd vo); try exact P; [|apply perm_filter; exact P|reflexivity]. rewrite (perm_existsb _ _ _ P). destruct (existsb _ b); [exact P|]. destruct (v_alloc _); [apply Permutation_app_tail; exact P|exact P].
Qed.

Lemma run_tracks h : forall s tr s' m, inv s -> Permutation (rlist (links_of s)) tr -> run s h = Some (s', m) -> inv s' /\ Permutation (rlist (links_of s')) (fold_left track h tr).
Proof.
  induction h as [|[v o] h IH]; intros s tr s' m I P R; cbn [run fold_left] in *; [injection R as <- <-; split; assumption|].
  destruct (step v s o) as [[s1 m1]|] eqn:E; [|discriminate]. destruct (run s1 h) as [[s2 m2]|] eqn:F; [|discriminate]. cbn [seq_msgs] in R. injection R as <- <-. destruct (step_tracks _ _ _ _ _ I E) as [I1 P1].
  apply (IH s1 _ s2 m2 I1); [|exact F]. rewrite P1. apply track_perm. exact P.
Qed.

Lemma reach_inv s : reach s -> inv s.
Proof. intros (h & m & R). apply (run_tracks h start [] s m inv_start); [reflexivity|exact R]. Qed.

(** * No step goes wrong *)

Definition ints (s : rd) : Prop := Forall (fun k => int64 (k_ins k)) (s_publish s) /\ Forall (fun k => int64 (k_ins k)) (s_published s) /\ Forall (fun k => int64 (k_ins k)) (s_delete s).

Lemma cloud_delete_total v s : env_ok v -> s_delete s <> [] -> Forall (fun k => int64 (k_ins k)) (s_delete s) -> exists s' m, cloud_delete v s = Some (s', m).
Proof.
  intros V NE I. unfold cloud_delete. destruct (s_delete s) as [|k l] eqn:E; [contradiction|]. destruct (_ || _); [eexists; eexists; reflexivity|]. destruct (rd_delete_spec v (k :: l) V NE I) as (n & _ & _ & _ & ->). destruct (v_del v); eexists; eexists; reflexivity.
Qed.
Lemma cloud_delete_if_total v s : env_ok v -> Forall (fun k => int64 (k_ins k)) (s_delete s) -> exists s' m, cloud_delete_if v s = Some (s', m).
Proof.
  intros V I. unfold cloud_delete_if. destruct (s_delete s) as [|k l] eqn:E; [eexists; eexists; reflexivity|]. apply cloud_delete_total; [exact V|rewrite E; discriminate|rewrite E; exact I].
Qed.

Lemma forall_skipn {A} (P : A -> Prop) n l : Forall P l -> Forall P (skipn n l).
Proof. rewrite !Forall_forall. intros H x X. apply H. rewrite <- (firstn_skipn n l). apply in_or_app. right. exact X. Qed.

Lemma answer_ints l : forall s s', (forall o i, In o l -> get_i o (str "ins") = Some i -> int64 i) -> ints s -> publish_answer l s = Some s' -> ints s'.
Proof.
  induction l as [|o l IH]; intros s s' H I E; cbn [publish_answer] in E; [injection E as <-; exact I|].
  assert (H' : forall o i, In o l -> get_i o (str "ins") = Some i -> int64 i) by (intros x y X; apply H; right; exact X).
  destruct (get_s o (str "href")) as [h|]; [|apply (IH _ _ H' I E)]. destruct (get_i o (str "ins")) as [i|] eqn:G; [|apply (IH _ _ H' I E)]. destruct (find_href (s_publish s) h) as [[k|]|]; [|apply (IH _ _ H' I E)|discriminate].
  apply (IH _ _ H') in E; [exact E|]. destruct I as (A & B & C). split; [|split]; cbn [s_publish s_published s_delete with_publish with_published]; [apply remove_first_forall; exact A| |exact C]. apply Forall_app. split; [exact B|]. constructor; [|constructor]. apply (H o i); [left; reflexivity|exact G].
Qed.

Lemma step_total v s o : inv s -> ints s -> good (v, o) -> exists s' m, step v s o = Some (s', m) /\ ints s'.
Proof.
  intros I (A & B & C) (V & R & G). cbn [fst snd] in *. destruct o as [r|r|a b|a b| | |c p|i| |]; cbn [step].
  - destruct (match find_res r (s_publish s) with Some _ => _ | None => _ end) eqn:K; [eexists; eexists; split; [reflexivity|repeat split; assumption]|]. rewrite known_spec in K. rewrite (no_res_remove r (s_delete s)) by apply I. rewrite with_delete_same.
    destruct (v_alloc v) eqn:L; [|eexists; eexists; split; [reflexivity|repeat split; assumption]]. destruct (inv_add s r (v_rand v) I K) as [I2 _]. destruct (cloud_publish_ok v _ I2) as (m & ->); [intros _; exact L|]. eexists. eexists. split; [reflexivity|].
    split; [|split]; cbn [s_publish s_published s_delete with_publish]; [apply Forall_app; split; [exact A|constructor; [exact R|constructor]]|exact B|exact C].
  - cbn [s_published s_delete with_publish with_published]. rewrite (no_res_remove r (s_delete s)) by apply I.
    assert (A' := remove_first_forall _ (of_res r) _ A). assert (B' := remove_first_forall _ (of_res r) _ B).
    destruct (v_resets v); [eexists; eexists; split; [reflexivity|repeat split; assumption]|]. destruct (find_res r (s_published s)) as [k|] eqn:F; [|eexists; eexists; split; [reflexivity|repeat split; assumption]].
    assert (C' : Forall (fun k => int64 (k_ins k)) (s_delete s ++ [mk_link None (k_ins k)])). { apply Forall_app. split; [exact C|]. constructor; [|constructor]. apply find_some in F. destruct F as [F _]. rewrite Forall_forall in B. apply (B k F). }
    match goal with |- context[cloud_delete v ?x] => destruct (cloud_delete_total v x V) as (s' & m & E) end; [cbn; destruct (s_delete s); discriminate|exact C'|]. exists s', m. split; [exact E|]. apply cloud_delete_lists in E. destruct E as (n & -> & _). repeat split; cbn [s_publish s_published s_delete with_publish with_published with_delete]; [exact A'|exact B'|apply forall_skipn; exact C'].
  - destruct a; cbn [negb]; [|eexists; eexists; split; [reflexivity|repeat split; assumption]]. destruct b; [eexists; eexists; split; [reflexivity|repeat split; assumption]|].
    set (s1 := mk_rd _ _ _ _ _ _). assert (I1 : inv s1) by (destruct I as [I1 I2 I3 I4]; constructor; assumption).
    assert (exists m, match s_publish s1 with [] => Some [] | _ => cloud_publish v s1 end = Some m) as (m & ->). { destruct (s_publish s1) eqn:P; [eexists; reflexivity|]. apply cloud_publish_ok; [exact I1|rewrite P; discriminate]. }
    destruct (cloud_delete_if_total v s1 V C) as (s2 & m2 & E). rewrite E. cbn [seq_msgs]. eexists. eexists. split; [reflexivity|]. apply cloud_delete_if_lists in E. destruct E as (n & -> & _). repeat split; cbn; [exact A|exact B|apply forall_skipn; exact C].
  - eexists. eexists. split; [reflexivity|repeat split; assumption].
  - destruct (s_timer s); [|eexists; eexists; split; [reflexivity|repeat split; assumption]]. destruct (inv_move s I) as [I2 _]. destruct (cloud_publish_ok v _ I2) as (m & ->); [intros _; exact G|]. eexists. eexists. split; [reflexivity|]. repeat split; cbn; [apply Forall_app; split; assumption|constructor|exact C].
  - destruct (inv_move s I) as [I2 _]. destruct (cloud_publish_ok v _ I2) as (m & ->); [intros _; exact G|]. destruct (cloud_delete_if_total v (move s) V C) as (s2 & m2 & E). rewrite E. cbn [seq_msgs]. eexists. eexists. split; [reflexivity|]. apply cloud_delete_if_lists in E. destruct E as (n & -> & _). repeat split; cbn; [apply Forall_app; split; assumption|constructor|apply forall_skipn; exact C].
  - unfold publish_handler. destruct (_ || _); [eexists; eexists; split; [reflexivity|repeat split; assumption]|]. destruct (get_oa p (str "links")) as [l|] eqn:L; [|eexists; eexists; split; [reflexivity|repeat split; assumption]].
    destruct (answer_inv l s I) as (y & Y & _). rewrite Y. eexists. eexists. split; [reflexivity|]. apply (answer_ints l s y); [|repeat split; assumption|exact Y]. intros o i. apply (G l o i L).
  - destruct i; [eexists; eexists; split; [reflexivity|repeat split; assumption]|]. destruct (cloud_delete_if_total v s V C) as (s' & m & E). exists s', m. split; [exact E|]. apply cloud_delete_if_lists in E. destruct E as (n & -> & _). repeat split; cbn; [exact A|exact B|apply forall_skipn; exact C].
  - eexists. eexists. split; [reflexivity|]. repeat split; cbn; [apply Forall_app; split; assumption|constructor|constructor].
  - eexists. eexists. split; [reflexivity|]. repeat split; cbn; constructor.
Qed.

Lemma run_total h : forall s, inv s -> ints s -> Forall good h -> exists s' m, run s h = Some (s', m) /\ inv s' /\ ints s'.
Proof.
  induction h as [|[v o] h IH]; intros s I J F; [exists s, []; split; [reflexivity|]; split; assumption|]. inversion F as [|x y F1 F2]; subst. cbn [run]. destruct (step_total v s o I J F1) as (s1 & m1 & E & J1). rewrite E. destruct (step_tracks _ _ _ _ _ I E) as [I1 _].
  destruct (IH s1 I1 J1 F2) as (s2 & m2 & E2 & I2 & J2). rewrite E2. cbn [seq_msgs]. eexists. eexists. split; [reflexivity|]. split; assumption.
Qed.
