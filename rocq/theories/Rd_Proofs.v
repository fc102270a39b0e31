(** Where a resource is, and that no step goes wrong. *)
From Verif Require Import Common Rep_Model Repd_Model Coap_Model Buf_Model Rd_Model Rd_Spec.
From Coq Require Import String Permutation.
Notation rep := Rep_Model.rep.
Local Open Scope string_scope.
Local Open Scope list_scope.
Local Open Scope N_scope.

Definition rids (l : list res) : list nat := map r_id l.
Definition rlist (l : list link) : list res := flat_map (fun k => match k_res k with Some r => [r] | None => [] end) l.
Definition has_res (k : link) : Prop := k_res k <> None.
Definition no_res (k : link) : Prop := k_res k = None.

(** Links in the first two lists have a resource, those in the third have none. *)
Record inv (s : rd) : Prop := {
  i_pub : Forall has_res (s_publish s);
  i_pubd : Forall has_res (s_published s);
  i_del : Forall no_res (s_delete s);
  i_ids : NoDup (rids (rlist (links_of s))) }.

Lemma rlist_app a b : rlist (a ++ b) = rlist a ++ rlist b.
Proof. apply flat_map_app. Qed.

Lemma remove_first_none f l : (forall k, In k l -> f k = false) -> remove_first f l = l.
Proof. induction l as [|k l IH]; intros H; [reflexivity|]. cbn [remove_first]. rewrite (H k (or_introl eq_refl)), IH; [reflexivity|]. intros x Hx. apply H. right. exact Hx. Qed.

Lemma remove_first_in f l k : In k (remove_first f l) -> In k l.
Proof. induction l as [|x l IH]; intros H; [exact H|]. cbn [remove_first] in H. destruct (f x); [right; exact H|]. destruct H as [<-|H]; [left; reflexivity|right; apply IH; exact H]. Qed.

Lemma remove_first_forall P f l : Forall P l -> Forall P (remove_first f l).
Proof. rewrite !Forall_forall. intros H k Hk. apply H. apply (remove_first_in _ _ _ Hk). Qed.

Lemma remove_first_split f l : (exists a k b, l = a ++ k :: b /\ f k = true /\ (forall x, In x a -> f x = false) /\ remove_first f l = a ++ b /\ find f l = Some k)
  \/ ((forall x, In x l -> f x = false) /\ remove_first f l = l /\ find f l = None).
Proof.
  induction l as [|x l IH]; [right; repeat split; intros x []|]. cbn [remove_first find]. destruct (f x) eqn:F.
  - left. exists [], x, l. repeat split; [exact F|intros y []].
  - destruct IH as [(a & k & b & -> & H1 & H2 & H3 & H4)|(H1 & H2 & H3)].
    + left. exists (x :: a), k, b. split; [reflexivity|]. split; [exact H1|]. split; [intros y [<-|Hy]; [exact F|apply H2; exact Hy]|]. split; [rewrite H3; reflexivity|exact H4].
    + right. split; [intros y [<-|Hy]; [exact F|apply H1; exact Hy]|]. split; [rewrite H2; reflexivity|exact H3].
Qed.

Lemma of_res_spec r k : of_res r k = true <-> exists x, k_res k = Some x /\ r_id x = r_id r.
Proof.
  unfold of_res. destruct (k_res k) as [x|]; [|split; [discriminate|intros (x & E & _); discriminate]]. rewrite Nat.eqb_eq. split; [intros E; exists x; auto|intros (y & [= ->] & E); exact E].
Qed.

Lemma rlist_in l k r : In k l -> k_res k = Some r -> In r (rlist l).
Proof. intros H E. unfold rlist. apply in_flat_map. exists k. rewrite E. split; [exact H|left; reflexivity]. Qed.

Lemma rlist_back l r : In r (rlist l) -> exists k, In k l /\ k_res k = Some r.
Proof. intros H. apply in_flat_map in H. destruct H as (k & Hk & E). exists k. destruct (k_res k) as [x|]; [|contradiction]. destruct E as [<-|[]]. auto. Qed.

(** Removing a resource from the lists. *)
Lemma rlist_remove r l : NoDup (rids (rlist l)) -> rlist (remove_first (of_res r) l) = filter (fun x => negb (same r x)) (rlist l).
Proof.
  induction l as [|k l IH]; intros N; [reflexivity|]. change (k :: l) with ([k] ++ l) in *. rewrite rlist_app in N |- *. unfold rids in N. rewrite map_app in N. cbn [app remove_first].
  assert (Hl : NoDup (rids (rlist l))) by (clear - N; induction (map r_id (rlist [k])) as [|a t J]; [exact N|apply J; inversion N; assumption]).
  rewrite filter_app. unfold rlist at 2. cbn [flat_map]. unfold of_res. destruct (k_res k) as [x|] eqn:E.
  - cbn [app filter]. unfold same at 1. destruct (Nat.eqb_spec (r_id x) (r_id r)) as [e|e]; cbn [negb app].
    + symmetry. cbn [app]. unfold rlist in N at 1. cbn [flat_map] in N. rewrite E in N. cbn [map app] in N. inversion N as [|a t N1 N2]; subst.
      clear - N1 e. assert (K : forall y, In y (rlist l) -> negb (same r y) = true).
      { intros y Hy. unfold same. apply negb_true_iff, Nat.eqb_neq. intros X. apply N1. rewrite e, <- X. apply in_map. exact Hy. }
      revert K. induction (rlist l) as [|y t J]; intros K; [reflexivity|]. cbn [filter]. rewrite (K y (or_introl eq_refl)). f_equal. apply J; [intros X; apply N1; right; exact X|intros z Hz; apply K; right; exact Hz].
    + change (k :: remove_first (fun k0 => match k_res k0 with Some x0 => (r_id x0 =? r_id r)%nat | None => false end) l) with ([k] ++ remove_first (of_res r) l). rewrite rlist_app, (IH Hl). unfold rlist at 1. cbn [flat_map]. rewrite E. reflexivity.
  - cbn [app filter]. change (k :: remove_first (fun k0 => match k_res k0 with Some x0 => (r_id x0 =? r_id r)%nat | None => false end) l) with ([k] ++ remove_first (of_res r) l). rewrite rlist_app, (IH Hl). unfold rlist at 1. cbn [flat_map]. rewrite E. reflexivity.
Qed.

Lemma nodup_app_l {A} (a b : list A) : NoDup (a ++ b) -> NoDup a.
Proof. induction a as [|x a IH]; intros H; [constructor|]. cbn [app] in H. inversion H as [|y t H1 H2]; subst. constructor; [intros X; apply H1, in_or_app; left; exact X|apply IH; exact H2]. Qed.
Lemma nodup_app_r {A} (a b : list A) : NoDup (a ++ b) -> NoDup b.
Proof. induction a as [|x a IH]; intros H; [exact H|]. cbn [app] in H. inversion H; subst. apply IH. assumption. Qed.

Lemma inv_lists s : inv s -> NoDup (rids (rlist (s_publish s))) /\ NoDup (rids (rlist (s_published s))).
Proof. intros [_ _ _ H]. unfold links_of, rids in H. rewrite rlist_app, map_app in H. split; [apply nodup_app_l in H|apply nodup_app_r in H]; exact H. Qed.

Lemma rids_filter f l : NoDup (rids l) -> NoDup (rids (filter f l)).
Proof.
  unfold rids. induction l as [|x l IH]; intros H; [constructor|]. cbn [map] in H. inversion H as [|y t H1 H2]; subst. cbn [filter]. destruct (f x); [|apply IH; exact H2]. cbn [map]. constructor; [|apply IH; exact H2].
  intros X. apply H1. apply in_map_iff in X. destruct X as (y & E & Y). apply filter_In in Y. rewrite <- E. apply in_map. tauto.
Qed.

Lemma find_res_none r l : find_res r l = None <-> forall x, In x (rlist l) -> same r x = false.
Proof.
  unfold find_res. split.
  - intros H x Hx. apply rlist_back in Hx. destruct Hx as (k & Hk & E). pose proof (find_none _ _ H k Hk) as F. unfold of_res in F. rewrite E in F. exact F.
  - intros H. destruct (find (of_res r) l) as [k|] eqn:F; [|reflexivity]. apply find_some in F. destruct F as [F1 F2]. apply of_res_spec in F2. destruct F2 as (x & E & I).
    pose proof (H x (rlist_in _ _ _ F1 E)) as X. unfold same in X. rewrite I, Nat.eqb_refl in X. discriminate.
Qed.

(** * The answer to a publish request *)

Lemma find_href_spec l h : Forall has_res l -> find_href l h = Some (find (of_href h) l).
Proof.
  induction 1 as [|k l H _ IH]; [reflexivity|]. cbn [find_href find]. unfold of_href at 1. unfold has_res in H. destruct (k_res k) as [r|]; [|contradiction]. destruct (list_eqb (r_uri r) h); [reflexivity|exact IH].
Qed.

Lemma perm_mid (a b c : list res) x : Permutation ((a ++ b) ++ c ++ [x]) ((a ++ x :: b) ++ c).
Proof. rewrite <- !app_assoc. apply Permutation_app_head. cbn [app]. rewrite app_assoc. rewrite <- Permutation_middle. rewrite app_nil_r. constructor. reflexivity. Qed.

Lemma answer_inv l : forall s, inv s -> exists s', publish_answer l s = Some s' /\ inv s' /\ Permutation (rlist (links_of s')) (rlist (links_of s)) /\ s_delete s' = s_delete s /\ s_in s' = s_in s /\ s_refreshed s' = s_refreshed s /\ s_timer s' = s_timer s.
Proof.
  induction l as [|o l IH]; intros s I; [exists s; split; [reflexivity|]; split; [exact I|]; repeat split; reflexivity|]. cbn [publish_answer].
  destruct (get_s o (str "href")) as [h|]; [|apply IH; exact I]. destruct (get_i o (str "ins")) as [i|]; [|apply IH; exact I].
  rewrite find_href_spec by apply I. destruct (remove_first_split (of_href h) (s_publish s)) as [(a & k & b & E & F & _ & R & Fd)|(_ & _ & Fd)]; rewrite Fd; [|apply IH; exact I].
  rewrite R. match goal with |- context[publish_answer l ?x] => set (s1 := x) end.
  assert (P : Permutation (rlist (links_of s1)) (rlist (links_of s))).
  { unfold s1, links_of. cbn [s_publish s_published with_publish with_published]. rewrite E, !rlist_app. replace (rlist (k :: b)) with (rlist [k] ++ rlist b) by (symmetry; apply (rlist_app [k] b)).
    replace (rlist [mk_link (k_res k) i]) with (rlist [k]) by reflexivity. destruct (k_res k) as [x|] eqn:K.
    - replace (rlist [k]) with [x] by (unfold rlist; cbn [flat_map]; rewrite K; reflexivity). cbn [app]. apply perm_mid.
    - replace (rlist [k]) with (@nil res) by (unfold rlist; cbn [flat_map]; rewrite K; reflexivity). rewrite app_nil_r. reflexivity. }
  assert (I1 : inv s1).
  { destruct I as [I1 I2 I3 I4]. pose proof I1 as I1'. rewrite E in I1'. apply Forall_app in I1'. destruct I1' as [A B]. inversion B as [|y t B1 B2]; subst y t. constructor.
    - unfold s1. cbn [s_publish with_publish with_published]. apply Forall_app. split; assumption.
    - unfold s1. cbn [s_published with_published]. apply Forall_app. split; [exact I2|]. constructor; [exact B1|constructor].
    - exact I3.
    - apply (Permutation_NoDup (l := rids (rlist (links_of s)))); [|exact I4]. apply Permutation_map. symmetry. exact P. }
  destruct (IH s1 I1) as (s' & H1 & H2 & H3 & H4 & H5 & H6 & H7). exists s'. split; [exact H1|]. split; [exact H2|]. split; [rewrite H3; exact P|]. rewrite H4, H5, H6, H7. repeat split; reflexivity.
Qed.

Lemma encode_links_ok l : Forall has_res l -> exists e, encode_links l = Some e.
Proof.
  induction 1 as [|k l H _ (e & IH)]; [exists []; reflexivity|]. cbn [encode_links]. unfold has_res in H. destruct (k_res k) as [r|]; [|contradiction]. rewrite IH. eexists. reflexivity.
Qed.

Lemma rd_publish_ok v l : Forall has_res l -> (l = [] -> v_alloc v = true) -> exists m, rd_publish v l = Some m.
Proof.
  intros H A. destruct l as [|k l]; [|destruct (encode_links_ok _ H) as (e & E); cbn [rd_publish]; unfold publish_encode; rewrite E; eexists; reflexivity]. cbn [rd_publish]. rewrite (A eq_refl). unfold publish_encode. cbn [encode_links k_res]. eexists. reflexivity.
Qed.

Lemma cloud_publish_ok v s : inv s -> (s_publish s = [] -> v_alloc v = true) -> exists m, cloud_publish v s = Some m.
Proof. intros I A. unfold cloud_publish. destruct (_ || _); [eexists; reflexivity|]. apply rd_publish_ok; [apply I|exact A]. Qed.
