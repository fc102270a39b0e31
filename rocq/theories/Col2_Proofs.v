(** Proofs about dangling links. *)
From Verif Require Import Common Ri_Model Col_Model Col_Spec Col_Proofs.
From Coq Require Import ZArith Sorting.Sorted Permutation.
Local Open Scope list_scope.
Local Open Scope N_scope.

Record inv (w : world) : Prop := {
  i_ids : forall a b, In a (w_live w) -> In b (w_live w) -> t_id a = t_id b -> a = b;
  i_place : forall a b, In a (w_live w) -> In b (w_live w) -> same_place a b -> a = b;
  i_uri : forall a, In a (w_live w) -> t_uri a <> [];
  i_live : no_dangling w;
  i_dev : forall c l, In c (w_cols w) -> In l (cl_links c) -> t_dev (ln_to l) = r_dev (cl_res c);
  i_one : forall c, In c (w_cols w) -> NoDup (map ln_res (cl_links c));
  i_lids : forall c, In c (w_cols w) -> pairwise_ids (cl_links c)
}.

Lemma insert_perm l ls : Permutation (l :: ls) (insert_link l ls).
Proof.
  induction ls as [|x ls IH]; cbn [insert_link]; [apply Permutation_refl|]. destruct (goes_before _ x); [apply Permutation_refl|].
  eapply Permutation_trans; [apply perm_swap|]. apply perm_skip. exact IH.
Qed.
Lemma add_in l ls x : In x (add_link l ls) -> x = l \/ In x ls.
Proof.
  unfold add_link. destruct (ln_uri l); [auto|]. intros H. apply (Permutation_in _ (Permutation_sym (insert_perm l ls))) in H. destruct H as [->|H]; auto.
Qed.
Lemma add_nodup {A} (f : link -> A) l ls : NoDup (map f ls) -> (forall x, In x ls -> f x <> f l) -> NoDup (map f (add_link l ls)).
Proof.
  intros Hn Hf. unfold add_link. destruct (ln_uri l); [exact Hn|]. eapply Permutation_NoDup; [apply Permutation_map; apply insert_perm|].
  cbn [map]. constructor; [|exact Hn]. intros H. apply in_map_iff in H. destruct H as (x & Hx & Hi). exact (Hf x Hi Hx).
Qed.
Lemma remove_in i ls x : In x (remove_link i ls) -> In x ls.
Proof.
  destruct (remove_spec i ls) as [[-> _]|(a & l & b & -> & _ & -> & _)]; [auto|]. rewrite !in_app_iff. intros [H|H]; [auto|]. right. right. exact H.
Qed.
Lemma remove_nodup {A} (f : link -> A) i ls : NoDup (map f ls) -> NoDup (map f (remove_link i ls)).
Proof.
  destruct (remove_spec i ls) as [[-> _]|(a & l & b & -> & _ & -> & _)]; [auto|]. rewrite !map_app. cbn [map app]. apply NoDup_remove_1.
Qed.

Lemma inv_links w cols' : inv w -> (forall c, In c cols' -> exists k, In k (w_cols w) /\ cl_res c = cl_res k /\
    (forall l, In l (cl_links c) -> (In l (cl_links k) \/ (In (ln_to l) (w_live w) /\ t_dev (ln_to l) = r_dev (cl_res k)))) /\
    NoDup (map ln_res (cl_links c)) /\ pairwise_ids (cl_links c)) -> inv (mkWorld cols' (w_live w)).
Proof.
  intros H G. destruct H. constructor; cbn [w_live w_cols]; try assumption.
  - intros c l Hc Hl. destruct (G c Hc) as (k & Hk & _ & Hin & _). destruct (Hin l Hl) as [K|[K _]]; [exact (i_live0 k l Hk K)|exact K].
  - intros c l Hc Hl. destruct (G c Hc) as (k & Hk & Hr & Hin & _). rewrite Hr. destruct (Hin l Hl) as [K|[_ K]]; [exact (i_dev0 k l Hk K)|exact K].
  - intros c Hc. destruct (G c Hc) as (k & _ & _ & _ & K & _). exact K.
  - intros c Hc. destruct (G c Hc) as (k & _ & _ & _ & _ & K). exact K.
Qed.

Lemma inv_new w t : inv w -> is_new w t -> inv (mkWorld (w_cols w) (w_live w ++ [t])).
Proof.
  intros H [Hu Hn]. destruct H. constructor; cbn [w_live w_cols]; try assumption.
  - intros a b Ha Hb E. apply in_app_iff in Ha, Hb. destruct Ha as [Ha|[<-|[]]], Hb as [Hb|[<-|[]]]; auto.
    + exfalso. exact (proj1 (Hn a Ha) E).
    + exfalso. exact (proj1 (Hn b Hb) (eq_sym E)).
  - intros a b Ha Hb E. apply in_app_iff in Ha, Hb. destruct Ha as [Ha|[<-|[]]], Hb as [Hb|[<-|[]]]; auto.
    + exfalso. exact (proj2 (Hn a Ha) E).
    + exfalso. apply (proj2 (Hn b Hb)). destruct E as [E1 E2]. split; auto.
  - intros a Ha. apply in_app_iff in Ha. destruct Ha as [Ha|[<-|[]]]; auto.
  - intros c l Hc Hl. cbn [w_live w_cols] in *. apply in_app_iff. left. exact (i_live0 c l Hc Hl).
Qed.

Lemma inv_sub w live' : inv w -> (forall t, In t live' -> In t (w_live w)) ->
  (forall c l, In c (w_cols w) -> In l (cl_links c) -> In (ln_to l) live') -> inv (mkWorld (w_cols w) live').
Proof. intros H Hs Hl. destruct H. constructor; cbn [w_live w_cols]; auto. Qed.

(** what deleting a resource does to the links of a collection, under the rules *)
Lemma unlink_ruled w t c : inv w -> In t (w_live w) -> In c (w_cols w) ->
  cl_links (unlink_one t c) = filter (fun l => negb (ln_res l =? t_id t)) (cl_links c).
Proof.
  intros H Ht Hc. destruct (N.eqb_spec (r_dev (cl_res c)) (t_dev t)) as [E|E].
  - apply unlink_clears; [exact (i_uri w H t Ht)|exact E|exact (i_lids w H c Hc)| | |exact (i_one w H c Hc)].
    + intros l Hl Hs. unfold ln_res. f_equal. apply (i_place w H); [exact (i_live w H c l Hc Hl)|exact Ht|]. split; [|exact Hs].
      rewrite (i_dev w H c l Hc Hl). exact E.
    + intros l Hl Hr. apply (i_ids w H); [exact (i_live w H c l Hc Hl)|exact Ht|exact Hr].
  - unfold unlink_one. apply N.eqb_neq in E. rewrite E. cbn [andb]. symmetry.
    assert (G : forall xs, (forall x, In x xs -> ln_res x <> t_id t) -> filter (fun l => negb (ln_res l =? t_id t)) xs = xs).
    { induction xs as [|x xs IH]; intros K; [reflexivity|]. cbn [filter]. destruct (N.eqb_spec (ln_res x) (t_id t)) as [Ex|Ex].
      - exfalso. exact (K x (or_introl eq_refl) Ex).
      - cbn [negb]. f_equal. apply IH. intros y Hy. apply K. right. exact Hy. }
    apply G. intros x Hx Ex. apply N.eqb_neq in E. apply E. rewrite <- (i_dev w H c x Hc Hx). f_equal.
    apply (i_ids w H); [exact (i_live w H c x Hc Hx)|exact Ht|exact Ex].
Qed.

Lemma nodup_filter {A B} (f : A -> B) (p : A -> bool) ls : NoDup (map f ls) -> NoDup (map f (filter p ls)).
Proof.
  induction ls as [|x ls IH]; intros H; [exact H|]. cbn [map] in H. inversion H as [|y r H1 H2]; subst. cbn [filter]. destruct (p x); [|exact (IH H2)].
  cbn [map]. constructor; [|exact (IH H2)]. intros K. apply H1. apply in_map_iff in K. destruct K as (z & E & Hz). apply filter_In in Hz.
  rewrite <- E. apply in_map. exact (proj1 Hz).
Qed.

Lemma inv_step w o : inv w -> keeps_rules w o -> inv (col_step w o).
Proof.
  intros H K. destruct o as [t|t|k l|k i|t|i]; cbn [col_step keeps_rules] in *.
  - apply inv_new; assumption.
  - pose proof (inv_new w t H K) as H'. destruct H'. constructor; cbn [w_live w_cols] in *; try assumption.
    + intros c l Hc Hl. cbn [w_live w_cols] in *. apply in_app_iff in Hc. destruct Hc as [Hc|[<-|[]]]; [exact (i_live0 c l Hc Hl)|destruct Hl].
    + intros c l Hc Hl. apply in_app_iff in Hc. destruct Hc as [Hc|[<-|[]]]; [exact (i_dev0 c l Hc Hl)|destruct Hl].
    + intros c Hc. apply in_app_iff in Hc. destruct Hc as [Hc|[<-|[]]]; [exact (i_one0 c Hc)|constructor].
    + intros c Hc. apply in_app_iff in Hc. destruct Hc as [Hc|[<-|[]]]; [exact (i_lids0 c Hc)|constructor].
  - destruct K as [Kl Kc]. apply inv_links; [exact H|]. intros c Hc. unfold on_col in Hc. apply in_map_iff in Hc. destruct Hc as (c' & Ec & Hc').
    exists c'. split; [exact Hc'|]. destruct (Kc c' Hc') as [Kid Kdev]. destruct (N.eqb_spec (cl_id c') k) as [E|E]; subst c; cbn [cl_res cl_links].
    + destruct (Kdev E) as [Kd Kr]. split; [reflexivity|]. split; [|split].
      * intros x Hx. apply add_in in Hx. destruct Hx as [->|Hx]; [right; split; [exact Kl|symmetry; exact Kd]|left; exact Hx].
      * apply add_nodup; [exact (i_one w H c' Hc')|exact Kr].
      * apply add_nodup; [exact (i_lids w H c' Hc')|exact Kid].
    + split; [reflexivity|]. split; [auto|]. split; [exact (i_one w H c' Hc')|exact (i_lids w H c' Hc')].
  - apply inv_links; [exact H|]. intros c Hc. unfold on_col in Hc. apply in_map_iff in Hc. destruct Hc as (c' & Ec & Hc').
    exists c'. split; [exact Hc'|]. destruct (cl_id c' =? k); subst c; cbn [cl_res cl_links].
    + split; [reflexivity|]. split; [|split].
      * intros x Hx. left. exact (remove_in _ _ _ Hx).
      * apply remove_nodup. exact (i_one w H c' Hc').
      * apply remove_nodup. exact (i_lids w H c' Hc').
    + split; [reflexivity|]. split; [auto|]. split; [exact (i_one w H c' Hc')|exact (i_lids w H c' Hc')].
  - destruct K as [Kt _].
    assert (H1 : inv (mkWorld (map (unlink_one t) (w_cols w)) (w_live w))).
    { apply inv_links; [exact H|]. intros c Hc. apply in_map_iff in Hc. destruct Hc as (c' & <- & Hc'). exists c'. rewrite unlink_res, (unlink_ruled w t c' H Kt Hc').
      split; [exact Hc'|]. split; [reflexivity|]. split; [|split].
      - intros l Hl. apply filter_In in Hl. left. exact (proj1 Hl).
      - apply nodup_filter. exact (i_one w H c' Hc').
      - apply nodup_filter. exact (i_lids w H c' Hc'). }
    apply (inv_sub _ (drop_live (t_id t) (w_live w)) H1); cbn [w_live w_cols].
    + intros x Hx. apply filter_In in Hx. exact (proj1 Hx).
    + intros c l Hc Hl. apply filter_In. split; [exact (i_live _ H1 c l Hc Hl)|]. apply in_map_iff in Hc. destruct Hc as (c' & <- & Hc').
      rewrite (unlink_ruled w t c' H Kt Hc') in Hl. apply filter_In in Hl. exact (proj2 Hl).
  - assert (H1 : inv (mkWorld (filter (fun c => negb (cl_id c =? i)) (w_cols w)) (w_live w))).
    { apply inv_links; [exact H|]. intros c Hc. apply filter_In in Hc. exists c. destruct Hc as [Hc _]. split; [exact Hc|]. split; [reflexivity|].
      split; [auto|]. split; [exact (i_one w H c Hc)|exact (i_lids w H c Hc)]. }
    apply (inv_sub _ (drop_live i (w_live w)) H1); cbn [w_live w_cols].
    + intros x Hx. apply filter_In in Hx. exact (proj1 Hx).
    + intros c l Hc Hl. apply filter_In. split; [exact (i_live _ H1 c l Hc Hl)|]. apply filter_In in Hc. destruct Hc as [Hc He].
      apply negb_true_iff, N.eqb_neq in He. apply negb_true_iff, N.eqb_neq. exact (K c l Hc He Hl).
Qed.

Lemma inv_init : inv (mkWorld [] []).
Proof. constructor; cbn [w_live w_cols]; unfold no_dangling; cbn [w_live w_cols]; intros; contradiction. Qed.

Lemma ruled_inv w ops w' : ruled w ops w' -> inv w -> inv w'.
Proof. induction 1; intros Hi; [exact Hi|]. apply IHruled, inv_step; assumption. Qed.

Lemma ruled_run w ops w' : ruled w ops w' -> w' = fold_left col_step ops w.
Proof. induction 1; [reflexivity|exact IHruled]. Qed.

Lemma ruled_no_dangling ops w : ruled (mkWorld [] []) ops w -> no_dangling w.
Proof. intros H. exact (i_live w (ruled_inv _ _ _ H inv_init)). Qed.

(** deleting a resource: exactly the links to it go, in every collection *)
Lemma ruled_delete ops w t : ruled (mkWorld [] []) ops w -> In t (w_live w) ->
  w_cols (col_step w (DeleteResource t)) =
    map (fun c => mkColl (cl_res c) (filter (fun l => negb (ln_res l =? t_id t)) (cl_links c))) (w_cols w).
Proof.
  intros H Ht. pose proof (ruled_inv _ _ _ H inv_init) as Hi. cbn [col_step w_cols]. apply map_ext_in. intros c Hc.
  rewrite <- (unlink_ruled w t c Hi Ht Hc), <- (unlink_res t c). destruct (unlink_one t c); reflexivity.
Qed.
