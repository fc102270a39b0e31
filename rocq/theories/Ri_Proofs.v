(** Proofs about the registration and lookup of resources. *)
From Verif Require Import Common Query_Model Query_Spec Query_Proofs Ri_Model Ri_Spec.
From Coq Require Import String.
Local Open Scope string_scope.
Local Open Scope list_scope.
Local Open Scope N_scope.

Lemma strip_id t : hd_error t <> Some 47 -> strip t = t.
Proof.
  intros H. destruct t as [|c t]; [reflexivity|]. cbn [strip].
  destruct (c =? 47) eqn:E; [|reflexivity]. apply N.eqb_eq in E; subst c. exfalso; apply H; reflexivity.
Qed.

Lemma strip_rooted t : hd_error t <> Some 47 -> strip (47 :: t) = t.
Proof. intros H. cbn [strip]. change (47 =? 47) with true. cbv iota. apply strip_id; exact H. Qed.

Lemma stored_eq_spec d u r : rooted (r_uri r) -> (stored_eq d u r = true <-> r_dev r = d /\ r_uri r = 47 :: u).
Proof.
  intros [t Ht]. unfold stored_eq. rewrite Ht. cbn [List.length tl].
  rewrite !andb_true_iff, N.eqb_eq, Nat.eqb_eq, list_eqb_spec. split.
  - intros [[H1 H2] H3]. subst t. auto.
  - intros [H1 H2]. injection H2 as ->. repeat split; try assumption. lia.
Qed.

Lemma app_eq_spec p d r : path_ok p -> rooted (r_uri r) ->
  (app_eq p d r = true <-> r_dev r = d /\ r_uri r = 47 :: p).
Proof.
  intros [Hn Hs] [t Ht]. unfold app_eq. rewrite Ht.
  destruct p as [|c p]; [congruence|].
  destruct (c =? 47) eqn:E; [apply N.eqb_eq in E; subst c; exfalso; apply Hs; reflexivity|].
  cbn [List.length skipn]. rewrite !andb_true_iff, N.eqb_eq, Nat.eqb_eq, list_eqb_spec. split.
  - intros [[H1 H2] H3]. subst t. auto.
  - intros [H1 H2]. injection H2 as ->. repeat split; try assumption. cbn [List.length]. lia.
Qed.

(** the same with the leading slash *)
Lemma app_eq_rooted t d r : rooted (r_uri r) ->
  (app_eq (47 :: t) d r = true <-> r_dev r = d /\ r_uri r = 47 :: t).
Proof.
  intros [u Hu]. unfold app_eq. rewrite Hu. change (47 =? 47) with true. cbv iota.
  cbn [skipn]. rewrite !andb_true_iff, N.eqb_eq, Nat.eqb_eq, list_eqb_spec. split.
  - intros [[H1 H2] H3]. split; [exact H3|symmetry; exact H2].
  - intros [H1 H2]. rewrite H2. repeat split; try assumption. lia.
Qed.

Definition good_core (c : core_res) : Prop := plain (r_uri (c_res c)) /\ r_uri (c_res c) <> [47].

Lemma core_match_path p d c : path_ok p -> good_core c ->
  (core_match p d c = true <-> r_uri (c_res c) = 47 :: p /\ (c_platform c = true \/ r_dev (c_res c) = d)).
Proof.
  intros [Hn Hs] [(t & Ht & Hts) Hne]. unfold core_match. rewrite andb_true_iff, orb_true_iff, N.eqb_eq, Ht.
  destruct p as [|x p]; [congruence|].
  assert (Ex : (x =? 47) = false) by (apply N.eqb_neq; intros ->; apply Hs; reflexivity).
  destruct (c_strip c).
  - unfold core_is_uri, strip1. rewrite Ex. change (47 =? 47) with true. cbv iota. rewrite list_eqb_spec.
    split; intros [H1 H2]; (split; [|exact H2]); congruence.
  - unfold match_uri. rewrite Ex. cbn [tl]. rewrite list_eqb_spec.
    split; intros [H1 H2]; (split; [|exact H2]); congruence.
Qed.

Lemma core_match_rooted t d c : hd_error t <> Some 47 -> good_core c ->
  (core_match (47 :: t) d c = true <-> r_uri (c_res c) = 47 :: t /\ (c_platform c = true \/ r_dev (c_res c) = d)).
Proof.
  intros Hs [(u & Hu & Hus) Hne]. unfold core_match. rewrite andb_true_iff, orb_true_iff, N.eqb_eq, Hu.
  destruct (c_strip c).
  - unfold core_is_uri, strip1. change (47 =? 47) with true. cbv iota. rewrite list_eqb_spec.
    split; intros [H1 H2]; (split; [|exact H2]); congruence.
  - unfold match_uri. change (47 =? 47) with true. cbv iota. rewrite list_eqb_spec.
    split; intros [H1 H2]; (split; [|exact H2]); congruence.
Qed.

(** * The invariant *)
Record inv (cs : list core_res) (st : srv) : Prop := {
  i_core : s_core st = cs;
  i_rooted : Forall (fun r => rooted (r_uri r)) (live st);
  i_ids : NoDup (map r_id (live st));
  i_uris : forall r1 r2, In r1 (live st) -> In r2 (live st) -> plain (r_uri r1) ->
             r_dev r1 = r_dev r2 -> r_uri r1 = r_uri r2 -> r1 = r2;
  i_nocore : forall r c, In r (live st) -> In c cs -> plain (r_uri r) ->
             (c_platform c = true \/ r_dev (c_res c) = r_dev r) -> r_uri (c_res c) <> r_uri r;
  i_coreid : forall r c, In r (live st) -> In c cs -> r_id (c_res c) <> r_id r }.

Lemma has_id_spec i l : has_id i l = true <-> exists r, In r l /\ r_id r = i.
Proof. unfold has_id. rewrite existsb_exists. split; intros (x & H1 & H2); exists x; (split; [exact H1|]); apply N.eqb_eq; exact H2. Qed.

Lemma has_id_false i l : has_id i l = false <-> ~ In i (map r_id l).
Proof.
  destruct (has_id i l) eqn:E.
  - apply has_id_spec in E as (r & H1 & H2). split; [discriminate|]. intros H. exfalso. apply H. rewrite <- H2. apply in_map; exact H1.
  - split; [|reflexivity]. intros _ H. apply in_map_iff in H as (r & H1 & H2).
    assert (X : has_id i l = true) by (apply has_id_spec; exists r; auto). congruence.
Qed.

Lemma existsb_false {A} (f : A -> bool) l : existsb f l = false <-> forall x, In x l -> f x = false.
Proof.
  split.
  - intros H x Hx. destruct (f x) eqn:E; [|reflexivity].
    assert (X : existsb f l = true) by (apply existsb_exists; exists x; auto). congruence.
  - intros H. destruct (existsb f l) eqn:E; [|reflexivity]. apply existsb_exists in E as (x & H1 & H2). rewrite H in H2; [discriminate|exact H1].
Qed.

Lemma in_use_spec cs st t d : s_core st = cs -> Forall good_core cs -> Forall (fun r => rooted (r_uri r)) (live st) ->
  hd_error t <> Some 47 ->
  (uri_in_use st d (47 :: t) = true <-> taken st d (47 :: t)).
Proof.
  intros Hc Hg Hr Hs. rewrite Forall_forall in Hg, Hr. unfold uri_in_use, taken, core_by_uri, col_by_uri, uri_in_list.
  rewrite strip_rooted by exact Hs.
  assert (Hl : forall x, In x (live st) <-> In x (s_apps st) \/ In x (s_dels st) \/ In x (s_cols st)).
  { intros x. unfold live. rewrite !in_app_iff. tauto. }
  rewrite !orb_true_iff. split.
  - intros [[[H|H]|H]|H].
    + destruct (find _ _) as [c|] eqn:E; [|discriminate]. apply find_some in E as [E1 E2].
      apply core_match_rooted in E2 as [E2 E3]; [|exact Hs|apply Hg; rewrite <- Hc; exact E1].
      right. exists (c_res c). split; [|exact E2]. exists c. auto.
    + apply existsb_exists in H as (r & H1 & H2). assert (Hi : In r (live st)) by (apply Hl; auto).
      apply stored_eq_spec in H2 as [H2 H3]; [|apply Hr; exact Hi]. left; exists r; auto.
    + apply existsb_exists in H as (r & H1 & H2). assert (Hi : In r (live st)) by (apply Hl; auto).
      apply stored_eq_spec in H2 as [H2 H3]; [|apply Hr; exact Hi]. left; exists r; auto.
    + destruct (find _ _) as [r|] eqn:E; [|discriminate]. apply find_some in E as [H1 H2].
      assert (Hi : In r (live st)) by (apply Hl; auto).
      apply stored_eq_spec in H2 as [H2 H3]; [|apply Hr; exact Hi]. left; exists r; auto.
  - intros [(r & H1 & H2 & H3)|(r & (c & H1 & H2 & H3) & H4)].
    + assert (He : stored_eq d t r = true) by (apply stored_eq_spec; [apply Hr; exact H1|auto]).
      apply Hl in H1 as [H1|[H1|H1]].
      * left; left; right. apply existsb_exists; exists r; auto.
      * left; right. apply existsb_exists; exists r; auto.
      * right. destruct (find _ _) eqn:E; [reflexivity|]. rewrite (find_none _ _ E _ H1) in He; discriminate.
    + left; left; left. destruct (find _ _) eqn:E; [reflexivity|].
      assert (Hm : core_match (47 :: t) d c = true).
      { apply core_match_rooted; [exact Hs|apply Hg; rewrite <- Hc; exact H1|]. rewrite H2. auto. }
      rewrite (find_none _ _ E _ H1) in Hm; discriminate.
Qed.

Lemma live_apps st r : live {| s_core := s_core st; s_apps := s_apps st ++ [r]; s_dels := s_dels st; s_cols := s_cols st |}
  = s_apps st ++ [r] ++ s_dels st ++ s_cols st.
Proof. unfold live. cbn [s_apps s_dels s_cols]. rewrite <- app_assoc. reflexivity. Qed.
Lemma live_cols st r : live {| s_core := s_core st; s_apps := s_apps st; s_dels := s_dels st; s_cols := s_cols st ++ [r] |}
  = live st ++ [r].
Proof. unfold live. cbn [s_apps s_dels s_cols]. rewrite <- !app_assoc. reflexivity. Qed.

Lemma nodup_insert {A} (l1 l2 : list A) x : NoDup (l1 ++ l2) -> ~ In x (l1 ++ l2) -> NoDup (l1 ++ [x] ++ l2).
Proof. intros H1 H2. apply NoDup_Add with (a := x) (l := l1 ++ l2); [apply Add_app|]. split; assumption. Qed.

(** adding one fresh, free resource somewhere in the live list *)
Lemma inv_extend cs st st' r : Forall good_core cs -> inv cs st -> s_core st' = s_core st ->
  (exists l1 l2, live st = l1 ++ l2 /\ live st' = l1 ++ [r] ++ l2) ->
  rooted (r_uri r) -> ~ In (r_id r) (map r_id (live st)) -> uri_in_use st (r_dev r) (r_uri r) = false ->
  (forall c, In c (s_core st) -> r_id (c_res c) <> r_id r) -> inv cs st'.
Proof.
  intros Hg [Hc Hr Hi Hu Hn Hk] Hc' (l1 & l2 & E1 & E2) Hroot Hid Huse Hcid.
  assert (Hin : forall x, In x (live st') <-> x = r \/ In x (live st)).
  { intros x. rewrite E1, E2, !in_app_iff. cbn [In]. intuition (subst; auto). }
  assert (Hfree : plain (r_uri r) -> ~ taken st (r_dev r) (r_uri r)).
  { intros (t & Ht & Hs) Htk. rewrite Ht in *. rewrite (proj2 (in_use_spec cs st t (r_dev r) Hc Hg Hr Hs) Htk) in Huse. discriminate. }
  constructor.
  - rewrite Hc'; exact Hc.
  - apply Forall_forall. intros x Hx. apply Hin in Hx as [->|Hx]; [exact Hroot|]. rewrite Forall_forall in Hr. apply Hr; exact Hx.
  - rewrite E2, !map_app. cbn [map]. rewrite E1, map_app in Hi, Hid. apply nodup_insert; assumption.
  - intros r1 r2 H1 H2 Hp Hd He. apply Hin in H1 as [->|H1]; apply Hin in H2 as [->|H2].
    + reflexivity.
    + exfalso. apply Hfree; [exact Hp|]. left. exists r2. auto.
    + exfalso. apply Hfree; [rewrite <- He; exact Hp|]. left. exists r1. auto.
    + apply Hu; assumption.
  - intros x c Hx Hcc Hp Hd He. apply Hin in Hx as [->|Hx]; [|exact (Hn x c Hx Hcc Hp Hd He)].
    apply Hfree; [exact Hp|]. right. exists (c_res c). split; [|exact He]. exists c. rewrite Hc. auto.
  - intros x c Hx Hcc. apply Hin in Hx as [->|Hx]; [apply Hcid; rewrite Hc; exact Hcc|exact (Hk x c Hx Hcc)].
Qed.

(** a state whose live resources are some of those of [st] *)
Lemma inv_shrink cs st st' : inv cs st -> s_core st' = s_core st ->
  (forall x, In x (live st') -> In x (live st)) -> NoDup (map r_id (live st')) -> inv cs st'.
Proof.
  intros [Hc Hr Hi Hu Hn Hk] Hc' Hsub Hnd. constructor.
  - rewrite Hc'; exact Hc.
  - rewrite Forall_forall in *. intros x Hx. apply Hr, Hsub, Hx.
  - exact Hnd.
  - intros r1 r2 H1 H2. apply Hu; apply Hsub; assumption.
  - intros r c H1. apply Hn; apply Hsub; exact H1.
  - intros r c H1. apply Hk; apply Hsub; exact H1.
Qed.

Lemma drop_in i l x : In x (drop_id i l) <-> In x l /\ r_id x <> i.
Proof. unfold drop_id. rewrite filter_In, negb_true_iff, N.eqb_neq. reflexivity. Qed.

Lemma drop_none i l : ~ In i (map r_id l) -> drop_id i l = l.
Proof.
  induction l as [|x l IH]; intros H; [reflexivity|]. cbn [drop_id filter]. cbn [map In] in H.
  destruct (r_id x =? i) eqn:E; [apply N.eqb_eq in E; tauto|]. cbn [negb]. f_equal. apply IH. tauto.
Qed.

Lemma nodup_drop (f : res -> bool) l : NoDup (map r_id l) -> NoDup (map r_id (filter f l)).
Proof.
  induction l as [|x l IH]; intros H; [constructor|]. cbn [map] in H. inversion H as [|? ? H1 H2]; subst.
  cbn [filter]. destruct (f x); [|apply IH; exact H2]. cbn [map]. constructor; [|apply IH; exact H2].
  intros Hi. apply H1. apply in_map_iff in Hi as (y & Hy & Hy'). apply filter_In in Hy' as [Hy' _]. rewrite <- Hy. apply in_map; exact Hy'.
Qed.

Lemma drop_app i l1 l2 : drop_id i (l1 ++ l2) = drop_id i l1 ++ drop_id i l2.
Proof. unfold drop_id. apply filter_app. Qed.

Lemma nodup_app_parts {A} (l1 l2 : list A) x : NoDup (l1 ++ l2) -> In x l1 -> ~ In x l2.
Proof.
  induction l1 as [|y l1 IH]; intros H Hi; [destruct Hi|]. cbn [app] in H. inversion H as [|? ? H1 H2]; subst.
  destruct Hi as [->|Hi]; [intros Hx; apply H1; apply in_or_app; right; exact Hx|apply IH; assumption].
Qed.

Lemma same_id_same l x y : NoDup (map r_id l) -> In x l -> In y l -> r_id x = r_id y -> x = y.
Proof.
  induction l as [|z l IH]; intros H Hx Hy E; [destruct Hx|]. cbn [map] in H. inversion H as [|? ? H1 H2]; subst.
  destruct Hx as [->|Hx]; destruct Hy as [->|Hy].
  - reflexivity.
  - exfalso; apply H1. rewrite E. apply in_map; exact Hy.
  - exfalso; apply H1. rewrite <- E. apply in_map; exact Hx.
  - apply IH; assumption.
Qed.

Lemma delete_live st i : ~ In i (map r_id (s_cols st)) -> live (delete_resource st i) = drop_id i (live st).
Proof. intros H. unfold live, delete_resource. cbn [s_apps s_dels s_cols]. rewrite !drop_app, (drop_none i (s_cols st)) by exact H. reflexivity. Qed.

Lemma step_inv cs st o : Forall good_core cs -> inv cs st -> op_ok st o -> inv cs (step st o).
Proof.
  intros Hg Hi Hok. pose proof Hi as [Hc Hr Hid Hu Hn _].
  destruct o as [r|r|r|r|r]; cbn [step op_ok] in *.
  - destruct Hok as (Hroot & Hfresh & Hcid). unfold add_resource.
    destruct (_ && negb (r_del r)); [exact Hi|]. destruct (r_periodic r && _); [exact Hi|].
    destruct (has_id _ (s_apps st)) eqn:Ea; [exact Hi|]. destruct (has_id _ (s_dels st)) eqn:Ed; [exact Hi|].
    destruct (uri_in_use st (r_dev r) (r_uri r)) eqn:Eu; [exact Hi|]. cbn [snd].
    apply inv_extend with (st := st) (r := r); try assumption; try reflexivity.
    + exists (s_apps st), (s_dels st ++ s_cols st). split; [reflexivity|apply live_apps].
    + intros H. apply in_map_iff in H as (x & Hx & Hx').
      specialize (Hfresh x Hx' Hx). apply in_app_iff in Hfresh as [H|H].
      * apply has_id_false in Ea. apply Ea. rewrite <- Hx. apply in_map; exact H.
      * apply has_id_false in Ed. apply Ed. rewrite <- Hx. apply in_map; exact H.
  - destruct Hok as (Hroot & Hfresh & Hcid). unfold add_collection.
    destruct (has_id _ (s_cols st)) eqn:Ea; [exact Hi|].
    destruct (uri_in_use st (r_dev r) (r_uri r)) eqn:Eu; [exact Hi|]. cbn [snd].
    apply inv_extend with (st := st) (r := r); try assumption; try reflexivity.
    + exists (live st), []. split; [rewrite app_nil_r; reflexivity|apply live_cols].
    + intros H. apply in_map_iff in H as (x & Hx & Hx').
      specialize (Hfresh x Hx' Hx). apply has_id_false in Ea. apply Ea. rewrite <- Hx. apply in_map; exact Hfresh.
  - apply inv_shrink with (st := st); try assumption; try reflexivity.
    + intros x. unfold delayed_delete, live. cbn [s_apps s_dels s_cols]. rewrite !in_app_iff, drop_in.
      apply in_app_iff in Hok. destruct (has_id _ _); [tauto|]. rewrite in_app_iff. cbn [In]. intuition (subst; auto).
    + unfold delayed_delete, live. cbn [s_apps s_dels s_cols].
      assert (Hcol : forall x, In x (s_cols st) -> r_id x <> r_id r).
      { intros x Hx E. unfold live in Hid. rewrite app_assoc, map_app in Hid.
        apply (nodup_app_parts _ _ (r_id r) Hid); [apply in_map; exact Hok|rewrite <- E; apply in_map; exact Hx]. }
      destruct (has_id (r_id r) (s_dels st)) eqn:Ed.
      * (* already waiting: the list is unchanged *)
        rewrite drop_none; [exact Hid|]. apply has_id_spec in Ed as (y & Hy & Ey). intros H.
        unfold live in Hid. rewrite map_app in Hid. apply (nodup_app_parts _ _ (r_id r) Hid H).
        rewrite <- Ey. apply in_map. apply in_app_iff; left; exact Hy.
      * apply has_id_false in Ed.
        assert (Hd : NoDup (map r_id (drop_id (r_id r) (live st)))) by (apply nodup_drop; exact Hid).
        unfold live in Hd. rewrite !drop_app, (drop_none _ (s_dels st) Ed) in Hd.
        rewrite (drop_none _ (s_cols st)) in Hd
          by (intros H; apply in_map_iff in H as (x & Hx & Hx'); exact (Hcol x Hx' Hx)).
        rewrite <- app_assoc, app_assoc. rewrite app_assoc in Hd. rewrite map_app in *. cbn [app map].
        change (r_id r :: map r_id (s_cols st)) with ([r_id r] ++ map r_id (s_cols st)).
        apply nodup_insert; [exact Hd|]. rewrite <- map_app. intros H. apply in_map_iff in H as (x & Hx & Hx').
        rewrite !in_app_iff, drop_in in Hx'. destruct Hx' as [[[_ H]|H]|H].
        -- exact (H Hx).
        -- apply Ed. rewrite <- Hx. apply in_map; exact H.
        -- exact (Hcol x H Hx).
  - apply inv_shrink with (st := st); try assumption; try reflexivity.
    + intros x. unfold delete_resource, live. cbn [s_apps s_dels s_cols]. rewrite !in_app_iff, !drop_in. tauto.
    + rewrite delete_live; [apply nodup_drop; exact Hid|].
      intros H. unfold live in Hid. rewrite app_assoc, map_app in Hid.
      apply (nodup_app_parts _ _ (r_id r) Hid); [apply in_map; exact Hok|exact H].
  - apply inv_shrink with (st := st); try assumption; try reflexivity.
    + intros x. unfold delete_collection, live. cbn [s_apps s_dels s_cols]. rewrite !in_app_iff, !drop_in. tauto.
    + unfold delete_collection, live. cbn [s_apps s_dels s_cols].
      assert (Hd : NoDup (map r_id (drop_id (r_id r) (live st)))) by (apply nodup_drop; exact Hid).
      unfold live in Hd. rewrite !drop_app in Hd.
      rewrite (drop_none _ (s_apps st)), (drop_none _ (s_dels st)) in Hd; [exact Hd| |].
      * intros H. unfold live in Hid. rewrite app_assoc, map_app in Hid.
        apply (nodup_app_parts _ _ (r_id r) Hid); [rewrite map_app; apply in_app_iff; right; exact H|apply in_map; exact Hok].
      * intros H. unfold live in Hid. rewrite app_assoc, map_app in Hid.
        apply (nodup_app_parts _ _ (r_id r) Hid); [rewrite map_app; apply in_app_iff; left; exact H|apply in_map; exact Hok].
Qed.

Lemma reaches_inv cs st : Forall good_core cs -> reaches cs st -> inv cs st.
Proof.
  intros Hg H. induction H as [|st o H IH Hok]; [|apply step_inv; assumption].
  constructor; cbn; try reflexivity; try constructor; intros; contradiction.
Qed.

(** * Lookup *)
Lemma core_find cs st p d c : core_ok cs -> inv cs st -> path_ok p -> In c cs -> r_uri (c_res c) = 47 :: p ->
  (c_platform c = true \/ r_dev (c_res c) = d) -> core_by_uri st p d = Some (c_res c).
Proof.
  intros [Hg Hu] Hi Hp Hc He Hd. pose proof Hg as Hg'. rewrite Forall_forall in Hg'. destruct Hi as [Ec _ _ _ _ _].
  unfold core_by_uri. rewrite Ec.
  assert (Hm : core_match p d c = true) by (apply core_match_path; [exact Hp|apply Hg'; exact Hc|auto]).
  destruct (find (core_match p d) cs) as [c'|] eqn:E.
  - apply find_some in E as [E1 E2]. apply core_match_path in E2 as [E2 E3]; [|exact Hp|apply Hg'; exact E1].
    cbn [option_map]. f_equal. f_equal. apply Hu; try assumption; [congruence|].
    destruct E3 as [E3|E3]; [auto|]. destruct Hd as [Hd|Hd]; [auto|]. right; right. congruence.
  - rewrite (find_none _ _ E _ Hc) in Hm. discriminate.
Qed.

Lemma live_in st x : In x (live st) <-> In x (s_apps st) \/ In x (s_dels st) \/ In x (s_cols st).
Proof. unfold live. rewrite !in_app_iff. tauto. Qed.
Lemma open_in st x : In x (open st) <-> In x (s_apps st) \/ In x (s_cols st).
Proof. unfold open. rewrite !in_app_iff. tauto. Qed.

Lemma path_plain p : path_ok p -> plain (47 :: p).
Proof. intros [_ H]. exists p. auto. Qed.

Lemma by_uri_spec cs st p d r : core_ok cs -> inv cs st -> path_ok p ->
  (by_uri st p d = Some r <-> serves st p d r).
Proof.
  intros Hco Hi Hp. pose proof Hco as [Hg _]. pose proof Hi as [Ec Hr Hid Hu Hn _].
  assert (Hg' := Hg). rewrite Forall_forall in Hg', Hr.
  unfold by_uri, serves. split.
  - destruct (core_by_uri st p d) as [c|] eqn:E.
    + intros H; injection H as ->. unfold core_by_uri in E. destruct (find _ _) as [c|] eqn:Ef; [|discriminate].
      injection E as <-. apply find_some in Ef as [E1 E2].
      apply core_match_path in E2 as [E2 E3]; [|exact Hp|apply Hg'; rewrite <- Ec; exact E1].
      split; [exact E2|]. right. exists c. auto.
    + unfold app_by_uri. destruct p as [|x p]; [discriminate|]. set (path := x :: p) in *.
      destruct (find (app_eq path d) (s_apps st)) as [y|] eqn:Ef.
      * intros H; injection H as ->. apply find_some in Ef as [E1 E2].
        apply app_eq_spec in E2 as [E2 E3]; [|exact Hp|apply Hr, live_in; auto].
        split; [exact E3|]. left. split; [apply open_in; auto|exact E2].
      * unfold col_by_uri. intros H. apply find_some in H as [E1 E2].
        rewrite (strip_id path (proj2 Hp)) in E2. apply stored_eq_spec in E2 as [E2 E3]; [|apply Hr, live_in; auto].
        split; [exact E3|]. left. split; [apply open_in; auto|exact E2].
  - intros [He [[Ho Hd]|(c & Hc & Hcr & Hd)]].
    + assert (Hl : In r (live st)) by (apply live_in; apply open_in in Ho; tauto).
      assert (Hpl : plain (r_uri r)) by (rewrite He; apply path_plain; exact Hp).
      destruct (core_by_uri st p d) as [c|] eqn:E.
      { exfalso. unfold core_by_uri in E. destruct (find _ _) as [c'|] eqn:Ef; [|discriminate].
        apply find_some in Ef as [E1 E2]. rewrite Ec in E1.
        apply core_match_path in E2 as [E2 E3]; [|exact Hp|apply Hg'; exact E1].
        apply (Hn r c' Hl E1 Hpl); [rewrite Hd; exact E3|congruence]. }
      unfold app_by_uri. destruct p as [|x p]; [destruct Hp; congruence|]. set (path := x :: p) in *.
      destruct (find (app_eq path d) (s_apps st)) as [y|] eqn:Ef.
      * apply find_some in Ef as [E1 E2].
        apply app_eq_spec in E2 as [E2 E3]; [|exact Hp|apply Hr, live_in; auto].
        f_equal. symmetry. apply Hu; try assumption; [apply live_in; auto|congruence|congruence].
      * unfold col_by_uri. rewrite (strip_id path (proj2 Hp)).
        apply open_in in Ho as [Ho|Ho].
        { exfalso. assert (X : app_eq path d r = true) by (apply app_eq_spec; [exact Hp|apply Hr; exact Hl|auto]).
          rewrite (find_none _ _ Ef _ Ho) in X. discriminate. }
        destruct (find (stored_eq d path) (s_cols st)) as [y|] eqn:Ey.
        -- apply find_some in Ey as [E1 E2]. apply stored_eq_spec in E2 as [E2 E3]; [|apply Hr, live_in; auto].
           f_equal. symmetry. apply Hu; try assumption; [apply live_in; auto|congruence|congruence].
        -- exfalso. assert (X : stored_eq d path r = true) by (apply stored_eq_spec; [apply Hr; exact Hl|auto]).
           rewrite (find_none _ _ Ey _ Ho) in X. discriminate.
    + subst r. rewrite Ec in Hc. rewrite (core_find cs st p d c); try assumption. reflexivity.
Qed.

(** ** The property's statements *)
Lemma uri_unique cs st r1 r2 : core_ok cs -> reaches cs st -> In r1 (live st) -> In r2 (live st) ->
  plain (r_uri r1) -> r_dev r1 = r_dev r2 -> r_uri r1 = r_uri r2 -> r1 = r2.
Proof. intros [Hg _] H. apply (i_uris _ _ (reaches_inv cs st Hg H)). Qed.

Lemma uri_not_core cs st r c : core_ok cs -> reaches cs st -> In r (live st) -> plain (r_uri r) ->
  core_of st (r_dev r) c -> r_uri c <> r_uri r.
Proof.
  intros [Hg _] H Hl Hp (k & Hk & <- & Hd). pose proof (reaches_inv cs st Hg H) as Hi.
  apply (i_nocore _ _ Hi); try assumption. rewrite <- (i_core _ _ Hi). exact Hk.
Qed.

Lemma lookup_serves cs st p d r : core_ok cs -> reaches cs st -> path_ok p ->
  (by_uri st p d = Some r <-> serves st p d r).
Proof. intros Hco H Hp. apply by_uri_spec with (cs := cs); try assumption. apply reaches_inv; [apply Hco|exact H]. Qed.

Lemma serves_fun cs st p d r1 r2 : core_ok cs -> reaches cs st -> path_ok p ->
  serves st p d r1 -> serves st p d r2 -> r1 = r2.
Proof.
  intros Hco H Hp H1 H2. apply (lookup_serves cs st p d r1 Hco H Hp) in H1. apply (lookup_serves cs st p d r2 Hco H Hp) in H2. congruence.
Qed.

Lemma any_handler r : (negb (r_get r) && negb (r_put r) && negb (r_post r) && negb (r_del r)) = false <-> has_any_handler r.
Proof. unfold has_any_handler. destruct (r_get r), (r_put r), (r_post r), (r_del r); cbn; intuition congruence. Qed.

Lemma add_spec cs st r : core_ok cs -> reaches cs st -> plain (r_uri r) ->
  (fst (add_resource st r) = true <->
   has_any_handler r /\ (r_periodic r = true -> r_period r <> 0) /\
   (forall x, In x (s_apps st ++ s_dels st) -> r_id x <> r_id r) /\ ~ taken st (r_dev r) (r_uri r)) /\
  (fst (add_resource st r) = true -> s_apps (snd (add_resource st r)) = s_apps st ++ [r] /\
     s_dels (snd (add_resource st r)) = s_dels st /\ s_cols (snd (add_resource st r)) = s_cols st) /\
  (fst (add_resource st r) = false -> snd (add_resource st r) = st).
Proof.
  intros [Hg Hcu] H (t & Ht & Hs). pose proof (reaches_inv cs st Hg H) as [Hc Hr _ _ _ _].
  pose proof (in_use_spec cs st t (r_dev r) Hc Hg Hr Hs) as Hin. rewrite <- Ht in Hin.
  pose proof (any_handler r) as Hh. pose proof (has_id_false (r_id r) (s_apps st)) as Ha.
  pose proof (has_id_false (r_id r) (s_dels st)) as Hd.
  assert (Hids : (forall x, In x (s_apps st ++ s_dels st) -> r_id x <> r_id r) <->
                 ~ In (r_id r) (map r_id (s_apps st)) /\ ~ In (r_id r) (map r_id (s_dels st))).
  { rewrite !in_map_iff. split.
    - intros X. split; intros (x & E & Hx); apply (X x); try exact E; apply in_app_iff; auto.
    - intros [X Y] x Hx E. apply in_app_iff in Hx as [Hx|Hx]; [apply X|apply Y]; exists x; auto. }
  unfold add_resource.
  destruct (negb (r_get r) && negb (r_put r) && negb (r_post r) && negb (r_del r)) eqn:E1.
  { cbn [fst snd]. split; [|split; intros; [discriminate|reflexivity]]. split; [discriminate|]. intros [X _]. apply Hh in X. discriminate. }
  destruct (r_periodic r && (r_period r =? 0)) eqn:E2.
  { cbn [fst snd]. split; [|split; intros; [discriminate|reflexivity]]. split; [discriminate|]. intros (_ & X & _).
    apply andb_true_iff in E2 as [E2 E3]. apply N.eqb_eq in E3. destruct (X E2 E3). }
  destruct (has_id (r_id r) (s_apps st)) eqn:E3.
  { cbn [fst snd]. split; [|split; intros; [discriminate|reflexivity]]. split; [discriminate|]. intros (_ & _ & X & _).
    apply Hids in X as [X _]. apply Ha in X. discriminate. }
  destruct (has_id (r_id r) (s_dels st)) eqn:E4.
  { cbn [fst snd]. split; [|split; intros; [discriminate|reflexivity]]. split; [discriminate|]. intros (_ & _ & X & _).
    apply Hids in X as [_ X]. apply Hd in X. discriminate. }
  destruct (uri_in_use st (r_dev r) (r_uri r)) eqn:E5.
  { cbn [fst snd]. split; [|split; intros; [discriminate|reflexivity]]. split; [discriminate|]. intros (_ & _ & _ & X).
    destruct (X (proj1 Hin eq_refl)). }
  cbn [fst snd s_apps s_dels s_cols]. split; [|split; intros; [auto|discriminate]].
  split; [intros _|reflexivity]. split; [apply Hh; reflexivity|]. split.
  { intros X Y. rewrite X in E2. apply N.eqb_neq in E2. congruence. }
  split; [apply Hids; split; [apply Ha|apply Hd]; reflexivity|]. intros X. apply Hin in X. discriminate.
Qed.

Lemma add_col_spec cs st r : core_ok cs -> reaches cs st -> plain (r_uri r) ->
  (fst (add_collection st r) = true <->
   (forall x, In x (s_cols st) -> r_id x <> r_id r) /\ ~ taken st (r_dev r) (r_uri r)) /\
  (fst (add_collection st r) = true -> s_cols (snd (add_collection st r)) = s_cols st ++ [r] /\
     s_dels (snd (add_collection st r)) = s_dels st /\ s_apps (snd (add_collection st r)) = s_apps st) /\
  (fst (add_collection st r) = false -> snd (add_collection st r) = st).
Proof.
  intros [Hg Hcu] H (t & Ht & Hs). pose proof (reaches_inv cs st Hg H) as [Hc Hr _ _ _ _].
  pose proof (in_use_spec cs st t (r_dev r) Hc Hg Hr Hs) as Hin. rewrite <- Ht in Hin.
  pose proof (has_id_false (r_id r) (s_cols st)) as Ha.
  assert (Hids : (forall x, In x (s_cols st) -> r_id x <> r_id r) <-> ~ In (r_id r) (map r_id (s_cols st))).
  { rewrite in_map_iff. split; [intros X (x & E & Hx); exact (X x Hx E)|intros X x Hx E; apply X; exists x; auto]. }
  unfold add_collection. destruct (has_id (r_id r) (s_cols st)) eqn:E3.
  { cbn [fst snd]. split; [|split; intros; [discriminate|reflexivity]]. split; [discriminate|]. intros (X & _).
    apply Hids in X. apply Ha in X. discriminate. }
  destruct (uri_in_use st (r_dev r) (r_uri r)) eqn:E5.
  { cbn [fst snd]. split; [|split; intros; [discriminate|reflexivity]]. split; [discriminate|]. intros (_ & X).
    destruct (X (proj1 Hin eq_refl)). }
  cbn [fst snd s_apps s_dels s_cols]. split; [|split; intros; [auto|discriminate]].
  split; [intros _|reflexivity]. split; [apply Hids, Ha; reflexivity|]. intros X. apply Hin in X. discriminate.
Qed.

(** after oc_delayed_delete_resource the resource is gone for requests and its URI still taken; after the deletion
    the URI is free *)
Lemma delay_spec cs st r p d : core_ok cs -> reaches cs st -> In r (s_apps st) -> path_ok p ->
  by_uri (delayed_delete st r) p d <> Some r /\
  (taken (delayed_delete st r) d (47 :: p) <-> taken st d (47 :: p)) /\
  (forall r', r' <> r -> (by_uri (delayed_delete st r) p d = Some r' <-> by_uri st p d = Some r')).
Proof.
  intros Hco H Hr Hp. pose proof (reaches_inv cs st (proj1 Hco) H) as Hi.
  assert (Hok : op_ok st (Delay r)) by (cbn; apply in_app_iff; auto).
  pose proof (reaches_step cs st (Delay r) H Hok) as H'. cbn [step] in H'.
  pose proof (reaches_inv cs _ (proj1 Hco) H') as Hi'.
  pose proof (i_ids _ _ Hi) as Hnd.
  assert (Hs : forall x, In x (s_apps st) -> r_id x = r_id r -> x = r).
  { intros x Hx E. apply (same_id_same (live st)); try assumption; apply live_in; auto. }
  assert (Hnotcol : ~ In r (s_cols st)).
  { intros X. unfold live in Hnd. rewrite map_app in Hnd. apply (nodup_app_parts _ _ (r_id r) Hnd); [apply in_map; exact Hr|].
    rewrite map_app. apply in_app_iff; right. apply in_map; exact X. }
  assert (Hl : forall x, In x (live (delayed_delete st r)) <-> In x (live st)).
  { intros x. rewrite !live_in. unfold delayed_delete. cbn [s_apps s_dels s_cols]. rewrite drop_in.
    destruct (has_id (r_id r) (s_dels st)) eqn:E.
    - exfalso. apply has_id_spec in E as (y & Hy & Ey). unfold live in Hnd. rewrite map_app in Hnd.
      apply (nodup_app_parts _ _ (r_id r) Hnd); [apply in_map; exact Hr|]. rewrite <- Ey. apply in_map, in_app_iff; auto.
    - rewrite in_app_iff. cbn [In]. split; [intuition (subst; auto)|].
      intros [X|[X|X]]; auto. destruct (N.eq_dec (r_id x) (r_id r)) as [E'|E']; [|auto].
      rewrite (Hs x X E'). auto. }
  split; [|split].
  - intros X. apply (by_uri_spec cs) in X; try assumption. destruct X as [He [[Ho Hd]|(c & Hc & Hcr & Hd)]].
    + apply open_in in Ho. cbn [delayed_delete s_apps s_cols] in Ho. rewrite drop_in in Ho. tauto.
    + cbn [delayed_delete s_core] in Hc. rewrite (i_core _ _ Hi) in Hc.
      assert (Hpl : plain (r_uri r)) by (rewrite He; apply path_plain; exact Hp).
      apply (i_nocore _ _ Hi r c); try assumption; [apply live_in; auto| |congruence]. right. congruence.
  - unfold taken. split; (intros [(x & X1 & X2)|X]; [left; exists x; split; [apply Hl; exact X1|exact X2]|right; exact X]).
  - intros r' Hne. rewrite !(by_uri_spec cs) by assumption. unfold serves.
    assert (Hop : In r' (open (delayed_delete st r)) <-> In r' (open st)).
    { rewrite !open_in. cbn [delayed_delete s_apps s_cols]. rewrite drop_in.
      split; [tauto|]. intros [X|X]; [|auto]. left. split; [exact X|]. intros E. apply Hne, Hs; assumption. }
    rewrite Hop. reflexivity.
Qed.

Lemma delete_spec cs st r d : core_ok cs -> reaches cs st -> In r (s_apps st ++ s_dels st) -> plain (r_uri r) ->
  r_dev r = d -> ~ taken (delete_resource st (r_id r)) d (r_uri r).
Proof.
  intros Hco H Hr Hp Hd. pose proof (reaches_inv cs st (proj1 Hco) H) as Hi.
  assert (Hl : In r (live st)) by (apply live_in; apply in_app_iff in Hr; tauto).
  assert (Hnc : ~ In (r_id r) (map r_id (s_cols st))).
  { intros X. pose proof (i_ids _ _ Hi) as Hid. unfold live in Hid. rewrite app_assoc, map_app in Hid.
    apply (nodup_app_parts _ _ (r_id r) Hid); [apply in_map; exact Hr|exact X]. }
  intros [(x & X1 & X2 & X3)|(x & (c & Hc & Hcr & Hcd) & X3)].
  - rewrite (delete_live st (r_id r) Hnc), drop_in in X1. destruct X1 as [X1 X4].
    apply X4. f_equal. apply (i_uris _ _ Hi); try assumption; [rewrite X3; exact Hp|congruence].
  - cbn [delete_resource s_core] in Hc. rewrite (i_core _ _ Hi) in Hc.
    apply (i_nocore _ _ Hi r c Hl Hc Hp); [|congruence]. destruct Hcd as [|Hcd]; [auto|]. right. congruence.
Qed.
