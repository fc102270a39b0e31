(** Proofs about the links of collections. *)
From Verif Require Import Common Query_Spec Ri_Model Col_Model Col_Spec.
From Coq Require Import ZArith Sorting.Sorted.
Local Open Scope list_scope.
Local Open Scope N_scope.

Lemma str_lt_spec a b : str_lt a b = true <-> lex a b.
Proof.
  revert b. induction a as [|x a IH]; intros [|y b]; cbn [str_lt].
  - split; [discriminate|inversion 1].
  - split; [constructor|reflexivity].
  - split; [discriminate|inversion 1].
  - destruct (N.ltb_spec x y) as [Hl|Hl].
    + split; [intros _; constructor; exact Hl|reflexivity].
    + destruct (N.eqb_spec x y) as [->|Hn].
      * rewrite IH. split; [apply lex_next|]. inversion 1; subst; [lia|assumption].
      * split; [discriminate|]. inversion 1; subst; [lia|congruence].
Qed.

Lemma lex_irrefl a : ~ lex a a.
Proof. induction a as [|x a IH]; inversion 1; subst; [lia|auto]. Qed.
Lemma lex_trans a b c : lex a b -> lex b c -> lex a c.
Proof.
  intros H. revert c. induction H as [y b|x y a b Hxy|x a b H IH]; intros c Hc; inversion Hc; subst.
  - constructor.
  - constructor.
  - apply lex_char. lia.
  - apply lex_char. exact Hxy.
  - apply lex_char. assumption.
  - apply lex_next. apply IH. assumption.
Qed.
Lemma lex_total a b : List.length a = List.length b -> lex a b \/ a = b \/ lex b a.
Proof.
  revert b. induction a as [|x a IH]; intros [|y b] Hl; try discriminate; [auto|]. injection Hl as Hl.
  destruct (N.lt_trichotomy x y) as [H|[->|H]].
  - left. constructor. exact H.
  - destruct (IH b Hl) as [H|[->|H]]; [left; constructor; exact H|auto|right; right; constructor; exact H].
  - right; right. constructor. exact H.
Qed.

Lemma href_irrefl u : ~ href_lt u u.
Proof. intros [H|[_ H]]; [lia|exact (lex_irrefl u H)]. Qed.
Lemma href_trans u v w : href_lt u v -> href_lt v w -> href_lt u w.
Proof.
  intros [H|[H1 H2]] [K|[K1 K2]]; unfold href_lt; [left; lia|left; lia|left; lia|right; split; [lia|exact (lex_trans _ _ _ H2 K2)]].
Qed.
Lemma href_total u v : href_lt u v \/ u = v \/ href_lt v u.
Proof.
  unfold href_lt. destruct (Nat.lt_trichotomy (List.length u) (List.length v)) as [H|[H|H]]; auto.
  destruct (lex_total u v H) as [K|[K|K]]; auto.
Qed.
Lemma href_ge_trans u v w : ~ href_lt v u -> ~ href_lt w v -> ~ href_lt w u.
Proof.
  intros H K L. destruct (href_total u v) as [M|[->|M]]; [|contradiction|contradiction].
  exact (K (href_trans _ _ _ L M)).
Qed.

Lemma goes_before_spec u next : u <> [] -> goes_before u next = true <-> href_lt u (ln_uri next).
Proof.
  intros Hu. unfold goes_before, href_lt. destruct (ln_uri next) as [|y v] eqn:E.
  - split; [discriminate|]. intros [H|[H _]]; cbn [List.length] in H; [lia|]. destruct u; [contradiction|discriminate].
  - rewrite orb_true_iff, andb_true_iff, Nat.ltb_lt, Nat.eqb_eq, str_lt_spec. reflexivity.
Qed.

(** the new link comes after every link that is not greater and before those that are *)
Lemma insert_link_spec l ls : ln_uri l <> [] -> in_order ls ->
  exists a b, ls = a ++ b /\ insert_link l ls = a ++ [l] ++ b /\
    Forall (fun x => ~ href_lt (ln_uri l) (ln_uri x)) a /\ Forall (fun x => href_lt (ln_uri l) (ln_uri x)) b.
Proof.
  intros Hu Hs. induction Hs as [|x ls Hs IH Hx].
  - exists [], []. cbn. auto.
  - cbn [insert_link]. destruct (goes_before (ln_uri l) x) eqn:E.
    + apply goes_before_spec in E; [|exact Hu]. exists [], (x :: ls). repeat split; [constructor|]. constructor; [exact E|].
      rewrite Forall_forall in *. intros y Hy. specialize (Hx y Hy). cbn beta in Hx.
      destruct (href_total (ln_uri l) (ln_uri y)) as [H|[H|H]]; [exact H| |].
      * rewrite H in E. contradiction.
      * exfalso. exact (Hx (href_trans _ _ _ H E)).
    + destruct IH as (a & b & Ha & Hi & H1 & H2). exists (x :: a), b. subst ls. rewrite Hi. repeat split; [|exact H2].
      constructor; [|exact H1]. intros H. apply goes_before_spec in H; [|exact Hu]. congruence.
Qed.

Lemma sorted_app {A} (R : A -> A -> Prop) a b :
  StronglySorted R (a ++ b) <-> StronglySorted R a /\ StronglySorted R b /\ Forall (fun x => Forall (R x) b) a.
Proof.
  induction a as [|x a IH]; cbn [app].
  - split; [intros H; repeat split; [constructor|exact H|constructor]|intros [_ [H _]]; exact H].
  - split.
    + intros H. inversion H as [|y r Hs Hf]; subst. apply IH in Hs. destruct Hs as (H1 & H2 & H3). apply Forall_app in Hf. destruct Hf as [F1 F2].
      repeat split; [constructor; assumption|exact H2|constructor; assumption].
    + intros (H1 & H2 & H3). inversion H1; subst. inversion H3; subst. constructor.
      * apply IH. auto.
      * apply Forall_app. auto.
Qed.

Lemma insert_in_order l ls : ln_uri l <> [] -> in_order ls -> in_order (insert_link l ls).
Proof.
  intros Hu Hs. destruct (insert_link_spec l ls Hu Hs) as (a & b & -> & -> & Ha & Hb). unfold in_order in *.
  apply sorted_app in Hs. destruct Hs as (Sa & Sb & Sab). apply sorted_app. repeat split.
  - exact Sa.
  - cbn [app]. constructor; [exact Sb|]. eapply Forall_impl; [|exact Hb]. cbn beta. intros x Hx Hy. exact (href_irrefl _ (href_trans _ _ _ Hx Hy)).
  - rewrite Forall_forall in *. intros x Hx. cbn [app]. constructor; [exact (Ha x Hx)|]. exact (Sab x Hx).
Qed.

Lemma add_in_order l ls : in_order ls -> in_order (add_link l ls).
Proof. intros H. unfold add_link. destruct (ln_uri l) eqn:E; [exact H|]. apply insert_in_order; [congruence|exact H]. Qed.

Lemma remove_spec i ls : (remove_link i ls = ls /\ (forall l, In l ls -> ln_id l <> i)) \/
  exists a l b, ls = a ++ [l] ++ b /\ ln_id l = i /\ remove_link i ls = a ++ b /\ (forall x, In x a -> ln_id x <> i).
Proof.
  induction ls as [|x ls IH]; [left; split; [reflexivity|intros l []]|]. cbn [remove_link]. destruct (N.eqb_spec (ln_id x) i) as [E|E].
  - right. exists [], x, ls. repeat split; [exact E|intros y []].
  - destruct IH as [[-> H]|(a & l & b & -> & Hl & Hr & Ha)].
    + left. split; [reflexivity|]. intros l [<-|Hl]; [exact E|exact (H l Hl)].
    + right. exists (x :: a), l, b. rewrite Hr. repeat split; [exact Hl|]. intros y [<-|Hy]; [exact E|exact (Ha y Hy)].
Qed.

Lemma remove_in_order i ls : in_order ls -> in_order (remove_link i ls).
Proof.
  intros H. destruct (remove_spec i ls) as [[-> _]|(a & l & b & -> & _ & -> & _)]; [exact H|]. unfold in_order in *.
  apply sorted_app in H. destruct H as (Ha & Hb & Hab). cbn [app] in *. inversion Hb; subst. apply sorted_app. repeat split; [exact Ha|assumption|].
  eapply Forall_impl; [|exact Hab]. cbn beta. intros x Hx. inversion Hx; assumption.
Qed.

(** every history keeps the links of every collection in order *)
Definition all_in_order (w : world) : Prop := forall c, In c (w_cols w) -> in_order (cl_links c).

Lemma on_col_in i f cs c : In c (on_col i f cs) ->
  exists k, In k cs /\ cl_res c = cl_res k /\ (cl_links c = cl_links k \/ cl_links c = f (cl_links k)).
Proof.
  unfold on_col. intros H. apply in_map_iff in H. destruct H as (k & Hk & Hin). exists k. destruct (cl_id k =? i); subst c; auto.
Qed.

Lemma unlink_links t c : cl_links (unlink_one t c) = cl_links c \/ exists i, cl_links (unlink_one t c) = remove_link i (cl_links c).
Proof. unfold unlink_one. destruct (_ && _); [|auto]. destruct (link_by_uri _ _) as [l|]; [right; exists (ln_id l); reflexivity|auto]. Qed.
Lemma unlink_res t c : cl_res (unlink_one t c) = cl_res c.
Proof. unfold unlink_one. destruct (_ && _); [|reflexivity]. destruct (link_by_uri _ _); reflexivity. Qed.

Lemma step_in_order w o : all_in_order w -> all_in_order (col_step w o).
Proof.
  intros H c Hc. destruct o as [t|t|k l|k i|t|i]; cbn [col_step w_cols] in Hc.
  - exact (H c Hc).
  - apply in_app_iff in Hc. destruct Hc as [Hc|[<-|[]]]; [exact (H c Hc)|constructor].
  - apply on_col_in in Hc. destruct Hc as (k' & Hk & _ & [->| ->]); [exact (H k' Hk)|apply add_in_order; exact (H k' Hk)].
  - apply on_col_in in Hc. destruct Hc as (k' & Hk & _ & [->| ->]); [exact (H k' Hk)|apply remove_in_order; exact (H k' Hk)].
  - apply in_map_iff in Hc. destruct Hc as (k & <- & Hk). destruct (unlink_links t k) as [->|[i ->]]; [exact (H k Hk)|apply remove_in_order; exact (H k Hk)].
  - apply filter_In in Hc. exact (H c (proj1 Hc)).
Qed.

Lemma run_in_order ops : all_in_order (col_run ops).
Proof.
  unfold col_run. assert (G : forall ops w, all_in_order w -> all_in_order (fold_left col_step ops w)).
  { clear. induction ops as [|o ops IH]; intros w H; [exact H|]. cbn [fold_left]. apply IH, step_in_order, H. }
  apply G. intros c [].
Qed.

(** lookup by URI *)
Lemma find_split {A} (f : A -> bool) ls x : find f ls = Some x ->
  exists a b, ls = a ++ [x] ++ b /\ f x = true /\ forall y, In y a -> f y = false.
Proof.
  induction ls as [|y ls IH]; [discriminate|]. cbn [find]. destruct (f y) eqn:E.
  - intros H. injection H as ->. exists [], ls. repeat split; [exact E|intros z []].
  - intros H. destruct (IH H) as (a & b & -> & Hx & Ha). exists (y :: a), b. repeat split; [exact Hx|]. intros z [<-|Hz]; [exact E|exact (Ha z Hz)].
Qed.

Lemma link_by_uri_spec u ls : u <> [] ->
  match link_by_uri u ls with
  | Some l => exists a b, ls = a ++ [l] ++ b /\ strip (ln_uri l) = strip u /\ forall x, In x a -> strip (ln_uri x) <> strip u
  | None => forall x, In x ls -> strip (ln_uri x) <> strip u
  end.
Proof.
  intros Hu. unfold link_by_uri. destruct u as [|c0 u0] eqn:Eu; [contradiction|]. rewrite <- Eu in *. clear Eu.
  destruct (find _ ls) as [l|] eqn:E.
  - apply find_split in E. destruct E as (a & b & -> & Hl & Ha). exists a, b. repeat split; [apply list_eqb_spec; exact Hl|].
    intros x Hx He. specialize (Ha x Hx). cbn beta in Ha. rewrite He, list_eqb_refl in Ha. discriminate.
  - intros x Hx He. apply (List.find_none _ _ E) in Hx. cbn beta in Hx. rewrite He, list_eqb_refl in Hx. discriminate.
Qed.

(** unlinking a deleted resource *)
Lemma links_to_spec r c : links_to r c = true <-> exists l, In l (cl_links c) /\ ln_res l = r.
Proof. unfold links_to. rewrite existsb_exists. split; intros (l & Hl & H); exists l; split; auto; apply N.eqb_eq; exact H. Qed.

Definition pairwise_ids (ls : list link) : Prop := NoDup (map ln_id ls).

Lemma remove_mid a l b : (forall x, In x a -> ln_id x <> ln_id l) -> remove_link (ln_id l) (a ++ [l] ++ b) = a ++ b.
Proof.
  induction a as [|x a IH]; intros H; cbn [app remove_link].
  - rewrite N.eqb_refl. reflexivity.
  - destruct (N.eqb_spec (ln_id x) (ln_id l)) as [E|E]; [exfalso; exact (H x (or_introl eq_refl) E)|]. f_equal. apply IH. intros y Hy. apply H. right. exact Hy.
Qed.

Lemma unlink_clears t c : t_uri t <> [] -> r_dev (cl_res c) = t_dev t -> pairwise_ids (cl_links c) ->
  (forall l, In l (cl_links c) -> strip (ln_uri l) = strip (t_uri t) -> ln_res l = t_id t) ->
  (forall l, In l (cl_links c) -> ln_res l = t_id t -> ln_to l = t) ->
  NoDup (map ln_res (cl_links c)) ->
  cl_links (unlink_one t c) = filter (fun l => negb (ln_res l =? t_id t)) (cl_links c).
Proof.
  intros Hu Hd Hp Huri Hto Hn. unfold unlink_one. rewrite Hd, N.eqb_refl. cbn [andb]. destruct (links_to (t_id t) c) eqn:E.
  - pose proof (link_by_uri_spec (t_uri t) (cl_links c) Hu) as Hs. destruct (link_by_uri (t_uri t) (cl_links c)) as [l|].
    + destruct Hs as (a & b & Hl & He & Ha). cbn [cl_links]. rewrite Hl.
      assert (Hr : ln_res l = t_id t). { apply Huri; [rewrite Hl; apply in_app_iff; right; left; reflexivity|exact He]. }
      rewrite remove_mid.
      * rewrite Hl in Hn. rewrite map_app in Hn. cbn [map app] in Hn. apply NoDup_remove_2 in Hn. rewrite filter_app. cbn [app filter].
        rewrite Hr, N.eqb_refl. cbn [negb]. rewrite Hr in Hn.
        assert (G : forall xs, (forall x, In x xs -> In (ln_res x) (map ln_res a ++ map ln_res b)) -> filter (fun l => negb (ln_res l =? t_id t)) xs = xs).
        { clear - Hn. induction xs as [|x xs IH]; intros H; [reflexivity|]. cbn [filter]. destruct (N.eqb_spec (ln_res x) (t_id t)) as [E|E].
          - exfalso. apply Hn. rewrite <- E. apply H. left. reflexivity.
          - cbn [negb]. f_equal. apply IH. intros y Hy. apply H. right. exact Hy. }
        rewrite !G; [reflexivity| |]; intros x Hx; apply in_app_iff; [right|left]; apply in_map; exact Hx.
      * intros x Hx Ex. unfold pairwise_ids in Hp. rewrite Hl, map_app in Hp. cbn [map app] in Hp. apply NoDup_remove_2 in Hp. apply Hp.
        rewrite <- Ex. apply in_app_iff. left. apply in_map. exact Hx.
    + exfalso. apply links_to_spec in E. destruct E as (l & Hl & Hr). apply (Hs l Hl). unfold ln_uri. rewrite (Hto l Hl Hr). reflexivity.
  - symmetry. assert (G : forall xs, (forall x, In x xs -> ln_res x <> t_id t) -> filter (fun l => negb (ln_res l =? t_id t)) xs = xs).
    { induction xs as [|x xs IH]; intros H; [reflexivity|]. cbn [filter]. destruct (N.eqb_spec (ln_res x) (t_id t)) as [Ex|Ex].
      - exfalso. exact (H x (or_introl eq_refl) Ex).
      - cbn [negb]. f_equal. apply IH. intros y Hy. apply H. right. exact Hy. }
    apply G. intros x Hx Ex. assert (links_to (t_id t) c = true) by (apply links_to_spec; exists x; auto). congruence.
Qed.
