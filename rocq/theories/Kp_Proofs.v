(** The list of key pairs refines the table. *)

From Coq Require Import List Bool Arith Lia.
From Verif Require Import Kp_Model Kp_Spec.
Import ListNotations.

Definition view (s : st) (h : nat) : nat * key := (kdev (at_ s h), kkey (at_ s h)).

Record R (c : cfg) (s : st) (t : table) : Prop := {
  r_keys : map (view s) (lst s) = keys t;
  r_files : forall d, store s d = files t d;
  r_nodup : NoDup (lst s);
  r_live : forall h, live s h = true <-> In h (lst s);
  r_next : c = None -> forall h, In h (lst s) -> h < next s;
  r_pool : forall n, c = Some n -> forall h, In h (lst s) -> h < n;
  r_devs : NoDup (map fst (keys t));
  r_small : forall d k, In (d, k) (keys t) -> small k }.

Lemma upd_same : forall A (f : nat -> A) k a, upd f k a k = a.
Proof. intros. unfold upd. rewrite Nat.eqb_refl. reflexivity. Qed.
Lemma upd_other : forall A (f : nat -> A) k a x, x <> k -> upd f k a x = f x.
Proof. intros. unfold upd. destruct (x =? k) eqn:E; [apply Nat.eqb_eq in E; contradiction|reflexivity]. Qed.

Lemma find_lookup : forall c s d l, (forall h, In h l -> live s h = true) ->
  match find c s d l with
  | None => False
  | Some None => lookup d (map (view s) l) = None
  | Some (Some h) => In h l /\ kdev (at_ s h) = d /\ lookup d (map (view s) l) = Some (kkey (at_ s h))
  end.
Proof.
  intros c s d l. induction l as [|h l IH]; intros H; cbn [find map lookup view]; [reflexivity|].
  rewrite (H h (or_introl eq_refl)). cbn [negb].
  replace (match c with Some _ => false | None => false end) with false by (destruct c; reflexivity).
  destruct (kdev (at_ s h) =? d) eqn:E.
  - apply Nat.eqb_eq in E. split; [left; reflexivity|]. split; [exact E|reflexivity].
  - assert (X := IH (fun k K => H k (or_intror K))). destruct (find c s d l) as [[k|]|]; [|exact X|exact X].
    destruct X as [X [Y Z]]. split; [right; exact X|]. split; [exact Y|exact Z].
Qed.

Lemma lookup_none : forall d l, lookup d l = None <-> ~ In d (map fst l).
Proof.
  intros d l. induction l as [|[e k] l IH]; cbn [lookup map fst]; [split; [intros _ []|reflexivity]|].
  destruct (e =? d) eqn:E.
  - apply Nat.eqb_eq in E. split; [discriminate|]. intros H. destruct H. left. exact E.
  - apply Nat.eqb_neq in E. rewrite IH. split; [intros H [X|X]; auto|intros H X; apply H; right; exact X].
Qed.

Lemma lookup_in : forall d k l, lookup d l = Some k -> In (d, k) l.
Proof.
  intros d k l. induction l as [|[e j] l IH]; cbn [lookup]; [discriminate|]. destruct (e =? d) eqn:E.
  - intros H. inversion H. apply Nat.eqb_eq in E. subst. left. reflexivity.
  - intros H. right. apply IH. exact H.
Qed.

(** Reading a file. *)
Lemma final_snoc : forall A (l : list A) a, final (l ++ [a]) = Some a.
Proof. intros. unfold final. rewrite rev_app_distr. reflexivity. Qed.

Lemma final_cons : forall A (l : list A) a, final (a :: l) = match final l with Some b => Some b | None => Some a end.
Proof. intros. unfold final. cbn [rev]. destruct (rev l); reflexivity. Qed.

Lemma decode_gen : forall l p q, decode p q l =
  if forallb (fun b => length b <=? 120) (bytes_of NPub l) && forallb (fun b => length b <=? 200) (bytes_of NPriv l)
  then match (match final (bytes_of NPub l) with Some b => Some b | None => p end),
             (match final (bytes_of NPriv l) with Some b => Some b | None => q end) with
       | Some p, Some q => Some (mkkey p q)
       | _, _ => None
       end
  else None.
Proof.
  intros l. induction l as [|[n v] l IH]; intros p q; [cbn; destruct p, q; reflexivity|].
  destruct v as [b|]; [|destruct n; cbn [decode]; rewrite IH; reflexivity].
  destruct n; cbn [decode].
  - change (bytes_of NPub ((NPub, Bytes b) :: l)) with (b :: bytes_of NPub l).
    change (bytes_of NPriv ((NPub, Bytes b) :: l)) with (bytes_of NPriv l). cbn [forallb].
    rewrite (Nat.leb_antisym 120 (length b)). destruct (120 <? length b); [reflexivity|]. cbn [negb andb]. rewrite IH, final_cons.
    destruct (final (bytes_of NPub l)); reflexivity.
  - change (bytes_of NPub ((NPriv, Bytes b) :: l)) with (bytes_of NPub l).
    change (bytes_of NPriv ((NPriv, Bytes b) :: l)) with (b :: bytes_of NPriv l). cbn [forallb].
    rewrite (Nat.leb_antisym 200 (length b)). destruct (200 <? length b); [cbn [negb andb]; rewrite andb_false_r; reflexivity|].
    cbn [negb andb]. rewrite IH, final_cons. destruct (final (bytes_of NPriv l)); reflexivity.
  - rewrite IH. reflexivity.
Qed.

Lemma decode_content : forall l, decode None None l = content l.
Proof.
  intros l. rewrite decode_gen. unfold content. destruct (_ && _); [|reflexivity].
  destruct (final (bytes_of NPub l)), (final (bytes_of NPriv l)); reflexivity.
Qed.

Lemma final_in : forall A (l : list A) a, final l = Some a -> In a l.
Proof.
  intros A l a H. unfold final in H. destruct (rev l) as [|b r] eqn:E; [discriminate H|]. inversion H. subst b.
  apply in_rev. rewrite E. left. reflexivity.
Qed.

Lemma content_small : forall l k, content l = Some k -> small k.
Proof.
  intros l k H. unfold content in H. destruct (_ && _) eqn:E; [|discriminate H].
  apply andb_prop in E. destruct E as [A B]. rewrite forallb_forall in A, B.
  destruct (final (bytes_of NPub l)) as [p|] eqn:P; [|discriminate H].
  destruct (final (bytes_of NPriv l)) as [q|] eqn:Q; [|discriminate H]. inversion H. subst k.
  apply final_in in P, Q. apply A in P. apply B in Q. apply Nat.leb_le in P, Q. split; assumption.
Qed.

Lemma drawn_small : forall x k, drawn x = Some k -> small k.
Proof.
  intros x k H. unfold drawn in H. destruct (x_gen x) as [j|]; [|discriminate H].
  destruct (_ && _) eqn:E; [|discriminate H]. inversion H. subst k. apply andb_prop in E. destruct E as [A B].
  apply Nat.leb_le in A, B. split; assumption.
Qed.

Lemma encode_content : forall k, small k -> content (encode k) = Some k.
Proof.
  intros [p q] [A B]. cbn [pub priv] in *. unfold content, encode. cbn [bytes_of flat_map app forallb pub priv].
  apply Nat.leb_le in A, B. unfold bytes_of. cbn [flat_map app forallb]. rewrite A, B. reflexivity.
Qed.

(** Allocation. *)
Lemma pool_find : forall s n,
  NoDup (lst s) -> (forall h, live s h = true <-> In h (lst s)) -> (forall h, In h (lst s) -> h < n) ->
  match List.find (fun h => negb (live s h)) (seq 0 n) with
  | Some h => h < n /\ ~ In h (lst s) /\ length (lst s) < n
  | None => n <= length (lst s)
  end.
Proof.
  intros s n ND L P. destruct (List.find _ (seq 0 n)) as [h|] eqn:E.
  - apply find_some in E. destruct E as [A B]. apply in_seq in A. apply negb_true_iff in B.
    assert (N : ~ In h (lst s)) by (intros X; apply L in X; congruence).
    split; [lia|]. split; [exact N|].
    assert (Z : length (h :: lst s) <= length (seq 0 n)).
    { apply NoDup_incl_length; [constructor; assumption|]. intros k [K|K]; apply in_seq; [lia|].
      apply P in K. lia. }
    rewrite seq_length in Z. cbn [length] in Z. lia.
  - rewrite <- (seq_length n 0) at 1. apply NoDup_incl_length; [apply seq_NoDup|]. intros h X.
    assert (Y := find_none _ _ E h X). apply L. apply negb_false_iff. exact Y.
Qed.

Lemma len_keys : forall c s t, R c s t -> length (lst s) = length (keys t).
Proof. intros c s t V. rewrite <- (r_keys _ _ _ V), map_length. reflexivity. Qed.

Lemma alloc_R : forall c x s t, R c s t ->
  match alloc c x s with
  | None => room c x t = false
  | Some (h, s1) => room c x t = true /\ ~ In h (lst s) /\ lst s1 = lst s /\ store s1 = store s
      /\ mem s1 = upd (mem s) h (true, none) /\ next s <= next s1
      /\ (c = None -> h < next s1) /\ (forall n, c = Some n -> h < n)
  end.
Proof.
  intros c x s t V. unfold alloc, room. destruct c as [n|].
  - assert (F := pool_find s n (r_nodup _ _ _ V) (r_live _ _ _ V) (r_pool _ _ _ V n eq_refl)).
    rewrite (len_keys _ _ _ V) in F. destruct (List.find _ (seq 0 n)) as [h|].
    + destruct F as [A [B C]]. cbn [lst store mem next]. repeat split; auto; try (intros; discriminate).
      * apply Nat.ltb_lt. exact C.
      * intros m E. inversion E. lia.
    + apply Nat.ltb_ge. exact F.
  - destruct (x_mem x); [|reflexivity]. cbn [lst store mem next]. repeat split; auto; try (intros; discriminate).
    intros X. assert (Z := r_next _ _ _ V eq_refl _ X). lia.
Qed.

Lemma existsb_in : forall h l, existsb (Nat.eqb h) l = true <-> In h l.
Proof.
  intros h l. rewrite existsb_exists. split.
  - intros [x [A B]]. apply Nat.eqb_eq in B. subst. exact A.
  - intros H. exists h. split; [exact H|apply Nat.eqb_refl].
Qed.

(** A new key pair. *)
Lemma update_new : forall c x d r s t, R c s t -> lookup d (keys t) = None ->
  (forall k, r = Some k -> small k) ->
  exists s', fst (update c x d r s) = Fine s' /\ R c s' (enter c x d r t) /\
    snd (update c x d r s) = match r with Some _ => room c x t | None => false end.
Proof.
  intros c x d r s t V N SM. unfold update.
  assert (F := find_lookup c s d (lst s) (fun h H => proj2 (r_live _ _ _ V h) H)). rewrite (r_keys _ _ _ V), N in F.
  destruct (find c s d (lst s)) as [[h|]|]; [destruct F as [_ [_ F]]; discriminate F| |destruct F].
  assert (A := alloc_R c x s t V). destruct (alloc c x s) as [[h s1]|].
  2:{ exists s. unfold enter. rewrite A. split; [reflexivity|]. split; [destruct r; exact V|destruct r; reflexivity]. }
  destruct A as [RM [NI [L1 [S1 [M1 [N1 [H1 H2]]]]]]]. unfold enter. rewrite RM. destruct r as [k|].
  - unfold add, put. cbn [lst]. rewrite L1. destruct (existsb (Nat.eqb h) (lst s)) eqn:E; [apply existsb_in in E; contradiction|].
    eexists. split; [reflexivity|]. split; [|reflexivity].
    assert (AT : forall g, g <> h -> (upd (mem s1) h (live s1 h, mkkp d k)) g = mem s g).
    { intros g G. rewrite upd_other by exact G. rewrite M1, upd_other by exact G. reflexivity. }
    assert (LV : live s1 h = true) by (unfold live; rewrite M1, upd_same; reflexivity).
    split; cbn [lst mem next store keys files].
    + rewrite map_app. cbn [map]. rewrite <- (r_keys _ _ _ V). f_equal.
      * apply map_ext_in. intros g G. unfold view, at_. cbn [mem]. rewrite AT; [reflexivity|]. intros X. subst. contradiction.
      * unfold view, at_. cbn [mem]. rewrite upd_same. reflexivity.
    + intros e. rewrite S1. apply (r_files _ _ _ V).
    + assert (Z := r_nodup _ _ _ V). apply NoDup_rev in Z. rewrite <- (rev_involutive (lst s ++ [h])). apply NoDup_rev.
      rewrite rev_app_distr. cbn [rev app]. constructor; [|exact Z]. intros X. apply in_rev in X. contradiction.
    + intros g. unfold live. cbn [mem]. destruct (Nat.eq_dec g h) as [->|G].
      * rewrite upd_same. cbn [fst]. change (fst (mem s1 h)) with (live s1 h). rewrite LV. split; [intros _; apply in_or_app; right; left; reflexivity|reflexivity].
      * rewrite AT by exact G. assert (Y := r_live _ _ _ V g). unfold live in Y. rewrite Y. split; intros X.
        -- apply in_or_app. left. exact X.
        -- apply in_app_or in X. destruct X as [X|[X|[]]]; [exact X|congruence].
    + intros C g G. apply in_app_or in G. destruct G as [G|[G|[]]]; [assert (Z := r_next _ _ _ V C g G); lia|subst; auto].
    + intros n C g G. apply in_app_or in G. destruct G as [G|[G|[]]]; [apply (r_pool _ _ _ V n C g G)|subst; auto].
    + rewrite map_app. cbn [map fst]. assert (Z := r_devs _ _ _ V). apply NoDup_rev in Z.
      rewrite <- (rev_involutive (map fst (keys t) ++ [d])). apply NoDup_rev.
      rewrite rev_app_distr. cbn [rev app]. constructor; [|exact Z]. intros X. apply in_rev in X.
      apply lookup_none in N. contradiction.
    + intros e j X. apply in_app_or in X. destruct X as [X|[X|[]]]; [apply (r_small _ _ _ V e j X)|].
      inversion X. subst. apply SM. reflexivity.
  - eexists. split; [reflexivity|]. split; [|reflexivity].
    assert (AT : forall g, g <> h -> (upd (mem s1) h (false, at_ s1 h)) g = mem s g).
    { intros g G. rewrite upd_other by exact G. rewrite M1, upd_other by exact G. reflexivity. }
    split; unfold free; cbn [lst mem next store keys files]; rewrite ?L1.
    + rewrite <- (r_keys _ _ _ V). apply map_ext_in. intros g G. unfold view, at_. cbn [mem].
      rewrite AT; [reflexivity|]. intros X. subst. contradiction.
    + intros e. rewrite S1. apply (r_files _ _ _ V).
    + apply (r_nodup _ _ _ V).
    + intros g. unfold live. cbn [mem]. destruct (Nat.eq_dec g h) as [->|G].
      * rewrite upd_same. cbn [fst]. split; [discriminate|intros X; contradiction].
      * rewrite AT by exact G. apply (r_live _ _ _ V).
    + intros C g G. assert (Z := r_next _ _ _ V C g G). lia.
    + apply (r_pool _ _ _ V).
    + apply (r_devs _ _ _ V).
    + apply (r_small _ _ _ V).
Qed.

Lemma dump_R : forall c x d s t, R c s t ->
  exists s', dump c x d s = Fine s' /\
    R c s' (mktable (keys t) (match lookup d (keys t) with
                              | Some k => if x_write x then upd (files t) d (Rep (encode k)) else files t
                              | None => files t end)).
Proof.
  intros c x d s t V. unfold dump.
  assert (F := find_lookup c s d (lst s) (fun h H => proj2 (r_live _ _ _ V h) H)). rewrite (r_keys _ _ _ V) in F.
  destruct (find c s d (lst s)) as [[h|]|]; [| |destruct F].
  - destruct F as [_ [_ F]]. rewrite F. eexists. split; [reflexivity|]. destruct V as [V1 V2 V3 V4 V5 V6 V7 V8].
    destruct (x_write x).
    + split; try assumption. cbn [store files]. intros e. unfold upd. destruct (e =? d); [reflexivity|apply V2].
    + split; assumption.
  - rewrite F. exists s. split; [reflexivity|]. destruct V. split; assumption.
Qed.

Lemma lookup_snoc : forall d k l, lookup d l = None -> lookup d (l ++ [(d, k)]) = Some k.
Proof.
  intros d k l. induction l as [|[e j] l IH]; cbn [lookup app]; [rewrite Nat.eqb_refl; reflexivity|].
  destruct (e =? d); [discriminate|exact IH].
Qed.

Lemma gen_drawn : forall x, generate x = drawn x.
Proof. reflexivity. Qed.

Lemma R_ext : forall c s k f g, (forall d, f d = g d) -> R c s (mktable k f) -> R c s (mktable k g).
Proof. intros c s k f g E [V1 V2 V3 V4 V5 V6 V7 V8]. split; try assumption. cbn [files] in *. intros d. rewrite <- E. apply V2. Qed.

Lemma new_dump : forall c x d s t, R c s t -> lookup d (keys t) = None ->
  exists s', after (fst (update c x d (generate x) s)) (dump c x d) = Fine s' /\ R c s' (enter_new c x d t).
Proof.
  intros c x d s t V N. rewrite gen_drawn. destruct (update_new c x d (drawn x) s t V N) as [s1 [U [V1 _]]].
  { intros k E. apply (drawn_small x). exact E. }
  rewrite U. cbn [after]. destruct (dump_R c x d s1 _ V1) as [s2 [D V2]]. exists s2. split; [exact D|].
  unfold enter, enter_new in *. destruct (drawn x) as [k|]; [|].
  - destruct (room c x t).
    + cbn [keys files] in V2. rewrite (lookup_snoc d k (keys t) N) in V2. exact V2.
    + rewrite N in V2. destruct t. exact V2.
  - rewrite N in V2. destruct t. exact V2.
Qed.

Lemma new_reset : forall c x d s t, R c s t -> lookup d (keys t) = None ->
  exists s', match update c x d (generate x) s with
             | (r, true) => after r (dump c x d)
             | (r, false) => r
             end = Fine s' /\ R c s' (enter_new c x d t).
Proof.
  intros c x d s t V N. destruct (new_dump c x d s t V N) as [s2 [D V2]].
  destruct (update_new c x d (generate x) s t V N) as [s1 [U [V1 B]]].
  { intros k E. apply (drawn_small x). exact E. }
  destruct (update c x d (generate x) s) as [r b]. cbn [fst snd] in *. subst r. rewrite gen_drawn in *. destruct b.
  - exists s2. split; assumption.
  - exists s1. split; [reflexivity|]. unfold enter, enter_new in *. destruct (drawn x); [|exact V1].
    rewrite <- B in *. exact V1.
Qed.

(** One goes. *)
Lemma remove_R : forall c s t d h, R c s t -> In h (lst s) -> kdev (at_ s h) = d ->
  R c (free h (mkst (filter (fun k => negb (k =? h)) (lst s)) (mem s) (next s) (store s)))
      (mktable (filter (fun p => negb (fst p =? d)) (keys t)) (files t)).
Proof.
  intros c s t d h V IN DE. assert (ND := r_devs _ _ _ V). assert (VK := r_keys _ _ _ V).
  assert (IFF : forall g, In g (lst s) -> (g =? h) = (kdev (at_ s g) =? d)).
  { intros g G. destruct (g =? h) eqn:E.
    - apply Nat.eqb_eq in E. subst g. symmetry. apply Nat.eqb_eq. exact DE.
    - symmetry. apply Nat.eqb_neq. intros X. apply Nat.eqb_neq in E. apply E.
      rewrite <- VK, map_map in ND. cbn [view fst] in ND. clear - ND IN G DE X.
      revert ND IN G. generalize (lst s). intros l. induction l as [|a l IH]; intros ND IN G; [destruct IN|].
      cbn [map] in ND. inversion ND; subst.
      destruct IN as [IN|IN]; destruct G as [G|G]; subst.
      + reflexivity.
      + exfalso. apply H1. rewrite <- X. apply (in_map (fun x => kdev (at_ s x))). exact G.
      + exfalso. apply H1. rewrite X. apply (in_map (fun x => kdev (at_ s x))). exact IN.
      + apply IH; assumption. }
  split; cbn [free lst mem next store keys files].
  - rewrite <- VK. clear VK ND. assert (NH : forall g, In g (filter (fun k => negb (k =? h)) (lst s)) -> g <> h).
    { intros g G. apply filter_In in G. destruct G as [_ G]. apply negb_true_iff, Nat.eqb_neq in G. exact G. }
    transitivity (map (view s) (filter (fun k => negb (k =? h)) (lst s))).
    { apply map_ext_in. intros g G. unfold view, at_. cbn [mem free]. rewrite upd_other by (apply NH; exact G). reflexivity. }
    clear NH. revert IFF. generalize (lst s). intros l IFF. induction l as [|a l IH]; [reflexivity|].
    cbn [map filter view fst]. rewrite (IFF a (or_introl eq_refl)). destruct (kdev (at_ s a) =? d); cbn [negb map];
      rewrite IH by (intros g G; apply IFF; right; exact G); reflexivity.
  - apply (r_files _ _ _ V).
  - apply NoDup_filter. apply (r_nodup _ _ _ V).
  - intros g. unfold live. cbn [mem free]. destruct (Nat.eq_dec g h) as [->|G].
    + rewrite upd_same. cbn [fst]. split; [discriminate|]. intros X. apply filter_In in X.
      rewrite Nat.eqb_refl in X. destruct X as [_ X]. discriminate X.
    + rewrite upd_other by exact G. assert (Y := r_live _ _ _ V g). unfold live in Y. cbn [mem].
      rewrite Y. rewrite filter_In. split; [intros X; split; [exact X|apply negb_true_iff, Nat.eqb_neq; exact G]|intros [X _]; exact X].
  - intros C g G. apply filter_In in G. apply (r_next _ _ _ V C). apply G.
  - intros n C g G. apply filter_In in G. apply (r_pool _ _ _ V n C). apply G.
  - clear - ND. revert ND. generalize (keys t). intros l ND. induction l as [|[e k] l IH]; [constructor|].
    cbn [map fst] in ND. inversion ND; subst. cbn [filter fst]. destruct (negb (e =? d)); [|apply IH; assumption].
    cbn [map fst]. constructor; [|apply IH; assumption]. intros X. apply H1. apply in_map_iff in X.
    destruct X as [[e' k'] [A B]]. apply filter_In in B. apply in_map_iff. exists (e', k'). split; [exact A|apply B].
  - intros e k X. apply filter_In in X. apply (r_small _ _ _ V e k). apply X.
Qed.

Lemma lookup_removed : forall d l, lookup d (filter (fun p : nat * key => negb (fst p =? d)) l) = None.
Proof.
  intros d l. apply lookup_none. intros X. apply in_map_iff in X. destruct X as [[e k] [A B]].
  apply filter_In in B. cbn [fst] in *. subst e. rewrite Nat.eqb_refl in B. destruct B as [_ B]. discriminate B.
Qed.

Lemma step_R : forall c s t o, R c s t -> (forall d x, o = OLoad d x -> lookup d (keys t) = None) ->
  exists s', step c s o = Fine s' /\ R c s' (act c t o).
Proof.
  intros c s t o V N. destruct o as [d x|d keep x|d| |d f]; cbn [step act].
  - assert (ND := N d x eq_refl). unfold load. rewrite (r_files _ _ _ V d). destruct (files t d) as [| |l].
    + apply new_dump; assumption.
    + exists s. split; [reflexivity|exact V].
    + destruct (update_new c x d (decode None None l) s t V ND) as [s1 [U [V1 _]]].
      { intros k E. rewrite decode_content in E. apply (content_small l). exact E. }
      exists s1. split; [exact U|]. rewrite decode_content in V1. exact V1.
  - unfold reset. assert (F := find_lookup c s d (lst s) (fun h H => proj2 (r_live _ _ _ V h) H)).
    rewrite (r_keys _ _ _ V) in F. destruct (find c s d (lst s)) as [[h|]|]; [| |destruct F].
    + destruct F as [A [B F]]. rewrite F. destruct (keep && negb (x_free x)); [exists s; split; [reflexivity|exact V]|].
      apply new_reset; [apply remove_R; assumption|]. apply lookup_removed.
    + rewrite F. apply new_reset; assumption.
  - assert (F := find_lookup c s d (lst s) (fun h H => proj2 (r_live _ _ _ V h) H)).
    destruct (find c s d (lst s)); [|destruct F]. exists s. split; [reflexivity|exact V].
  - unfold shutdown. assert (E : (match c with None => existsb (fun h => negb (live s h)) (lst s) | Some _ => false end) = false).
    { destruct c; [reflexivity|]. apply not_true_iff_false. intros X. apply existsb_exists in X. destruct X as [h [A B]].
      apply (r_live _ _ _ V) in A. rewrite A in B. discriminate B. }
    rewrite E. eexists. split; [reflexivity|]. split; cbn [lst mem next store keys files].
    + reflexivity.
    + apply (r_files _ _ _ V).
    + constructor.
    + intros h. unfold live at 1. cbn [mem fst]. split; [|intros []]. intros X. apply andb_prop in X. destruct X as [A B].
      apply (r_live _ _ _ V) in A. apply existsb_in in A. rewrite A in B. discriminate B.
    + intros _ h [].
    + intros n _ h [].
    + constructor.
    + intros e k [].
  - eexists. split; [reflexivity|]. destruct V as [V1 V2 V3 V4 V5 V6 V7 V8]. split; try assumption.
    cbn [store files]. intros e. unfold upd. destruct (e =? d); [reflexivity|apply V2].
Qed.

Lemma init_R : forall c f, R c (init f) (mktable [] f).
Proof.
  intros c f. split; cbn [init lst mem next store keys files].
  - reflexivity.
  - reflexivity.
  - constructor.
  - intros h. unfold live. cbn. split; [discriminate|intros []].
  - intros _ h [].
  - intros n _ h [].
  - constructor.
  - intros d k [].
Qed.

Lemma acts_snoc : forall c f ops o, acts c f (ops ++ [o]) = act c (acts c f ops) o.
Proof. intros. unfold acts. rewrite fold_left_app. reflexivity. Qed.
Lemma run_snoc : forall c f ops o, run c f (ops ++ [o]) = after (run c f ops) (fun s => step c s o).
Proof. intros. unfold run. rewrite fold_left_app. reflexivity. Qed.

Lemma enter_dom : forall c x d r t e, In e (map fst (keys (enter c x d r t))) -> In e (map fst (keys t)) \/ e = d.
Proof.
  intros c x d r t e H. unfold enter in H. destruct r as [k|]; [destruct (room c x t)|]; auto.
  cbn [keys] in H. rewrite map_app in H. apply in_app_or in H. destruct H as [H|[H|[]]]; auto.
Qed.
Lemma enter_new_dom : forall c x d t e, In e (map fst (keys (enter_new c x d t))) -> In e (map fst (keys t)) \/ e = d.
Proof.
  intros c x d t e H. unfold enter_new in H. destruct (drawn x) as [k|]; [destruct (room c x t)|]; auto.
  cbn [keys] in H. rewrite map_app in H. apply in_app_or in H. destruct H as [H|[H|[]]]; auto.
Qed.

Lemma list_eq_dec_nil : forall (l : list op), l = [] \/ exists q z, l = q ++ [z].
Proof.
  intros l. destruct (rev l) as [|z q] eqn:E; [left|right].
  - rewrite <- (rev_involutive l), E. reflexivity.
  - exists (rev q), z. rewrite <- (rev_involutive l), E. reflexivity.
Qed.

(** Who has a key pair was loaded or reset since the start. *)
Lemma dom : forall c f ops e, In e (map fst (keys (acts c f ops))) ->
  forall p1 p2, ops = p1 ++ OShutdown :: p2 \/ ops = p2 -> exists o, In o p2 /\ about e o.
Proof.
  intros c f ops. induction ops as [|o ops IH] using rev_ind; intros e H p1 p2 S; [destruct H|].
  rewrite acts_snoc in H.
  assert (K : forall q, (p2 = q ++ [o] -> (ops = p1 ++ OShutdown :: q \/ ops = q)) ->
            p2 = q ++ [o] -> In e (map fst (keys (acts c f ops))) \/ about e o -> exists o', In o' p2 /\ about e o').
  { intros q Q E [X|X].
    - destruct (IH e X p1 q (Q E)) as [o' [A B]]. exists o'. split; [rewrite E; apply in_or_app; left; exact A|exact B].
    - exists o. split; [rewrite E; apply in_or_app; right; left; reflexivity|exact X]. }
  assert (D : o <> OShutdown -> In e (map fst (keys (acts c f ops))) \/ about e o).
  { intros NS. destruct o as [d x|d keep x|d| |d g]; cbn [act about] in *.
    - destruct (files (acts c f ops) d) as [| |l].
      + apply enter_new_dom in H. destruct H as [H|H]; auto.
      + left. exact H.
      + apply enter_dom in H. destruct H as [H|H]; auto.
    - destruct (lookup d (keys (acts c f ops))).
      + destruct (keep && negb (x_free x)); [left; exact H|]. apply enter_new_dom in H. destruct H as [H|H]; [|right; congruence].
        cbn [keys] in H. left. apply in_map_iff in H. destruct H as [y [A B]]. apply filter_In in B.
        apply in_map_iff. exists y. split; [exact A|apply B].
      + apply enter_new_dom in H. destruct H as [H|H]; auto.
    - left. exact H.
    - destruct (NS eq_refl).
    - left. exact H. }
  destruct (list_eq_dec_nil p2) as [E|[q [z E]]].
  - subst p2. destruct S as [S|S].
    + apply app_inj_tail in S. destruct S as [_ Z]. subst o. destruct H.
    + destruct ops; discriminate S.
  - assert (Z : z = o /\ (ops = p1 ++ OShutdown :: q \/ ops = q)).
    { destruct S as [S|S]; rewrite E in S.
      - rewrite app_comm_cons, app_assoc in S. apply app_inj_tail in S. destruct S as [S Y]. split; [symmetry; exact Y|left; exact S].
      - apply app_inj_tail in S. destruct S as [S Y]. split; [symmetry; exact Y|right; exact S]. }
    destruct Z as [Z Y]. subst z. destruct o as [d x|d keep x|d| |d g];
      try (apply (K q); [intros _; exact Y|exact E|apply D; discriminate]). destruct H.
Qed.

Lemma calm_front : forall ops o, calm (ops ++ [o]) -> calm ops.
Proof.
  intros ops o C p d x q o' E I A. apply (C p d x (q ++ [o]) o'); [rewrite E, <- app_assoc; reflexivity|exact I|exact A].
Qed.

Lemma calm_load : forall c f ops d x, calm (ops ++ [OLoad d x]) -> lookup d (keys (acts c f ops)) = None.
Proof.
  intros c f ops d x C. apply lookup_none. intros H.
  destruct (dom c f ops d H [] ops (or_intror eq_refl)) as [o [A B]].
  destruct (C ops d x [] o eq_refl A B) as [p1 [p2 [E N]]].
  apply N. exact (dom c f ops d H p1 p2 (or_introl E)).
Qed.

Lemma run_R : forall c f ops, calm ops -> exists s, run c f ops = Fine s /\ R c s (acts c f ops).
Proof.
  intros c f ops. induction ops as [|o ops IH] using rev_ind; intros C.
  - exists (init f). split; [reflexivity|apply init_R].
  - destruct (IH (calm_front _ _ C)) as [s [E V]]. rewrite run_snoc, acts_snoc, E. cbn [after].
    apply step_R; [exact V|]. intros d x X. subst o. apply (calm_load c f ops d x C).
Qed.
