From Coq Require Import Permutation.
From Verif Require Import Common Memb_Model Memb_Spec.
Local Open Scope N_scope.

(** Addresses of the blocks whose counter is not 0. *)
Fixpoint used (a size : N) (count : list N) : list N :=
  match count with
  | [] => []
  | c :: r => (if c =? 0 then [] else [a]) ++ used (a + size) size r
  end.

Lemma used_ge a size count x : In x (used a size count) -> a <= x.
Proof.
  revert a. induction count as [|c r IH]; intros a; cbn [used]; [intros []|].
  intros H. apply in_app_or in H. destruct H as [H|H]; [destruct (c =? 0); [destruct H|destruct H as [->|[]]; lia]|].
  apply IH in H. lia.
Qed.

Lemma used_slot a size count x : In x (used a size count) -> slot a size (List.length count) x.
Proof.
  revert a. induction count as [|c r IH]; intros a; cbn [used]; [intros []|].
  intros H. apply in_app_or in H. destruct H as [H|H].
  - destruct (c =? 0); [destruct H|destruct H as [->|[]]]. exists 0. cbn [List.length]. lia.
  - apply IH in H. destruct H as (i & Hi & ->). exists (i + 1). cbn [List.length]. lia.
Qed.

Lemma alloc_loop_none a size count : alloc_loop a size count = None ->
  List.length (used a size count) = List.length count.
Proof.
  revert a. induction count as [|c r IH]; intros a; cbn [alloc_loop used]; [reflexivity|].
  destruct (c =? 0); [discriminate|]. destruct (alloc_loop (a + size) size r) as [[r' b]|] eqn:E; [discriminate|].
  intros _. cbn [app List.length]. f_equal. apply IH; exact E.
Qed.

Lemma alloc_loop_some a size count count' b : 0 < size -> alloc_loop a size count = Some (count', b) ->
  List.length count' = List.length count /\ a <= b /\ slot a size (List.length count) b /\
  ~ In b (used a size count) /\ Permutation (used a size count') (b :: used a size count) /\
  (List.length (used a size count) < List.length count)%nat.
Proof.
  intros Hs. revert a count' b. induction count as [|c r IH]; intros a count' b; cbn [alloc_loop]; [discriminate|].
  destruct (c =? 0) eqn:E0.
  - intros [= <- <-]. apply N.eqb_eq in E0. subst c. split; [reflexivity|]. split; [lia|]. split; [exists 0; cbn [List.length]; lia|].
    change (0 + 1) with 1. cbn [used app]. change (0 =? 0) with true. change (1 =? 0) with false. cbn [app].
    split; [intros K; apply used_ge in K; lia|]. split; [reflexivity|].
    assert (L : forall a, (List.length (used a size r) <= List.length r)%nat).
    { clear. induction r as [|c r IH]; intros a; cbn [used]; [lia|]. rewrite app_length. specialize (IH (a + size)).
      destruct (c =? 0); cbn [List.length]; lia. }
    specialize (L (a + size)). cbn [List.length]. lia.
  - destruct (alloc_loop (a + size) size r) as [[r' b']|] eqn:E; [|discriminate]. intros [= <- <-].
    destruct (IH _ _ _ E) as (H1 & H2 & H3 & H4 & H5 & H6). cbn [used]. rewrite E0. cbn [app List.length].
    split; [lia|]. split; [lia|]. split; [destruct H3 as (i & Hi & ->); exists (i + 1); lia|].
    split; [intros [K|K]; [lia|exact (H4 K)]|]. split; [|lia].
    rewrite H5. apply perm_swap.
Qed.

Definition zero_one (count : list N) := Forall (fun c => c = 0 \/ c = 1) count.

Lemma alloc_loop_01 a size count count' b : zero_one count -> alloc_loop a size count = Some (count', b) -> zero_one count'.
Proof.
  intros H. revert a count' b. induction H as [|c r Hc H IH]; intros a count' b; cbn [alloc_loop]; [discriminate|].
  destruct (c =? 0) eqn:E0.
  - intros [= <- <-]. constructor; [right; lia|exact H].
  - destruct (alloc_loop (a + size) size r) as [[r' b']|] eqn:E; [|discriminate]. intros [= <- <-].
    constructor; [exact Hc|exact (IH _ _ _ E)].
Qed.

Lemma free_loop_ok a size count p : 0 < size -> zero_one count ->
  zero_one (free_loop a size count p) /\ List.length (free_loop a size count p) = List.length count /\
  used a size (free_loop a size count p) = filter (fun x => negb (x =? p)) (used a size count).
Proof.
  intros Hs H. revert a. induction H as [|c r Hc H IH]; intros a; cbn [free_loop]; [repeat split; constructor|].
  destruct (a =? p) eqn:E.
  - apply N.eqb_eq in E. subst p.
    assert (Hr : filter (fun x => negb (x =? a)) (used (a + size) size r) = used (a + size) size r).
    { assert (G : forall l, (forall x, In x l -> a < x) -> filter (fun x => negb (x =? a)) l = l).
      { clear. induction l as [|y l IH]; intros G; [reflexivity|]. cbn [filter].
        pose proof (G y (or_introl eq_refl)). destruct (y =? a) eqn:E; [lia|]. cbn [negb]. f_equal. apply IH. intros x K. apply G. right; exact K. }
      apply G. intros x K. apply used_ge in K. lia. }
    split; [|split; [reflexivity|]].
    + constructor; [|exact H]. destruct Hc as [-> | ->]; cbn; tauto.
    + cbn [used]. destruct Hc as [-> | ->].
      * change (0 <? 0) with false. change (0 =? 0) with true. cbn [app]. symmetry; exact Hr.
      * change (0 <? 1) with true. change (1 =? 0) with false. change (1 - 1 =? 0) with true. cbn [app filter].
        rewrite (N.eqb_refl a). cbn [negb app]. symmetry; exact Hr.
  - destruct (IH (a + size)) as (H1 & H2 & H3). split; [constructor; assumption|]. split; [cbn [List.length]; lia|].
    cbn [used]. rewrite H3, filter_app. f_equal. destruct (c =? 0); [reflexivity|]. cbn [filter]. rewrite E. reflexivity.
Qed.

Lemma numfree_loop_ok a size count n : numfree_loop count n = n + (N.of_nat (List.length count) - N.of_nat (List.length (used a size count))) /\
  (List.length (used a size count) <= List.length count)%nat.
Proof.
  revert a n. induction count as [|c r IH]; intros a n; cbn [numfree_loop used List.length]; [lia|].
  destruct (IH (a + size) (if c =? 0 then n + 1 else n)) as [E L]. rewrite E, app_length.
  destruct (c =? 0); cbn [List.length]; lia.
Qed.

Record inv (base size : N) (num : nat) (p : pool) (s : live) : Prop := {
  i_base : p_base p = base; i_size : p_size p = size; i_num : List.length (p_count p) = num;
  i_01 : zero_one (p_count p);
  i_used : Permutation (addrs s) (used base size (p_count p));
  i_nodup : NoDup (addrs s);
  i_cont : forall a c, In (a, c) s -> forall off, off < size -> p_mem p (a + off) = c off }.

Lemma inv_fresh base size num : inv base size num (fresh_pool base size num) [].
Proof.
  constructor; cbn [fresh_pool p_base p_size p_count p_mem]; [reflexivity|reflexivity|apply repeat_length| | |constructor|intros a c []].
  - unfold zero_one. induction num; constructor; auto.
  - cbn. generalize base. induction num as [|n IH]; intros b; cbn; [constructor|apply IH].
Qed.

Lemma slots_apart base size num a b : 0 < size -> slot base size num a -> slot base size num b -> a <> b ->
  a + size <= b \/ b + size <= a.
Proof. intros Hs (i & Hi & ->) (j & Hj & ->) Hne. destruct (N.lt_total i j) as [L|[L|L]]; [left|subst; congruence|right]; nia. Qed.

Lemma addrs_filter s p : addrs (filter (fun b => negb (fst b =? p)) s) = filter (fun x => negb (x =? p)) (addrs s).
Proof. induction s as [|b r IH]; [reflexivity|]. cbn [filter addrs map]. destruct (negb (fst b =? p)); cbn [addrs map]; unfold addrs in IH; rewrite IH; reflexivity. Qed.

Lemma Permutation_filter {A} (f : A -> bool) l l' : Permutation l l' -> Permutation (filter f l) (filter f l').
Proof.
  induction 1; cbn [filter]; [constructor|destruct (f x); auto|destruct (f x), (f y); auto using perm_swap|eauto using Permutation_trans].
Qed.

Lemma contents_In s p c : contents s p = Some c -> In (p, c) s.
Proof.
  unfold contents. destruct (find _ s) as [[q d]|] eqn:E; [|discriminate]. cbn [option_map snd]. intros [= <-].
  apply find_some in E. cbn [fst] in E. destruct E as [E1 E2]. apply N.eqb_eq in E2. subst. exact E1.
Qed.

Lemma step_ok base size num p s o : 0 < base -> 0 < size -> inv base size num p s -> allowed size s o ->
  answer_ok base size num s o (snd (exec p o)) /\ inv base size num (fst (exec p o)) (after s o (snd (exec p o))).
Proof.
  intros Hb Hs I Al. pose proof (i_base _ _ _ _ _ I) as Eb. pose proof (i_size _ _ _ _ _ I) as Es.
  pose proof (i_num _ _ _ _ _ I) as En. pose proof (Permutation_length (i_used _ _ _ _ _ I)) as Lu. unfold addrs in Lu at 1. rewrite map_length in Lu.
  assert (Hslot : forall x, In x (addrs s) -> slot base size num x).
  { intros x Hx. rewrite <- En. apply used_slot. eapply Permutation_in; [exact (i_used _ _ _ _ _ I)|exact Hx]. }
  destruct o as [|ptr| |ptr|ptr off v|ptr off]; cbn [exec answer_ok after].
  - unfold memb_alloc. rewrite Eb, Es. destruct (alloc_loop base size (p_count p)) as [[count' b]|] eqn:E; cbn [fst snd].
    + destruct (alloc_loop_some _ _ _ _ _ Hs E) as (H1 & H2 & H3 & H4 & H5 & H6).
      assert (Hnin : ~ In b (addrs s)) by (intros K; apply H4; eapply Permutation_in; [exact (i_used _ _ _ _ _ I)|exact K]).
      rewrite En in H3. destruct (Nat.eqb_spec (List.length s) num) as [K0|K0]; [lia|].
      split; [split; [lia|split; assumption]|]. destruct (b =? 0) eqn:E0; [lia|].
      constructor; cbn [p_base p_size p_count p_mem]; [reflexivity|reflexivity|lia|exact (alloc_loop_01 _ _ _ _ _ (i_01 _ _ _ _ _ I) E)| | |].
      * rewrite H5. cbn [addrs map fst]. constructor. exact (i_used _ _ _ _ _ I).
      * cbn [addrs map fst]. constructor; [exact Hnin|exact (i_nodup _ _ _ _ _ I)].
      * intros a c [[= <- <-]|K] off Hoff; unfold clear.
        -- destruct ((b <=? b + off) && (b + off <? b + size)) eqn:E1; [reflexivity|lia].
        -- assert (Ha : In a (addrs s)) by (apply in_map_iff; exists (a, c); split; [reflexivity|exact K]).
           assert (Hab : a <> b) by (intros ->; contradiction).
           destruct (slots_apart base size num a b Hs (Hslot a Ha) H3 Hab);
             (destruct ((b <=? a + off) && (a + off <? b + size)) eqn:E1; [lia|]); exact (i_cont _ _ _ _ _ I a c K off Hoff).
    + apply alloc_loop_none in E. destruct (Nat.eqb_spec (List.length s) num) as [K|K]; [|lia].
      split; [reflexivity|]. exact I.
  - unfold memb_free, memb_numfree. cbn [fst snd p_count]. rewrite Eb, Es.
    destruct (free_loop_ok base size (p_count p) ptr Hs (i_01 _ _ _ _ _ I)) as (H1 & H2 & H3).
    assert (P : Permutation (addrs (filter (fun b => negb (fst b =? ptr)) s)) (used base size (free_loop base size (p_count p) ptr))).
    { rewrite addrs_filter, H3. apply Permutation_filter. exact (i_used _ _ _ _ _ I). }
    split.
    + destruct (numfree_loop_ok base size (free_loop base size (p_count p) ptr) 0) as [E L]. rewrite E.
      apply Permutation_length in P. unfold addrs in P. rewrite map_length in P. lia.
    + constructor; cbn [p_base p_size p_count p_mem]; [reflexivity|reflexivity|lia|exact H1|exact P| |].
      * rewrite addrs_filter. apply NoDup_filter. exact (i_nodup _ _ _ _ _ I).
      * intros a c K. apply filter_In in K. destruct K as [K _]. exact (i_cont _ _ _ _ _ I a c K).
  - cbn [fst snd]. split; [|exact I]. unfold memb_numfree. destruct (numfree_loop_ok base size (p_count p) 0) as [E L]. rewrite E. lia.
  - cbn [fst snd]. split; [|exact I]. unfold memb_inmemb. rewrite Eb, Es, En.
    destruct ((base <=? ptr) && (ptr <? base + N.of_nat num * size)) eqn:E; split; try discriminate; lia.
  - cbn [fst snd]. split; [exact Logic.I|]. cbn [allowed] in Al. destruct Al as [Hp Hoff].
    assert (Ea : addrs (map (fun b : N * (N -> N) => if fst b =? ptr then (fst b, fun x => if x =? off then v else snd b x) else b) s) = addrs s).
    { unfold addrs. rewrite map_map. apply map_ext. intros b. destruct (fst b =? ptr); reflexivity. }
    constructor; cbn [p_base p_size p_count p_mem]; [exact Eb|exact Es|exact En|exact (i_01 _ _ _ _ _ I)| | |].
    + rewrite Ea. exact (i_used _ _ _ _ _ I).
    + rewrite Ea. exact (i_nodup _ _ _ _ _ I).
    + intros a c K o Ho. apply in_map_iff in K. destruct K as ([a' c'] & E & K). cbn [fst snd] in E.
      assert (Ha : In a' (addrs s)) by (apply in_map_iff; exists (a', c'); split; [reflexivity|exact K]).
      pose proof (i_cont _ _ _ _ _ I a' c' K o Ho) as Hc.
      destruct (a' =? ptr) eqn:E1; injection E as -> <-.
      * apply N.eqb_eq in E1. subst a. destruct (o =? off) eqn:E2; (destruct (ptr + o =? ptr + off) eqn:E3; lia).
      * destruct (slots_apart base size num a ptr Hs (Hslot a Ha) (Hslot ptr Hp)) as [L|L]; [lia| |];
          (destruct (a + o =? ptr + off) eqn:E3; [lia|exact Hc]).
  - cbn [fst snd]. split; [|exact I]. destruct (contents s ptr) as [c|] eqn:E; [|exact Logic.I].
    cbn [allowed] in Al. apply (i_cont _ _ _ _ _ I); [exact (contents_In _ _ _ E)|apply Al].
Qed.

Lemma run_ok base size num os : 0 < base -> 0 < size -> forall p s, inv base size num p s -> trace_ok base size num s os (run p os).
Proof.
  intros Hb Hs. induction os as [|o r IH]; intros p s I; cbn [run trace_ok]; [exact Logic.I|].
  destruct (exec p o) as [p' v] eqn:E. cbn [trace_ok]. intros Al.
  pose proof (step_ok base size num p s o Hb Hs I Al) as [H1 H2]. rewrite E in H1, H2. cbn [fst snd] in H1, H2.
  split; [exact H1|]. apply IH. exact H2.
Qed.
