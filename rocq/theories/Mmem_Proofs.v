From Verif Require Import Common Mmem_Model Mmem_Spec.
Local Open Scope N_scope.

(** Handles [hs] packed from index [p] on represent blocks [bs]. *)
Fixpoint packed (cells : N -> N) (p : N) (hs : list handle) (bs : list blk) : Prop :=
  match hs, bs with
  | [], [] => True
  | h :: hs', b :: bs' =>
      h_id h = b_id b /\ h_ptr h = p /\ h_size h = b_size b /\
      (forall off v, off < b_size b -> b_cont b off = Some v -> cells (p + off) = v) /\
      packed cells (p + b_size b) hs' bs'
  | _, _ => False
  end.

Lemma packed_ids cells hs : forall p bs, packed cells p hs bs -> map h_id hs = map b_id bs.
Proof.
  induction hs as [|h r IH]; intros p [|b bs]; cbn [packed map]; try tauto.
  intros (E & _ & _ & _ & H). f_equal; [exact E|exact (IH _ _ H)].
Qed.

Lemma packed_ext cells cells' hs : forall p bs, packed cells p hs bs ->
  (forall a, p <= a -> a < p + sum_sizes bs -> cells' a = cells a) -> packed cells' p hs bs.
Proof.
  induction hs as [|h r IH]; intros p [|b bs]; cbn [packed sum_sizes fold_right]; try tauto.
  intros (E1 & E2 & E3 & E4 & H) X. repeat split; try assumption.
  - intros off v Ho Hv. rewrite X by (fold (sum_sizes bs); lia). exact (E4 off v Ho Hv).
  - apply (IH _ _ H). intros a Ha Hb. apply X; fold (sum_sizes bs); lia.
Qed.

Lemma sum_app a b : sum_sizes (a ++ b) = sum_sizes a + sum_sizes b.
Proof. unfold sum_sizes. induction a as [|x r IH]; cbn [app fold_right]; lia. Qed.

Lemma packed_app cells h1 h2 : forall p b1 b2, List.length h1 = List.length b1 ->
  (packed cells p (h1 ++ h2) (b1 ++ b2) <-> packed cells p h1 b1 /\ packed cells (p + sum_sizes b1) h2 b2).
Proof.
  induction h1 as [|h r IH]; intros p [|b bs] b2 L; cbn [List.length] in L; try discriminate.
  - cbn [app packed sum_sizes fold_right]. rewrite N.add_0_r. tauto.
  - cbn [app packed]. rewrite IH by lia. unfold sum_sizes at 2. cbn [fold_right]. fold (sum_sizes bs).
    rewrite N.add_assoc. tauto.
Qed.

Lemma split_at_some m l a h b : split_at m l = Some (a, h, b) -> l = a ++ h :: b /\ h_id h = m /\ ~ In m (map h_id a).
Proof.
  revert a h b. induction l as [|x r IH]; intros a h b; cbn [split_at]; [discriminate|].
  destruct (h_id x =? m) eqn:E.
  - intros [= <- <- <-]. split; [reflexivity|]. split; [lia|intros []].
  - destruct (split_at m r) as [[[a' x'] b']|]; [|discriminate]. intros [= <- <- <-].
    destruct (IH _ _ _ eq_refl) as (E1 & E2 & E3). subst r. split; [reflexivity|]. split; [exact E2|].
    intros [K|K]; [lia|contradiction].
Qed.
Lemma split_at_none m l : split_at m l = None -> ~ In m (map h_id l).
Proof.
  induction l as [|x r IH]; cbn [split_at]; [intros _ []|]. destruct (h_id x =? m) eqn:E; [discriminate|].
  destruct (split_at m r) as [[[a' x'] b']|]; [discriminate|]. intros _ [K|K]; [lia|exact (IH eq_refl K)].
Qed.

Lemma packed_shift cells cells' d hs : forall p bs, packed cells (p + d) hs bs ->
  (forall a, p <= a -> a < p + sum_sizes bs -> cells' a = cells (a + d)) ->
  packed cells' p (map (fun n => mkH (h_id n) (h_ptr n - d) (h_size n)) hs) bs.
Proof.
  induction hs as [|h r IH]; intros p [|b bs]; cbn [packed map h_id h_ptr h_size]; try tauto.
  intros (E1 & E2 & E3 & E4 & H) X. cbn [sum_sizes fold_right] in X. fold (sum_sizes bs) in X.
  repeat split; [exact E1|lia|exact E3| |].
  - intros off v Ho Hv. rewrite X by lia. replace (p + off + d) with (p + d + off) by lia. exact (E4 off v Ho Hv).
  - apply IH; [replace (p + b_size b + d) with (p + d + b_size b) by lia; exact H|]. intros a Ha Hb. apply X; lia.
Qed.

Record inv (total : N) (s : mstate) (bs : list blk) : Prop := {
  i_total : s_total s = total;
  i_sum : s_avail s + sum_sizes bs = total;
  i_pack : packed (s_cells s) 0 (s_list s) bs;
  i_nodup : NoDup (map b_id bs) }.

Lemma inv_init total : inv total (init total) [].
Proof. constructor; cbn; [reflexivity|lia|exact I|constructor]. Qed.

Lemma filter_out m bs : ~ In m (map b_id bs) -> filter (fun b => negb (b_id b =? m)) bs = bs.
Proof.
  induction bs as [|b r IH]; intros H; [reflexivity|]. cbn [filter map In] in *.
  destruct (b_id b =? m) eqn:E; [exfalso; apply H; left; lia|]. cbn [negb]. f_equal. apply IH. tauto.
Qed.

Lemma map_out m (f : blk -> blk) bs : ~ In m (map b_id bs) -> map (fun b => if b_id b =? m then f b else b) bs = bs.
Proof.
  induction bs as [|b r IH]; intros H; [reflexivity|]. cbn [map In] in *.
  destruct (b_id b =? m) eqn:E; [exfalso; apply H; left; lia|]. f_equal. apply IH. tauto.
Qed.

(** Pair the split of the handle list with one of the block list. *)
Lemma packed_split cells a h b p bs : packed cells p (a ++ h :: b) bs ->
  exists b1 x b2, bs = b1 ++ x :: b2 /\ List.length a = List.length b1.
Proof.
  revert p bs. induction a as [|y r IH]; intros p [|z bs]; cbn [app packed]; try tauto.
  - intros _. exists [], z, bs. split; reflexivity.
  - intros (_ & _ & _ & _ & H). destruct (IH _ _ H) as (b1 & x & b2 & -> & L). exists (z :: b1), x, b2. split; [reflexivity|cbn [List.length]; lia].
Qed.

Lemma find_split {A} (f : A -> bool) l x : find f l = Some x -> exists a b, l = a ++ x :: b /\ f x = true /\ forall y, In y a -> f y = false.
Proof.
  induction l as [|y r IH]; cbn [find]; [discriminate|]. destruct (f y) eqn:E.
  - intros [= ->]. exists [], r. repeat split; [exact E|intros ? []].
  - intros H. destruct (IH H) as (a & b & -> & F & G). exists (y :: a), b. repeat split; [exact F|]. intros z [<-|K]; [exact E|exact (G z K)].
Qed.

Lemma sum_in a x b (off : N) : off < b_size x -> sum_sizes a + off < sum_sizes (a ++ x :: b).
Proof. intros H. rewrite sum_app. unfold sum_sizes at 3. cbn [fold_right]. lia. Qed.

(** The handle found for a live block sits right after the blocks before it. *)
Lemma handle_found s bs total m b : inv total s bs -> find_blk bs m = Some b ->
  exists b1 b2 h h1 h2, bs = b1 ++ b :: b2 /\ s_list s = h1 ++ h :: h2 /\ List.length h1 = List.length b1 /\ b_id b = m /\
    handle_of s m = Some h /\ h_ptr h = sum_sizes b1.
Proof.
  intros I F. unfold find_blk in F. destruct (find_split _ _ _ F) as (b1 & b2 & E & Hb & Hn).
  pose proof (i_pack _ _ _ I) as P. rewrite E in P.
  assert (G : forall hs p, packed (s_cells s) p hs (b1 ++ b :: b2) -> exists h h1 h2, hs = h1 ++ h :: h2 /\ List.length h1 = List.length b1 /\
     find (fun h => h_id h =? m) hs = Some h /\ h_ptr h = p + sum_sizes b1).
  { clear P E F I. induction b1 as [|y r IH]; intros [|h hs] p; cbn [app packed]; try tauto.
    - intros (E1 & E2 & _). exists h, [], hs. split; [reflexivity|]. split; [reflexivity|]. cbn [find].
      destruct (h_id h =? m) eqn:E; [|lia]. split; [reflexivity|]. cbn. lia.
    - intros (E1 & E2 & E3 & E4 & H). destruct (IH (fun z K => Hn z (or_intror K)) _ _ H) as (h' & h1 & h2 & -> & L & F & Q).
      exists h', (h :: h1), h2. split; [reflexivity|]. split; [cbn [List.length]; lia|]. cbn [find].
      pose proof (Hn y (or_introl eq_refl)) as Hy. destruct (h_id h =? m) eqn:E; [lia|]. split; [exact F|].
      rewrite Q. unfold sum_sizes at 2. cbn [fold_right]. fold (sum_sizes r). lia. }
  destruct (G _ _ P) as (h & h1 & h2 & E1 & L & F1 & Q). exists b1, b2, h, h1, h2. repeat split; try assumption; lia.
Qed.

Lemma step_ok ts total s bs o : inv total s bs -> allowed bs o ->
  exists s' v, exec ts s o = Some (s', v) /\ answer_ok ts total bs o v /\ inv total s' (after total bs o).
Proof.
  intros I Al. pose proof (i_total _ _ _ I) as Et. pose proof (i_sum _ _ _ I) as Es.
  destruct o as [m size|m| |m off v|m off]; cbn [exec answer_ok after allowed] in *.
  - unfold mmem_alloc. destruct (size <=? total - sum_sizes bs) eqn:E1; destruct (s_avail s <? size) eqn:E2; try lia;
      eexists; eexists; (split; [reflexivity|]); (split; [reflexivity|]); [|exact I].
    constructor; cbn [s_total s_avail s_cells s_list].
    + exact Et.
    + rewrite sum_app. cbn. lia.
    + apply packed_app; [pose proof (packed_ids _ _ _ _ (i_pack _ _ _ I)) as L; apply (f_equal (@List.length N)) in L; rewrite !map_length in L; exact L|].
      split; [exact (i_pack _ _ _ I)|]. cbn [packed h_id h_ptr h_size b_id b_size b_cont]. repeat split; [lia|discriminate].
    + rewrite map_app. cbn [map b_id]. apply NoDup_app_snoc; [exact (i_nodup _ _ _ I)|exact Al].
  - unfold mmem_free. pose proof (i_pack _ _ _ I) as P. rewrite <- (packed_ids _ _ _ _ P) in Al.
    destruct (split_at m (s_list s)) as [[[a h] b]|] eqn:E; [|exfalso; exact (split_at_none _ _ E Al)].
    destruct (split_at_some _ _ _ _ _ E) as (El & Eh & Hna). cbn [option_map].
    eexists; eexists. split; [reflexivity|]. split; [exact Logic.I|].
    rewrite El in P. destruct (packed_split _ _ _ _ _ _ P) as (b1 & x & b2 & Eb & L). subst bs.
    apply packed_app in P; [|exact L]. destruct P as [P1 P2]. cbn [packed] in P2. destruct P2 as (F1 & F2 & F3 & F4 & F5).
    assert (Hnd := i_nodup _ _ _ I). rewrite map_app in Hnd. cbn [map] in Hnd.
    assert (Hid : b_id x = m) by lia.
    assert (H1 : ~ In m (map b_id b1)) by (rewrite <- (packed_ids _ _ _ _ P1); exact Hna).
    assert (H2 : ~ In m (map b_id b2)).
    { intros K. apply NoDup_remove_2 in Hnd. apply Hnd. rewrite Hid. apply in_or_app. right; exact K. }
    assert (Ef : filter (fun b0 => negb (b_id b0 =? m)) (b1 ++ x :: b2) = b1 ++ b2).
    { rewrite filter_app. cbn [filter]. rewrite Hid, N.eqb_refl. cbn [negb]. rewrite !filter_out by assumption. reflexivity. }
    rewrite Ef. rewrite sum_app in Es. unfold sum_sizes at 2 in Es. cbn [fold_right] in Es. fold (sum_sizes b2) in Es.
    constructor; cbn [s_total s_avail s_cells s_list].
    + exact Et.
    + rewrite sum_app. lia.
    + apply packed_app; [exact L|]. rewrite N.add_0_l in *. split.
      * apply (packed_ext (s_cells s)); [exact P1|]. intros c _ Hc. destruct b as [|n b]; [reflexivity|]. unfold move.
        destruct ((h_ptr h <=? c) && (c <? h_ptr h + (s_total s - s_avail s - h_ptr n))) eqn:E1; [lia|reflexivity].
      * rewrite F3. apply (packed_shift (s_cells s)); [exact F5|]. intros c Hc1 Hc2.
        destruct b as [|n b].
        { destruct b2; [|destruct F5]. cbn in Hc2. lia. }
        destruct b2 as [|y b2]; [destruct F5|]. destruct F5 as (G1 & G2 & _). unfold move.
        assert (Esum : s_total s - s_avail s - h_ptr n = sum_sizes (y :: b2)) by lia. rewrite Esum.
        destruct ((h_ptr h <=? c) && (c <? h_ptr h + sum_sizes (y :: b2))) eqn:E1; [|lia].
        f_equal. lia.
    + rewrite map_app. apply NoDup_remove_1 in Hnd. exact Hnd.
  - eexists; eexists. split; [reflexivity|]. split; [lia|exact I].
  - destruct Al as (b & F & Ho). destruct (handle_found _ _ _ _ _ I F) as (b1 & b2 & h & h1 & h2 & Eb & El & L & Hid & Hh & Hp).
    rewrite Hh. cbn [option_map]. eexists; eexists. split; [reflexivity|]. split; [exact Logic.I|].
    pose proof (i_nodup _ _ _ I) as Hnd. subst bs. rewrite map_app in Hnd. cbn [map] in Hnd. rewrite Hid in Hnd.
    assert (H1 : ~ In m (map b_id b1)) by (intros K; apply NoDup_remove_2 in Hnd; apply Hnd; apply in_or_app; left; exact K).
    assert (H2 : ~ In m (map b_id b2)) by (intros K; apply NoDup_remove_2 in Hnd; apply Hnd; apply in_or_app; right; exact K).
    rewrite map_app. cbn [map]. rewrite Hid, N.eqb_refl.
    rewrite !(map_out m (fun b0 => mkB m (b_size b0) (fun x => if x =? off then Some v else b_cont b0 x))) by assumption.
    pose proof (i_pack _ _ _ I) as P. rewrite El in P. apply packed_app in P; [|exact L]. destruct P as [P1 P2].
    rewrite N.add_0_l in P2. cbn [packed] in P2. destruct P2 as (F1 & F2 & F3 & F4 & F5).
    constructor; cbn [s_total s_avail s_cells s_list].
    + exact Et.
    + rewrite sum_app in *. unfold sum_sizes at 2. unfold sum_sizes at 2 in Es. cbn [fold_right b_size] in *. exact Es.
    + rewrite El. apply packed_app; [exact L|]. rewrite N.add_0_l. split; [|cbn [packed b_id b_size b_cont]].
      * apply (packed_ext (s_cells s)); [exact P1|]. intros c _ Hc. destruct (c =? h_ptr h + off) eqn:E1; [lia|reflexivity].
      * split; [lia|]. split; [exact F2|]. split; [exact F3|]. split.
        -- intros o w Ho' Hw. destruct (o =? off) eqn:E1.
           ++ injection Hw as <-. destruct (sum_sizes b1 + o =? h_ptr h + off) eqn:E2; [reflexivity|lia].
           ++ destruct (sum_sizes b1 + o =? h_ptr h + off) eqn:E2; [lia|]. exact (F4 o w Ho' Hw).
        -- apply (packed_ext (s_cells s)); [exact F5|]. intros c Hc _. destruct (c =? h_ptr h + off) eqn:E1; [lia|reflexivity].
    + rewrite map_app. cbn [map b_id]. exact Hnd.
  - destruct Al as (b & F & Ho). destruct (handle_found _ _ _ _ _ I F) as (b1 & b2 & h & h1 & h2 & Eb & El & L & Hid & Hh & Hp).
    rewrite Hh, F. cbn [option_map]. eexists; eexists. split; [reflexivity|]. split; [|exact I].
    destruct (b_cont b off) as [w|] eqn:E; [|exact Logic.I].
    pose proof (i_pack _ _ _ I) as P. rewrite El, Eb in P. apply packed_app in P; [|exact L]. destruct P as [P1 P2].
    rewrite N.add_0_l in P2. cbn [packed] in P2. destruct P2 as (F1 & F2 & F3 & F4 & F5). rewrite Hp. exact (F4 off w Ho E).
Qed.

Lemma run_ok ts total os : forall s bs, inv total s bs -> allowed_all total bs os ->
  exists vs, run ts s os = Some vs /\ trace_ok ts total bs os vs.
Proof.
  induction os as [|o r IH]; intros s bs I Al; cbn [run].
  - exists []. split; [reflexivity|exact Logic.I].
  - destruct Al as [A1 A2]. destruct (step_ok ts total s bs o I A1) as (s' & v & E & Ha & I').
    rewrite E. destruct (IH s' _ I' A2) as (vs & E2 & T). rewrite E2. exists (v :: vs). split; [reflexivity|]. split; assumption.
Qed.
