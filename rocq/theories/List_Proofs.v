(** The pointer program refines the sequences. *)
From Verif Require Import Common List_Model List_Spec.
Local Open Scope N_scope.

(** [seg nx p s q]: following [nx] from [p] visits the cells of [s] and arrives at [q]. *)
Fixpoint seg (nx : N -> N) (p : N) (s : list N) (q : N) : Prop :=
  match s with
  | [] => p = q
  | x :: r => p = x /\ x <> 0 /\ seg nx (nx x) r q
  end.
Definition chain nx p s := seg nx p s 0.

Lemma seg_app nx s1 s2 : forall p q, seg nx p (s1 ++ s2) q <-> exists m, seg nx p s1 m /\ seg nx m s2 q.
Proof.
  induction s1 as [|x r IH]; intros p q; cbn [app seg].
  - split; [intros H; exists p; auto|intros [m [-> H]]; exact H].
  - rewrite IH. split.
    + intros (E & Hx & m & H1 & H2). exists m. tauto.
    + intros (m & (E & Hx & H1) & H2). split; [exact E|]. split; [exact Hx|]. exists m; auto.
Qed.

Lemma seg_upd nx a v s : forall p q, ~ In a s -> (seg (upd nx a v) p s q <-> seg nx p s q).
Proof.
  induction s as [|x r IH]; intros p q Hn; cbn [seg]; [tauto|].
  rewrite IH by (intros K; apply Hn; right; exact K).
  unfold upd. destruct (x =? a) eqn:E; [apply N.eqb_eq in E; exfalso; apply Hn; left; exact E|]. tauto.
Qed.

Lemma seg_head nx p s q : seg nx p s q -> q = 0 -> p = hd 0 s.
Proof. destruct s as [|x r]; cbn [seg hd]; intros H ->; [exact H|tauto]. Qed.

Lemma seg_nonzero nx s : forall p q, seg nx p s q -> ~ In 0 s.
Proof.
  induction s as [|x r IH]; intros p q; cbn [seg In]; [intros _ []|].
  intros (E & Hx & H) [K|K]; [congruence|]. exact (IH _ _ H K).
Qed.

Lemma upd_same f a v : upd f a v a = v.
Proof. unfold upd. rewrite N.eqb_refl. reflexivity. Qed.
Lemma upd_other f a v x : x <> a -> upd f a v x = f x.
Proof. unfold upd. intros H. destruct (x =? a) eqn:E; [lia|reflexivity]. Qed.

(** walks *)
Lemma walk_tail_ok m s : forall p fuel, chain (m_next m) p s -> s <> [] -> (List.length s <= fuel)%nat ->
  walk_tail fuel m p = Some (last s 0).
Proof.
  induction s as [|x r IH]; intros p fuel H Hne Hf; [congruence|].
  destruct fuel as [|f]; [cbn [List.length] in Hf; lia|]. cbn [walk_tail].
  destruct H as (-> & Hx & H). destruct r as [|y t].
  - cbn [seg] in H. rewrite H. reflexivity.
  - pose proof H as H0. destruct H0 as (E & Hy & _).
    destruct (m_next m x =? 0) eqn:E0; [lia|].
    rewrite (IH (m_next m x) f); [reflexivity|exact H|discriminate|cbn [List.length] in *; lia].
Qed.

Lemma list_tail_ok m l s fuel : chain (m_next m) (m_head m l) s -> (List.length s <= fuel)%nat ->
  list_tail fuel m l = Some (last s 0).
Proof.
  intros H Hf. unfold list_tail. destruct s as [|x r].
  - cbn [chain seg] in H. unfold chain in H. cbn [seg] in H. rewrite H. reflexivity.
  - pose proof H as (E & Hx & _). destruct (m_head m l =? 0) eqn:E0; [apply N.eqb_eq in E0; congruence|].
    apply walk_tail_ok; [exact H|discriminate|exact Hf].
Qed.

Lemma length_loop_ok m s : forall p n fuel, chain (m_next m) p s -> (List.length s < fuel)%nat ->
  length_loop fuel m p n = Some (n + N.of_nat (List.length s)).
Proof.
  induction s as [|x r IH]; intros p n fuel H Hf; (destruct fuel as [|f]; [lia|]); cbn [length_loop].
  - unfold chain in H; cbn [seg] in H. rewrite H, N.eqb_refl. cbn [List.length]. f_equal. lia.
  - destruct H as (-> & Hx & H). destruct (x =? 0) eqn:E0; [lia|].
    rewrite (IH _ _ f H) by (cbn [List.length] in Hf; lia). f_equal. cbn [List.length]. lia.
Qed.

Lemma has_loop_ok m x s : forall p fuel, chain (m_next m) p s -> (List.length s < fuel)%nat ->
  has_loop fuel m p x = Some (mem_of x s).
Proof.
  induction s as [|y r IH]; intros p fuel H Hf; (destruct fuel as [|f]; [lia|]); cbn [has_loop].
  - unfold chain in H; cbn [seg] in H. rewrite H. reflexivity.
  - destruct H as (-> & Hy & H). destruct (y =? 0) eqn:E0; [lia|]. cbn [mem_of].
    destruct (y =? x) eqn:E1; [reflexivity|]. rewrite (IH _ f H) by (cbn [List.length] in Hf; lia). reflexivity.
Qed.

Lemma mem_of_In x s : mem_of x s = true <-> In x s.
Proof.
  induction s as [|y r IH]; cbn [mem_of In]; [split; [discriminate|tauto]|].
  rewrite orb_true_iff, IH, N.eqb_eq. tauto.
Qed.

Lemma remove_first_In x s y : In y (remove_first x s) -> In y s.
Proof.
  induction s as [|z r IH]; cbn [remove_first In]; [tauto|].
  destruct (z =? x); cbn [In]; tauto.
Qed.

Lemma remove_first_NoDup x s : NoDup s -> NoDup (remove_first x s) /\ ~ In x (remove_first x s).
Proof.
  induction 1 as [|z r Hz Hr IH]; cbn [remove_first]; [split; [constructor|intros []]|].
  destruct (z =? x) eqn:E.
  - apply N.eqb_eq in E. subst z. split; assumption.
  - destruct IH as [I1 I2]. split.
    + constructor; [intros K; apply Hz; exact (remove_first_In _ _ _ K)|exact I1].
    + intros [K|K]; [lia|exact (I2 K)].
Qed.

(** The remove loop: [pre] is already visited. *)
Lemma remove_loop_ok m x s : forall p fuel, chain (m_next m) (load m p) s -> NoDup s ->
  (forall a, p = LNext a -> ~ In a s) -> x <> 0 -> (List.length s < fuel)%nat ->
  exists m', remove_loop fuel m p x = Some (m', if mem_of x s then x else 0) /\
    (mem_of x s = false -> m' = m) /\
    chain (m_next m') (load m' p) (remove_first x s) /\
    (forall l, p <> LHead l -> m_head m' l = m_head m l) /\
    (forall a, p <> LNext a -> ~ In a s -> m_next m' a = m_next m a).
Proof.
  induction s as [|y r IH]; intros p fuel H Hnd Hp Hx Hf; (destruct fuel as [|f]; [lia|]); cbn [remove_loop].
  - unfold chain in H; cbn [seg] in H. rewrite H. rewrite N.eqb_refl. exists m. cbn [mem_of remove_first].
    split; [reflexivity|]. split; [reflexivity|]. split; [exact H|]. split; reflexivity.
  - destruct H as (E & Hy & H). rewrite E. destruct (y =? 0) eqn:E0; [lia|].
    destruct (proj1 (NoDup_cons_iff _ _) Hnd) as [Hy1 Hnd1]. cbn [mem_of remove_first].
    destruct (y =? x) eqn:E1; cbn [orb].
    + apply N.eqb_eq in E1. subst x. clear E. eexists. split; [reflexivity|]. split; [discriminate|].
      assert (Hs : chain (m_next m) (m_next m y) r) by exact H.
      destruct p as [l|a]; cbn [store load set_next set_head m_next m_head].
      * split; [|split].
        -- rewrite upd_same. apply seg_upd; assumption.
        -- intros l' Hl. unfold upd. destruct (l' =? l) eqn:E2; [apply N.eqb_eq in E2; congruence|reflexivity].
        -- intros a' _ Ha. unfold upd. destruct (a' =? y) eqn:E2; [apply N.eqb_eq in E2; subst; exfalso; apply Ha; left; reflexivity|reflexivity].
      * assert (Hax : a <> y) by (intros ->; apply (Hp y eq_refl); left; reflexivity).
        split; [|split].
        -- rewrite (upd_other _ y 0 a Hax), upd_same.
           apply seg_upd; [exact Hy1|]. apply seg_upd; [intros K; apply (Hp a eq_refl); right; exact K|]. exact Hs.
        -- reflexivity.
        -- intros a' Ha Hi. unfold upd. destruct (a' =? y) eqn:E2; [apply N.eqb_eq in E2; subst; exfalso; apply Hi; left; reflexivity|].
           destruct (a' =? a) eqn:E3; [apply N.eqb_eq in E3; subst; congruence|reflexivity].
    + assert (Hf' : (List.length r < f)%nat) by (cbn [List.length] in Hf; lia).
      destruct (IH (LNext y) f H Hnd1) as (m' & R & Hm & Hc & Hh & Hn); [intros a [= <-]; exact Hy1|exact Hx|exact Hf'|].
      exists m'. split; [exact R|]. split; [exact Hm|].
      assert (Hload : load m' p = load m p).
      { destruct p as [l|a]; cbn [load]; [apply Hh; discriminate|].
        apply Hn; [intros [= ->]; apply (Hp a eq_refl); left; reflexivity|intros K; apply (Hp a eq_refl); right; exact K]. }
      split; [|split].
      * rewrite Hload, E. split; [reflexivity|]. split; [exact Hy|exact Hc].
      * intros l Hl. apply Hh. discriminate.
      * intros a Ha Hi. apply Hn; [intros [= ->]; apply Hi; left; reflexivity|intros K; apply Hi; right; exact K].
Qed.

Lemma removelast_In {A} (s : list A) x : In x (removelast s) -> In x s.
Proof.
  induction s as [|y r IH]; [tauto|]. cbn [removelast]. destruct r as [|z t]; [intros []|].
  intros [->|K]; [left; reflexivity|right; exact (IH K)].
Qed.

Lemma removelast_NoDup {A} (s : list A) : NoDup s -> NoDup (removelast s).
Proof.
  induction 1 as [|y r Hy Hr IH]; [constructor|]. cbn [removelast]. destruct r as [|z t]; [constructor|].
  constructor; [intros K; apply Hy; exact (removelast_In _ _ K)|exact IH].
Qed.

Lemma walk_chop_ok m s : forall p fuel, chain (m_next m) p s -> NoDup s -> (2 <= List.length s)%nat -> (List.length s <= fuel)%nat ->
  exists c, walk_chop fuel m p = Some c /\ In c (removelast s) /\ m_next m c = last s 0 /\
            seg (upd (m_next m) c 0) p (removelast s) 0.
Proof.
  induction s as [|x r IH]; intros p fuel H Hnd Hl Hf; [cbn [List.length] in Hl; lia|].
  destruct fuel as [|f]; [cbn [List.length] in Hf; lia|]. cbn [walk_chop].
  destruct H as (-> & Hx & H). destruct (proj1 (NoDup_cons_iff _ _) Hnd) as [Hx1 Hnd1].
  destruct r as [|y t]; [cbn [List.length] in Hl; lia|].
  destruct t as [|z t].
  - destruct H as (E & Hy & H). cbn [seg] in H. rewrite E, H, N.eqb_refl. exists x.
    split; [reflexivity|]. split; [left; reflexivity|]. split; [rewrite E; reflexivity|].
    cbn [removelast seg]. split; [reflexivity|]. split; [exact Hx|]. rewrite upd_same. reflexivity.
  - pose proof H as (E & Hy & E' & Hz & _).
    destruct (m_next m (m_next m x) =? 0) eqn:E0; [rewrite E, E' in E0; lia|]. destruct (IH (m_next m x) f H Hnd1) as (c & W & Hc & Hn & Hs);
      [cbn [List.length]; lia|cbn [List.length] in Hf |- *; lia|].
    exists c. split; [exact W|]. split; [right; exact Hc|]. split; [exact Hn|].
    change (removelast (x :: y :: z :: t)) with (x :: removelast (y :: z :: t)). cbn [seg].
    split; [reflexivity|]. split; [exact Hx|].
    rewrite (upd_other _ c 0 x) by (intros ->; apply Hx1; exact (removelast_In _ _ Hc)).
    exact Hs.
Qed.

Lemma insert_after_In p x s y : In y (insert_after p x s) -> y = x \/ In y s.
Proof.
  induction s as [|z r IH]; cbn [insert_after In]; [tauto|]. destruct (z =? p); cbn [In]; intuition congruence.
Qed.
Lemma insert_after_NoDup p x s : NoDup s -> ~ In x s -> NoDup (insert_after p x s).
Proof.
  induction 1 as [|z r Hz Hr IH]; cbn [insert_after]; intros Hx; [constructor|].
  cbn [In] in Hx. destruct (z =? p).
  - constructor; [cbn [In]; intuition congruence|]. constructor; [tauto|exact Hr].
  - constructor; [|apply IH; tauto]. intros K. destruct (insert_after_In _ _ _ _ K); [subst; tauto|contradiction].
Qed.
Lemma insert_after_seg nx p x s q : forall h, seg nx h s q -> NoDup s -> In p s -> ~ In x s -> x <> 0 ->
  seg (upd (upd nx x (nx p)) p x) h (insert_after p x s) q.
Proof.
  induction s as [|z r IH]; intros h H Hnd Hp Hx Hx0; [destruct Hp|].
  destruct H as (-> & Hz & H). destruct (proj1 (NoDup_cons_iff _ _) Hnd) as [Hz1 Hnd1]. cbn [insert_after].
  cbn [In] in Hx, Hp. destruct (z =? p) eqn:E.
  - apply N.eqb_eq in E. subst z. cbn [seg]. split; [reflexivity|]. split; [exact Hz|].
    rewrite upd_same. split; [reflexivity|]. split; [exact Hx0|].
    rewrite (upd_other _ p x x) by (intros ->; apply Hx; left; reflexivity). rewrite upd_same.
    apply seg_upd; [exact Hz1|]. apply seg_upd; [tauto|exact H].
  - cbn [seg]. split; [reflexivity|]. split; [exact Hz|].
    rewrite (upd_other _ p x z) by lia. rewrite (upd_other _ x (nx p) z) by (intros ->; apply Hx; left; reflexivity).
    apply IH; [exact H|exact Hnd1|destruct Hp as [K|K]; [lia|exact K]|tauto|exact Hx0].
Qed.

Lemma succ_ok nx s x : forall h, seg nx h s 0 -> NoDup s -> In x s -> nx x = succ_of x s.
Proof.
  induction s as [|z r IH]; intros h H Hnd Hx; [destruct Hx|].
  destruct H as (-> & Hz & H). destruct (proj1 (NoDup_cons_iff _ _) Hnd) as [Hz1 Hnd1]. cbn [succ_of].
  destruct (z =? x) eqn:E; [apply N.eqb_eq in E; subst; exact (seg_head _ _ _ _ H eq_refl)|].
  apply (IH _ H Hnd1). destruct Hx as [K|K]; [lia|exact K].
Qed.

(** The refinement relation. *)
Record rel (m : mem) (a : seqs) : Prop := {
  r_chain : forall l, chain (m_next m) (m_head m l) (a l);
  r_nodup : forall l, NoDup (a l);
  r_disj : forall l l' x, l <> l' -> In x (a l) -> ~ In x (a l') }.

Lemma rel_empty : rel empty_mem (fun _ => []).
Proof. constructor; intros; [reflexivity|constructor|destruct H0]. Qed.

(** Changing one list [l] to [s'] with cells taken from [l]'s old ones or a detached one. *)
Lemma rel_change m a m' l s' :
  rel m a ->
  chain (m_next m') (m_head m' l) s' -> NoDup s' ->
  (forall y, In y s' -> In y (a l) \/ (forall k, ~ In y (a k))) ->
  (forall k, k <> l -> m_head m' k = m_head m k) ->
  (forall k y, k <> l -> In y (a k) -> m_next m' y = m_next m y) ->
  rel m' (set_seq a l s').
Proof.
  intros R Hc Hnd Hin Hh Hn.
  assert (Hother : forall k, k <> l -> chain (m_next m') (m_head m' k) (a k)).
  { intros k Hk. rewrite (Hh k Hk). pose proof (r_chain _ _ R k) as C. pose proof (fun y => Hn k y Hk) as Hy.
    revert C Hy. unfold chain. generalize (m_head m k). generalize (a k) as s. clear. induction s as [|x r IH]; intros p C Hy; [exact C|].
    destruct C as (-> & Hx & C). cbn [seg]. split; [reflexivity|]. split; [exact Hx|].
    rewrite (Hy x (or_introl eq_refl)). apply IH; [exact C|]. intros y K. apply Hy. right; exact K. }
  constructor.
  - intros k. unfold set_seq. destruct (k =? l) eqn:E; [apply N.eqb_eq in E; subst; exact Hc|apply Hother; lia].
  - intros k. unfold set_seq. destruct (k =? l) eqn:E; [exact Hnd|apply (r_nodup _ _ R)].
  - intros k k' x Hkk. unfold set_seq. destruct (k =? l) eqn:E; destruct (k' =? l) eqn:E'; try lia.
    + apply N.eqb_eq in E; subst k. intros Hx. destruct (Hin _ Hx) as [K|K]; [|apply K].
      apply (r_disj _ _ R l k' x); [lia|exact K].
    + apply N.eqb_eq in E'; subst k'. intros Hx K. destruct (Hin _ K) as [K1|K1]; [|exact (K1 k Hx)].
      exact (r_disj _ _ R k l x Hkk Hx K1).
    + apply (r_disj _ _ R); exact Hkk.
Qed.

Lemma rel_ext m a b : (forall l, a l = b l) -> rel m a -> rel m b.
Proof.
  intros E R. constructor; intros; rewrite <- ?E in *; [apply (r_chain _ _ R)|apply (r_nodup _ _ R)|].
  eapply (r_disj _ _ R); eassumption.
Qed.

Lemma last_In (s : list N) : s <> [] -> In (last s 0) s.
Proof.
  induction s as [|y r IH]; [congruence|]. intros _. destruct r as [|z t]; [left; reflexivity|].
  right. apply IH. discriminate.
Qed.

Ltac upd_ne := unfold upd; match goal with |- (if ?x =? ?y then _ else _) = _ => destruct (x =? y) eqn:?E; [lia|reflexivity] end.

Lemma exec_refines m a o fuel :
  rel m a -> allowed a o -> (forall l, (List.length (a l) < fuel)%nat) ->
  exists m', exec fuel m o = Some (m', snd (spec a o)) /\ rel m' (fst (spec a o)).
Proof.
  intros R Al Hf. destruct o as [l|l|l|l x|l x|l p x|l|l|l x|l|l x|l x]; cbn [exec spec allowed fst snd] in *.
  - (* init *) eexists. split; [reflexivity|]. apply (rel_change m); [exact R|..]; cbn [set_head m_head m_next].
    + rewrite upd_same. reflexivity.
    + constructor.
    + intros y [].
    + intros k Hk. upd_ne.
    + reflexivity.
  - exists m. split; [|exact R]. rewrite (seg_head _ _ _ _ (r_chain _ _ R l) eq_refl). reflexivity.
  - exists m. split; [|exact R]. rewrite (list_tail_ok m l (a l)); [reflexivity|apply (r_chain _ _ R)|specialize (Hf l); lia].
  - (* add *) destruct Al as [Hx Hd]. unfold list_add.
    assert (C1 : chain (m_next (set_next m x 0)) (m_head (set_next m x 0) l) (a l)).
    { cbn [set_next m_next m_head]. apply seg_upd; [apply Hd|apply (r_chain _ _ R)]. }
    rewrite (list_tail_ok _ l (a l) fuel C1) by (specialize (Hf l); lia). cbn [option_map].
    eexists. split; [reflexivity|].
    destruct (a l) as [|y r] eqn:El.
    + cbn [last app]. rewrite N.eqb_refl. apply (rel_change m); [exact R|..]; cbn [set_head set_next m_head m_next].
      * rewrite upd_same. cbn [chain seg]. split; [reflexivity|]. split; [exact Hx|].
        rewrite upd_same. reflexivity.
      * constructor; [intros []|constructor].
      * intros y [<-|[]]. right; exact Hd.
      * intros k Hk. upd_ne.
      * intros k y Hk Hy. unfold upd. destruct (y =? x) eqn:E; [apply N.eqb_eq in E; subst; exfalso; exact (Hd k Hy)|reflexivity].
    + pose proof (last_In (y :: r) ltac:(discriminate)) as Hlast.
      assert (Hin : In (last (y :: r) 0) (a l)) by (rewrite El; exact Hlast).
      destruct (last (y :: r) 0 =? 0) eqn:E0.
      { exfalso. apply N.eqb_eq in E0. rewrite E0 in Hlast. exact (seg_nonzero _ _ _ _ C1 Hlast). }
      apply (rel_change m); [exact R|..]; cbn [set_head set_next m_head m_next].
      * destruct (exists_last (l := y :: r) ltac:(discriminate)) as (s & z & Es). rewrite Es in *. rewrite last_last in *.
        pose proof (r_nodup _ _ R l) as Nd. rewrite El in Nd.
        unfold chain in *. rewrite seg_app in C1. destruct C1 as (mid & Cs & Cz). cbn [set_next m_next m_head] in Cs, Cz.
        rewrite <- app_assoc. cbn [app]. rewrite seg_app. exists mid. split.
        -- apply seg_upd; [|exact Cs]. intros K. apply NoDup_remove_2 in Nd. apply Nd. rewrite app_nil_r. exact K.
        -- cbn [seg] in Cz |- *. destruct Cz as (Ez & Hz & Cz). split; [exact Ez|]. split; [exact Hz|].
           rewrite upd_same. split; [reflexivity|]. split; [exact Hx|].
           unfold upd. assert (x <> z) by (intros ->; exact (Hd l Hin)). destruct (x =? z) eqn:E; [lia|]. rewrite N.eqb_refl. reflexivity.
      * rewrite <- El. apply NoDup_app_snoc; [apply (r_nodup _ _ R)|apply Hd].
      * intros w Hw. rewrite <- El in Hw. apply in_app_or in Hw. destruct Hw as [K|[<-|[]]]; [left; exact K|right; exact Hd].
      * reflexivity.
      * intros k w Hk Hw. unfold upd.
        destruct (w =? last (y :: r) 0) eqn:E; [apply N.eqb_eq in E; exfalso; apply (r_disj _ _ R k l w Hk Hw); rewrite E; exact Hin|].
        destruct (w =? x) eqn:E1; [apply N.eqb_eq in E1; subst; exfalso; exact (Hd k Hw)|reflexivity].
  - (* push *) destruct Al as [Hx Hd]. eexists. split; [reflexivity|].
    apply (rel_change m); [exact R|..]; unfold list_push; cbn [set_head set_next m_head m_next].
    + rewrite upd_same. split; [reflexivity|]. split; [exact Hx|].
      rewrite upd_same. apply seg_upd; [apply Hd|apply (r_chain _ _ R)].
    + constructor; [apply Hd|apply (r_nodup _ _ R)].
    + intros y [<-|K]; [right; exact Hd|left; exact K].
    + intros k Hk. upd_ne.
    + intros k y Hk Hy. unfold upd. destruct (y =? x) eqn:E; [apply N.eqb_eq in E; subst; exfalso; exact (Hd k Hy)|reflexivity].
  - (* insert *) destruct Al as [[Hx Hd] Hp]. eexists. split; [reflexivity|]. unfold list_insert. destruct (p =? 0) eqn:Ep.
    + apply (rel_change m); [exact R|..]; unfold list_push; cbn [set_head set_next m_head m_next].
      * rewrite upd_same. split; [reflexivity|]. split; [exact Hx|].
        rewrite upd_same. apply seg_upd; [apply Hd|apply (r_chain _ _ R)].
      * constructor; [apply Hd|apply (r_nodup _ _ R)].
      * intros y [<-|K]; [right; exact Hd|left; exact K].
      * intros k Hk. upd_ne.
      * intros k y Hk Hy. unfold upd. destruct (y =? x) eqn:E; [apply N.eqb_eq in E; subst; exfalso; exact (Hd k Hy)|reflexivity].
    + destruct Hp as [->|Hp]; [discriminate|].
      apply (rel_change m); [exact R|..]; cbn [set_head set_next m_head m_next].
      * apply insert_after_seg; [apply (r_chain _ _ R)|apply (r_nodup _ _ R)|exact Hp|apply Hd|exact Hx].
      * apply insert_after_NoDup; [apply (r_nodup _ _ R)|apply Hd].
      * intros y Hy. destruct (insert_after_In _ _ _ _ Hy) as [->|K]; [right; exact Hd|left; exact K].
      * reflexivity.
      * intros k y Hk Hy. unfold upd.
        destruct (y =? p) eqn:E; [apply N.eqb_eq in E; subst; exfalso; exact (r_disj _ _ R k l p Hk Hy Hp)|].
        destruct (y =? x) eqn:E1; [apply N.eqb_eq in E1; subst; exfalso; exact (Hd k Hy)|reflexivity].
  - (* chop *) unfold list_chop. pose proof (r_chain _ _ R l) as C. pose proof (r_nodup _ _ R l) as Nd. specialize (Hf l).
    remember (a l) as s eqn:Es. destruct s as [|x r].
    + unfold chain in C. cbn [seg] in C. rewrite C, N.eqb_refl. exists m. split; [reflexivity|].
      apply (rel_ext m a); [|exact R]. intros k. unfold set_seq. destruct (k =? l) eqn:E; [apply N.eqb_eq in E; subst; symmetry; exact Es|reflexivity].
    + pose proof C as (E & Hx & C'). rewrite E. destruct (x =? 0) eqn:E0; [lia|]. destruct r as [|y t].
      * cbn [seg] in C'. rewrite C', N.eqb_refl. eexists. split; [reflexivity|].
        apply (rel_change m); [exact R|..]; cbn [set_head set_next m_head m_next].
        -- rewrite upd_same. reflexivity.
        -- constructor.
        -- intros y [].
        -- intros k Hk. upd_ne.
        -- reflexivity.
      * pose proof C' as (E1 & Hy & _). rewrite E1. destruct (y =? 0) eqn:E2; [lia|].
        destruct (walk_chop_ok m (x :: y :: t) (m_head m l) fuel C Nd) as (c & W & Hc & Hn & Hs);
          [cbn [List.length]; lia|lia|]. rewrite E in W. rewrite W, Hn. eexists. split; [reflexivity|].
        assert (Hin : In c (a l)) by (rewrite <- Es; exact (removelast_In _ _ Hc)).
        apply (rel_change m); [exact R|..]; cbn [set_head set_next m_head m_next].
        -- exact Hs.
        -- exact (removelast_NoDup _ Nd).
        -- intros w Hw. left. rewrite <- Es. exact (removelast_In _ _ Hw).
        -- reflexivity.
        -- intros k w Hk Hw. unfold upd. destruct (w =? c) eqn:E3; [apply N.eqb_eq in E3; subst w; exfalso; exact (r_disj _ _ R k l c Hk Hw Hin)|reflexivity].
  - (* pop *) unfold list_pop. pose proof (r_chain _ _ R l) as C. pose proof (r_nodup _ _ R l) as Nd.
    remember (a l) as s eqn:Es. destruct s as [|x r].
    + unfold chain in C. cbn [seg] in C. rewrite C, N.eqb_refl. exists m. split; [reflexivity|].
      apply (rel_ext m a); [|exact R]. intros k. unfold set_seq. destruct (k =? l) eqn:E; [apply N.eqb_eq in E; subst; symmetry; exact Es|reflexivity].
    + destruct C as (E & Hx & C'). rewrite E. destruct (x =? 0) eqn:E0; [lia|]. eexists. split; [reflexivity|].
      destruct (proj1 (NoDup_cons_iff _ _) Nd) as [Hx1 Nd1].
      apply (rel_change m); [exact R|..]; cbn [set_head set_next m_head m_next tl].
      * rewrite upd_same. apply seg_upd; [exact Hx1|exact C'].
      * exact Nd1.
      * intros w Hw. left. rewrite <- Es. right; exact Hw.
      * intros k Hk. upd_ne.
      * intros k w Hk Hw. unfold upd. destruct (w =? x) eqn:E3; [apply N.eqb_eq in E3; subst w; exfalso|reflexivity].
        apply (r_disj _ _ R k l x Hk Hw). rewrite <- Es. left; reflexivity.
  - (* remove *) unfold list_remove.
    destruct (remove_loop_ok m x (a l) (LHead l) fuel (r_chain _ _ R l) (r_nodup _ _ R l)) as (m' & E & Hm & Hc & Hh & Hn);
      [discriminate|exact Al|apply Hf|].
    exists m'. split; [exact E|]. apply (rel_change m); [exact R|..].
    + exact Hc.
    + apply remove_first_NoDup, (r_nodup _ _ R).
    + intros w Hw. left. exact (remove_first_In _ _ _ Hw).
    + intros k Hk. apply Hh. intros [= ->]. congruence.
    + intros k w Hk Hw. apply Hn; [discriminate|]. exact (r_disj _ _ R k l w Hk Hw).
  - exists m. split; [|exact R]. unfold list_length. rewrite (length_loop_ok m (a l)); [reflexivity|apply (r_chain _ _ R)|apply Hf].
  - exists m. split; [|exact R]. unfold list_has. rewrite (has_loop_ok m x (a l)); [reflexivity|apply (r_chain _ _ R)|apply Hf].
  - exists m. split; [|exact R]. unfold item_next. pose proof (seg_nonzero _ _ _ _ (r_chain _ _ R l)) as Hz.
    destruct (x =? 0) eqn:E; [apply N.eqb_eq in E; subst; contradiction|].
    rewrite (succ_ok _ _ x _ (r_chain _ _ R l) (r_nodup _ _ R l) Al). reflexivity.
Qed.

Lemma insert_after_len p x s : (List.length (insert_after p x s) <= S (List.length s))%nat.
Proof. induction s as [|y r IH]; cbn [insert_after List.length]; [lia|]. destruct (y =? p); cbn [List.length]; lia. Qed.
Lemma remove_first_len x s : (List.length (remove_first x s) <= List.length s)%nat.
Proof. induction s as [|y r IH]; cbn [remove_first List.length]; [lia|]. destruct (y =? x); cbn [List.length]; lia. Qed.
Lemma removelast_len {A} (s : list A) : (List.length (removelast s) <= List.length s)%nat.
Proof. induction s as [|y r IH]; [cbn [removelast]; lia|]. cbn [removelast]. destruct r; cbn [List.length] in *; lia. Qed.

Lemma spec_len a o n : (forall l, (List.length (a l) <= n)%nat) -> forall l, (List.length (fst (spec a o) l) <= S n)%nat.
Proof.
  intros H k. destruct o as [l|l|l|l x|l x|l p x|l|l|l x|l|l x|l x]; cbn [spec fst]; unfold set_seq;
    try (specialize (H k); lia); (destruct (k =? l); [|specialize (H k); lia]); specialize (H l).
  - cbn [List.length]; lia.
  - rewrite app_length. cbn [List.length]. lia.
  - cbn [List.length]. lia.
  - destruct (p =? 0); [cbn [List.length]; lia|]. pose proof (insert_after_len p x (a l)). lia.
  - pose proof (removelast_len (a l)). lia.
  - destruct (a l); cbn [tl List.length] in *; lia.
  - pose proof (remove_first_len x (a l)). lia.
Qed.

Lemma run_refines os : forall m a fuel n, rel m a -> all_allowed a os ->
  (forall l, (List.length (a l) <= n)%nat) -> (n + List.length os < fuel)%nat ->
  exists m', run fuel m os = Some (m', snd (spec_run a os)) /\ rel m' (fst (spec_run a os)).
Proof.
  induction os as [|o r IH]; intros m a fuel n R Al Hn Hf; cbn [run spec_run].
  - exists m. split; [reflexivity|exact R].
  - destruct Al as [Al1 Al2]. cbn [List.length] in Hf.
    destruct (exec_refines m a o fuel R Al1) as (m1 & E & R1); [intros l; specialize (Hn l); lia|].
    rewrite E. destruct (IH m1 (fst (spec a o)) fuel (S n) R1 Al2) as (m2 & E2 & R2); [apply spec_len; exact Hn|lia|].
    rewrite E2. destruct (spec a o) as [a1 v] eqn:E3. cbn [fst snd] in *.
    destruct (spec_run a1 r) as [a2 vs] eqn:E4. cbn [fst snd] in *. exists m2. split; [reflexivity|exact R2].
Qed.

(** An item that is last in the list, added again, closes the chain on itself: length never returns. *)
Lemma self_loop_diverges fuel : forall m c n, m_next m c = c -> c <> 0 -> length_loop fuel m c n = None.
Proof.
  induction fuel as [|f IH]; intros m c n E Hc; cbn [length_loop]; [reflexivity|].
  destruct (c =? 0) eqn:E0; [lia|]. rewrite E. apply IH; assumption.
Qed.

(** Adding a cell that is already in the list [l] makes it its own successor. *)
Lemma walk_tail_stop m s1 x : forall p fuel, seg (m_next m) p s1 x -> ~ In x s1 -> x <> 0 -> m_next m x = 0 ->
  (List.length s1 < fuel)%nat -> walk_tail fuel m p = Some x.
Proof.
  induction s1 as [|y r IH]; intros p fuel H Hn Hx E Hf; (destruct fuel as [|f]; [lia|]); cbn [walk_tail].
  - cbn [seg] in H. subst p. rewrite E. reflexivity.
  - destruct H as (-> & Hy & H).
    assert (Hnz : m_next m y <> 0).
    { destruct r as [|z t]; cbn [seg] in H; [congruence|]. destruct H as (E1 & Hz & _). congruence. }
    destruct (m_next m y =? 0) eqn:E0; [lia|]. apply (IH _ f H); [intros K; apply Hn; right; exact K|exact Hx|exact E|cbn [List.length] in Hf; lia].
Qed.

Lemma length_diverges m s1 x : forall p n fuel, seg (m_next m) p s1 x -> m_next m x = x -> x <> 0 -> length_loop fuel m p n = None.
Proof.
  induction s1 as [|y r IH]; intros p n fuel H E Hx.
  - cbn [seg] in H. subst p. apply self_loop_diverges; assumption.
  - destruct H as (-> & Hy & H). destruct fuel as [|f]; [reflexivity|]. cbn [length_loop].
    destruct (y =? 0) eqn:E0; [lia|]. apply (IH _ _ f H E Hx).
Qed.

Lemma readd_loops m a l x fuel :
  rel m a -> In x (a l) -> (List.length (a l) <= fuel)%nat ->
  exists m', list_add fuel m l x = Some m' /\ forall fuel', list_length fuel' m' l = None.
Proof.
  intros R Hin Hf. pose proof (r_chain _ _ R l) as C. pose proof (r_nodup _ _ R l) as Nd.
  destruct (in_split _ _ Hin) as (s1 & s2 & Es). rewrite Es in *. unfold chain in C. rewrite seg_app in C.
  destruct C as (mid & C1 & E & Hx & C2). subst mid.
  assert (Hn : ~ In x s1). { intros K. apply NoDup_remove_2 in Nd. apply Nd. apply in_or_app. left; exact K. }
  assert (C1' : seg (m_next (set_next m x 0)) (m_head m l) s1 x) by (cbn [set_next m_next]; apply seg_upd; assumption).
  unfold list_add, list_tail. cbn [set_next m_head]. fold (set_next m x 0).
  assert (Hh : m_head m l <> 0).
  { destruct s1 as [|y r]; cbn [seg] in C1; [congruence|]. destruct C1 as (E1 & Hy & _). congruence. }
  destruct (m_head m l =? 0) eqn:E0; [lia|].
  rewrite (walk_tail_stop (set_next m x 0) s1 x (m_head m l) fuel C1' Hn Hx);
    [|cbn [set_next m_next]; unfold upd; rewrite N.eqb_refl; reflexivity|rewrite app_length in Hf; cbn [List.length] in Hf; lia].
  destruct (x =? 0) eqn:E1; [lia|]. eexists. split; [reflexivity|].
  intros fuel'. unfold list_length. cbn [set_next m_head].
  apply (length_diverges _ s1 x); cbn [set_next m_next].
  - apply seg_upd; [exact Hn|]. apply seg_upd; [exact Hn|exact C1].
  - rewrite upd_same. reflexivity.
  - exact Hx.
Qed.
