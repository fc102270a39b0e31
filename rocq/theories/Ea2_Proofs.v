(** Refinement of the ring, the tour through all addresses and the change callback. *)
From Verif Require Import Common Ea_Model Ea_Spec Ea_Proofs.
Local Open Scope N_scope.

Lemma split_unique {A B} (f : A -> B) l x r l' x' r' : NoDup (map f (l ++ x :: r)) -> l ++ x :: r = l' ++ x' :: r' -> f x = f x' ->
  l = l' /\ x = x' /\ r = r'.
Proof.
  revert l'. induction l as [|y l IH]; intros l' N E F; destruct l' as [|y' l']; cbn [app] in E; injection E as E1 E2.
  - auto.
  - exfalso. subst y'. cbn [app map] in N. apply NoDup_cons_iff in N. destruct N as [N _]. apply N. rewrite E2, map_app, in_app_iff. cbn. rewrite F. auto.
  - exfalso. subst y. cbn [app map] in N. apply NoDup_cons_iff in N. destruct N as [N _]. apply N. rewrite map_app, in_app_iff. cbn. rewrite F. auto.
  - subst y'. cbn [app map] in N. apply NoDup_cons_iff in N. destruct (IH l' (proj2 N) E2 F) as (-> & -> & ->). auto.
Qed.

Lemma shows_zav s z r : inv s z -> shows s r -> r = zav z.
Proof.
  intros H [A C]. destruct (inv_shows _ _ H) as [A' C']. rewrite A in A'. rewrite C in C'.
  assert (N : NoDup (map fst (all (zav z)))).
  { rewrite all_zav, map_map. cbn [av fst]. exact (proj1 (proj2 (i_good _ _ H))). }
  destruct r as [[[l x] rr]|], (zav z) as [[[l' x'] rr']|]; cbn [cursor] in C'; try discriminate; [|reflexivity].
  injection C' as ->. cbn [all] in *. rewrite <- A' in N. destruct (split_unique fst l x' rr l' x' rr' N A' eq_refl) as (-> & _ & ->). reflexivity.
Qed.

Lemma known_uri s z u : inv s z -> (known (zav z) u <-> In u (map a_uri (l_items s))).
Proof. intros H. unfold known. rewrite all_zav, (i_all _ _ H), map_map. reflexivity. Qed.

Lemma one_selected s : reach s -> match selected s with None => l_items s = [] /\ l_sel s = None | Some e => In e (l_items s) end.
Proof.
  intros R. destruct (reach_inv s R) as [z H]. rewrite (selected_cur _ _ H), (i_all _ _ H), (i_sel _ _ H).
  destruct z as [[[l x] r]|]; cbn; auto. rewrite in_app_iff. cbn. auto.
Qed.

Lemma distinct_valid s : reach s ->
  NoDup (map a_uri (l_items s)) /\ NoDup (map a_ptr (l_items s)) /\ forall e, In e (l_items s) -> a_uri e <> [] /\ (List.length (a_uri e) < 128)%nat.
Proof.
  intros R. destruct (reach_inv s R) as [z H]. rewrite (i_all _ _ H). destruct (i_good _ _ H) as (A & B & C).
  split; [assumption|]. split; [assumption|]. now apply Forall_forall.
Qed.

Lemma shows_ex s : reach s -> exists z, shows s z.
Proof. intros R. destruct (reach_inv s R) as [z H]. exists (zav z). now apply inv_shows. Qed.

Lemma add_refines s z u m mem : reach s -> shows s z -> op_ok s (Add u m mem) ->
  (snd (add s u m mem) <> None <-> u <> [] /\ (List.length u < 128)%nat /\ ~ known z u /\ mem <> None) /\
  (snd (add s u m mem) <> None -> shows (fst (add s u m mem)) (r_add z (u, m))) /\
  (snd (add s u m mem) = None -> fst (add s u m mem) = s).
Proof.
  intros R S O. destruct (reach_inv s R) as [y H]. pose proof (shows_zav s y z H S) as E. subst z.
  rewrite (known_uri s y u H). unfold add. destruct (uri_valid u) eqn:V; cbn [negb].
  2:{ cbn [fst snd]. split; [|split; [congruence|reflexivity]]. split; [congruence|]. intros (A & B & _). exfalso.
      assert (K : uok u) by (split; assumption). apply uri_valid_spec in K. congruence. }
  apply uri_valid_spec in V. destruct (contains s u) eqn:C.
  { apply contains_spec in C. cbn [fst snd]. split; [|split; [congruence|reflexivity]]. split; [congruence|tauto]. }
  assert (C' : ~ In u (map a_uri (l_items s))) by (intros K; apply contains_spec in K; congruence).
  destruct mem as [p|].
  - destruct (alloc_add_inv s y u m p H V O C') as [I J]. rewrite J. split; [|split; [|congruence]].
    + destruct V as [V1 V2]. unfold uri_max in V2. split; [|congruence]. intros _. split; [assumption|]. split; [assumption|]. split; [assumption|discriminate].
    + intros _. apply inv_shows in I. rewrite zadd_av in I. exact I.
  - unfold alloc_add. rewrite (proj2 (uri_valid_spec u) V). cbn [negb fst snd]. split; [|split; [congruence|reflexivity]]. split; [congruence|tauto].
Qed.

Lemma remove_refines s z u : reach s -> shows s z ->
  (snd (remove_uri s u) = true <-> known z u) /\
  (snd (remove_uri s u) = true -> shows (fst (remove_uri s u)) (r_remove z u)) /\
  (snd (remove_uri s u) = false -> fst (remove_uri s u) = s).
Proof.
  intros R S. destruct (reach_inv s R) as [y H]. pose proof (shows_zav s y z H S) as E. subst z.
  rewrite (known_uri s y u H). unfold remove_uri. destruct (find_uri s u) as [e|] eqn:F.
  - apply find_uri_some in F. destruct F as [I <-]. destruct (remove_inv s y e H I) as (B & y' & I' & E'). rewrite B.
    split; [|split; [|congruence]].
    + split; [|reflexivity]. intros _. now apply in_map.
    + intros _. rewrite <- E'. now apply inv_shows.
  - apply find_uri_none in F. cbn [fst snd]. split; [|split; [congruence|reflexivity]]. split; [congruence|tauto].
Qed.

Lemma removep_refines s z e : reach s -> shows s z -> In e (l_items s) ->
  snd (remove_ s (a_ptr e)) = true /\ shows (fst (remove_ s (a_ptr e))) (r_remove z (a_uri e)).
Proof.
  intros R S I. destruct (reach_inv s R) as [y H]. pose proof (shows_zav s y z H S) as E. subst z.
  destruct (remove_inv s y e H I) as (B & y' & I' & E'). split; [assumption|]. rewrite <- E'. now apply inv_shows.
Qed.

Lemma select_refines s z u : reach s -> shows s z ->
  (snd (select_uri s u) = true <-> known z u) /\
  (snd (select_uri s u) = true -> exists z', shows (fst (select_uri s u)) z' /\ moved z z' u) /\
  (snd (select_uri s u) = false -> fst (select_uri s u) = s).
Proof.
  intros R S. destruct (reach_inv s R) as [y H]. pose proof (shows_zav s y z H S) as E. subst z.
  rewrite (known_uri s y u H). unfold select_uri. destruct (find_uri s u) as [e|] eqn:F.
  - apply find_uri_some in F. destruct F as [I <-]. destruct (select_some s y e H I) as (y' & I' & E'). cbn [fst snd].
    split; [|split; [|congruence]].
    + split; [|reflexivity]. intros _. now apply in_map.
    + intros _. exists (zav y'). split; [now apply inv_shows|assumption].
  - apply find_uri_none in F. cbn [fst snd]. split; [|split; [congruence|reflexivity]]. split; [congruence|tauto].
Qed.

Lemma selectp_refines s z e : reach s -> shows s z -> In e (l_items s) ->
  snd (select s (a_ptr e)) = true /\ exists z', shows (fst (select s (a_ptr e))) z' /\ moved z z' (a_uri e).
Proof.
  intros R S I. destruct (reach_inv s R) as [y H]. pose proof (shows_zav s y z H S) as E. subst z.
  unfold select. destruct (find_ptr (a_ptr e) (l_items s)) as [e'|] eqn:F.
  - apply find_ptr_some in F. destruct F as [I2 P]. destruct (distinct_valid s R) as (_ & N & _).
    assert (e' = e).
    { destruct (in_split e _ I) as (a & b & E). rewrite E in N, I2. apply nodup_mid in N. destruct N as (N1 & N2 & _).
      apply in_app_iff in I2. cbn [In] in I2. destruct I2 as [K|[K|K]]; [|auto|]; apply (in_map a_ptr) in K; rewrite P in K; tauto. }
    subst e'. cbn [fst snd]. split; [reflexivity|]. destruct (select_some s y e H I) as (y' & I' & E'). exists (zav y'). split; [now apply inv_shows|assumption].
  - exfalso. apply find_ptr_none in F. apply F. now apply in_map.
Qed.

Lemma stale_pointer s p : ~ In p (map a_ptr (l_items s)) -> remove_ s p = (s, false) /\ select s p = (s, false).
Proof.
  intros H. unfold remove_, select. destruct (has p (l_items s)) eqn:Q; [apply has_spec in Q; tauto|].
  destruct (find_ptr p (l_items s)) as [e|] eqn:F; [|auto]. apply find_ptr_some in F. destruct F as [F <-]. exfalso. apply H. now apply in_map.
Qed.

Lemma next_refines s z : reach s -> shows s z -> shows (fst (select_next s)) (r_next z).
Proof.
  intros R S. destruct (reach_inv s R) as [y H]. pose proof (shows_zav s y z H S) as E. subst z.
  destruct (next_inv s y H) as (y' & I & E & _). rewrite <- E. now apply inv_shows.
Qed.

Lemma clear_refines s : shows (clear s) None.
Proof. split; reflexivity || (unfold clear; assert (H := select_none (set_items s []) eq_refl); now rewrite (i_all _ _ H) || (rewrite (selected_cur _ _ H))). Qed.

(** The tour: stepping on rotates the ring read from the cursor. *)
Definition flat (z : zip) : list ea := match z with None => [] | Some (l, x, r) => x :: r ++ l end.
Definition rot {A} (l : list A) : list A := match l with [] => [] | x :: t => t ++ [x] end.
Fixpoint heads {A} (n : nat) (l : list A) : list (option A) :=
  match n with O => [] | S k => hd_error l :: heads k (rot l) end.
Lemma heads_all {A} (a b : list A) : heads (List.length a) (a ++ b) = map Some a.
Proof.
  revert b. induction a as [|c a IH]; intros b; cbn [List.length heads map app hd_error rot]; [reflexivity|].
  f_equal. rewrite <- app_assoc. apply IH.
Qed.

Lemma next_flat s z : inv s z -> exists z', inv (fst (select_next s)) z' /\ flat z' = rot (flat z).
Proof.
  intros H. destruct z as [[[l x] r]|].
  2:{ exists None. split; [|reflexivity]. unfold select_next. rewrite (i_sel _ _ H). exact H. }
  pose proof H as [A S G]. cbn [zall zcur option_map] in A, S, G. pose proof G as (G1 & _). apply nodup_mid in G1. destruct G1 as (X1 & _).
  unfold select_next. rewrite S, A, (proj2 (unlink_mid l x r X1)).
  destruct r as [|y r]; cbn [hd_error next_or_head].
  - destruct l as [|y l]; cbn [app hd_error].
    + exists (Some ([], x, [])). split; [|reflexivity]. now apply (select_inv s _ x [] [] H).
    + exists (Some ([], y, l ++ [x])). split; [|cbn [flat rot app]; now rewrite app_nil_r]. now apply (select_inv s _ y [] (l ++ [x]) H).
  - exists (Some (l ++ [x], y, r)). split; [|cbn [flat rot app]; now rewrite app_assoc].
    apply (select_inv s _ y (l ++ [x]) r H). cbn [zall]. rewrite <- app_assoc. reflexivity.
Qed.

Lemma tour_heads n s z : inv s z -> tour n s = map (option_map a_uri) (heads n (rot (flat z))).
Proof.
  revert s z. induction n as [|n IH]; intros s z H; cbn [tour heads map]; [reflexivity|].
  destruct (next_flat s z H) as (z' & H' & E). rewrite <- E. f_equal.
  - unfold selected_uri. rewrite (selected_cur _ _ H'). destruct z' as [[[l x] r]|]; reflexivity.
  - now apply IH.
Qed.

Lemma tour_all s z : reach s -> shows s z ->
  match z with
  | None => True
  | Some (l, x, r) => tour (List.length (l_items s)) s = map (fun a => Some (fst a)) (r ++ l ++ [x])
  end.
Proof.
  intros R S. destruct (reach_inv s R) as [y H]. pose proof (shows_zav s y z H S) as E. subst z.
  destruct y as [[[l x] r]|]; [|exact I]. cbn [zav]. rewrite (tour_heads _ _ _ H). cbn [flat rot].
  assert (L : List.length (l_items s) = List.length ((r ++ l) ++ [x])).
  { rewrite (i_all _ _ H). cbn [zall]. rewrite !app_length. cbn. lia. }
  rewrite L. pose proof (heads_all ((r ++ l) ++ [x]) []) as K. rewrite app_nil_r in K. rewrite K.
  rewrite !map_app, !map_map. cbn [map option_map]. rewrite <- app_assoc. reflexivity.
Qed.

Lemma rotation_visits {A} (l r : list A) x y : In y (l ++ x :: r) <-> In y (r ++ l ++ [x]).
Proof. rewrite !in_app_iff. cbn. tauto. Qed.

Lemma tour_visits s u : reach s -> In u (map a_uri (l_items s)) -> In (Some u) (tour (List.length (l_items s)) s).
Proof.
  intros R I. destruct (shows_ex s R) as [z S]. pose proof (tour_all s z R S) as T. destruct S as [A _].
  assert (I' : In u (map fst (all z))).
  { rewrite <- A, map_map. exact I. }
  destruct z as [[[l x] r]|]; [|destruct I']. rewrite T. apply in_map_iff in I'. destruct I' as (a & <- & I'). cbn [all] in I'.
  apply in_map_iff. exists a. split; [reflexivity|]. now apply rotation_visits.
Qed.

(** The callback. *)
Definition told (s s' : eas) : Prop :=
  l_log s' = l_log s ++ (if opt_eqb (l_sel s) (l_sel s') then [] else [selected_uri s']).

Lemma select_told s e : (forall x, e = Some x -> find_ptr (a_ptr x) (l_items s) = Some x) -> told s (fst (select_ s e)).
Proof.
  intros F. unfold told, select_. destruct (opt_eqb (l_sel s) (option_map a_ptr e)) eqn:Q; cbn [fst l_log l_sel].
  - assert (K : opt_eqb (l_sel s) (l_sel s) = true) by now apply opt_eqb_spec. rewrite K. now rewrite app_nil_r.
  - rewrite Q. unfold selected_uri, selected. cbn [l_sel l_items]. destruct e as [x|]; cbn [option_map]; [|reflexivity].
    rewrite (F x eq_refl). reflexivity.
Qed.
Lemma told_refl s : told s s.
Proof. unfold told. assert (K : opt_eqb (l_sel s) (l_sel s) = true) by now apply opt_eqb_spec. now rewrite K, app_nil_r. Qed.

Lemma told_items s l s' : told (set_items s l) s' -> told s s'.
Proof. exact (fun H => H). Qed.

Lemma select_in s e : reach s -> In e (l_items s) -> find_ptr (a_ptr e) (l_items s) = Some e.
Proof.
  intros R I. destruct (distinct_valid s R) as (_ & N & _). destruct (in_split e _ I) as (a & b & E). rewrite E in *.
  apply nodup_mid in N. now apply find_ptr_mid.
Qed.

Definition plain (o : op) : Prop := match o with Deinit | Reinit _ _ _ => False | _ => True end.

Lemma nodup_find l e : NoDup (map a_ptr l) -> In e l -> find_ptr (a_ptr e) l = Some e.
Proof. intros N I. destruct (in_split e _ I) as (a & b & E). subst l. apply nodup_mid in N. now apply find_ptr_mid. Qed.

Lemma hd_in {A} (l : list A) x : hd_error l = Some x -> In x l.
Proof. destruct l; cbn; [discriminate|]. intros [= ->]. auto. Qed.

Lemma remove_told s e : reach s -> In e (l_items s) -> told s (fst (remove_ s (a_ptr e))).
Proof.
  intros R I. unfold remove_. assert (Hh : has (a_ptr e) (l_items s) = true) by (apply has_spec; now apply in_map). rewrite Hh. cbn [negb fst].
  destruct (opt_eqb (l_sel s) (Some (a_ptr e)));
    [|unfold told; cbn [set_items l_log l_sel]; assert (K : opt_eqb (l_sel s) (l_sel s) = true) by (now apply opt_eqb_spec); now rewrite K, app_nil_r].
  apply (told_items s (unlink (a_ptr e) (l_items s))). apply select_told. intros x E. cbn [set_items l_items] in *.
  destruct (distinct_valid s R) as (_ & N & _). destruct (in_split e _ I) as (a & b & El). rewrite El in *.
  apply nodup_mid in N. destruct N as (N1 & N2 & N3). destruct (unlink_mid a e b N1) as [U1 U2]. rewrite U1, U2 in *.
  apply nodup_find; [assumption|]. destruct b as [|y b]; cbn [hd_error next_or_head] in E.
  - now apply hd_in.
  - injection E as <-. rewrite in_app_iff. cbn. auto.
Qed.

Lemma step_told s o : reach s -> op_ok s o -> plain o -> told s (step s o).
Proof.
  intros R O P. destruct o as [u m mem|p|u| |p|u| |p m| |u m mem]; cbn [step]; try destruct P.
  - unfold add. destruct (uri_valid u) eqn:V; cbn [negb]; [|apply told_refl]. destruct (contains s u); [apply told_refl|].
    unfold alloc_add. rewrite V. cbn [negb]. destruct mem as [p|]; [|apply told_refl]. cbn [fst].
    pose proof (one_selected s R) as Z. destruct (l_sel s) as [q|] eqn:Q.
    + unfold told. cbn [set_items l_log l_sel]. assert (K : opt_eqb (l_sel s) (l_sel s) = true) by (now apply opt_eqb_spec). now rewrite K, app_nil_r.
    + unfold selected in Z. rewrite Q in Z. destruct Z as [Z _]. unfold told, select_. rewrite Q. cbn [option_map opt_eqb fst set_items l_items l_log l_sel a_ptr a_uri].
      rewrite Z. unfold selected_uri, selected, find_ptr. cbn [app set_items l_sel l_items find a_ptr]. rewrite N.eqb_refl. reflexivity.
  - destruct (has p (l_items s)) eqn:Hh.
    + apply has_spec, in_map_iff in Hh. destruct Hh as (e & <- & I). now apply remove_told.
    + unfold remove_. rewrite Hh. apply told_refl.
  - unfold remove_uri. destruct (find_uri s u) as [e|] eqn:F; [|apply told_refl]. apply find_uri_some in F. now apply remove_told.
  - unfold clear. apply (told_items s []). apply select_told. discriminate.
  - unfold select. destruct (find_ptr p (l_items s)) as [e|] eqn:F; [|apply told_refl]. cbn [fst]. apply select_told. intros x [= <-].
    apply find_ptr_some in F. now apply select_in.
  - unfold select_uri. destruct (find_uri s u) as [e|] eqn:F; [|apply told_refl]. cbn [fst]. apply select_told. intros x [= <-].
    apply find_uri_some in F. now apply select_in.
  - unfold select_next. destruct (l_sel s) as [p|] eqn:Q; [|apply told_refl]. apply select_told. intros x E.
    destruct (distinct_valid s R) as (_ & N & _). apply nodup_find; [assumption|].
    destruct (next_of p (l_items s)) as [y|] eqn:Y; cbn [next_or_head] in E; [|now apply hd_in]. injection E as <-.
    clear -Y. induction (l_items s) as [|e l IH]; cbn [next_of] in Y; [discriminate|]. destruct (a_ptr e =? p); [right; now apply hd_in|right; auto].
  - unfold told, set_meta, set_items. cbn [l_log l_sel]. assert (K : opt_eqb (l_sel s) (l_sel s) = true) by now apply opt_eqb_spec. now rewrite K, app_nil_r.
Qed.

(** The same pointer is selected before and after exactly when the same URI is. *)
Lemma nodup_inj {A B} (f : A -> B) l a b : NoDup (map f l) -> In a l -> In b l -> f a = f b -> a = b.
Proof.
  intros N I J E. destruct (in_split a _ I) as (l1 & l2 & ->). apply nodup_mid in N. destruct N as (N1 & N2 & _).
  apply in_app_iff in J. cbn [In] in J. destruct J as [J|[J|J]]; [|auto|]; apply (in_map f) in J; rewrite <- E in J; tauto.
Qed.

Lemma same_uri s s' : reach s -> reach s' -> (forall e, In e (l_items s') -> In (a_ptr e, a_uri e) (map (fun x => (a_ptr x, a_uri x)) (l_items s))) ->
  opt_eqb (l_sel s) (l_sel s') = true <-> selected_uri s = selected_uri s'.
Proof.
  intros R R' Sub. destruct (reach_inv s R) as [z H], (reach_inv s' R') as [z' H']. rewrite opt_eqb_spec.
  unfold selected_uri. rewrite (selected_cur _ _ H), (selected_cur _ _ H'), (i_sel _ _ H), (i_sel _ _ H').
  pose proof (one_selected s R) as O. pose proof (one_selected s' R') as O'. rewrite (selected_cur _ _ H) in O. rewrite (selected_cur _ _ H') in O'.
  destruct (distinct_valid s R) as (Nu & Np & _).
  destruct (zcur z) as [x|], (zcur z') as [x'|]; cbn [option_map]; try (split; congruence).
  apply Sub in O'. apply in_map_iff in O'. destruct O' as (w & E & I). injection E as E1 E2.
  split; intros [= Q].
  - rewrite <- E2. f_equal. f_equal. apply (nodup_inj a_ptr (l_items s)); auto. congruence.
  - rewrite <- E1. f_equal. f_equal. apply (nodup_inj a_uri (l_items s)); auto. congruence.
Qed.

Definition pu (e : ea) : N * list N := (a_ptr e, a_uri e).
Lemma unlink_sub p l e : In e (unlink p l) -> In e l.
Proof. induction l as [|y l IH]; cbn [unlink]; [intros []|]. destruct (a_ptr y =? p); cbn [In]; tauto. Qed.
Lemma select_items s e : l_items (fst (select_ s e)) = l_items s.
Proof. unfold select_. destruct (opt_eqb _ _); reflexivity. Qed.
Lemma remove_sub s p e : In e (l_items (fst (remove_ s p))) -> In e (l_items s).
Proof.
  unfold remove_. destruct (has p (l_items s)); cbn [negb fst]; [|auto]. destruct (opt_eqb _ _); rewrite ?select_items; cbn [set_items l_items]; apply unlink_sub.
Qed.

Lemma step_same s o : reach s -> op_ok s o -> plain o -> opt_eqb (l_sel s) (l_sel (step s o)) = true <-> selected_uri s = selected_uri (step s o).
Proof.
  intros R O P. pose proof (ReachS s o R O) as R'.
  assert (Case : (forall e, In e (l_items (step s o)) -> In (pu e) (map pu (l_items s))) \/ (forall e, In e (l_items s) -> In (pu e) (map pu (l_items (step s o))))).
  { destruct o as [u m mem|p|u| |p|u| |p m| |u m mem]; cbn [step]; try destruct P.
    - right. intros e I. apply in_map. unfold add, alloc_add. destruct (uri_valid u); cbn [negb fst]; [|exact I]. destruct (contains s u); [exact I|].
      destruct mem as [p|]; [|exact I]. cbn [fst set_items l_items]. apply in_app_iff. left. destruct (l_sel s); [exact I|]. now rewrite select_items.
    - left. intros e I. apply in_map. now apply remove_sub in I.
    - left. intros e I. apply in_map. unfold remove_uri in I. destruct (find_uri s u); [now apply remove_sub in I|exact I].
    - left. intros e I. unfold clear in I. rewrite select_items in I. destruct I.
    - left. intros e I. apply in_map. unfold select in I. destruct (find_ptr p (l_items s)); cbn [fst] in I; rewrite ?select_items in I; exact I.
    - left. intros e I. apply in_map. unfold select_uri in I. destruct (find_uri s u); cbn [fst] in I; rewrite ?select_items in I; exact I.
    - left. intros e I. apply in_map. unfold select_next in I. destruct (l_sel s); cbn [fst] in I; rewrite ?select_items in I; exact I.
    - left. intros e I. apply (in_map pu) in I. unfold set_meta, set_items in I. cbn [l_items] in I. fold (pm p m) in I.
      rewrite (map_pm pu p m) in I; [exact I|]. intros x. unfold pu. now rewrite pm_ptr, pm_uri. }
  destruct Case as [C|C].
  - now apply same_uri.
  - assert (K : opt_eqb (l_sel s) (l_sel (step s o)) = opt_eqb (l_sel (step s o)) (l_sel s)).
    { destruct (l_sel s), (l_sel (step s o)); cbn [opt_eqb]; try reflexivity. apply N.eqb_sym. }
    rewrite K, (same_uri (step s o) s R' R C). split; congruence.
Qed.

Lemma callback_exact s o : reach s -> op_ok s o -> plain o ->
  (selected_uri (step s o) = selected_uri s -> l_log (step s o) = l_log s) /\
  (selected_uri (step s o) <> selected_uri s -> l_log (step s o) = l_log s ++ [selected_uri (step s o)]).
Proof.
  intros R O P. pose proof (step_told s o R O P) as T. pose proof (step_same s o R O P) as E. unfold told in T.
  destruct (opt_eqb (l_sel s) (l_sel (step s o))).
  - rewrite app_nil_r in T. split; [auto|]. intros N. exfalso. apply N. symmetry. now apply E.
  - split; [|auto]. intros Q. symmetry in Q. apply E in Q. discriminate.
Qed.
