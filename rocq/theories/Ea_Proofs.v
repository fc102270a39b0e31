(** Proofs about the list of server addresses. *)
From Verif Require Import Common Ea_Model Ea_Spec.
Local Open Scope N_scope.

Definition av (e : ea) : addr := (a_uri e, a_meta e).

Lemma opt_eqb_spec a b : opt_eqb a b = true <-> a = b.
Proof. destruct a, b; cbn; try (split; congruence). rewrite N.eqb_eq. split; congruence. Qed.

(** The invariant, with the split of the list around the selected item made explicit. *)
Definition uok (u : list N) : Prop := u <> [] /\ (List.length u < uri_max)%nat.
Definition good (l : list ea) : Prop :=
  NoDup (map a_ptr l) /\ NoDup (map a_uri l) /\ Forall (fun e => uok (a_uri e)) l.
Definition zip := option (list ea * ea * list ea).
Definition zall (z : zip) : list ea := match z with None => [] | Some (l, x, r) => l ++ x :: r end.
Definition zcur (z : zip) : option ea := match z with None => None | Some (_, x, _) => Some x end.
Record inv (s : eas) (z : zip) : Prop := {
  i_all : l_items s = zall z;
  i_sel : l_sel s = option_map a_ptr (zcur z);
  i_good : good (zall z) }.

Definition zav (z : zip) : ring := match z with None => None | Some (l, x, r) => Some (map av l, av x, map av r) end.

Lemma uri_valid_spec u : uri_valid u = true <-> uok u.
Proof.
  unfold uri_valid, uok. rewrite andb_true_iff, !Nat.ltb_lt. destruct u; cbn [List.length]; split; intros [A B]; split; try lia; try congruence.
Qed.

Lemma find_ptr_mid l x r : ~ In (a_ptr x) (map a_ptr l) -> find_ptr (a_ptr x) (l ++ x :: r) = Some x.
Proof.
  induction l as [|y l IH]; intros H; unfold find_ptr; cbn [app find].
  - now rewrite N.eqb_refl.
  - cbn [map In] in H. destruct (N.eqb_spec (a_ptr y) (a_ptr x)); [tauto|]. apply IH. tauto.
Qed.

Lemma nodup_mid {A B} (f : A -> B) l x r : NoDup (map f (l ++ x :: r)) -> ~ In (f x) (map f l) /\ ~ In (f x) (map f r) /\ NoDup (map f (l ++ r)).
Proof.
  rewrite map_app. cbn [map]. intros H. apply NoDup_remove in H. destruct H as [H1 H2]. rewrite map_app. rewrite in_app_iff in H2. tauto.
Qed.

Lemma selected_cur s z : inv s z -> selected s = zcur z.
Proof.
  intros [A S G]. unfold selected. rewrite S, A. destruct z as [[[l x] r]|]; cbn [zcur option_map zall]; [|reflexivity].
  apply find_ptr_mid. destruct G as [G _]. cbn [zall] in G. now apply nodup_mid in G.
Qed.

Lemma all_zav z : all (zav z) = map av (zall z).
Proof. destruct z as [[[l x] r]|]; [|reflexivity]. cbn [zav all zall]. rewrite map_app. reflexivity. Qed.
Lemma cursor_zav z : cursor (zav z) = option_map av (zcur z).
Proof. destruct z as [[[l x] r]|]; reflexivity. Qed.

Lemma inv_shows s z : inv s z -> shows s (zav z).
Proof. intros H. split; [rewrite (i_all _ _ H), all_zav; reflexivity|]. rewrite (selected_cur _ _ H), cursor_zav. reflexivity. Qed.

(** Splitting a list with distinct pointers or URIs around an element. *)
Lemma split_in {A} (x : A) l : In x l -> exists a b, l = a ++ x :: b.
Proof. exact (in_split x l). Qed.

(** Selecting an element of the list. *)
Lemma select_opt s z e : good (zall z) -> l_items s = zall z -> zcur z = e -> inv (fst (select_ s e)) z.
Proof.
  intros G A E. unfold select_. subst e.
  destruct (opt_eqb (l_sel s) (option_map a_ptr (zcur z))) eqn:Q; cbn [fst]; constructor; cbn [l_items l_sel]; auto. now apply opt_eqb_spec in Q.
Qed.

Lemma select_inv s z e a b : inv s z -> zall z = a ++ e :: b -> inv (fst (select_ s (Some e))) (Some (a, e, b)).
Proof.
  intros [A S G] E. apply select_opt; [cbn [zall]; now rewrite <- E|cbn [zall]; now rewrite <- E|reflexivity].
Qed.

Lemma select_none s : l_items s = [] -> inv (fst (select_ s None)) None.
Proof.
  intros A. unfold select_. cbn [option_map]. assert (G : good []) by (repeat split; constructor).
  destruct (opt_eqb (l_sel s) None) eqn:Q; cbn [fst]; constructor; cbn; auto. now apply opt_eqb_spec in Q.
Qed.

Lemma good_snoc l e : good l -> ~ In (a_ptr e) (map a_ptr l) -> ~ In (a_uri e) (map a_uri l) -> uok (a_uri e) -> good (l ++ [e]).
Proof.
  intros (A & B & C) H1 H2 H3. split; [|split].
  - rewrite map_app. now apply NoDup_app_snoc.
  - rewrite map_app. now apply NoDup_app_snoc.
  - apply Forall_app. auto.
Qed.

Lemma contains_spec s u : contains s u = true <-> In u (map a_uri (l_items s)).
Proof.
  unfold contains. rewrite existsb_exists, in_map_iff. split; intros (e & H1 & H2); exists e; rewrite list_eqb_spec in *; auto.
Qed.

Definition zadd (z : zip) (e : ea) : zip := match z with None => Some ([], e, []) | Some (l, x, r) => Some (l, x, r ++ [e]) end.
Lemma zadd_all z e : zall (zadd z e) = zall z ++ [e].
Proof. destruct z as [[[l x] r]|]; [|reflexivity]. cbn [zadd zall]. now rewrite <- app_assoc. Qed.
Lemma zadd_av z e : zav (zadd z e) = r_add (zav z) (av e).
Proof. destruct z as [[[l x] r]|]; [|reflexivity]. cbn [zadd zav r_add]. now rewrite map_app. Qed.

Lemma alloc_add_inv s z u m p : inv s z -> uok u -> ~ In p (map a_ptr (l_items s)) -> ~ In u (map a_uri (l_items s)) ->
  inv (fst (alloc_add s u m (Some p))) (zadd z (mk_ea p u m)) /\ snd (alloc_add s u m (Some p)) = Some (mk_ea p u m).
Proof.
  intros H V P U. unfold alloc_add. rewrite (proj2 (uri_valid_spec u) V). cbn [negb]. split; [|reflexivity]. cbn [fst].
  destruct H as [A S G].
  assert (G' : good (zall (zadd z (mk_ea p u m)))).
  { rewrite zadd_all. rewrite A in P, U. apply good_snoc; assumption. }
  destruct z as [[[l x] r]|]; cbn [zcur option_map] in S; rewrite S.
  - constructor; [|assumption|assumption]. cbn [set_items l_items]. now rewrite zadd_all, A.
  - unfold select_. rewrite S. cbn [option_map opt_eqb fst]. constructor; [|reflexivity|assumption].
    cbn [set_items l_items]. now rewrite zadd_all, A.
Qed.

(** Removal. *)
Lemma unlink_mid a e b : ~ In (a_ptr e) (map a_ptr a) -> unlink (a_ptr e) (a ++ e :: b) = a ++ b /\ next_of (a_ptr e) (a ++ e :: b) = hd_error b.
Proof.
  induction a as [|y a IH]; intros H; cbn [app unlink next_of].
  - rewrite N.eqb_refl. auto.
  - cbn [map In] in H. destruct (N.eqb_spec (a_ptr y) (a_ptr e)); [tauto|]. destruct IH as [I1 I2]; [tauto|]. rewrite I1. auto.
Qed.
Lemma unlink_notin p l : ~ In p (map a_ptr l) -> unlink p l = l.
Proof.
  induction l as [|y l IH]; intros H; cbn [unlink]; [reflexivity|]. cbn [map In] in H.
  destruct (N.eqb_spec (a_ptr y) p); [tauto|]. rewrite IH; tauto.
Qed.
Lemma without_notin u l : ~ In u (map fst l) -> without u l = l.
Proof.
  induction l as [|y l IH]; intros H; cbn [without filter]; [reflexivity|]. cbn [map In] in H.
  destruct (list_eqb (fst y) u) eqn:E; [apply list_eqb_spec in E; tauto|]. cbn [negb]. f_equal. apply IH. tauto.
Qed.
Lemma without_mid u a (x : addr) b : fst x = u -> ~ In u (map fst a) -> ~ In u (map fst b) -> without u (a ++ x :: b) = a ++ b.
Proof.
  intros E A B. unfold without. rewrite filter_app. cbn [filter]. subst u. rewrite list_eqb_refl. cbn [negb].
  fold (without (fst x) a). fold (without (fst x) b). now rewrite !without_notin.
Qed.
Lemma fst_av l : map fst (map av l) = map a_uri l.
Proof. rewrite map_map. reflexivity. Qed.

Lemma has_spec p l : has p l = true <-> In p (map a_ptr l).
Proof.
  unfold has. rewrite existsb_exists, in_map_iff. split; intros (e & H1 & H2); exists e; rewrite N.eqb_eq in *; auto.
Qed.

Lemma good_drop a e b : good (a ++ e :: b) -> good (a ++ b).
Proof.
  intros (A & B & C). split; [|split].
  - now apply nodup_mid in A.
  - now apply nodup_mid in B.
  - apply Forall_app in C. destruct C as [C1 C2]. inversion C2; subst. apply Forall_app. auto.
Qed.

Definition zstart (l : list ea) : zip := match l with [] => None | x :: r => Some ([], x, r) end.
Lemma zstart_all l : zall (zstart l) = l. Proof. destruct l; reflexivity. Qed.
Lemma zstart_av l : zav (zstart l) = r_start (map av l). Proof. destruct l; reflexivity. Qed.

Lemma remove_inv s z e : inv s z -> In e (l_items s) ->
  snd (remove_ s (a_ptr e)) = true /\ exists z', inv (fst (remove_ s (a_ptr e))) z' /\ zav z' = r_remove (zav z) (a_uri e).
Proof.
  intros H I. destruct H as [A S G]. unfold remove_.
  assert (Hh : has (a_ptr e) (l_items s) = true) by (apply has_spec; now apply in_map). rewrite Hh. cbn [negb fst snd].
  split; [reflexivity|].
  destruct (in_split e _ I) as (a & b & E). pose proof G as (G1 & G2 & G3). rewrite <- A, E in G1, G2.
  apply nodup_mid in G1, G2. destruct G1 as (P1 & P2 & _), G2 as (U1 & U2 & _).
  destruct (unlink_mid a e b P1) as [K1 K2].
  destruct z as [[[l x] r]|]; [|cbn in A; rewrite A in I; destruct I].
  cbn [zall] in A, G. cbn [zcur option_map] in S. rewrite S. pose proof G as (G1 & G2 & _).
  apply nodup_mid in G1, G2. destruct G1 as (X1 & X2 & _), G2 as (V1 & V2 & _).
  cbn [opt_eqb]. destruct (N.eqb_spec (a_ptr x) (a_ptr e)) as [Q|Q].
  - rewrite <- Q, A. destruct (unlink_mid l x r X1) as [L1 L2]. cbn [set_items l_items]. rewrite L1, L2.
    assert (Ex : x = e).
    { rewrite A in I. apply in_app_iff in I. cbn [In] in I. destruct I as [I|[I|I]]; [|assumption|].
      - apply (in_map a_ptr) in I. rewrite <- Q in I. tauto.
      - apply (in_map a_ptr) in I. rewrite <- Q in I. tauto. }
    subst e. apply good_drop in G. destruct r as [|y r].
    + exists (zstart l). rewrite app_nil_r in *. split.
      * apply select_opt; cbn [set_items l_items next_or_head hd_error]; rewrite ?zstart_all; auto. destruct l; reflexivity.
      * rewrite zstart_av. cbn [zav map r_remove av fst]. now rewrite list_eqb_refl.
    + exists (Some (l, y, r)). split.
      * apply select_opt; auto.
      * cbn [zav map r_remove av fst]. now rewrite list_eqb_refl.
  - assert (Qu : list_eqb (a_uri x) (a_uri e) = false).
    { destruct (list_eqb (a_uri x) (a_uri e)) eqn:F; [|reflexivity]. apply list_eqb_spec in F. exfalso.
      rewrite A in I. apply in_app_iff in I. cbn [In] in I. destruct I as [I|[I|I]].
      - apply (in_map a_uri) in I. rewrite <- F in I. tauto.
      - subst. tauto.
      - apply (in_map a_uri) in I. rewrite <- F in I. tauto. }
    cbn [set_items l_items]. rewrite A in I, E. apply in_app_iff in I. cbn [In] in I. destruct I as [I|[I|I]]; [|subst; tauto|].
    + destruct (in_split e _ I) as (l1 & l2 & El). subst l.
      assert (Ga := G). rewrite <- app_assoc in Ga. cbn [app] in Ga. destruct Ga as (Ga1 & Ga2 & _).
      apply nodup_mid in Ga1, Ga2. destruct Ga1 as (Y1 & Y2 & _), Ga2 as (W1 & W2 & _).
      exists (Some (l1 ++ l2, x, r)). split.
      * constructor; cbn [set_items l_items l_sel zall zcur option_map].
        -- rewrite A, <- !app_assoc. cbn [app]. now apply unlink_mid.
        -- assumption.
        -- rewrite <- app_assoc in G |- *. cbn [app] in G. now apply good_drop in G.
      * cbn [zav r_remove av fst]. rewrite Qu. rewrite map_app in W2. cbn [map] in W2. rewrite in_app_iff in W2. cbn [In] in W2.
        repeat f_equal.
        -- rewrite !map_app. cbn [map]. symmetry. apply without_mid; [reflexivity|rewrite fst_av; tauto|rewrite fst_av; tauto].
        -- symmetry. apply without_notin. rewrite fst_av. tauto.
    + destruct (in_split e _ I) as (r1 & r2 & Er). subst r.
      assert (Ga := G). rewrite app_comm_cons, app_assoc in Ga. destruct Ga as (Ga1 & Ga2 & _).
      apply nodup_mid in Ga1, Ga2. destruct Ga1 as (Y1 & Y2 & _), Ga2 as (W1 & W2 & _).
      exists (Some (l, x, r1 ++ r2)). split.
      * constructor; cbn [set_items l_items l_sel zall zcur option_map].
        -- rewrite A, app_comm_cons, app_assoc. rewrite (proj1 (unlink_mid _ e r2 Y1)). rewrite <- app_assoc. reflexivity.
        -- assumption.
        -- rewrite app_comm_cons, app_assoc in G. apply good_drop in G. rewrite <- app_assoc in G. exact G.
      * cbn [zav r_remove av fst]. rewrite Qu. rewrite map_app in W1. cbn [map] in W1. rewrite in_app_iff in W1. cbn [In] in W1.
        repeat f_equal.
        -- symmetry. apply without_notin. rewrite fst_av. tauto.
        -- rewrite !map_app. cbn [map]. symmetry. apply without_mid; [reflexivity|rewrite fst_av; tauto|rewrite fst_av; tauto].
Qed.

(** Lookup by URI. *)
Lemma find_uri_some s u e : find_uri s u = Some e -> In e (l_items s) /\ a_uri e = u.
Proof. intros H. apply find_some in H. rewrite list_eqb_spec in H. exact H. Qed.
Lemma find_uri_none s u : find_uri s u = None -> ~ In u (map a_uri (l_items s)).
Proof.
  intros H I. apply in_map_iff in I. destruct I as (e & E & I). apply (find_none _ _ H) in I. cbn in I.
  rewrite E, list_eqb_refl in I. discriminate.
Qed.
Lemma find_ptr_some p l e : find_ptr p l = Some e -> In e l /\ a_ptr e = p.
Proof. intros H. apply find_some in H. rewrite N.eqb_eq in H. exact H. Qed.
Lemma find_ptr_none p l : find_ptr p l = None -> ~ In p (map a_ptr l).
Proof.
  intros H I. apply in_map_iff in I. destruct I as (e & E & I). apply (find_none _ _ H) in I. cbn in I.
  rewrite E, N.eqb_refl in I. discriminate.
Qed.

(** Moving on. *)
Lemma next_inv s z : inv s z -> exists z', inv (fst (select_next s)) z' /\ zav z' = r_next (zav z) /\
  snd (select_next s) = negb (opt_eqb (l_sel (fst (select_next s))) (l_sel s)).
Proof.
  intros H. destruct H as [A S G]. unfold select_next. destruct z as [[[l x] r]|]; cbn [zcur option_map] in S; rewrite S.
  - cbn [zall] in A, G. pose proof G as (G1 & _). apply nodup_mid in G1. destruct G1 as (X1 & X2 & _).
    rewrite A, (proj2 (unlink_mid l x r X1)).
    assert (B : forall z', zall z' = l ++ x :: r -> inv (fst (select_ s (zcur z'))) z').
    { intros z' E. apply select_opt; rewrite ?E; auto. }
    assert (C : forall e, snd (select_ s e) = negb (opt_eqb (l_sel (fst (select_ s e))) (Some (a_ptr x)))).
    { intros e. unfold select_. rewrite S. destruct (opt_eqb (Some (a_ptr x)) (option_map a_ptr e)) eqn:Q; cbn [fst snd l_sel].
      - rewrite S. cbn [opt_eqb]. now rewrite N.eqb_refl.
      - destruct e as [e|]; cbn [option_map opt_eqb] in *; [|reflexivity]. rewrite N.eqb_sym, Q. reflexivity. }
    destruct r as [|y r].
    + exists (zstart (l ++ [x])). split; [|split; [|apply C]].
      * replace (next_or_head (l ++ [x]) (hd_error [])) with (zcur (zstart (l ++ [x]))) by (destruct l; reflexivity).
        apply B. apply zstart_all.
      * rewrite zstart_av, map_app. reflexivity.
    + exists (Some (l ++ [x], y, r)). split; [|split; [|apply C]].
      * apply (B (Some (l ++ [x], y, r))). cbn [zall]. rewrite <- app_assoc. reflexivity.
      * cbn [zav r_next map]. rewrite map_app. reflexivity.
  - exists None. split; [constructor; assumption|]. split; [reflexivity|]. cbn [fst snd]. rewrite S. reflexivity.
Qed.

Lemma select_some s z e : inv s z -> In e (l_items s) ->
  exists z', inv (fst (select_ s (Some e))) z' /\ moved (zav z) (zav z') (a_uri e).
Proof.
  intros H I. rewrite (i_all _ _ H) in I. destruct (in_split e _ I) as (a & b & E). exists (Some (a, e, b)).
  split; [now apply (select_inv s z)|]. split; [|reflexivity]. now rewrite !all_zav, E.
Qed.

(** Metadata. *)
Definition pm (p : N) (m : meta) (e : ea) : ea := if a_ptr e =? p then mk_ea (a_ptr e) (a_uri e) m else e.
Lemma pm_ptr p m e : a_ptr (pm p m e) = a_ptr e. Proof. unfold pm. now destruct (a_ptr e =? p). Qed.
Lemma pm_uri p m e : a_uri (pm p m e) = a_uri e. Proof. unfold pm. now destruct (a_ptr e =? p). Qed.
Definition zpm p m (z : zip) : zip := match z with None => None | Some (l, x, r) => Some (map (pm p m) l, pm p m x, map (pm p m) r) end.
Lemma map_pm {B} (f : ea -> B) p m l : (forall e, f (pm p m e) = f e) -> map f (map (pm p m) l) = map f l.
Proof. intros H. rewrite map_map. apply map_ext. exact H. Qed.
Lemma set_meta_inv s z p m : inv s z -> inv (set_meta s p m) (zpm p m z).
Proof.
  intros [A S G]. assert (E : zall (zpm p m z) = map (pm p m) (zall z)).
  { destruct z as [[[l x] r]|]; [|reflexivity]. cbn [zpm zall]. now rewrite map_app. }
  constructor.
  - unfold set_meta, set_items. cbn [l_items]. rewrite E, A. reflexivity.
  - unfold set_meta, set_items. cbn [l_sel]. rewrite S. destruct z as [[[l x] r]|]; [|reflexivity]. cbn [zpm zcur option_map]. now rewrite pm_ptr.
  - rewrite E. destruct G as (G1 & G2 & G3). split; [|split].
    + rewrite map_pm; [assumption|apply pm_ptr].
    + rewrite map_pm; [assumption|apply pm_uri].
    + apply Forall_map. eapply Forall_impl; [|exact G3]. intros e. cbn. now rewrite pm_uri.
Qed.

Lemma init_inv log u m mem : inv (fst (init log u m mem)) None \/ exists p, mem = Some p /\ uok u /\ inv (fst (init log u m mem)) (Some ([], mk_ea p u m, [])) /\ snd (init log u m mem) = true.
Proof.
  assert (B : inv (mk_eas [] None log) None) by (constructor; cbn; repeat split; constructor).
  unfold init. destruct u as [|c u]; [left; exact B|]. set (w := c :: u).
  destruct (uri_valid w) eqn:V.
  - destruct mem as [p|].
    + right. exists p. apply uri_valid_spec in V.
      destruct (alloc_add_inv (mk_eas [] None log) None w m p B V) as [I J]; [intros []|intros []|].
      destruct (alloc_add (mk_eas [] None log) w m (Some p)) as [s' [e|]]; cbn [snd] in J; [|discriminate]. cbn [fst snd] in *. auto.
    + left. unfold alloc_add. rewrite V. exact B.
  - left. unfold alloc_add. rewrite V. exact B.
Qed.

Lemma reach_inv s : reach s -> exists z, inv s z.
Proof.
  induction 1 as [u m mem log|s o R [z H] O].
  - destruct (init_inv log u m mem) as [H|(p & _ & _ & H & _)]; eauto.
  - destruct o as [u m mem|p|u| |p|u| |p m| |u m mem]; cbn [step].
    + unfold add. destruct (uri_valid u) eqn:V; [|eauto]. cbn [negb]. destruct (contains s u) eqn:C; [eauto|].
      destruct mem as [p|]; [|unfold alloc_add; rewrite V; eauto].
      eexists. eapply alloc_add_inv; [exact H|now apply uri_valid_spec|exact O|].
      intros K. apply contains_spec in K. congruence.
    + unfold remove_ at 1. destruct (has p (l_items s)) eqn:Hh; [|eauto]. apply has_spec, in_map_iff in Hh. destruct Hh as (e & <- & I).
      destruct (remove_inv s z e H I) as (_ & z' & I' & _). exists z'. unfold remove_ in I'.
      assert (Hh : has (a_ptr e) (l_items s) = true) by (apply has_spec; now apply in_map). rewrite Hh in I'. exact I'.
    + unfold remove_uri. destruct (find_uri s u) as [e|] eqn:F; [|eauto]. apply find_uri_some in F. destruct F as [I _].
      destruct (remove_inv s z e H I) as (_ & z' & I' & _). eauto.
    + exists None. now apply select_none.
    + unfold select. destruct (find_ptr p (l_items s)) as [e|] eqn:F; [|eauto]. apply find_ptr_some in F.
      destruct (select_some s z e H (proj1 F)) as (z' & I' & _). eauto.
    + unfold select_uri. destruct (find_uri s u) as [e|] eqn:F; [|eauto]. apply find_uri_some in F.
      destruct (select_some s z e H (proj1 F)) as (z' & I' & _). eauto.
    + destruct (next_inv s z H) as (z' & I' & _). eauto.
    + exists (zpm p m z). now apply set_meta_inv.
    + exists None. constructor; cbn; repeat split; constructor.
    + unfold reinit. destruct (init_inv (l_log (deinit s)) u m mem) as [K|(q & _ & _ & K & _)]; eauto.
Qed.
