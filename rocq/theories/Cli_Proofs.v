From Verif Require Import Common Cli_Model Cli_Spec.
From Coq Require Import Lia.
Local Open Scope N_scope.

(* ---------- the list as a map ---------- *)
Lemma find_id l i c : find (is_id i) l = Some c -> In c l /\ c_id c = i.
Proof. intros H. apply find_some in H. unfold is_id in H. rewrite N.eqb_eq in H. exact H. Qed.

Lemma lookup_id s i c : lookup s i = Some c -> In c (s_cbs s) /\ c_id c = i.
Proof. apply find_id. Qed.

Lemma find_in l c : NoDup (map c_id l) -> In c l -> find (is_id (c_id c)) l = Some c.
Proof.
  induction l as [|d l IH]; [easy|]. cbn [map find In]. intros Hn [<-|Hi].
  - unfold is_id. rewrite N.eqb_refl. reflexivity.
  - apply NoDup_cons_iff in Hn as [Hd Hn]. unfold is_id at 1. destruct (N.eqb_spec (c_id d) (c_id c)) as [He|_].
    + destruct Hd. rewrite He. apply in_map, Hi.
    + exact (IH Hn Hi).
Qed.

Lemma find_none l i : find (is_id i) l = None <-> ~ In i (map c_id l).
Proof.
  induction l as [|d l IH]; [easy|]. cbn [map find In]. unfold is_id at 1. destruct (N.eqb_spec (c_id d) i) as [He|Hne].
  - split; [discriminate|]. intros H. destruct H. left. exact He.
  - rewrite IH. tauto.
Qed.

Lemma is_id_eq i c : is_id i c = (c_id c =? i). Proof. reflexivity. Qed.

Lemma find_filter_id l i j :
  find (is_id i) (filter (fun c => negb (is_id j c)) l) = if i =? j then None else find (is_id i) l.
Proof.
  induction l as [|d l IH]; [cbn [filter find]; destruct (i =? j); reflexivity|].
  cbn [filter find]. destruct (is_id j d) eqn:Hj; cbn [negb find]; rewrite IH; rewrite is_id_eq in *.
  - apply N.eqb_eq in Hj. destruct (N.eqb_spec i j) as [He|Hne]; [reflexivity|].
    destruct (N.eqb_spec (c_id d) i); [congruence|reflexivity].
  - apply N.eqb_neq in Hj. destruct (N.eqb_spec (c_id d) i) as [Hi|Hi]; [|reflexivity].
    destruct (N.eqb_spec i j); [congruence|reflexivity].
Qed.

Lemma find_update l i j f (Hf : forall c, c_id (f c) = c_id c) :
  find (is_id i) (map (fun c => if is_id j c then f c else c) l) = if i =? j then option_map f (find (is_id i) l) else find (is_id i) l.
Proof.
  induction l as [|d l IH]; [cbn [map find option_map]; destruct (i =? j); reflexivity|].
  cbn [map find]. destruct (is_id j d) eqn:Hj; rewrite IH; rewrite !is_id_eq in *.
  - apply N.eqb_eq in Hj. rewrite Hf. destruct (N.eqb_spec (c_id d) i) as [Hi|Hi]; [|reflexivity].
    destruct (N.eqb_spec i j); [reflexivity|congruence].
  - apply N.eqb_neq in Hj. destruct (N.eqb_spec (c_id d) i) as [Hi|Hi]; [|reflexivity].
    destruct (N.eqb_spec i j); [congruence|reflexivity].
Qed.

Lemma lookup_remove s i j : lookup (remove j s) i = if i =? j then None else lookup s i.
Proof. apply find_filter_id. Qed.
Lemma lookup_update s i j f : (forall c, c_id (f c) = c_id c) ->
  lookup (update j f s) i = if i =? j then option_map f (lookup s i) else lookup s i.
Proof. intros Hf. exact (find_update (s_cbs s) i j f Hf). Qed.
Lemma lookup_alloc s q i : (forall c, lookup s i = Some c -> i < s_next s) ->
  lookup (alloc q s) i = if i =? s_next s then Some (new_cb (s_next s) q) else lookup s i.
Proof.
  intros Hi. unfold lookup, alloc. cbn [s_cbs].
  assert (Ha : forall l, find (is_id i) (l ++ [new_cb (s_next s) q]) =
                         match find (is_id i) l with Some c => Some c | None => if i =? s_next s then Some (new_cb (s_next s) q) else None end).
  { induction l as [|d l IH]; cbn [app find].
    - unfold is_id. cbn [new_cb c_id]. rewrite (N.eqb_sym i). destruct (s_next s =? i); reflexivity.
    - destruct (is_id i d); [reflexivity|exact IH]. }
  change (fun c => c_id c =? i) with (is_id i). rewrite Ha.
  unfold lookup in Hi. change (fun c => c_id c =? i) with (is_id i) in Hi.
  destruct (find (is_id i) (s_cbs s)) as [c|]; [|reflexivity].
  specialize (Hi c eq_refl). destruct (N.eqb_spec i (s_next s)); [lia|reflexivity].
Qed.

Lemma ids_update s j f : (forall c, c_id (f c) = c_id c) -> map c_id (s_cbs (update j f s)) = map c_id (s_cbs s).
Proof.
  intros Hf. unfold update, set_cbs. cbn [s_cbs]. rewrite map_map. apply map_ext. intros c. destruct (is_id j c); [apply Hf|reflexivity].
Qed.
Lemma nodup_filter_ids (p : cb -> bool) l : NoDup (map c_id l) -> NoDup (map c_id (filter p l)).
Proof.
  induction l as [|c l IH]; [easy|]. cbn [map filter]. intros H. apply NoDup_cons_iff in H as [Hc H]. destruct (p c); [|exact (IH H)].
  cbn [map]. apply NoDup_cons; [|exact (IH H)]. intros Hi. apply Hc. rewrite in_map_iff in *. destruct Hi as [d [He Hd]].
  exists d. split; [exact He|]. apply filter_In in Hd. tauto.
Qed.

Lemma live_lookup s i : live s i = true <-> exists c, lookup s i = Some c.
Proof.
  unfold live, lookup. change (fun c => c_id c =? i) with (is_id i). rewrite existsb_exists. split.
  - intros [c [Hc Hi]]. destruct (find (is_id i) (s_cbs s)) as [d|] eqn:He; [exists d; reflexivity|].
    pose proof (find_none_of := find_none (s_cbs s) i). destruct find_none_of as [H _]. destruct (H He).
    unfold is_id in Hi. rewrite N.eqb_eq in Hi. rewrite <- Hi. apply in_map, Hc.
  - intros [c Hc]. apply find_some in Hc. exists c. exact Hc.
Qed.

(* what the setters keep *)
Definition keeps (f : cb -> cb) : Prop := forall c, c_id (f c) = c_id c /\ c_kind (f c) = c_kind c /\ c_get (f c) = c_get c.
Lemma keeps_busy b : keeps (set_busy b). Proof. intros c. repeat split. Qed.
Lemma keeps_obs o : keeps (set_obs o). Proof. intros c. repeat split. Qed.
Lemma keeps_num n : keeps (set_num n). Proof. intros c. repeat split. Qed.
Lemma keeps_stop : keeps set_stop. Proof. intros c. repeat split. Qed.
Lemma keeps_id f : keeps f -> forall c, c_id (f c) = c_id c. Proof. intros H c. apply H. Qed.
#[export] Hint Resolve keeps_busy keeps_obs keeps_num keeps_stop : cli.

(* ---------- invariant ---------- *)
Definition life_kind (k : kind) : bool := match k with KOne | KDiscovery | KMulticast => true | _ => false end.

(* what the handlers that run rely on *)
Fixpoint stack_ok (s : st) (k : list frame) : Prop :=
  match k with
  | [] => True
  | [FAnswer i d r] => exists c, lookup s i = Some c /\ c_busy c = true /\ c_disc c = d
  | [FPing i] => exists c, lookup s i = Some c /\ c_kind c = KPing
  | [FCancel _] => True
  | FCancel (Some _) :: k => stack_ok s k
  | _ => False
  end.

Record inv (B : N -> Prop) (s : st) : Prop := mk_inv {
  i_nodup : NoDup (map c_id (s_cbs s));
  i_next : forall i c, lookup s i = Some c -> i < s_next s;
  i_tm : forall i t, In (i, t) (s_tm s) -> exists c, lookup s i = Some c;
  i_tping : forall i c, In (i, TPing) (s_tm s) -> lookup s i = Some c -> c_kind c = KPing;
  i_ping : forall i c, lookup s i = Some c -> c_kind c = KPing -> c_get c = false;
  i_pend : forall i, s_pend s = Some i -> exists c, lookup s i = Some c /\ c_kind c = KOne /\ c_obs c = NOT_SET /\ c_busy c = false;
  i_stack : stack_ok s (s_stack s);
  i_spare : forall i x code c, In (FPing i) (s_stack s) -> In (FCancel (Some (x, code))) (s_stack s) -> lookup s i = Some c -> concerns x c = false;
  i_busy : forall i c, lookup s i = Some c -> c_busy c = true -> B i \/ running s i }.

Definition life (s : st) : Prop :=
  forall i c, lookup s i = Some c -> life_kind (c_kind c) = true -> s_pend s <> Some i -> In (i, TLife) (s_tm s).

Lemma inv_start B : inv B start.
Proof. constructor; cbn; try easy; try discriminate. constructor. Qed.
Lemma life_start : life start.
Proof. intros i c H. discriminate. Qed.

Lemma stack_ext s s' k :
  (forall i d r c, In (FAnswer i d r) k -> lookup s i = Some c -> c_busy c = true -> exists c', lookup s' i = Some c' /\ c_busy c' = true /\ c_kind c' = c_kind c) ->
  (forall i c, In (FPing i) k -> lookup s i = Some c -> exists c', lookup s' i = Some c' /\ c_kind c' = c_kind c) ->
  stack_ok s k -> stack_ok s' k.
Proof.
  induction k as [|f k IH]; intros Ha Hp H; [exact I|]. destruct k as [|g k].
  - destruct f as [i d r|x|i]; cbn [stack_ok] in *.
    + destruct H as [c [Hl [Hb Hd]]]. destruct (Ha i d r c (or_introl eq_refl) Hl Hb) as [c' [Hl' [Hb' Hk]]].
      exists c'. unfold c_disc in *. rewrite Hk. exact (conj Hl' (conj Hb' Hd)).
    + destruct x; exact I.
    + destruct H as [c [Hl Hk]]. destruct (Hp i c (or_introl eq_refl) Hl) as [c' [Hl' Hk']]. exists c'. rewrite Hk'. exact (conj Hl' Hk).
  - destruct f as [i d r|[x|]|i]; cbn [stack_ok] in H; try contradiction. cbn [stack_ok]. apply IH; [| |exact H].
    + intros i d r c Hi. apply (Ha i d r c). right. exact Hi.
    + intros i c Hi. apply (Hp i c). right. exact Hi.
Qed.

Lemma stack_same s s' k : s_cbs s' = s_cbs s -> stack_ok s k -> stack_ok s' k.
Proof.
  intros He. assert (Hl : forall i, lookup s' i = lookup s i) by (intros i; unfold lookup; rewrite He; reflexivity).
  apply stack_ext; intros; rewrite Hl; eauto.
Qed.

Section Inv.
Variable B : N -> Prop.
Notation inv := (inv B).

Lemma inv_update s j f : inv s -> keeps f ->
  (s_pend s = Some j -> forall c, c_obs (f c) = c_obs c /\ c_busy (f c) = c_busy c) ->
  (running s j -> forall c, c_busy c = true -> c_busy (f c) = true) ->
  (In (FPing j) (s_stack s) -> forall c, c_kind c = KPing -> c_mid (f c) = c_mid c /\ c_ep (f c) = c_ep c) ->
  (forall c, c_busy (f c) = true -> c_busy c = true \/ B j \/ running s j) -> inv (update j f s).
Proof.
  intros H Hk Hpe Hr Hpi Hb. pose proof (keeps_id f Hk) as Hid.
  assert (Hl : forall i c', lookup (update j f s) i = Some c' -> exists c, lookup s i = Some c /\ (c' = c \/ (i = j /\ c' = f c))).
  { intros i c'. rewrite (lookup_update s i j f Hid). destruct (N.eqb_spec i j) as [->|_].
    - destruct (lookup s j) as [c|]; [|discriminate]. intros [= <-]. exists c. split; [reflexivity|]. right. split; reflexivity.
    - intros Hc. exists c'. split; [exact Hc|]. left. reflexivity. }
  assert (Hg : forall i c, lookup s i = Some c -> exists c', lookup (update j f s) i = Some c' /\ (c' = c \/ (i = j /\ c' = f c))).
  { intros i c Hc. rewrite (lookup_update s i j f Hid), Hc. destruct (N.eqb_spec i j) as [->|_].
    - exists (f c). split; [reflexivity|]. right. split; reflexivity.
    - exists c. split; [reflexivity|]. left. reflexivity. }
  assert (Hkk : forall i c c', (c' = c \/ (i = j /\ c' = f c)) -> c_kind c' = c_kind c /\ c_get c' = c_get c).
  { intros i c c' [->|[_ ->]]; [split; reflexivity|]. destruct (Hk c) as [_ Hx]. exact Hx. }
  assert (Hping : forall i c, In (FPing i) (s_stack s) -> lookup s i = Some c -> c_kind c = KPing).
  { intros i c Hi Hc. pose proof (i_stack _ s H) as Hs. clear -Hi Hc Hs. induction (s_stack s) as [|g k IH]; [easy|].
    destruct k as [|g' k].
    - destruct Hi as [->|[]]. cbn [stack_ok] in Hs. destruct Hs as [d [Hd He]]. congruence.
    - destruct g as [? ? ?|[x|]|?]; cbn [stack_ok] in Hs; try contradiction. destruct Hi as [Hi|Hi]; [discriminate|]. exact (IH Hi Hs). }
  constructor.
  - rewrite ids_update by exact Hid. exact (i_nodup _ s H).
  - intros i c' Hc. destruct (Hl i c' Hc) as [c [Hc' _]]. exact (i_next _ s H i c Hc').
  - intros i t Hi. destruct (i_tm _ s H i t Hi) as [c Hc]. destruct (Hg i c Hc) as [c' [Hc' _]]. exists c'. exact Hc'.
  - intros i c' Hi Hc. destruct (Hl i c' Hc) as [c [Hc' Ho]]. destruct (Hkk i c c' Ho) as [-> _]. exact (i_tping _ s H i c Hi Hc').
  - intros i c' Hc. destruct (Hl i c' Hc) as [c [Hc' Ho]]. destruct (Hkk i c c' Ho) as [-> ->]. exact (i_ping _ s H i c Hc').
  - intros i Hi. change (s_pend (update j f s)) with (s_pend s) in Hi. destruct (i_pend _ s H i Hi) as [c [Hc [Hk' Ho]]]. destruct (Hg i c Hc) as [c' [Hc' Ho']]. exists c'.
    split; [exact Hc'|]. destruct (Hkk i c c' Ho') as [-> _]. split; [exact Hk'|]. destruct Ho' as [->|[-> ->]]; [exact Ho|]. destruct (Hpe Hi c) as [-> ->]. exact Ho.
  - apply (stack_ext s); [| |exact (i_stack _ s H)].
    + intros i d r c Hi Hc Hbc. destruct (Hg i c Hc) as [c' [Hc' Ho']]. exists c'. split; [exact Hc'|]. split; [|exact (proj1 (Hkk i c c' Ho'))].
      destruct Ho' as [->|[-> ->]]; [exact Hbc|]. apply Hr; [exists d, r; exact Hi|exact Hbc].
    + intros i c Hi Hc. destruct (Hg i c Hc) as [c' [Hc' Ho']]. exists c'. split; [exact Hc'|]. exact (proj1 (Hkk i c c' Ho')).
  - intros i x code c' Hi Hx Hc. destruct (Hl i c' Hc) as [c [Hc' Ho]]. pose proof (i_spare _ s H i x code c Hi Hx Hc') as Hs.
    destruct Ho as [->|[-> ->]]; [exact Hs|]. destruct (Hpi Hi c (Hping j c Hi Hc')) as [Hm He]. unfold concerns in *. rewrite Hm, He. exact Hs.
  - intros i c' Hc Hbc. destruct (Hl i c' Hc) as [c [Hc' Ho]]. change (running (update j f s) i) with (running s i).
    destruct Ho as [->|[-> ->]]; [exact (i_busy _ s H i c Hc' Hbc)|]. destruct (Hb c Hbc) as [Hb'|Hb']; [exact (i_busy _ s H j c Hc' Hb')|exact Hb'].
Qed.

Lemma inv_remove s j : inv s -> s_pend s <> Some j -> ~ running s j -> ~ In (FPing j) (s_stack s) -> inv (remove j s).
Proof.
  intros H Hpe Hr Hp.
  assert (Hl : forall i c, lookup (remove j s) i = Some c -> i <> j /\ lookup s i = Some c).
  { intros i c. rewrite lookup_remove. destruct (N.eqb_spec i j); [discriminate|]. intros Hc. split; [assumption|exact Hc]. }
  assert (Hg : forall i, i <> j -> lookup (remove j s) i = lookup s i).
  { intros i Hi. rewrite lookup_remove. destruct (N.eqb_spec i j); [contradiction|reflexivity]. }
  assert (Ht : forall i t, In (i, t) (s_tm (remove j s)) -> i <> j /\ In (i, t) (s_tm s)).
  { intros i t Hi. cbn [remove s_tm] in Hi. apply filter_In in Hi as [Hi Hn]. cbn [fst] in Hn. destruct (N.eqb_spec i j); [discriminate|]. split; assumption. }
  constructor.
  - cbn [remove s_cbs]. apply nodup_filter_ids, (i_nodup _ s H).
  - intros i c Hc. destruct (Hl i c Hc) as [_ Hc']. exact (i_next _ s H i c Hc').
  - intros i t Hi. destruct (Ht i t Hi) as [Hn Hi']. rewrite (Hg i Hn). exact (i_tm _ s H i t Hi').
  - intros i c Hi Hc. destruct (Ht i TPing Hi) as [Hn Hi']. destruct (Hl i c Hc) as [_ Hc']. exact (i_tping _ s H i c Hi' Hc').
  - intros i c Hc. destruct (Hl i c Hc) as [_ Hc']. exact (i_ping _ s H i c Hc').
  - intros i Hi. change (s_pend (remove j s)) with (s_pend s) in Hi. rewrite Hg by congruence. exact (i_pend _ s H i Hi).
  - apply (stack_ext s); [| |exact (i_stack _ s H)].
    + intros i d r c Hi Hc Hbc. exists c. rewrite Hg; [auto|]. intros ->. apply Hr. exists d, r. exact Hi.
    + intros i c Hi Hc. exists c. rewrite Hg; [auto|]. intros ->. exact (Hp Hi).
  - intros i x code c Hi Hx Hc. destruct (Hl i c Hc) as [_ Hc']. exact (i_spare _ s H i x code c Hi Hx Hc').
  - intros i c Hc Hbc. destruct (Hl i c Hc) as [_ Hc']. exact (i_busy _ s H i c Hc' Hbc).
Qed.

Lemma inv_add_timer s j t : inv s -> (exists c, lookup s j = Some c /\ (t = TPing -> c_kind c = KPing)) -> inv (add_timer j t s).
Proof.
  intros H [cj [Hj Ht]]. destruct H. constructor; try assumption.
  - intros i u [[= -> ->]|Hi]; [exists cj; exact Hj|exact (i_tm0 i u Hi)].
  - intros i c [[= -> ->]|Hi] Hc; [|exact (i_tping0 i c Hi Hc)].
    change (lookup s i = Some c) in Hc. rewrite Hj in Hc. injection Hc as ->. exact (Ht eq_refl).
  - apply (stack_same s); [reflexivity|exact i_stack0].
Qed.

Lemma inv_drop_timer s j t : inv s -> inv (drop_timer j t s).
Proof.
  intros H. destruct H. constructor; try assumption.
  - intros i u Hi. cbn [drop_timer s_tm] in Hi. apply filter_In in Hi as [Hi _]. exact (i_tm0 i u Hi).
  - intros i c Hi Hc. cbn [drop_timer s_tm] in Hi. apply filter_In in Hi as [Hi _]. exact (i_tping0 i c Hi Hc).
  - apply (stack_same s); [reflexivity|exact i_stack0].
Qed.

Lemma inv_set_pend s p : inv s -> (forall i, p = Some i -> exists c, lookup s i = Some c /\ c_kind c = KOne /\ c_obs c = NOT_SET /\ c_busy c = false) -> inv (set_pend s p).
Proof. intros H Hp. destruct H. constructor; try assumption. apply (stack_same s); [reflexivity|exact i_stack0]. Qed.

Lemma inv_alloc s q : inv s -> ask_ok q = true -> inv (alloc q s).
Proof.
  intros H Hq.
  assert (Hl : forall i, lookup (alloc q s) i = if i =? s_next s then Some (new_cb (s_next s) q) else lookup s i).
  { intros i. apply lookup_alloc. intros c. apply (i_next _ s H). }
  assert (Hg : forall i c, lookup s i = Some c -> lookup (alloc q s) i = Some c).
  { intros i c Hc. rewrite Hl. pose proof (i_next _ s H i c Hc). destruct (N.eqb_spec i (s_next s)); [lia|exact Hc]. }
  assert (Hs : forall f i, In f (s_stack s) -> (f = FPing i \/ exists d r, f = FAnswer i d r) -> i <> s_next s).
  { intros f i Hf Hi ->. pose proof (i_stack _ s H) as Hk. pose proof (i_next _ s H) as Hn. clear -Hf Hi Hk Hn. induction (s_stack s) as [|g k IH]; [easy|]. destruct k as [|g' k].
    - destruct Hf as [->|[]]. destruct Hi as [->|[d [r ->]]]; cbn [stack_ok] in Hk; destruct Hk as [c [Hc _]]; apply Hn in Hc; lia.
    - destruct g as [? ? ?|[x|]|?]; cbn [stack_ok] in Hk; try contradiction.
      destruct Hf as [<-|Hf]; [destruct Hi as [Hi|[d [r Hi]]]; discriminate|]. exact (IH Hf Hk). }
  constructor.
  - cbn [alloc s_cbs]. rewrite map_app. cbn [map new_cb c_id]. apply NoDup_app_snoc; [exact (i_nodup _ s H)|].
    intros Hi. apply in_map_iff in Hi as [c [He Hc]]. pose proof (find_in _ c (i_nodup _ s H) Hc) as Hf. apply (i_next _ s H) in Hf. lia.
  - intros i c. rewrite Hl. cbn [alloc s_next]. destruct (N.eqb_spec i (s_next s)); [lia|]. intros Hc. apply (i_next _ s H) in Hc. lia.
  - intros i t Hi. destruct (i_tm _ s H i t Hi) as [c Hc]. exists c. exact (Hg i c Hc).
  - intros i c Hi Hc. destruct (i_tm _ s H i TPing Hi) as [c' Hc']. rewrite (Hg i c' Hc') in Hc. injection Hc as <-. exact (i_tping _ s H i c' Hi Hc').
  - intros i c. rewrite Hl. destruct (N.eqb_spec i (s_next s)); [|apply (i_ping _ s H)]. intros [= <-]. cbn [new_cb c_kind c_get].
    unfold ask_ok in Hq. intros He. rewrite He in Hq. destruct (q_get q); [discriminate|reflexivity].
  - intros i Hi. destruct (i_pend _ s H i Hi) as [c [Hc Hk]]. exists c. split; [exact (Hg i c Hc)|exact Hk].
  - apply (stack_ext s); [| |exact (i_stack _ s H)].
    + intros i d r c _ Hc Hb. exists c. auto.
    + intros i c _ Hc. exists c. auto.
  - intros i x code c Hi Hx. rewrite Hl. destruct (N.eqb_spec i (s_next s)) as [He|_].
    + destruct (Hs _ i Hi (or_introl eq_refl) He).
    + exact (i_spare _ s H i x code c Hi Hx).
  - intros i c. rewrite Hl. destruct (N.eqb_spec i (s_next s)); [intros [= <-]; discriminate|]. exact (i_busy _ s H i c).
Qed.

Lemma fresh_not s : inv s -> s_pend s <> Some (s_next s) /\ ~ running s (s_next s) /\ ~ In (FPing (s_next s)) (s_stack s).
Proof.
  intros H. split; [|split].
  - intros He. destruct (i_pend _ s H _ He) as [c [Hc _]]. apply (i_next _ s H) in Hc. lia.
  - intros [d [r Hi]]. pose proof (i_stack _ s H) as Hk. pose proof (i_next _ s H) as Hn. clear -Hi Hk Hn.
    induction (s_stack s) as [|g k IH]; [easy|]. destruct k as [|g' k].
    + destruct Hi as [->|[]]. cbn [stack_ok] in Hk. destruct Hk as [c [Hc _]]. apply Hn in Hc. lia.
    + destruct g as [? ? ?|[x|]|?]; cbn [stack_ok] in Hk; try contradiction. destruct Hi as [Hi|Hi]; [discriminate|]. exact (IH Hi Hk).
  - intros Hi. pose proof (i_stack _ s H) as Hk. pose proof (i_next _ s H) as Hn. clear -Hi Hk Hn.
    induction (s_stack s) as [|g k IH]; [easy|]. destruct k as [|g' k].
    + destruct Hi as [->|[]]. cbn [stack_ok] in Hk. destruct Hk as [c [Hc _]]. apply Hn in Hc. lia.
    + destruct g as [? ? ?|[x|]|?]; cbn [stack_ok] in Hk; try contradiction. destruct Hi as [Hi|Hi]; [discriminate|]. exact (IH Hi Hk).
Qed.
End Inv.
