(** Proofs about batch updates. *)
From Verif Require Import Common Query_Spec Query_Proofs Ri_Model Col_Model Col_Spec Col_Proofs Col4_Proofs Col5_Proofs.
Local Open Scope list_scope.
Local Open Scope N_scope.

Section Updates.
Variables (sub : coll -> result) (e : env) (cols : list coll) (c : coll) (m : N) (query : list N) (notify : option N).
Hypothesis Hflat : flat cols c.

Definition sel_of (h : list N) : list link := filter (selected m query h notify) (cl_links c).
Definition run_of href p evs items := links_loop sub e cols (cl_id c) m query href p notify (cl_links c) 69 128 evs items.
Definition entry_events (x : list N * list N) : list event := flat_map (event_of e m c (Some (snd x))) (sel_of (fst x)).
Definition entry_items (x : list N * list N) : list (list N * rep) := flat_map (item_of e m c (Some (snd x))) (sel_of (fst x)).
Definition entry_good (x : list N * list N) : bool :=
  existsb (fun l => good (fate_of e m c (Some (snd x)) l)) (sel_of (fst x)) &&
  forallb (fun l => good (fate_of e m c (Some (snd x)) l)) (sel_of (fst x)).

Lemma run_entry h p evs items : exists ec pc, run_of h (Some p) evs items = LDone ec pc (evs ++ entry_events (h, p)) (items ++ entry_items (h, p)) /\
  (ec <? 128) && (pc <? 128) = entry_good (h, p).
Proof.
  unfold run_of. destruct (links_flat sub e cols c m query h (Some p) notify (cl_links c) Hflat 69 128 evs items) as (ec & pc & E & He & Hp).
  cbn zeta in E, He, Hp. exists ec, pc. split; [exact E|]. unfold entry_good. cbn [fst snd]. unfold sel_of.
  destruct (existsb _ _) eqn:E1 in |- *; destruct (forallb _ _) eqn:E2 in |- *; rewrite E1 in Hp; rewrite E2 in He; cbn [andb].
  - replace (ec <? 128) with true by (symmetry; apply N.ltb_lt, He; lia). replace (pc <? 128) with true by (symmetry; apply N.ltb_lt, Hp; auto). reflexivity.
  - replace (ec <? 128) with false; [reflexivity|]. symmetry. apply N.ltb_ge. destruct (N.lt_ge_cases ec 128) as [H|H]; [apply He in H; destruct H; discriminate|exact H].
  - replace (pc <? 128) with false; [apply andb_false_r|]. symmetry. apply N.ltb_ge. destruct (N.lt_ge_cases pc 128) as [H|H]; [apply Hp in H; destruct H; [lia|discriminate]|exact H].
  - replace (ec <? 128) with false; [reflexivity|]. symmetry. apply N.ltb_ge. destruct (N.lt_ge_cases ec 128) as [H|H]; [apply He in H; destruct H; discriminate|exact H].
Qed.

Lemma entries_flat : forall xs, Forall (fun x => fst x <> []) xs -> forall tl p ec pc evs items,
  exists p' ec' pc', entries_loop run_of (flat_map proper xs ++ tl) p ec pc evs items =
    entries_loop run_of tl p' ec' pc' (evs ++ flat_map entry_events xs) (items ++ flat_map entry_items xs) /\
    ((ec' <? 128) && (pc' <? 128)) = match rev xs with [] => (ec <? 128) && (pc <? 128) | x :: _ => entry_good x end.
Proof.
  induction xs as [|[h q] xs IH] using rev_ind; intros Hx tl p ec pc evs items.
  - exists p, ec, pc. cbn [flat_map app rev]. rewrite !app_nil_r. split; reflexivity.
  - apply Forall_app in Hx. destruct Hx as [Hx Hh]. inversion Hh as [|a b Hh1 _]; subst. cbn [fst] in Hh1.
    rewrite !flat_map_app. cbn [flat_map]. rewrite !app_nil_r, <- app_assoc.
    destruct (IH Hx (proper (h, q) ++ tl) p ec pc evs items) as (p' & ec' & pc' & -> & _). clear IH.
    unfold proper. cbn [app entries_loop fold_left scan_attr fst snd]. destruct h as [|x h]; [contradiction|].
    destruct (run_entry (x :: h) q (evs ++ flat_map entry_events xs) (items ++ flat_map entry_items xs)) as (ec2 & pc2 & E & Hg). rewrite E.
    exists (Some q), ec2, pc2. rewrite !app_assoc. split; [reflexivity|]. rewrite rev_app_distr. cbn [rev app]. exact Hg.
Qed.
End Updates.

Lemma filter_pick m ps h notify (pick : link -> bool) c : Forall wf_pair ps -> h <> [] -> picks m ps h notify pick ->
  filter (selected m (render ps) h notify) (cl_links c) = filter pick (cl_links c).
Proof. intros Hw Hh Hp. apply filter_ext_eq. intros l. rewrite (selected_spec m ps h notify l Hw (or_introl Hh)). symmetry. apply Hp. Qed.

(** updating: every entry reaches exactly the links with its href, in order, with its representation; the last
    entry alone decides about the answer *)
Lemma batch_post e cols c m ps xs notify (pick : list N -> link -> bool) : flat cols c -> Forall wf_pair ps -> m = POST \/ m = PUT ->
  Forall (fun x => fst x <> []) xs -> (forall h, picks m ps h notify (pick h)) ->
  forall fuel, handle (S fuel) e cols m (render ps) (flat_map proper xs) notify IF_B c =
    Answer (match rev xs with
            | [] => 5
            | (h, p) :: _ =>
              if existsb (fun l => good (fate_of e m c (Some p) l)) (filter (pick h) (cl_links c)) &&
                 forallb (fun l => good (fate_of e m c (Some p) l)) (filter (pick h) (cl_links c)) then 2 else 5
            end)
           (flat_map (fun x => flat_map (event_of e m c (Some (snd x))) (filter (pick (fst x)) (cl_links c))) xs)
           (RBatch (flat_map (fun x => flat_map (item_of e m c (Some (snd x))) (filter (pick (fst x)) (cl_links c))) xs)).
Proof.
  intros Hfl Hw Hm Hx Hp fuel. assert (Hgd : is_get_delete m = false) by (unfold is_get_delete; destruct Hm as [-> | ->]; reflexivity).
  assert (Hs : success_status m IF_B = 2) by (destruct Hm as [-> | ->]; reflexivity).
  cbn [handle]. change (IF_B =? IF_CREATE) with false. change (IF_B =? IF_BASELINE) with false. change (IF_B =? IF_LL) with false. change (IF_B =? IF_B) with true.
  cbv iota. rewrite Hgd, Hs.
  set (sub := fun c' => handle fuel e cols m (render ps) (flat_map proper xs) None (r_def (cl_res c')) c').
  destruct (entries_flat sub e cols c m (render ps) notify Hfl xs Hx [] None 69 128 [] []) as (p' & ec & pc & E & Hg). rewrite app_nil_r in E.
  unfold run_of in E. rewrite E. cbn [entries_loop app].
  assert (Hev : forall {B} (f : list N * list N -> link -> list B),
    flat_map (fun x => flat_map (f x) (sel_of c m (render ps) notify (fst x))) xs = flat_map (fun x => flat_map (f x) (filter (pick (fst x)) (cl_links c))) xs).
  { intros B f. rewrite !flat_map_concat_map. f_equal. apply map_ext_in. intros x Hin. unfold sel_of.
    rewrite (filter_pick m ps (fst x) notify (pick (fst x)) c Hw); [reflexivity| |apply Hp]. rewrite Forall_forall in Hx. exact (Hx x Hin). }
  f_equal.
  - rewrite Hg. destruct (rev xs) as [|[h p] r] eqn:Er; [reflexivity|]. unfold entry_good. cbn [fst snd]. unfold sel_of.
    rewrite (filter_pick m ps h notify (pick h) c Hw); [reflexivity| |apply Hp]. rewrite Forall_forall in Hx. apply (Hx (h, p)).
    apply in_rev. rewrite Er. left. reflexivity.
  - exact (Hev _ (fun x => event_of e m c (Some (snd x)))).
  - f_equal. exact (Hev _ (fun x => item_of e m c (Some (snd x)))).
Qed.

Lemma scan_keep : forall a s, (forall k t, ~ In (AText k t) a) -> fst (fold_left scan_attr a s) = fst s.
Proof.
  induction a as [|x a IH]; intros s H; [reflexivity|]. cbn [fold_left]. rewrite IH by (intros k t Hi; apply (H k t); right; exact Hi).
  destruct x as [k t|k t|]; [destruct (H k t); left; reflexivity|reflexivity|reflexivity].
Qed.

Lemma entries_hopeless run bad rest p ec pc evs items : hopeless bad -> entries_loop run (bad :: rest) p ec pc evs items = LDone 128 pc evs items.
Proof.
  intros H. destruct bad as [a|]; [|reflexivity]. cbn [entries_loop].
  destruct (fold_left scan_attr a (None, p)) as [h p'] eqn:E.
  assert (Hh : h = None \/ h = Some []).
  { change h with (fst (h, p')). rewrite <- E. cbn [hopeless] in H. destruct H as [H | (k & b & r & -> & H)].
    - left. rewrite scan_keep by exact H. reflexivity.
    - right. rewrite fold_left_app. cbn [fold_left]. rewrite scan_keep by exact H. reflexivity. }
  destruct Hh as [-> | ->]; reflexivity.
Qed.

Lemma batch_hopeless e cols c m ps xs bad rest notify (pick : list N -> link -> bool) : flat cols c -> Forall wf_pair ps -> m = POST \/ m = PUT ->
  Forall (fun x => fst x <> []) xs -> (forall h, picks m ps h notify (pick h)) -> hopeless bad ->
  forall fuel, handle (S fuel) e cols m (render ps) (flat_map proper xs ++ bad :: rest) notify IF_B c =
    Answer 5
           (flat_map (fun x => flat_map (event_of e m c (Some (snd x))) (filter (pick (fst x)) (cl_links c))) xs)
           (RBatch (flat_map (fun x => flat_map (item_of e m c (Some (snd x))) (filter (pick (fst x)) (cl_links c))) xs)).
Proof.
  intros Hfl Hw Hm Hx Hp Hb fuel. assert (Hgd : is_get_delete m = false) by (unfold is_get_delete; destruct Hm as [-> | ->]; reflexivity).
  cbn [handle]. change (IF_B =? IF_CREATE) with false. change (IF_B =? IF_BASELINE) with false. change (IF_B =? IF_LL) with false. change (IF_B =? IF_B) with true.
  cbv iota. rewrite Hgd.
  set (sub := fun c' => handle fuel e cols m (render ps) (flat_map proper xs ++ bad :: rest) None (r_def (cl_res c')) c').
  destruct (entries_flat sub e cols c m (render ps) notify Hfl xs Hx (bad :: rest) None 69 128 [] []) as (p' & ec & pc & E & Hg).
  unfold run_of in E. rewrite E. rewrite entries_hopeless by exact Hb. cbn [app].
  assert (Hev : forall {B} (f : list N * list N -> link -> list B),
    flat_map (fun x => flat_map (f x) (sel_of c m (render ps) notify (fst x))) xs = flat_map (fun x => flat_map (f x) (filter (pick (fst x)) (cl_links c))) xs).
  { intros B f. rewrite !flat_map_concat_map. f_equal. apply map_ext_in. intros x Hin. unfold sel_of.
    rewrite (filter_pick m ps (fst x) notify (pick (fst x)) c Hw); [reflexivity| |apply Hp]. rewrite Forall_forall in Hx. exact (Hx x Hin). }
  f_equal.
  - exact (Hev _ (fun x => event_of e m c (Some (snd x)))).
  - f_equal. exact (Hev _ (fun x => item_of e m c (Some (snd x)))).
Qed.

(** * The other interfaces *)
Lemma shown_spec ps ls pick : Forall wf_pair ps -> (forall l, pick l = true <-> wanted (t_types (ln_to l)) ps) ->
  filter (fun l => match filter_rt (t_types (ln_to l)) (render ps) with Some b => b | None => false end) ls = filter pick ls.
Proof.
  intros Hw Hp. apply filter_ext_eq. intros l. destruct (filter_rt_spec ps (t_types (ln_to l)) Hw) as (b & -> & Hb). rewrite Hb. symmetry. apply Hp.
Qed.

Lemma list_get e cols c ps es notify iface pick fuel : Forall wf_pair ps -> (forall l, pick l = true <-> wanted (t_types (ln_to l)) ps) ->
  iface = IF_LL \/ iface = IF_BASELINE ->
  handle (S fuel) e cols GET (render ps) es notify iface c =
    Answer 0 [] ((if iface =? IF_LL then RLinks else RBaseline) (map ln_to (filter pick (cl_links c)))).
Proof. intros Hw Hp [-> | ->]; cbn [handle]; rewrite (shown_spec ps (cl_links c) pick Hw Hp); reflexivity. Qed.
