(** Proofs about batch requests. *)
From Verif Require Import Common Query_Spec Query_Proofs Ri_Model Col_Model Col_Spec Col_Proofs Col4_Proofs.
Local Open Scope list_scope.
Local Open Scope N_scope.

(** * Access control *)
Definition events (r : result) : list event := match r with Fuel => [] | Refused ev => ev | Answer _ ev _ => ev end.
Definition levents (r : lresult) : list event := match r with LFuel => [] | LRefused ev => ev | LDone _ _ ev _ => ev end.

Lemma links_allowed sub e cols self m query href p notify ls :
  (forall l k, In l ls -> In k cols -> ln_res l = cl_id k -> t_res (ln_to l) = cl_res k) ->
  (forall k, In k cols -> e_acl e m (cl_res k) = true -> Forall (allowed_event e m) (events (sub k))) ->
  forall ec pc evs items, Forall (allowed_event e m) evs ->
  Forall (allowed_event e m) (levents (links_loop sub e cols self m query href p notify ls ec pc evs items)).
Proof.
  intros Hco Hsub. induction ls as [|l ls IH]; intros ec pc evs items Hev; cbn [links_loop]; [exact Hev|].
  assert (Hco' : forall l k, In l ls -> In k cols -> ln_res l = cl_id k -> t_res (ln_to l) = cl_res k) by (intros a b Ha; apply Hco; right; exact Ha).
  specialize (IH Hco').
  destruct (negb (selected m query href notify l)); [apply IH; exact Hev|].
  destruct (e_acl e m (t_res (ln_to l))) eqn:Ea; cbn [negb]; [|apply IH; exact Hev].
  destruct (if r_id (t_res (ln_to l)) =? self then None else find (fun c => cl_id c =? r_id (t_res (ln_to l))) cols) as [k|] eqn:Ef.
  - destruct (r_id (t_res (ln_to l)) =? self); [discriminate|]. apply find_some in Ef. destruct Ef as [Hk Ek]. apply N.eqb_eq in Ek.
    assert (Hr : t_res (ln_to l) = cl_res k) by (apply (Hco l k (or_introl eq_refl) Hk); symmetry; exact Ek).
    rewrite Hr in Ea. specialize (Hsub k Hk Ea). destruct (sub k) as [|ev|st ev out]; cbn [events levents] in *.
    + constructor.
    + apply Forall_app; auto.
    + apply IH. apply Forall_app; auto.
  - destruct (has_handler (t_res (ln_to l)) m) eqn:Eh; cbn [negb]; [|apply IH; exact Hev].
    destruct (e_app e _ m _ p) as [code w]. destruct (code <? 128); apply IH; apply Forall_app; (split; [exact Hev|]); constructor; cbn; auto.
Qed.

Lemma entries_allowed e m run es : (forall h p evs items, Forall (allowed_event e m) evs -> Forall (allowed_event e m) (levents (run h p evs items))) ->
  forall p ec pc evs items, Forall (allowed_event e m) evs -> Forall (allowed_event e m) (levents (entries_loop run es p ec pc evs items)).
Proof.
  intros Hrun. induction es as [|[a|] es IH]; intros p ec pc evs items Hev; cbn [entries_loop]; [exact Hev| |exact Hev].
  destruct (fold_left scan_attr a (None, p)) as [[[|c h]|] p']; try exact Hev.
  specialize (Hrun (c :: h) p' evs items Hev). destruct (run (c :: h) p' evs items) as [|ev|ec' pc' ev it]; [constructor|exact Hrun|]. apply IH. exact Hrun.
Qed.

Lemma handle_allowed fuel e cols m query es : (forall c, In c cols -> coherent cols c) ->
  forall notify iface c, coherent cols c -> (iface = IF_B \/ e_acl e m (cl_res c) = true) ->
  Forall (allowed_event e m) (events (handle fuel e cols m query es notify iface c)).
Proof.
  intros Hco. induction fuel as [|fuel IH]; intros notify iface c Hc Hi; cbn [handle]; [constructor|].
  destruct (N.eqb_spec iface IF_CREATE) as [E|E1].
  { destruct Hi as [Hi|Hi]; [rewrite Hi in E; discriminate|]. destruct (e_create e (cl_res c) m); cbn [events]; (constructor; [exact Hi|constructor]). }
  destruct (N.eqb_spec iface IF_BASELINE) as [E|E2].
  { destruct Hi as [Hi|Hi]; [rewrite Hi in E; discriminate|]. destruct ((m =? PUT) || (m =? POST)).
    - destruct (e_props e (cl_res c)) as [[|]|]; cbn [events]; repeat constructor; exact Hi.
    - destruct (m =? GET); constructor. }
  destruct (iface =? IF_LL); [constructor|]. destruct (iface =? IF_B); [|constructor].
  match goal with |- context [is_get_delete m] => idtac end.
  set (sub := fun c' => handle fuel e cols m query es None (r_def (cl_res c')) c').
  set (run := fun href p evs items => links_loop sub e cols (cl_id c) m query href p notify (cl_links c) 69 128 evs items).
  assert (Hrun : forall h p evs items, Forall (allowed_event e m) evs -> Forall (allowed_event e m) (levents (run h p evs items))).
  { intros h p evs items Hev. apply links_allowed; [exact Hc| |exact Hev]. intros k Hk Ha. apply IH; [exact (Hco k Hk)|right; exact Ha]. }
  assert (Hall : Forall (allowed_event e m) (levents (if is_get_delete m then run [] None [] [] else entries_loop run es None 69 128 [] []))).
  { destruct (is_get_delete m); [apply Hrun; constructor|apply entries_allowed; [exact Hrun|constructor]]. }
  unfold run, sub in Hall. destruct (if is_get_delete m then _ else _) as [|ev|ec pc ev items]; [constructor|exact Hall|exact Hall].
Qed.

(** * Termination *)
Lemma links_fuel sub e cols self m query href p notify ls :
  (forall l k, In l ls -> In k cols -> ln_res l = cl_id k -> ln_res l <> self -> sub k <> Fuel) ->
  forall ec pc evs items, links_loop sub e cols self m query href p notify ls ec pc evs items <> LFuel.
Proof.
  intros H. induction ls as [|l ls IH]; intros ec pc evs items; cbn [links_loop]; [discriminate|].
  specialize (IH (fun a b Ha => H a b (or_intror Ha))).
  destruct (negb (selected m query href notify l)); [apply IH|]. destruct (negb (e_acl e m _)); [apply IH|].
  destruct (if r_id (t_res (ln_to l)) =? self then None else find (fun c => cl_id c =? r_id (t_res (ln_to l))) cols) as [k|] eqn:Ef.
  - destruct (N.eqb_spec (r_id (t_res (ln_to l))) self) as [E|E]; [discriminate|]. apply find_some in Ef. destruct Ef as [Hk Ek]. apply N.eqb_eq in Ek.
    specialize (H l k (or_introl eq_refl) Hk (eq_sym Ek) E). destruct (sub k); [contradiction|discriminate|apply IH].
  - destruct (negb (has_handler _ m)); [apply IH|]. destruct (e_app e _ m _ p) as [code w]. destruct (code <? 128); apply IH.
Qed.

Lemma entries_fuel run es : (forall h p evs items, run h p evs items <> LFuel) ->
  forall p ec pc evs items, entries_loop run es p ec pc evs items <> LFuel.
Proof.
  intros H. induction es as [|[a|] es IH]; intros p ec pc evs items; cbn [entries_loop]; try discriminate.
  destruct (fold_left scan_attr a (None, p)) as [[[|c h]|] p']; try discriminate.
  specialize (H (c :: h) p' evs items). destruct (run (c :: h) p' evs items); [contradiction|discriminate|apply IH].
Qed.

Lemma handle_terminates e cols m query es rank : ranked cols rank -> forall fuel notify iface c, In c cols -> (rank (cl_id c) < fuel)%nat ->
  handle fuel e cols m query es notify iface c <> Fuel.
Proof.
  intros Hr. induction fuel as [|fuel IH]; intros notify iface c Hc Hf; [lia|]. cbn [handle].
  destruct (iface =? IF_CREATE); [destruct (e_create e (cl_res c) m); discriminate|].
  destruct (iface =? IF_BASELINE).
  { destruct ((m =? PUT) || (m =? POST)); [destruct (e_props e (cl_res c)) as [[|]|]; discriminate|]. destruct (m =? GET); discriminate. }
  destruct (iface =? IF_LL); [discriminate|]. destruct (iface =? IF_B); [|discriminate].
  set (sub := fun c' => handle fuel e cols m query es None (r_def (cl_res c')) c').
  set (run := fun href p evs items => links_loop sub e cols (cl_id c) m query href p notify (cl_links c) 69 128 evs items).
  assert (Hrun : forall h p evs items, run h p evs items <> LFuel).
  { intros h p evs items. apply links_fuel. intros l k Hl Hk Hlk Hself. apply IH; [exact Hk|]. specialize (Hr c l k Hc Hl Hk Hlk Hself). lia. }
  assert (Hall : (if is_get_delete m then run [] None [] [] else entries_loop run es None 69 128 [] []) <> LFuel).
  { destruct (is_get_delete m); [apply Hrun|apply entries_fuel; exact Hrun]. }
  unfold run, sub in Hall. destruct (if is_get_delete m then _ else _); [contradiction|discriminate|discriminate].
Qed.

(** * Collections without linked collections *)
Lemma selected_spec m ps href notify l : Forall wf_pair ps -> href <> [] \/ is_get_delete m = true ->
  selected m (render ps) href notify l = true <-> concerns m ps href notify l.
Proof.
  intros Hw Hh. unfold selected, concerns. rewrite !andb_true_iff, orb_true_iff. destruct (filter_rt_spec ps (t_types (ln_to l)) Hw) as (b & -> & Hb). rewrite Hb.
  assert (Hn : (match notify with None => true | Some i => ln_res l =? i end) = true <-> (forall i, notify = Some i -> ln_res l = i)).
  { destruct notify as [i|]; [rewrite N.eqb_eq; split; [intros H j E; congruence|intros H; apply H; reflexivity]|split; [discriminate|reflexivity]]. }
  assert (Hm : is_get_delete m = true <-> m = GET \/ m = DELETE) by (unfold is_get_delete; rewrite orb_true_iff, !N.eqb_eq; reflexivity).
  assert (Hu : (is_get_delete m = true \/ match href with [] => true | _ => list_eqb href (ln_uri l) end = true) <-> (m = GET \/ m = DELETE \/ ln_uri l = href)).
  { rewrite Hm. destruct href as [|c h].
    - destruct Hh as [Hh|Hh]; [contradiction|]. apply Hm in Hh. tauto.
    - rewrite list_eqb_spec. intuition. }
  rewrite Hn, Hu. tauto.
Qed.

Lemma filter_ext_eq {A} (f g : A -> bool) ls : (forall x, f x = true <-> g x = true) -> filter f ls = filter g ls.
Proof. intros H. apply filter_ext. intros x. specialize (H x). destruct (f x), (g x); try reflexivity; destruct H as [H1 H2]; [discriminate (H1 eq_refl)|discriminate (H2 eq_refl)]. Qed.

Definition no_subs (cols : list coll) (self : N) (ls : list link) : Prop :=
  forall l k, In l ls -> In k cols -> ln_res l = cl_id k -> ln_res l = self.

Lemma no_sub_find cols self ls l : no_subs cols self ls -> In l ls ->
  (if r_id (t_res (ln_to l)) =? self then None else find (fun c => cl_id c =? r_id (t_res (ln_to l))) cols) = None.
Proof.
  intros H Hl. destruct (N.eqb_spec (r_id (t_res (ln_to l))) self) as [E|E]; [reflexivity|].
  destruct (find _ cols) as [k|] eqn:Ef; [|reflexivity]. apply find_some in Ef. destruct Ef as [Hk Ek]. apply N.eqb_eq in Ek.
  exfalso. apply E. exact (H l k Hl Hk (eq_sym Ek)).
Qed.

Lemma links_flat sub e cols c m query href p notify : forall ls, no_subs cols (cl_id c) ls -> forall ec pc evs items,
  let sel := filter (selected m query href notify) ls in
  exists ec' pc', links_loop sub e cols (cl_id c) m query href p notify ls ec pc evs items =
    LDone ec' pc' (evs ++ flat_map (event_of e m c p) sel) (items ++ flat_map (item_of e m c p) sel) /\
    (ec' < 128 <-> ec < 128 /\ forallb (fun l => good (fate_of e m c p l)) sel = true) /\
    (pc' < 128 <-> pc < 128 \/ existsb (fun l => good (fate_of e m c p l)) sel = true).
Proof.
  induction ls as [|l ls IH]; intros Hns ec pc evs items; cbn zeta.
  - exists ec, pc. cbn [links_loop filter flat_map forallb existsb]. rewrite !app_nil_r. repeat split; intuition discriminate.
  - assert (Hns' : no_subs cols (cl_id c) ls) by (intros a b Ha; apply Hns; right; exact Ha). specialize (IH Hns').
    cbn [links_loop filter]. destruct (selected m query href notify l); cbn [negb].
    2:{ apply IH. }
    cbn [flat_map forallb existsb]. rewrite (no_sub_find cols (cl_id c) (l :: ls) l Hns (or_introl eq_refl)).
    set (sel := filter (selected m query href notify) ls) in *. unfold event_of at 1. unfold item_of at 1.
    assert (Hf : fate_of e m c p l = if e_acl e m (t_res (ln_to l)) then if has_handler (t_res (ln_to l)) m then
        let (code, w) := e_app e (t_res (ln_to l)) m (iface_for c l) p in Answered code w else NoHandler else Forbidden) by reflexivity.
    destruct (e_acl e m (t_res (ln_to l))); cbn [negb].
    2:{ rewrite Hf. cbn [good andb orb app]. destruct (IH 131 pc evs (items ++ [(ln_uri l, REmpty)])) as (ec' & pc' & -> & He & Hp). exists ec', pc'.
        rewrite <- app_assoc. cbn [app]. split; [reflexivity|]. split; [rewrite He|exact Hp]. split; [lia|intros [_ H]; discriminate]. }
    destruct (has_handler (t_res (ln_to l)) m); cbn [negb].
    2:{ rewrite Hf. cbn [good andb orb app]. destruct (IH 133 pc evs items) as (ec' & pc' & -> & He & Hp). exists ec', pc'.
        split; [reflexivity|]. split; [rewrite He|exact Hp]. split; [lia|intros [_ H]; discriminate]. }
    change (if r_id (t_res (ln_to l)) =? cl_id c then IF_BASELINE else r_def (t_res (ln_to l))) with (iface_for c l).
    destruct (e_app e (t_res (ln_to l)) m (iface_for c l) p) as [code w]. rewrite Hf. cbn [good].
    assert (Hi : (match w with Some s => [(ln_uri l, RApp s)] | None => [(ln_uri l, REmpty)] end) = [(ln_uri l, match w with Some s => RApp s | None => REmpty end)]) by (destruct w; reflexivity).
    rewrite Hi. destruct (N.ltb_spec code 128) as [Hc|Hc].
    + destruct (IH ec code (evs ++ [Handler (t_res (ln_to l)) m (iface_for c l) p]) (items ++ [(ln_uri l, match w with Some s => RApp s | None => REmpty end)])) as (ec' & pc' & -> & He & Hp).
      exists ec', pc'. rewrite <- !app_assoc. split; [reflexivity|]. cbn [andb orb]. split; [exact He|]. rewrite Hp. intuition.
    + destruct (IH code pc (evs ++ [Handler (t_res (ln_to l)) m (iface_for c l) p]) (items ++ [(ln_uri l, match w with Some s => RApp s | None => REmpty end)])) as (ec' & pc' & -> & He & Hp).
      exists ec', pc'. rewrite <- !app_assoc. split; [reflexivity|]. cbn [andb orb]. split; [rewrite He|exact Hp]. split; [lia|intros [_ H]; discriminate].
Qed.

(** reading, deleting *)
Lemma batch_get e cols c m ps es notify pick : flat cols c -> Forall wf_pair ps -> m = GET \/ m = DELETE -> picks m ps [] notify pick ->
  let sel := filter pick (cl_links c) in
  forall fuel, handle (S fuel) e cols m (render ps) es notify IF_B c =
    Answer (if existsb (fun l => good (fate_of e m c None l)) sel && forallb (fun l => good (fate_of e m c None l)) sel
            then (if m =? GET then 0 else 3) else 5)
           (flat_map (event_of e m c None) sel) (RBatch (flat_map (item_of e m c None) sel)).
Proof.
  intros Hfl Hw Hm Hp sel fuel. assert (Hgd : is_get_delete m = true) by (unfold is_get_delete; destruct Hm as [-> | ->]; reflexivity).
  assert (Hsel : filter (selected m (render ps) [] notify) (cl_links c) = sel).
  { unfold sel. apply filter_ext_eq. intros l. rewrite (selected_spec m ps [] notify l Hw (or_intror Hgd)). symmetry. apply Hp. }
  cbn [handle]. change (IF_B =? IF_CREATE) with false. change (IF_B =? IF_BASELINE) with false. change (IF_B =? IF_LL) with false. change (IF_B =? IF_B) with true.
  cbv iota. rewrite Hgd.
  destruct (links_flat (fun c' => handle fuel e cols m (render ps) es None (r_def (cl_res c')) c') e cols c m (render ps) [] None notify (cl_links c) Hfl 69 128 [] [])
    as (ec & pc & E & He & Hpc). cbn zeta in E, He, Hpc. rewrite Hsel in E, He, Hpc. rewrite E. cbn [app]. f_equal.
  assert (Hs : success_status m IF_B = if m =? GET then 0 else 3) by (destruct Hm as [-> | ->]; reflexivity). rewrite Hs.
  destruct (existsb _ sel) eqn:E1, (forallb _ sel) eqn:E2; cbn [andb].
  - replace (ec <? 128) with true by (symmetry; apply N.ltb_lt, He; lia). replace (pc <? 128) with true by (symmetry; apply N.ltb_lt, Hpc; auto). reflexivity.
  - replace (ec <? 128) with false; [reflexivity|]. symmetry. apply N.ltb_ge. destruct (N.lt_ge_cases ec 128) as [H|H]; [apply He in H; destruct H; discriminate|exact H].
  - replace (pc <? 128) with false; [rewrite andb_false_r; reflexivity|]. symmetry. apply N.ltb_ge. destruct (N.lt_ge_cases pc 128) as [H|H]; [apply Hpc in H; destruct H; [lia|discriminate]|exact H].
  - replace (ec <? 128) with false; [reflexivity|]. symmetry. apply N.ltb_ge. destruct (N.lt_ge_cases ec 128) as [H|H]; [apply He in H; destruct H; discriminate|exact H].
Qed.
