From Verif Require Import Common Query_Spec Rep_Model Repd_Model Repd_Spec Hex_Model Hex_Proofs Acl_Model Acl_Spec Acl2_Proofs Ob_Model Ob_Proofs Ri_Model Ri_Spec Ri2_Proofs Col_Spec Disc_Model Disc_Spec Disc_Proofs Disc2_Proofs.
From Verif Require Ep_Model Ep_Spec Ep_Proofs.
From Coq Require Import String.
Local Open Scope string_scope.
Local Open Scope list_scope.
Local Open Scope N_scope.

(** * Interface names *)

Lemma ifaces_names b n : (exists ms, In (n, b, ms) ifaces) <-> public_if b n \/ b = 12 /\ n = str "x.plgd.if.etag".
Proof.
  unfold public_if, ifaces. cbn [In]. split.
  - intros (ms & H). repeat (destruct H as [H|H]; [assert (En := f_equal (fun x => fst (fst x)) H); assert (Eb := f_equal (fun x => snd (fst x)) H); cbn [fst snd] in En, Eb; subst n b; tauto|]). destruct H.
  - intros [H|[-> ->]]; [|eexists; tauto].
    repeat (destruct H as [H|H]; [assert (En := f_equal snd H); assert (Eb := f_equal fst H); cbn [fst snd] in En, Eb; subst n b; eexists; tauto|]). destruct H.
Qed.

Lemma mask_bits n b : N.testbit (iface_mask n) b = true <-> public_if b n \/ b = 12 /\ n = str "x.plgd.if.etag".
Proof.
  rewrite <- ifaces_names. split.
  - intros T. destruct (name_of_mask n) as (b' & ms & I); [intros E; rewrite E, N.bits_0 in T; discriminate|].
    rewrite (mask_of_name _ _ _ I), N.pow2_bits_eqb in T. apply N.eqb_eq in T. subst b'. exists ms. exact I.
  - intros (ms & I). rewrite (mask_of_name _ _ _ I). apply N.pow2_bits_true.
Qed.

Lemma ifs_of_bits : forall l m b, N.testbit (fold_left (fun m t => N.lor m (iface_mask (cstr t))) l m) b = true <->
  N.testbit m b = true \/ exists n, In n l /\ N.testbit (iface_mask (cstr n)) b = true.
Proof.
  induction l as [|t l IH]; intros m b; cbn [fold_left In]; [firstorder|]. rewrite IH, N.lor_spec, orb_true_iff. split.
  - intros [[H|H]|(n & I & H)]; eauto 6.
  - intros [H|(n & [->|I] & H)]; eauto 6.
Qed.
Lemma ifs_of_mask ns m : mask_of ns m <-> m = ifs_of ns.
Proof.
  assert (A : mask_of ns (ifs_of ns)).
  { intros b. unfold ifs_of. rewrite ifs_of_bits, N.bits_0. split.
    - intros [H|(n & I & H)]; [discriminate|]. exists n. split; [exact I|]. apply mask_bits, H.
    - intros (n & I & H). right. exists n. split; [exact I|]. apply mask_bits, H. }
  split; [|intros ->; exact A]. intros H. apply N.bits_inj. intros b. specialize (H b). specialize (A b).
  apply Bool.eq_iff_eq_true. rewrite H, A. tauto.
Qed.

(** * Endpoints *)

Lemma resolve_spec dns t r : reads_as dns t r <-> resolve dns t = r.
Proof. unfold reads_as, resolve. destruct (Ep_Model.of_string t); split; congruence. Qed.

Lemma usable_spec from e : unreachable from e = false <-> usable from e.
Proof.
  unfold unreachable, usable, standard_port, v4, v6.
  rewrite (hasbit (Ep_Model.e_flags e) 3 : has _ Ep_Model.IPV6 = _), (hasbit (Ep_Model.e_flags e) 2 : has _ Ep_Model.IPV4 = _), (hasbit (Ep_Model.e_flags e) 4 : has _ Ep_Model.TCP = _), (hasbit (Ep_Model.e_flags from) 3 : has _ Ep_Model.IPV6 = _), (hasbit (Ep_Model.e_flags from) 2 : has _ Ep_Model.IPV4 = _).
  destruct (N.eqb_spec (Ep_Model.e_port e) 5683), (N.testbit (Ep_Model.e_flags e) 3), (N.testbit (Ep_Model.e_flags e) 2), (N.testbit (Ep_Model.e_flags e) 4), (N.testbit (Ep_Model.e_flags from) 3), (N.testbit (Ep_Model.e_flags from) 2);
    cbn [andb orb negb]; intuition (congruence || auto).
Qed.

Lemma ep_attrs_spec dns from di l es : object_eps dns from l es -> forall acc, ep_attrs dns from di l acc = acc ++ map (fun e => (e, di)) es.
Proof.
  induction 1 as [|[n v] l es N _ IH|t l es R _ IH|t e e' l es R U T _ IH|t e l R U]; intros acc; cbn [ep_attrs].
  - cbn [map]. rewrite app_nil_r. reflexivity.
  - destruct v; try apply IH. destruct (list_eqb n (str "ep")) eqn:E; [|apply IH]. apply list_eqb_spec in E. exfalso. apply N. split; [exact E|eexists; reflexivity].
  - rewrite list_eqb_refl. apply resolve_spec in R. rewrite R. apply IH.
  - rewrite list_eqb_refl. apply resolve_spec in R. rewrite R. apply usable_spec in U. rewrite U, IH, <- app_assoc. unfold taken_over in T. subst e'. reflexivity.
  - rewrite list_eqb_refl. apply resolve_spec in R. rewrite R. destruct (unreachable from e) eqn:E; [cbn [map]; rewrite app_nil_r; reflexivity|]. apply usable_spec in E. contradiction.
Qed.

Lemma ep_items_spec dns from di os es : array_eps dns from os es -> ep_items dns from di os = map (fun e => (e, di)) es.
Proof.
  intros (ess & F & ->). unfold ep_items.
  assert (A : forall acc, fold_left (fun acc o => ep_attrs dns from di o acc) os acc = acc ++ map (fun e => (e, di)) (List.concat ess)).
  { induction F as [|o x os ess H F IH]; intros acc; cbn [fold_left List.concat]; [cbn [map]; rewrite app_nil_r; reflexivity|].
    rewrite (ep_attrs_spec _ _ _ _ _ H), IH, map_app, app_assoc. reflexivity. }
  apply A.
Qed.

Lemma object_eps_total dns from l : exists es, object_eps dns from l es.
Proof.
  induction l as [|[n v] l (es & IH)]; [exists []; constructor|].
  assert (D : text_named (str "ep") (n, v) \/ ~ text_named (str "ep") (n, v)).
  { destruct (list_eqb n (str "ep")) eqn:E.
    - apply list_eqb_spec in E. subst n. destruct v; try (right; intros [_ (t & K)]; discriminate K). left. split; [reflexivity|eexists; reflexivity].
    - right. intros [K _]. cbn [fst] in K. subst n. rewrite list_eqb_refl in E. discriminate. }
  destruct D as [[E (t & E2)]|D]; [|exists es; constructor; assumption]. cbn [fst snd] in E, E2. subst n v.
  destruct (resolve dns t) as [e|] eqn:R; apply resolve_spec in R; [|exists es; constructor; assumption].
  destruct (unreachable from e) eqn:U.
  - exists []. eapply OE_stop; [exact R|]. intros K. apply usable_spec in K. congruence.
  - eexists. eapply OE_ep; [exact R|apply usable_spec, U|reflexivity|exact IH].
Qed.

(** * The attributes of a link *)

Section Attrs.
  Variables (dns : list N -> N -> N -> option ep) (from : ep).

  Lemma attr_total st a : (forall t, a = (str "anchor", RStr t) -> (6 <= List.length t)%nat) -> exists st', link_attr dns from st a = Some st'.
  Proof.
    destruct a as [n v]. intros H. unfold link_attr. cbn [fst snd].
    destruct v as [| | | | |t|[|[n' [| z | | | | | | | | | | | | ]] o]| | | | | |l|o]; try (eexists; reflexivity).
    - destruct (list_eqb n (str "anchor")) eqn:E.
      + apply list_eqb_spec in E. subst n. specialize (H t eq_refl). destruct (Nat.ltb_spec (List.length t) 6); [lia|]. eexists; reflexivity.
      + destruct (list_eqb n (str "href")); eexists; reflexivity.
    - destruct (list_eqb n (str "p") && list_eqb n' (str "bm")); eexists; reflexivity.
    - destruct (list_eqb n (str "rt")); eexists; reflexivity.
  Qed.
  Lemma attrs_total l : (forall t, In (str "anchor", RStr t) l -> (6 <= List.length t)%nat) -> forall st, exists st', link_attrs dns from st l = Some st'.
  Proof.
    induction l as [|a l IH]; intros H st; [eexists; reflexivity|]. destruct (attr_total st a) as (st1 & E1); [intros t ->; apply H; left; reflexivity|].
    cbn [link_attrs]. rewrite E1. apply IH. intros t I. apply H. right. exact I.
  Qed.
  Lemma attrs_app l1 l2 : forall st, link_attrs dns from st (l1 ++ l2) = match link_attrs dns from st l1 with Some st' => link_attrs dns from st' l2 | None => None end.
  Proof. induction l1 as [|a l1 IH]; intros st; [reflexivity|]. cbn [app link_attrs]. destruct (link_attr dns from st a); [apply IH|reflexivity]. Qed.


  (** an attribute that is not of a kind leaves the variable of that kind *)
  Lemma keep_step (st st' : linkst) (a : rep) : link_attr dns from st a = Some st' ->
    (~ text_named (str "anchor") a -> k_anchor (l_keep st') = k_anchor (l_keep st) /\ l_di st' = l_di st) /\
    (~ text_named (str "href") a -> k_uri (l_keep st') = k_uri (l_keep st)) /\
    (~ texts_named (str "rt") a -> k_types (l_keep st') = k_types (l_keep st)) /\
    (~ other_texts a -> k_ifs (l_keep st') = k_ifs (l_keep st)) /\
    (~ obj_array a -> l_eps st' = l_eps st) /\
    ((~ exists z, policy_attr a z) -> l_bm st' = l_bm st).
  Proof.
    destruct a as [n v]. unfold link_attr. cbn [fst snd]. intros H.
    assert (ST : st' = st -> (~ text_named (str "anchor") (n, v) -> k_anchor (l_keep st') = k_anchor (l_keep st) /\ l_di st' = l_di st) /\
      (~ text_named (str "href") (n, v) -> k_uri (l_keep st') = k_uri (l_keep st)) /\
      (~ texts_named (str "rt") (n, v) -> k_types (l_keep st') = k_types (l_keep st)) /\
      (~ other_texts (n, v) -> k_ifs (l_keep st') = k_ifs (l_keep st)) /\
      (~ obj_array (n, v) -> l_eps st' = l_eps st) /\
      ((~ exists z, policy_attr (n, v) z) -> l_bm st' = l_bm st)) by (intros ->; repeat split; reflexivity).
    destruct v as [| | | | |t|[|[n' [| z | | | | | | | | | | | | ]] o]| | | | | |l|o]; try (apply ST; congruence).
    - destruct (list_eqb n (str "anchor")) eqn:E.
      + apply list_eqb_spec in E. destruct (List.length t <? 6)%nat; [discriminate|]. injection H as <-. cbn [l_keep l_di l_eps l_bm k_anchor k_uri k_types k_ifs].
        split; [intros N; exfalso; apply N; split; [exact E|eexists; reflexivity]|]. repeat split; reflexivity.
      + destruct (list_eqb n (str "href")) eqn:E2; [|apply ST; congruence]. apply list_eqb_spec in E2. injection H as <-. cbn [l_keep l_di l_eps l_bm k_anchor k_uri k_types k_ifs].
        split; [split; reflexivity|]. split; [intros N; exfalso; apply N; split; [exact E2|eexists; reflexivity]|]. repeat split; reflexivity.
    - destruct (list_eqb n (str "p") && list_eqb n' (str "bm")) eqn:E; [|apply ST; congruence]. apply andb_true_iff in E. destruct E as [E E2]. apply list_eqb_spec in E, E2. subst n n'.
      injection H as <-. cbn [l_keep l_di l_eps l_bm]. split; [split; reflexivity|]. split; [reflexivity|]. split; [reflexivity|]. split; [reflexivity|]. split; [reflexivity|].
      intros N. exfalso. apply N. exists z. split; [reflexivity|]. exists o. reflexivity.
    - destruct (list_eqb n (str "rt")) eqn:E.
      + apply list_eqb_spec in E. injection H as <-. cbn [l_keep l_di l_eps l_bm k_anchor k_uri k_types k_ifs]. split; [split; reflexivity|]. split; [reflexivity|].
        split; [intros N; exfalso; apply N; split; [exact E|eexists; reflexivity]|]. repeat split; reflexivity.
      + injection H as <-. cbn [l_keep l_di l_eps l_bm k_anchor k_uri k_types k_ifs]. split; [split; reflexivity|]. split; [reflexivity|]. split; [reflexivity|].
        split; [|split; reflexivity]. intros N; exfalso; apply N; split; [|eexists; reflexivity]. cbn [fst]. intros ->. rewrite list_eqb_refl in E. discriminate.
    - injection H as <-. cbn [l_keep l_di l_eps l_bm]. split; [split; reflexivity|]. split; [reflexivity|]. split; [reflexivity|]. split; [reflexivity|]. split; [|reflexivity].
      intros N. exfalso. apply N. eexists. reflexivity.
  Qed.

  Lemma keep_run {A} (P : rep -> Prop) (f : linkst -> A) : (forall st st' a, link_attr dns from st a = Some st' -> ~ P a -> f st' = f st) ->
    forall l st st', link_attrs dns from st l = Some st' -> Forall (fun b => ~ P b) l -> f st' = f st.
  Proof.
    intros H. induction l as [|a l IH]; intros st st' E F; cbn [link_attrs] in E; [congruence|]. inversion F as [|? ? Fa Fl]; subst.
    destruct (link_attr dns from st a) as [st1|] eqn:E1; [|discriminate]. rewrite (IH _ _ E Fl). apply (H _ _ _ E1 Fa).
  Qed.
  Lemma last_run {A} (P : rep -> Prop) (f : linkst -> A) a l v : (forall st st' b, link_attr dns from st b = Some st' -> ~ P b -> f st' = f st) ->
    (forall st st', link_attr dns from st a = Some st' -> f st' = v) ->
    last_such P l a -> forall st st', link_attrs dns from st l = Some st' -> f st' = v.
  Proof.
    intros H Ha (x & y & -> & Pa & F) st st' E. rewrite attrs_app in E. destruct (link_attrs dns from st x) as [s1|]; [|discriminate].
    cbn [link_attrs] in E. destruct (link_attr dns from s1 a) as [s2|] eqn:E2; [|discriminate]. rewrite (keep_run P f H _ _ _ E F). apply (Ha _ _ E2).
  Qed.
End Attrs.

Lemma anchor_di a di : anchor_id a di -> (6 <= List.length a)%nat /\ cstr a = a /\ snd (str_to_uuid_v1 (firstn 37 (cstr (skipn 6 a)))) = Some di.
Proof.
  intros (B & L & ->). destruct (uuid_text_exists di (conj B L)) as (s & E & NZ & Ln & R & _).
  unfold uuid_str. rewrite E. change (skipn 6 (str "ocf://" ++ s)) with s. split; [rewrite app_length; cbn [List.length]; change (List.length (str "ocf://")) with 6%nat; lia|]. split.
  - apply cstr_nz. apply Forall_app. split; [repeat constructor; discriminate|exact NZ].
  - rewrite (cstr_nz _ NZ), firstn_all2 by lia. exact R.
Qed.

Lemma complete_run dns from l c k : complete dns from l c ->
  exists st u ts ns, link_attrs dns from (mkLinkst k None [] 0) l = Some st /\ l_keep st = mkKeep (Some (c_anchor c)) (Some u) (Some ts) (ifs_of ns) /\
    c_ifs c = ifs_of ns /\ c_uri c = cstr u /\ c_types c = map cstr ts /\ l_eps st = c_eps c /\ l_bm st = c_bm c /\ cstr (c_anchor c) = c_anchor c.
Proof.
  intros [(u & Lu & Eu) (ts & Lt & Et) (ns & Li & Em) Hbm (x & a & di & y & es & El & NA & NO & Ha & Ea & Ee & Hes)].
  apply ifs_of_mask in Em.
  destruct (anchor_di a di Ha) as (A6 & Ac & Ad).
  destruct (attrs_total dns from l) with (st := mkLinkst k None [] 0) as (st & E).
  { intros t I. rewrite El in I. rewrite in_app_iff in I. cbn [In] in I. rewrite Forall_forall in NA.
    assert (K : forall b, In b (x ++ y) -> b = (str "anchor", RStr t) -> False) by (intros b Ib ->; apply (NA _ Ib); split; [reflexivity|eexists; reflexivity]).
    destruct I as [I|[I|I]].
    - exfalso. eapply K; [|reflexivity]. rewrite !in_app_iff. tauto.
    - assert (a = t) by congruence. subst t. exact A6.
    - exfalso. eapply K; [|reflexivity]. rewrite !in_app_iff. tauto. }
  exists st, u, ts, ns. split; [exact E|].
  assert (Ku : k_uri (l_keep st) = Some u).
  { eapply (last_run dns from (text_named (str "href")) (fun st => k_uri (l_keep st))); [| |exact Lu|exact E].
    - intros s s' b Hb. apply (keep_step dns from s s' b Hb).
    - intros s s' Hs. cbv [link_attr fst snd] in Hs. change (list_eqb (str "href") (str "anchor")) with false in Hs. change (list_eqb (str "href") (str "href")) with true in Hs. cbv iota in Hs.
      injection Hs as <-. reflexivity. }
  assert (Kt : k_types (l_keep st) = Some ts).
  { eapply (last_run dns from (texts_named (str "rt")) (fun st => k_types (l_keep st))); [| |exact Lt|exact E].
    - intros s s' b Hb. apply (keep_step dns from s s' b Hb).
    - intros s s' Hs. unfold link_attr in Hs. cbn [fst snd] in Hs. rewrite list_eqb_refl in Hs. injection Hs as <-. reflexivity. }
  assert (Ki : k_ifs (l_keep st) = ifs_of ns).
  { eapply (last_run dns from other_texts (fun st => k_ifs (l_keep st))); [| |exact Li|exact E].
    - intros s s' b Hb. apply (keep_step dns from s s' b Hb).
    - intros s s' Hs. unfold link_attr in Hs. cbn [fst snd] in Hs. change (list_eqb (str "if") (str "rt")) with false in Hs. cbv iota in Hs. injection Hs as <-. reflexivity. }
  assert (Kb : l_bm st = c_bm c).
  { destruct Hbm as [(b & Lb & (Fb & o & Eb))|[NB ->]].
    - eapply (last_run dns from (fun b => exists z, policy_attr b z) l_bm); [| |exact Lb|exact E].
      + intros s s' b' Hb. apply (keep_step dns from s s' b' Hb).
      + intros s s' Hs. destruct b as [nb vb]. cbn [fst snd] in Fb, Eb. subst nb vb. unfold link_attr in Hs. cbn [fst snd] in Hs. rewrite !list_eqb_refl in Hs. cbn [andb] in Hs. injection Hs as <-. reflexivity.
    - rewrite (keep_run dns from (fun b => exists z, policy_attr b z) l_bm) with (l := l) (st := mkLinkst k None [] 0); [reflexivity| |exact E|].
      + intros s s' b' Hb. apply (keep_step dns from s s' b' Hb).
      + apply Forall_forall. intros b I (z' & P). exact (NB b z' I P). }
  assert (Kae : k_anchor (l_keep st) = Some a /\ l_eps st = c_eps c).
  { apply Forall_app in NA. destruct NA as [NAx NAy].
    assert (HA : forall s s' b, link_attr dns from s b = Some s' -> ~ text_named (str "anchor") b -> (k_anchor (l_keep s'), l_di s') = (k_anchor (l_keep s), l_di s)).
    { intros s s' b Hb N. destruct (keep_step dns from s s' b Hb) as (K & _). destruct (K N) as [-> ->]. reflexivity. }
    assert (HO : forall s s' b, link_attr dns from s b = Some s' -> ~ obj_array b -> l_eps s' = l_eps s) by (intros s s' b Hb; apply (keep_step dns from s s' b Hb)).
    rewrite El, attrs_app in E. destruct (link_attrs dns from (mkLinkst k None [] 0) x) as [s1|] eqn:E1; [|discriminate].
    cbn [link_attrs] in E. destruct (link_attr dns from s1 (str "anchor", RStr a)) as [s2|] eqn:E2; [|discriminate].
    pose proof (keep_run dns from _ _ HO _ _ _ E1 NO) as O1. cbn [l_eps] in O1.
    unfold link_attr in E2. cbn [fst snd] in E2. rewrite list_eqb_refl in E2. destruct (Nat.ltb_spec (List.length a) 6); [lia|]. rewrite Ad in E2. injection E2 as <-.
    destruct Hes as [[NOy ->]|(y1 & os & y2 & -> & NOy & Hes)].
    { pose proof (keep_run dns from _ _ HA _ _ _ E NAy) as A3. pose proof (keep_run dns from _ _ HO _ _ _ E NOy) as O3. cbn [l_keep l_di l_eps k_anchor] in A3, O3.
      split; [congruence|]. rewrite O3, O1, Ee. reflexivity. }
    apply Forall_app in NAy. destruct NAy as [NAy NAz]. apply Forall_inv_tail in NAz. apply Forall_app in NOy. destruct NOy as [NOy NOz].
    rewrite attrs_app in E. match type of E with context [link_attrs dns from ?s2 y1] => destruct (link_attrs dns from s2 y1) as [s3|] eqn:E3; [|discriminate] end.
    cbn [link_attrs] in E. destruct (link_attr dns from s3 (str "eps", RObjArr os)) as [s4|] eqn:E4; [|discriminate].
    pose proof (keep_run dns from _ _ HA _ _ _ E3 NAy) as A3. pose proof (keep_run dns from _ _ HO _ _ _ E3 NOy) as O3. cbn [l_keep l_di l_eps k_anchor] in A3, O3.
    pose proof (keep_run dns from _ _ HA _ _ _ E NAz) as A5. pose proof (keep_run dns from _ _ HO _ _ _ E NOz) as O5.
    assert (D3 : l_di s3 = Some di) by congruence. assert (K3 : k_anchor (l_keep s3) = Some a) by congruence.
    unfold link_attr in E4. cbn [fst snd] in E4. injection E4 as <-. cbn [l_keep l_di l_eps] in A5, O5. split; [congruence|].
    rewrite O5, D3, (ep_items_spec _ _ (Some di) _ _ Hes), Ee. destruct (map _ es) eqn:Em2; [congruence|reflexivity]. }
  destruct Kae as [Ka Ke]. split; [destruct (l_keep st) as [ka ku kt ki]; cbn [k_anchor k_uri k_types k_ifs] in *; rewrite Ea; congruence|].
  rewrite Ea. auto 9.
Qed.

(** * The links of a payload *)

Lemma complete_nonempty dns from l c : complete dns from l c -> as_object (RObj l) = To l.
Proof. intros [(u & (x & y & -> & _) & _) _ _ _ _]. destruct x; reflexivity. Qed.

Lemma links_run_spec dns from stop : forall ls cs, Forall2 (complete dns from) ls cs -> more_follow cs -> forall k acc,
  exists out b, reported stop cs out b /\ links_run dns from stop k acc (map (fun x => as_object (RObj x)) ls) = Calls (acc ++ out) b.
Proof.
  intros ls cs F. induction F as [|l c ls cs H F IH]; intros M k acc.
  - exists [], false. split; [constructor|]. cbn [map links_run]. rewrite app_nil_r. reflexivity.
  - assert (M' : more_follow cs) by (intros x c' y E; apply (M (c :: x) c' y); rewrite E; reflexivity).
    cbn [map links_run]. rewrite (complete_nonempty _ _ _ _ H).
    destruct (complete_run dns from l c k H) as (st & u & ts & ns & E & Ek & Em & Eu & Et & Ee & Eb & Ea). rewrite E, Ek, Ee. cbn [k_anchor k_uri k_types k_ifs].
    set (k' := mkKeep _ _ _ _).
    destruct (c_eps c) as [|e es] eqn:Ec.
    + destruct (IH M' k' acc) as (out & b & R & Er). exists out, b. split; [apply RP_none; assumption|exact Er].
    + match goal with |- context [stop ?c'] => assert (Cc : c' = c) end.
      { rewrite <- Em, <- Eu, <- Et, Eb, Ea, <- Ec. assert (Mo : (match map (fun x => as_object (RObj x)) ls with [] => false | _ => true end) = c_more c).
        { specialize (M [] c cs eq_refl). inversion F; subst; cbn [map].
          - destruct (c_more c); [|reflexivity]. destruct (proj1 M eq_refl). reflexivity.
          - symmetry. apply M. discriminate. }
        rewrite Mo. destruct c; reflexivity. }
      rewrite Cc. destruct (stop c) eqn:Es.
      * exists [c], true. split; [apply RP_stop; [congruence|exact Es]|reflexivity].
      * destruct (IH M' k' (acc ++ [c])) as (out & b & R & Er). exists (c :: out), b. split; [apply RP_call; [congruence|exact Es|exact R]|]. rewrite Er, <- app_assoc. reflexivity.
Qed.
