(** Collections: the observers of the links of a collection. *)
From Coq Require Import PeanoNat Lia.
From Verif Require Import Common Ntf_Model Ntf_Spec Ntf_Proofs Ntf2_Proofs Ntf3_Proofs.
Local Open Scope nat_scope.

(** ** What was heard *)
Lemma heard_links_app o c a b acc : heard_links o c (a ++ b) acc = heard_links o c b (heard_links o c a acc).
Proof. revert acc. induction a as [|m a IH]; intros acc; cbn [app heard_links]; [reflexivity|]. apply IH. Qed.
Definition told (o c : nat) (ms : list msg) : Prop := exists m l, In m ms /\ m_obs m = o /\ links_in c (m_body m) = Some l.
Lemma heard_links_same o c ms acc X :
  (forall m l, In m ms -> links_in c (m_body m) = Some l -> l = X) ->
  (heard_links o c ms acc = acc /\ ~ told o c ms) \/ heard_links o c ms acc = Some X.
Proof.
  revert acc. induction ms as [|m ms IH]; intros acc H; cbn [heard_links]; [left; split; [reflexivity|intros (m & l & [] & _)]|].
  assert (H' : forall x l, In x ms -> links_in c (m_body x) = Some l -> l = X) by (intros x l I; apply H; now right).
  destruct (m_obs m =? o) eqn:E.
  - apply Nat.eqb_eq in E. destruct (links_in c (m_body m)) as [l|] eqn:L.
    + assert (l = X) by (apply (H m l); [now left|exact L]). subst l. destruct (IH (Some X) H') as [(A & _)|A]; right; exact A.
    + destruct (IH acc H') as [(A & N)|A]; [left|right; exact A]. split; [exact A|].
      intros (x & l & [Q|Q] & T1 & T2); [subst x; congruence|]. apply N. now exists x, l.
  - destruct (IH acc H') as [(A & N)|A]; [left|right; exact A]. split; [exact A|].
    intros (x & l & [Q|Q] & T1 & T2); [subst x; apply Nat.eqb_neq in E; contradiction|]. apply N. now exists x, l.
Qed.

Definition owes (f : N) (s : st) (c : nat) : Prop := In c (s_ll s) \/ (f = BASELINE /\ In c (s_base s)).
Definition linv (s : st) : Prop :=
  forall o c, In o (s_obs s) -> In c (s_res s) -> r_coll c = true -> o_tgt o = TRes (r_id c) -> o_if o = LL \/ o_if o = BASELINE ->
    heard_links (o_id o) (r_id c) (s_out s) None = Some (r_links c) \/ owes (o_if o) s (r_id c).

Lemma linv_step s t ms :
  linv s -> s_out t = s_out s ++ ms ->
  (forall m c l, In m ms -> In c (s_res t) -> links_in (r_id c) (m_body m) = Some l -> l = r_links c) ->
  (forall c, In c (s_res t) -> r_coll c = true ->
     (exists d, In d (s_res s) /\ r_id d = r_id c /\ r_coll d = true /\ r_links d = r_links c) \/ In (r_id c) (s_ll t)
     \/ (forall o, In o (s_obs t) -> o_tgt o <> TRes (r_id c))) ->
  (forall o, In o (s_obs t) -> In o (s_obs s) \/ (forall i, o_tgt o = TRes i -> told (o_id o) i ms)) ->
  (forall j, In j (s_ll s) -> In j (s_ll t) \/
     (forall o, In o (s_obs t) -> o_tgt o = TRes j -> (o_if o = LL -> told (o_id o) j ms) /\ (o_if o = BASELINE -> In j (s_base t)))
     \/ ~ alive t j) ->
  (forall j, In j (s_base s) -> In j (s_base t) \/
     (forall o, In o (s_obs t) -> o_tgt o = TRes j -> o_if o = BASELINE -> told (o_id o) j ms) \/ ~ alive t j) ->
  linv t.
Proof.
  intros L EO TR CH OB EL EB o c O C K T F. rewrite EO, heard_links_app.
  destruct (heard_links_same (o_id o) (r_id c) ms (heard_links (o_id o) (r_id c) (s_out s) None) (r_links c)) as [(A & N)|A];
    [intros m l M; now apply (TR m c l)| |left; exact A].
  rewrite A. destruct (OB o O) as [O'|X]; [|exfalso; apply N; now apply X].
  assert (AL : alive t (r_id c)) by (now apply in_map).
  destruct (CH c C K) as [(d & D & D1 & D2 & D3)|[X|X]]; [|right; now left|exfalso; now apply (X o)].
  rewrite <- D1 in T. destruct (L o d O' D D2 T F) as [H|[H|(H1 & H)]].
  - left. now rewrite <- D1, H, D3.
  - rewrite D1 in *. destruct (EL _ H) as [Y|[Y|Y]]; [right; now left| |contradiction].
    destruct (Y o O T) as (Y1 & Y2). destruct F as [F|F]; [exfalso; apply N; now apply Y1|].
    right. right. split; [exact F|now apply Y2].
  - rewrite D1 in *. destruct (EB _ H) as [Y|[Y|Y]]; [right; right; now split| |contradiction].
    exfalso. apply N. now apply Y.
Qed.

(** A step that changes neither resources nor observers nor the timers of collections, and tells nothing wrong. *)
Lemma linv_quiet s t ms :
  linv s -> s_out t = s_out s ++ ms -> (forall m c l, In m ms -> In c (s_res t) -> links_in (r_id c) (m_body m) = Some l -> l = r_links c) ->
  (forall c, In c (s_res t) -> r_coll c = true -> exists d, In d (s_res s) /\ r_id d = r_id c /\ r_coll d = true /\ r_links d = r_links c) ->
  incl (s_obs t) (s_obs s) -> s_ll t = s_ll s -> s_base t = s_base s -> linv t.
Proof.
  intros L EO TR CH OB EL EB. apply (linv_step s t ms); try assumption.
  - intros c C K. left. now apply CH.
  - intros o O. left. now apply OB.
  - intros j J. left. now rewrite EL.
  - intros j J. left. now rewrite EB.
Qed.

Section Links.
Variable may : nat -> nat -> bool.
Notation inv := (inv may).

Definition bland (m : msg) : Prop := match m_body m with BRep _ _ _ | BLinks _ _ _ => False | _ => True end.
Lemma bland_links m c : bland m -> links_in c (m_body m) = None.
Proof. unfold bland. destruct (m_body m); cbn; tauto. Qed.

(** The messages of a notification. *)
Lemma notify_msgs big i s t r :
  notify may big i s = Some t -> find_res s i = Some r ->
  exists ms, s_out t = s_out s ++ ms /\ (forall m, In m ms -> bland m \/ exists f, m_body m = BRep (r_id r) f (content_of r))
  /\ (forall m, In m ms -> match m_body m with BDisc _ => False | _ => True end /\ exists o, In o (s_obs s) /\ m_obs m = o_id o)
  /\ s_res t = s_res s /\ s_obs t = s_obs s /\ s_ent t = ents_of may r false s /\ s_ll t = s_ll s /\ s_base t = s_base s
  /\ s_chg t = s_chg s /\ s_ntf t = s_ntf s /\ s_next t = s_next s /\ s_added t = s_added s /\ s_nop t = s_nop s.
Proof.
  intros H E. unfold notify in H. rewrite E in H. cbn [bind] in H. cbv zeta in H.
  destruct (add_ents_eq may r false true s) as (F & W1 & W2 & _).
  set (s1 := add_ents may r false true s) in *. clearbody s1. unfold frame in F. cbn in F.
  destruct F as (F1 & F2 & F3 & F4 & F5 & F6 & F7 & F8 & F9 & F10).
  assert (Z : exists ms, s_out s1 = s_out s ++ ms /\ (forall m, In m ms -> bland m \/ exists f, m_body m = BRep (r_id r) f (content_of r))
    /\ (forall m, In m ms -> match m_body m with BDisc _ => False | _ => True end /\ exists o, In o (s_obs s) /\ m_obs m = o_id o)
    /\ s_res s1 = s_res s /\ s_obs s1 = s_obs s /\ s_ent s1 = ents_of may r false s /\ s_ll s1 = s_ll s /\ s_base s1 = s_base s
    /\ s_chg s1 = s_chg s /\ s_ntf s1 = s_ntf s /\ s_next s1 = s_next s /\ s_added s1 = s_added s /\ s_nop s1 = s_nop s).
  { exists []. rewrite app_nil_r. split; [exact W2|]. split; [intros m []|]. split; [intros m []|]. repeat split; assumption. }
  destruct (r_obsv r); cbn [negb] in H; [|inversion H; subst; exact Z].
  destruct (s_nop s) eqn:NP; cbn [negb] in H; [|inversion H; subst; exact Z]. clear Z.
  set (s2 := if observed s1 r then iterate big r s1 else s1) in *.
  assert (X : exists ms, s_out s2 = s_out s1 ++ ms /\ (forall m, In m ms -> (m_body m = BValid \/ exists f, m_body m = BRep (r_id r) f (content_of r)) /\ exists o, In o (s_obs s) /\ m_obs m = o_id o)).
  { unfold s2. destruct (observed s1 r); [|exists []; rewrite app_nil_r; split; [reflexivity|intros m []]].
    destruct (fold_some big false false (eligible r) (fun _ => BRep (r_id r) (if r_coll r then BASELINE else r_def r) (content_of r)) (s_obs s1) s1) as (ms & M1 & M2).
    exists ms. unfold iterate, foldo. rewrite M1. split; [reflexivity|]. intros m M. apply M2 in M. apply in_map_iff in M.
    destruct M as (o & <- & O). split; [unfold note; cbn; destruct (_ && _); [now left|]; right; eexists; reflexivity|].
    exists o. split; [|reflexivity]. apply filter_In in O. rewrite F2 in O. tauto. }
  assert (Y : frame s1 s2).
  { unfold s2. destruct (observed s1 r); [apply frame_iterate|apply frame_refl]. }
  clearbody s2. destruct X as (m1 & X1 & X2).
  assert (t = notify_collections big r s2) by congruence. subst t. clear H.
  assert (Q : exists ms, s_out (notify_collections big r s2) = s_out s2 ++ ms /\ (forall m, In m ms -> (m_body m = BValid \/ exists c l, m_body m = BBatch c l) /\ exists o, In o (s_obs s) /\ m_obs m = o_id o)).
  { assert (OO : s_obs s2 = s_obs s) by (destruct Y as (_ & Y & _); congruence). revert OO. unfold notify_collections. generalize (take_while (observed s2) (filter (linking (r_id r)) (s_res s2))) as cs. clear X1 Y.
    intros cs. revert s2. induction cs as [|c cs IH]; intros s2; cbn [fold_left].
    - intros _. exists []. rewrite app_nil_r. split; [reflexivity|intros m []].
    - intros OO. destruct (fold_some big false true (coll_match c B) (fun _ => BBatch (r_id c) [(r_uri r, r_val r)]) (s_obs s2) s2) as (m2 & M1 & M2).
      fold (foldo (fun o a => if coll_match c B o then send big false true o (BBatch (r_id c) [(r_uri r, r_val r)]) a else a) s2) in M1.
      destruct (IH (notify_coll big c B (BBatch (r_id c) [(r_uri r, r_val r)]) s2)) as (m3 & N1 & N2).
      { destruct (frame_coll big c B (BBatch (r_id c) [(r_uri r, r_val r)]) s2) as (_ & Z & _). congruence. }
      exists (m2 ++ m3). rewrite N1. unfold notify_coll at 1. rewrite M1, <- app_assoc. split; [reflexivity|].
      intros x I. apply in_app_iff in I. destruct I as [I|I]; [|now apply N2]. apply M2 in I. apply in_map_iff in I.
      destruct I as (o & <- & O). split; [unfold note; cbn; destruct (_ && _); [now left|]; right; eexists; eexists; reflexivity|].
      exists o. split; [|reflexivity]. apply filter_In in O. rewrite OO in O. tauto. }
  destruct Q as (m2 & Q1 & Q2). destruct (frame_trans _ _ _ Y (frame_colls big r s2)) as (G1 & G2 & G3 & G4 & G5 & G6 & G7 & G8 & G9 & G10).
  exists (m1 ++ m2). split; [rewrite Q1, X1, W2, <- app_assoc; reflexivity|]. split; [|split].
  - intros m M. apply in_app_iff in M. destruct M as [M|M].
    + destruct (proj1 (X2 m M)) as [V|V]; [left; unfold bland; rewrite V; exact Coq.Init.Logic.I|now right].
    + left. unfold bland. destruct (proj1 (Q2 m M)) as [V|(c & l & V)]; rewrite V; exact Coq.Init.Logic.I.
  - intros m M. apply in_app_iff in M. destruct M as [M|M].
    + destruct (X2 m M) as ([V|(f & V)] & W); (split; [|exact W]); rewrite V; exact Coq.Init.Logic.I.
    + destruct (Q2 m M) as ([V|(c & l & V)] & W); (split; [|exact W]); rewrite V; exact Coq.Init.Logic.I.
  - repeat split; congruence.
Qed.

(** The messages of the processing of batch observers. *)
Lemma process_msgs n big s t : process may n big s = Some t ->
  exists ms, s_out t = s_out s ++ ms /\ (forall m, In m ms -> exists l, m_body m = BDisc l)
  /\ s_res t = s_res s /\ s_obs t = s_obs s /\ s_ll t = s_ll s /\ s_base t = s_base s /\ s_chg t = s_chg s /\ s_ntf t = s_ntf s
  /\ s_next t = s_next s /\ s_added t = s_added s /\ s_nop t = s_nop s.
Proof.
  revert s. induction n as [|n IH]; intros s; cbn [process].
  - intros H. assert (t = s) by congruence. subst t. exists []. rewrite app_nil_r. repeat split; try reflexivity. intros m [].
  - destruct (find _ (s_ent s)) as [e|].
    2:{ intros H. assert (t = s) by congruence. subst t. exists []. rewrite app_nil_r. repeat split; try reflexivity. intros m []. }
    destruct (find_obs s (e_obs e)) as [o|]; cbn [bind]; [|discriminate].
    destruct (items may s o _) as [its|]; cbn [bind]; [|discriminate]. cbv zeta. intros H. apply IH in H.
    destruct H as (ms & A1 & A2 & A3 & A4 & A5 & A6 & A7 & A8 & A9 & A10 & A11).
    set (s1 := set_ent (filter (fun x => negb (e_obs x =? e_obs e)) (s_ent s)) s) in *.
    assert (X : exists m1, s_out (match its with [] => s1 | _ => send big true true o (BDisc its) s1 end) = s_out s ++ m1
                /\ forall m, In m m1 -> exists l, m_body m = BDisc l).
    { destruct its as [|a its].
      - exists []. rewrite app_nil_r. split; [reflexivity|intros m []].
      - destruct (send_some big true true o (BDisc (a :: its)) s1) as (m1 & E & M). exists m1. split; [exact E|].
        intros m I. destruct M as [M|M]; subst m1; [destruct I|]. destruct I as [I|[]]. subst m. cbn. rewrite andb_false_r. eexists. reflexivity. }
    destruct X as (m1 & X1 & X2). exists (m1 ++ ms). rewrite A1, X1, <- app_assoc. split; [reflexivity|]. split.
    { intros m M. apply in_app_iff in M. destruct M as [M|M]; [now apply X2|now apply A2]. }
    assert (F : frame s1 (match its with [] => s1 | _ => send big true true o (BDisc its) s1 end)).
    { destruct its; [apply frame_refl|apply frame_send]. }
    destruct F as (G1 & G2 & G3 & G4 & G5 & G6 & G7 & G8 & G9 & G10).
    repeat split; [rewrite A3, G1|rewrite A4, G2|rewrite A5, G7|rewrite A6, G8|rewrite A7, G5|rewrite A8, G6|rewrite A9, G9|rewrite A10, G4|rewrite A11, G10]; reflexivity.
Qed.
Lemma disc_msgs big s : exists ms, s_out (notify_disc big s) = s_out s ++ ms /\ (forall m, In m ms -> (m_body m = BValid \/ exists f, m_body m = BDiscLinks f) /\ exists o, In o (s_obs s) /\ m_obs m = o_id o).
Proof.
  destruct (fold_some big false false (fun o => is_disc o && (N.land (o_if o) B =? 0)%N) (fun o => BDiscLinks (o_if o)) (s_obs s) s) as (ms & M1 & M2).
  exists ms. split; [exact M1|]. intros m M. apply M2 in M. apply in_map_iff in M. destruct M as (o & <- & O). split.
  - unfold note. cbn. destruct (_ && _); [now left|right; eexists; reflexivity].
  - exists o. split; [|reflexivity]. apply filter_In in O. tauto.
Qed.

Lemma coll_msgs big c f b s : exists ms, s_out (notify_coll big c f b s) = s_out s ++ ms
  /\ (forall m, In m ms -> m_body m = b /\ exists o, In o (s_obs s) /\ m_obs m = o_id o).
Proof.
  destruct (fold_some big false true (coll_match c f) (fun _ => b) (s_obs s) s) as (ms & M1 & M2).
  exists ms. split; [exact M1|]. intros m M. apply M2 in M. apply in_map_iff in M. destruct M as (o & <- & O). split.
  - unfold note. cbn. now rewrite andb_false_r.
  - exists o. split; [|reflexivity]. apply filter_In in O. tauto.
Qed.
Lemma no_msgs s : s_out s = s_out s ++ [].
Proof. now rewrite app_nil_r. Qed.

Lemma linv_coll_changed c d s k l :
  inv s -> linv s -> find_res s c = Some k -> r_coll k = true ->
  linv (coll_changed may (with_links l k) d (upd_res c (with_links l) s)).
Proof.
  intros I L E K. destruct (find_res_some _ _ _ E) as (KI & KE).
  destruct (coll_changed_frame may (with_links l k) d (upd_res c (with_links l) s)) as (B1 & B2 & B3 & B4 & B5 & B6 & B7 & B8 & B9 & B10 & B11 & B12 & B13).
  set (t := coll_changed may (with_links l k) d (upd_res c (with_links l) s)) in *. clearbody t.
  apply (linv_step s t []); [exact L|rewrite B12; exact (no_msgs s)|intros m x y []| | | |].
  - intros x X Y. rewrite B1 in X. apply upd_in in X. destruct X as (q & Q & X). destruct (r_id q =? c) eqn:Z.
    + right. left. subst x. cbn. rewrite B7. apply reset_in. right. cbn. apply Nat.eqb_eq in Z. congruence.
    + left. subst x. now exists q.
  - intros o O. left. rewrite B2 in O. exact O.
  - intros j J. left. rewrite B7. apply reset_in. now left.
  - intros j J. left. rewrite B8. exact J.
Qed.

Lemma linv_notify big i s t : inv s -> linv s -> notify may big i s = Some t -> linv t.
Proof.
  intros I L H. destruct (find_res s i) as [r|] eqn:E; [|unfold notify in H; rewrite E in H; discriminate].
  destruct (notify_msgs big i s t r H E) as (ms & M1 & M2 & _ & R & O & _ & X1 & X2 & _).
  destruct (find_res_some _ _ _ E) as (RI & RE).
  apply (linv_quiet s t ms); try assumption.
  - intros m c l M C T. rewrite R in C. destruct (M2 m M) as [Y|(f & Y)]; [rewrite bland_links in T by exact Y; discriminate|].
    rewrite Y in T. cbn in T. destruct (r_id r =? r_id c) eqn:Z; [|discriminate]. apply Nat.eqb_eq in Z.
    assert (r = c) by (apply (nodup_inj r_id (s_res s)); [apply (i_ids may s I)|exact RI|exact C|exact Z]). subst c. congruence.
  - intros c C K. rewrite R in C. now exists c.
  - rewrite O. apply incl_refl.
Qed.
Lemma linv_val i v s : linv s -> linv (upd_res i (with_val v) s).
Proof.
  intros L. apply (linv_quiet s _ []); try reflexivity; [exact L|exact (no_msgs s)|intros m c l []| |apply incl_refl].
  intros c C K. apply upd_in in C. destruct C as (q & Q & ->). destruct (r_id q =? i); exists q; cbn in *; auto.
Qed.
Lemma linv_process n big s t : linv s -> process may n big s = Some t -> linv t.
Proof.
  intros L H. destruct (process_msgs n big s t H) as (ms & M1 & M2 & R & O & X1 & X2 & _).
  apply (linv_quiet s t ms); try assumption.
  - intros m c l M C T. destruct (M2 m M) as (y & Y). rewrite Y in T. discriminate.
  - intros c C K. rewrite R in C. now exists c.
  - rewrite O. apply incl_refl.
Qed.
Lemma linv_same s t : linv s -> s_out t = s_out s -> s_res t = s_res s -> incl (s_obs t) (s_obs s) -> s_ll t = s_ll s -> s_base t = s_base s -> linv t.
Proof.
  intros L E1 E2 E3 E4 E5. apply (linv_quiet s t []); try assumption.
  - rewrite E1. apply no_msgs.
  - intros m c l [].
  - intros c C K. rewrite E2 in C. now exists c.
Qed.

Lemma coll_told c f b s o : In o (s_obs s) -> o_tgt o = TRes (r_id c) -> o_if o = f -> (exists l, links_in (r_id c) b = Some l) ->
  told (o_id o) (r_id c) (map (note true (fun _ => b)) (filter (coll_match c f) (s_obs s))).
Proof.
  intros O T F (l & X). exists (note true (fun _ => b) o), l. split; [|split; [reflexivity|]].
  - apply in_map. apply filter_In. split; [exact O|]. unfold coll_match. apply is_tgt_eq in T. rewrite T. apply N.eqb_eq in F. now rewrite F.
  - unfold note. cbn. rewrite andb_false_r. exact X.
Qed.

Lemma linv_fire t s s' : inv s -> linv s -> fire may [] t s = Some s' -> linv s'.
Proof.
  intros I L H. destruct t as [| |i|i|i|i]; cbn [fire] in H.
  - destruct (s_disp s); [|inversion H; subst; exact L]. refine (linv_process _ _ _ _ _ H). apply (linv_same s); try reflexivity; [exact L|apply incl_refl].
  - destruct (s_added s); [|inversion H; subst; exact L]. refine (linv_process _ _ _ _ _ H).
    destruct (disc_msgs [] (set_added false s)) as (ms & M1 & M2). destruct (frame_disc [] (set_added false s)) as (F1 & F2 & F3 & F4 & F5 & F6 & F7 & F8 & _).
    apply (linv_quiet s _ ms); try assumption.
    + intros m c l M C T. destruct (proj1 (M2 m M)) as [Y|(y & Y)]; rewrite Y in T; discriminate.
    + intros c C K. rewrite F1 in C. now exists c.
    + rewrite F2. apply incl_refl.
  - destruct (mem i (s_chg s)) eqn:M; [|inversion H; subst; exact L]. refine (linv_notify _ _ _ _ _ _ H).
    + apply inv_chg; [exact I|]. intros j J. apply without_in in J. now apply (i_chg may s I).
    + apply (linv_same s); try reflexivity; [exact L|apply incl_refl].
  - destruct (mem i (s_ntf s)) eqn:M; [|inversion H; subst; exact L]. refine (linv_notify _ _ _ _ _ _ H).
    + apply inv_ntf; [exact I|]. intros j J. apply without_in in J. now apply (i_ntf may s I).
    + apply (linv_same s); try reflexivity; [exact L|apply incl_refl].
  - destruct (mem i (s_ll s)) eqn:M; [|inversion H; subst; exact L]. apply mem_in in M. destruct (i_ll may s I i M) as (c & C & CI & CC).
    subst i. rewrite (find_res_in s c (i_ids may s I) C) in H. cbn [bind] in H. destruct (links_ok may s c I C) as (us & E). rewrite E in H. cbn [bind] in H. cbv zeta in H.
    set (b := BLinks (r_id c) LL (r_links c)) in *. set (s1 := set_ll (without (r_id c) (s_ll s)) s) in *.
    destruct (frame_coll [] c LL b s1) as (F1 & F2 & F3 & F4 & F5 & F6 & F7 & F8 & _).
    pose proof (coll_out c LL b s1) as EO. set (s2 := notify_coll [] c LL b s1) in *. clearbody s2.
    assert (s' = set_base (reset_timer (r_id c) (s_base s2)) s2) by congruence. subst s'. clear H.
    apply (linv_step s _ (map (note true (fun _ => b)) (filter (coll_match c LL) (s_obs s1)))); [exact L|exact EO| | | | |].
    + intros m k l IM K T. cbn in K. rewrite F1 in K. apply in_map_iff in IM. destruct IM as (o & <- & _). unfold note in T. cbn [m_body] in T.
      rewrite andb_false_r in T. unfold b in T. cbn in T. destruct (r_id c =? r_id k) eqn:Z; [|discriminate]. apply Nat.eqb_eq in Z.
      assert (c = k) by (apply (nodup_inj r_id (s_res s)); [apply (i_ids may s I)|exact C|exact K|exact Z]). congruence.
    + intros k K Q. left. cbn in K. rewrite F1 in K. exists k. auto.
    + intros o O. left. cbn in O. rewrite F2 in O. exact O.
    + intros j J. cbn. rewrite F7. cbn. destruct (Nat.eq_dec j (r_id c)) as [->|N]; [|left; apply without_in; now split].
      right. left. intros o O T. rewrite F2 in O. split.
      * intros F. apply coll_told; [exact O|exact T|exact F|]. unfold b. cbn. rewrite Nat.eqb_refl. eexists. reflexivity.
      * intros _. apply reset_in. now right.
    + intros j J. left. cbn. rewrite F8. apply reset_in. now left.
  - destruct (mem i (s_base s)) eqn:M; [|inversion H; subst; exact L]. apply mem_in in M. destruct (i_base may s I i M) as (c & C & CI & CC).
    subst i. rewrite (find_res_in s c (i_ids may s I) C) in H. cbn [bind] in H. destruct (links_ok may s c I C) as (us & E). rewrite E in H. cbn [bind] in H.
    set (b := BLinks (r_id c) BASELINE (r_links c)) in *. set (s1 := set_base (without (r_id c) (s_base s)) s) in *.
    destruct (frame_coll [] c BASELINE b s1) as (F1 & F2 & F3 & F4 & F5 & F6 & F7 & F8 & _).
    pose proof (coll_out c BASELINE b s1) as EO. set (s2 := notify_coll [] c BASELINE b s1) in *. clearbody s2.
    assert (s' = s2) by congruence. subst s'. clear H.
    apply (linv_step s _ (map (note true (fun _ => b)) (filter (coll_match c BASELINE) (s_obs s1)))); [exact L|exact EO| | | | |].
    + intros m k l IM K T. rewrite F1 in K. apply in_map_iff in IM. destruct IM as (o & <- & _). unfold note in T. cbn [m_body] in T.
      rewrite andb_false_r in T. unfold b in T. cbn in T. destruct (r_id c =? r_id k) eqn:Z; [|discriminate]. apply Nat.eqb_eq in Z.
      assert (c = k) by (apply (nodup_inj r_id (s_res s)); [apply (i_ids may s I)|exact C|exact K|exact Z]). congruence.
    + intros k K Q. left. rewrite F1 in K. exists k. auto.
    + intros o O. left. rewrite F2 in O. exact O.
    + intros j J. left. rewrite F7. exact J.
    + intros j J. rewrite F8. cbn. destruct (Nat.eq_dec j (r_id c)) as [->|N]; [|left; apply without_in; now split].
      right. left. intros o O T F. rewrite F2 in O. apply coll_told; [exact O|exact T|exact F|]. unfold b. cbn. rewrite Nat.eqb_refl. eexists. reflexivity.
Qed.

Lemma linv_register big cl t f s s' : inv s -> linv s -> register may big cl t f s = Some s' -> linv s'.
Proof.
  intros I L H. unfold register in H. destruct (answer may s cl t f) as [(u & b)|] eqn:E; [|inversion H; subst; exact L]. cbv zeta in H.
  assert (J : inv (free_bw (xfer_of cl u f) s)) by (eapply inv_frame; [apply frame_free|exact I]).
  destruct (frame_free (xfer_of cl u f) s) as (F1 & F2 & F3 & F4 & F5 & F6 & F7 & F8 & F9 & F10).
  assert (FO : s_out (free_bw (xfer_of cl u f) s) = s_out s) by (unfold free_bw; destruct (existsb _ _); reflexivity).
  set (s1 := free_bw (xfer_of cl u f) s) in *. clearbody s1.
  destruct (drop_observers_ok may (fun o => (o_cl o =? cl) && (o_url o =? u) && (o_if o =? f)%N) _ J) as (s2 & D & J2 & T).
  rewrite D in H. cbn [bind] in H. destruct T as (T1 & T2 & T3 & T4 & T5 & T6 & T7 & T8 & T9 & T10 & T11 & T12 & T13).
  set (o := mk_obs (s_next s2) cl t u f) in *.
  assert (X : s_out s' = s_out s ++ [mk_msg (o_id o) cl b] /\ s_res s' = s_res s /\ s_obs s' = s_obs s2 ++ [o] /\ s_ll s' = s_ll s /\ s_base s' = s_base s).
  { assert (s' = emit o b (if big then set_bw (s_bw (set_next (S (s_next s2)) (set_obs (s_obs s2 ++ [o]) s2)) ++ [mk_bwt cl u f false false]) (set_next (S (s_next s2)) (set_obs (s_obs s2 ++ [o]) s2)) else set_next (S (s_next s2)) (set_obs (s_obs s2 ++ [o]) s2))) by congruence.
    subst s'. destruct big; cbn; repeat split; congruence. }
  destruct X as (X1 & X2 & X3 & X4 & X5).
  apply (linv_step s s' [mk_msg (o_id o) cl b]); [exact L|exact X1| | | | |].
  - intros m c l M C Y. destruct M as [M|[]]. subst m. cbn in Y. rewrite X2 in C. unfold answer in E. destruct t as [|i].
    + destruct (f =? B)%N; inversion E; subst b; discriminate.
    + destruct (find_res s i) as [r|] eqn:Q; cbn [bind] in E; [|discriminate]. destruct (negb _); [discriminate|]. inversion E; subst b. cbn in Y.
      destruct (i =? r_id c) eqn:Z; [|discriminate]. apply Nat.eqb_eq in Z. destruct (find_res_some _ _ _ Q) as (R & RE).
      assert (r = c) by (apply (nodup_inj r_id (s_res s)); [apply (i_ids may s I)|exact R|exact C|congruence]). congruence.
  - intros c C K. left. rewrite X2 in C. now exists c.
  - intros p P. rewrite X3 in P. apply in_app_iff in P. destruct P as [P|[P|[]]].
    + left. apply T12 in P. rewrite F2 in P. tauto.
    + right. subst p. intros i Q. cbn in Q. subst t. unfold answer in E. destruct (find_res s i) as [r|] eqn:Z; cbn [bind] in E; [|discriminate].
      destruct (negb _); [discriminate|]. inversion E; subst b. exists (mk_msg (o_id o) cl (BRep i f (content_of r))), (r_links r).
      split; [now left|]. split; [reflexivity|]. cbn. now rewrite Nat.eqb_refl.
  - intros j K. left. now rewrite X4.
  - intros j K. left. now rewrite X5.
Qed.

Lemma unlink_linv i cs s :
  inv s -> linv s -> (forall c, In c cs -> In c (s_res s) /\ r_coll c = true) -> NoDup (map r_id cs) ->
  linv (fold_left (unlink_one may i) cs s).
Proof.
  intros I L H D. destruct (unlink_fold may i cs s I H D) as (J & A1 & A2 & A3 & A4 & A5 & A6 & A7 & A8 & A9 & A10 & A11 & A12).
  set (t := fold_left (unlink_one may i) cs s) in *. clearbody t.
  apply (linv_step s t []); [exact L|rewrite A10; apply no_msgs|intros m x y []| | | |].
  - intros c C K. rewrite A1 in C. apply in_map_iff in C. destruct C as (q & <- & Q). unfold unlinked in *.
    destruct (mem (r_id q) (map r_id cs)) eqn:M; [|left; now exists q]. right. left. cbn. apply A12. right. now apply mem_in in M.
  - intros o O. left. now rewrite A2 in O.
  - intros j X. left. apply A12. now left.
  - intros j X. left. now rewrite A6.
Qed.
Lemma linv_del i s :
  linv s -> linv (set_res (filter (fun x => negb (r_id x =? i)) (s_res s)) s).
Proof.
  intros L. apply (linv_quiet s _ []); try reflexivity; [exact L|exact (no_msgs s)|intros m x y []| |apply incl_refl].
  intros c C K. cbn in C. apply filter_In in C. exists c. tauto.
Qed.
Lemma linv_thin f s t : linv s -> thin f s t -> linv t.
Proof.
  intros L (T1 & T2 & T3 & T4 & T5 & T6 & T7 & T8 & T9 & T10 & T11 & T12 & T13). apply (linv_same s); try assumption.
  intros o O. now apply T12 in O.
Qed.
Lemma linv_removed r s : linv s -> linv (notify_removed may r s).
Proof.
  intros L. destruct (removed_fields may r s) as (F1 & F2 & F3 & F4 & F5 & F6 & F7 & F8 & F9 & F10 & F11 & F12 & F13).
  apply (linv_same s); try assumption. rewrite F2. apply incl_refl.
Qed.
Lemma linv_delete i s t : inv s -> linv s -> delete_resource may i s = Some t -> linv t.
Proof.
  intros I L H. unfold delete_resource in H. destruct (find_res s i) as [r|] eqn:E; [|inversion H; subst; exact L].
  destruct (r_coll r) eqn:RC; [inversion H; subst; exact L|]. cbv zeta in H.
  destruct (holders_ok may i s I) as (HC & HD).
  destruct (unlink_fold may i (filter (linking i) (s_res s)) s I HC HD) as (J & _).
  pose proof (unlink_linv i _ s I L HC HD) as L1.
  set (s1 := fold_left (unlink_one may i) (filter (linking i) (s_res s)) s) in *. clearbody s1.
  set (s2 := set_chg (without i (s_chg s1)) (set_ntf (without i (s_ntf s1)) s1)) in *.
  assert (J2 : inv s2).
  { unfold s2. apply inv_chg; [apply inv_ntf; [exact J|]|]; intros j X; apply without_in in X; [now apply (i_ntf may s1 J)|now apply (i_chg may s1 J)]. }
  assert (L2 : linv s2) by (apply (linv_same s1); try reflexivity; [exact L1|apply incl_refl]).
  destruct (drop_observers_ok may (is_tgt i) s2 J2) as (s3 & D & J3 & T). rewrite D in H. cbn [bind] in H.
  pose proof (linv_thin _ _ _ L2 T) as L3. pose proof (linv_removed r s3 L3) as L4.
  destruct (removed_fields may r s3) as (F1 & _). rewrite <- F1 in H.
  assert (t = set_res (filter (fun x => negb (r_id x =? i)) (s_res (notify_removed may r s3))) (notify_removed may r s3)) by congruence.
  subst t. now apply linv_del.
Qed.

Lemma linv_delete_coll i s t : linv s -> delete_collection may i s = Some t -> linv t.
Proof.
  intros L H. unfold delete_collection in H. destruct (find_res s i) as [c|] eqn:E; [|inversion H; subst; exact L]. destruct (r_coll c); [|inversion H; subst; exact L]. cbv zeta in H.
  pose proof (linv_removed c s L) as L1. set (s1 := notify_removed may c s) in *. clearbody s1.
  set (s2 := set_ll (without i (s_ll s1)) (set_base (without i (s_base s1)) s1)) in *.
  assert (t = set_res (filter (fun x => negb (r_id x =? i)) (s_res s2)) s2) by congruence. subst t. clear H.
  apply (linv_step s1 _ []); [exact L1|exact (no_msgs s1)|intros m x y []| | | |]; cbn.
  - intros k K Q. apply filter_In in K. left. exists k. tauto.
  - intros o O. now left.
  - intros j X. destruct (Nat.eq_dec j i) as [->|N]; [|left; apply without_in; now split]. right. right. intros A.
    apply in_map_iff in A. destruct A as (k & Q & K). apply filter_In in K. destruct K as (_ & K). rewrite Q, Nat.eqb_refl in K. discriminate.
  - intros j X. destruct (Nat.eq_dec j i) as [->|N]; [|left; apply without_in; now split]. right. right. intros A.
    apply in_map_iff in A. destruct A as (k & Q & K). apply filter_In in K. destruct K as (_ & K). rewrite Q, Nat.eqb_refl in K. discriminate.
Qed.

Lemma linv_add u v coll def disc obsv get s : inv s -> linv s -> linv (add_resource may u v coll def disc obsv get s).
Proof.
  intros I L. unfold add_resource. destruct ((u =? 0) || existsb (fun r => r_uri r =? u) (s_res s)); [exact L|]. cbv zeta.
  set (r := mk_res (s_next s) u v coll def [] disc obsv get).
  apply (linv_step s _ []); [exact L|exact (no_msgs s)|intros m x y []| | | |]; unfold notify_added, add_ents; cbn.
  - intros c C K. apply in_app_iff in C. destruct C as [C|[C|[]]]; [left; now exists c|]. right. right. subst c. intros o O X. cbn in X.
    pose proof (i_obs may s I o O) as Y. unfold obs_ok in Y. rewrite X in Y. destruct Y as (q & Q & Y & _). destruct (i_new may s I q Q). lia.
  - intros o O. now left.
  - intros j J. now left.
  - intros j J. now left.
Qed.

Lemma linv_ok s p t : inv s -> linv s -> small_op p -> step may s p = Some t -> linv t.
Proof.
  intros I L S H. destruct p as [u v coll def disc obsv get|i|i|c i|c i|big cl tg f|i|big i v|i v|i v|big tm|cl u f|cl u f|b]; cbn [step] in H.
  - assert (t = add_resource may u v coll def disc obsv get s) by congruence. subst t. now apply linv_add.
  - now apply (linv_delete i s).
  - now apply (linv_delete_coll i s).
  - unfold add_link in H. destruct (find_res s c) as [k|] eqn:E; [|inversion H; subst; exact L]. destruct (find_res s i) as [r|]; [|inversion H; subst; exact L].
    destruct (r_coll k) eqn:K; [|inversion H; subst; exact L]. destruct (links_uris s k); cbn [bind] in H; [|discriminate]. cbv zeta in H.
    apply (f_equal (fun x => match x with Some y => y | None => t end)) in H. cbn beta iota in H. rewrite <- H. now apply linv_coll_changed.
  - unfold remove_link in H. destruct (find_res s c) as [k|] eqn:E; [|inversion H; subst; exact L]. destruct (r_coll k) eqn:K; cbn [andb] in H; [|inversion H; subst; exact L].
    destruct (mem i (r_links k)); [|inversion H; subst; exact L]. cbv zeta in H.
    apply (f_equal (fun x => match x with Some y => y | None => t end)) in H. cbn beta iota in H. rewrite <- H. now apply linv_coll_changed.
  - now apply (linv_register big cl tg f s).
  - destruct (find_obs s i) as [o|] eqn:E; [|inversion H; subst; exact L]. unfold drop_observer in H. destruct (target_alive s o); [|discriminate].
    inversion H. apply (linv_same s); try reflexivity; [exact L|]. cbn. intros p P. now apply filter_In in P.
  - destruct (find_res s i) as [r|] eqn:E; [|inversion H; subst; exact L]. cbn in S. subst big.
    refine (linv_notify _ _ _ _ _ _ H); [now apply inv_val|now apply linv_val].
  - destruct (find_res s i) as [r|] eqn:E; [|inversion H; subst; exact L]. cbv zeta in H. inversion H.
    apply (linv_same (upd_res i (with_val v) s)); try reflexivity; [now apply linv_val|apply incl_refl].
  - destruct (find_res s i) as [r|] eqn:E; [|inversion H; subst; exact L]. cbv zeta in H. inversion H. destruct (is_observed _ i); [|now apply linv_val].
    apply (linv_same (upd_res i (with_val v) s)); try reflexivity; [now apply linv_val|apply incl_refl].
  - cbn in S. subst big. now apply (linv_fire tm s).
  - inversion H. destruct (frame_free (xfer_of cl u f) s) as (F1 & F2 & F3 & F4 & F5 & F6 & F7 & F8 & _).
    apply (linv_same s); try assumption; [|rewrite F2; apply incl_refl]. unfold free_bw. destruct (existsb _ _); reflexivity.
  - inversion H. apply (linv_same s); try reflexivity; [exact L|apply incl_refl].
  - inversion H. apply (linv_same s); try reflexivity; [exact L|apply incl_refl].
Qed.

Lemma linv_run ps s t : inv s -> linv s -> careful may s ps -> Forall small_op ps -> run may s ps = Some t -> linv t.
Proof.
  revert s. induction ps as [|p ps IH]; intros s I L C S H; cbn [run] in H; [inversion H; subst; exact L|].
  cbn [careful] in C. destruct C as (C1 & C2). inversion S as [|x y S1 S2]; subst.
  destruct (step_ok may s p I C1) as (s1 & E & J). rewrite E in H. cbn [bind] in H.
  apply (IH s1); [exact J|now apply (linv_ok s p)|now apply C2|exact S2|exact H].
Qed.
End Links.
