(** Lifetimes: every operation of a careful application keeps the invariant and follows no dangling pointer. *)
From Coq Require Import PeanoNat Lia.
From Verif Require Import Common Ntf_Model Ntf_Spec Ntf_Proofs.
Local Open Scope nat_scope.

Section Safe.
Variable may : nat -> nat -> bool.
Notation inv := (inv may).

Lemma alive_in s r : In r (s_res s) -> alive s (r_id r).
Proof. intros H. unfold alive. now apply in_map. Qed.
Lemma alive_ex s i : alive s i -> exists r, In r (s_res s) /\ r_id r = i.
Proof. intros H. apply in_map_iff in H. destruct H as (r & E & H). now exists r. Qed.

Lemma inv_notify big i s : inv s -> alive s i -> exists t, notify may big i s = Some t /\ inv t.
Proof.
  intros I A. destruct (alive_find s i A) as (r & E). destruct (find_res_some _ _ _ E) as (R & _).
  unfold notify. rewrite E. cbn [bind].
  assert (J : inv (add_ents may r false true s)) by now apply add_ents_live.
  destruct (r_obsv r); cbn [negb]; [|eexists; split; [reflexivity|exact J]].
  destruct (s_nop s); cbn [negb]; [|eexists; split; [reflexivity|exact J]].
  cbv zeta. eexists. split; [reflexivity|]. eapply inv_frame; [apply frame_colls|].
  destruct (observed _ _); [|exact J]. eapply inv_frame; [apply frame_iterate|exact J].
Qed.

Lemma items_ok s o es : inv s -> (forall e, In e es -> In e (s_ent s)) -> exists l, items may s o es = Some l.
Proof.
  intros I. induction es as [|e es IH]; intros H; cbn [items]; [eexists; reflexivity|].
  assert (X : exists a, item may s o (e_what e) = Some a).
  { destruct (i_ent may s I e (H e (or_introl eq_refl))) as (p & _ & _ & _ & Y).
    unfold item. destruct (e_what e) as [i|u]; [|eexists; reflexivity].
    destruct Y as (r & R & <- & _). rewrite (find_res_in s r (i_ids may s I) R). cbn [bind]. destruct (_ && _); eexists; reflexivity. }
  destruct X as (a & ->). destruct (IH (fun x y => H x (or_intror y))) as (l & ->). cbn [bind]. eexists. reflexivity.
Qed.

Lemma inv_process n big s : inv s -> exists t, process may n big s = Some t /\ inv t.
Proof.
  revert s. induction n as [|n IH]; intros s I; cbn [process]; [now exists s|].
  destruct (find _ (s_ent s)) as [e|] eqn:E; [|now exists s].
  apply find_some in E. destruct E as (E & _).
  destruct (i_ent may s I e E) as (o & O & X & _). rewrite <- X.
  rewrite (find_obs_in s o (i_oids may s I) O). cbn [bind].
  destruct (items_ok s o (filter (fun x => e_obs x =? o_id o) (s_ent s)) I) as (its & ->).
  { intros x Y. now apply filter_In in Y. }
  cbn [bind]. cbv zeta. apply IH.
  assert (J : inv (set_ent (filter (fun x => negb (e_obs x =? o_id o)) (s_ent s)) s)).
  { apply inv_ents; [exact I|]. intros x Y. apply filter_In in Y. now apply (i_ent may s I). }
  destruct its as [|a l]; [exact J|]. eapply inv_frame; [apply frame_send|exact J].
Qed.

Lemma links_ok s c : inv s -> In c (s_res s) -> exists us, links_uris s c = Some us.
Proof.
  intros I C. unfold links_uris.
  assert (H : forall j, In j (r_links c) -> alive s j) by (intros j J; now apply (i_links may s I c)).
  induction (r_links c) as [|j l IH]; cbn [fold_right]; [eexists; reflexivity|].
  destruct (alive_find s j (H j (or_introl eq_refl))) as (r & ->). cbn [bind].
  destruct IH as (us & ->); [intros k K; apply H; now right|]. cbn [bind]. eexists. reflexivity.
Qed.

(** Links to a resource that is being deleted. *)
Lemma with_links_id l r : r_id (with_links l r) = r_id r.
Proof. reflexivity. Qed.
Lemma with_links_uri l r : r_uri (with_links l r) = r_uri r.
Proof. reflexivity. Qed.
Lemma upd_coll i l c s : NoDup (map r_id (s_res s)) -> In c (s_res s) -> r_id c = i ->
  In (with_links l c) (s_res (upd_res i (with_links l) s)).
Proof.
  intros D C E. apply upd_in. exists c. split; [exact C|]. now rewrite E, Nat.eqb_refl.
Qed.
Lemma inv_links i l s :
  inv s -> NoDup l -> (forall j, In j l -> alive s j) -> (forall c, In c (s_res s) -> r_id c = i -> r_coll c = true) ->
  inv (upd_res i (with_links l) s).
Proof.
  intros I D H C. apply inv_upd; [exact I|reflexivity|reflexivity|reflexivity|].
  intros r R E. cbn. split; [exact D|]. intros j J. split; [now apply H|now apply C].
Qed.

Lemma unlink_one_ok i s c :
  inv s -> In c (s_res s) -> r_coll c = true -> inv (unlink_one may i s c).
Proof.
  intros I C K. unfold unlink_one. cbv zeta. apply inv_coll_changed.
  - apply inv_links; [exact I|apply remove1_nodup; now apply (i_once may s I)| |].
    + intros j J. apply remove1_in in J. now apply (i_links may s I c).
    + intros d D E. replace d with c; [exact K|]. now apply (nodup_inj r_id (s_res s) c d (i_ids may s I)).
  - apply upd_coll; [apply (i_ids may s I)|exact C|reflexivity].
  - exact K.
Qed.

Definition unlinked (i : nat) (cs : list res) (r : res) : res :=
  if mem (r_id r) (map r_id cs) then with_links (remove1 i (r_links r)) r else r.
Lemma add_ents_frame r rm d s : frame (set_ent (ents_of may r rm s) s) (add_ents may r rm d s).
Proof. apply add_ents_eq. Qed.
Lemma coll_changed_frame c d s :
  s_res (coll_changed may c d s) = s_res s /\ s_obs (coll_changed may c d s) = s_obs s
  /\ s_ent (coll_changed may c d s) = ents_of may c false s
  /\ s_added (coll_changed may c d s) = s_added s /\ s_chg (coll_changed may c d s) = s_chg s
  /\ s_ntf (coll_changed may c d s) = s_ntf s /\ s_ll (coll_changed may c d s) = reset_timer (r_id c) (s_ll s)
  /\ s_base (coll_changed may c d s) = s_base s /\ s_next (coll_changed may c d s) = s_next s
  /\ s_nop (coll_changed may c d s) = s_nop s /\ s_bw (coll_changed may c d s) = s_bw s
  /\ s_out (coll_changed may c d s) = s_out s /\ s_disp (coll_changed may c d s) = (d || s_disp s).
Proof. unfold coll_changed, add_ents, ents_of. destruct d; cbn; repeat split; reflexivity. Qed.

Lemma unlink_fold i cs s :
  inv s -> (forall c, In c cs -> In c (s_res s) /\ r_coll c = true) -> NoDup (map r_id cs) ->
  let t := fold_left (unlink_one may i) cs s in
  inv t /\ s_res t = map (unlinked i cs) (s_res s) /\ s_obs t = s_obs s /\ s_added t = s_added s /\ s_chg t = s_chg s
  /\ s_ntf t = s_ntf s /\ s_base t = s_base s /\ s_next t = s_next s /\ s_nop t = s_nop s /\ s_bw t = s_bw s
  /\ s_out t = s_out s /\ s_disp t = s_disp s
  /\ (forall j, In j (s_ll t) <-> In j (s_ll s) \/ In j (map r_id cs)).
Proof.
  revert s. induction cs as [|c cs IH]; intros s I H D; cbn [fold_left].
  - cbv zeta. split; [exact I|]. split.
    + unfold unlinked. cbn [map mem existsb]. now rewrite map_id.
    + do 10 (split; [reflexivity|]). intros j. cbn [map In]. tauto.
  - cbn [map] in D. inversion D as [|u v N D']; subst.
    destruct (H c (or_introl eq_refl)) as (C & K).
    assert (R1 : s_res (unlink_one may i s c) = map (fun r => if r_id r =? r_id c then with_links (remove1 i (r_links c)) r else r) (s_res s)).
    { unfold unlink_one. cbv zeta. destruct (coll_changed_frame (with_links (remove1 i (r_links c)) c) false (upd_res (r_id c) (with_links (remove1 i (r_links c))) s)) as (-> & _). reflexivity. }
    destruct (IH (unlink_one may i s c)) as (J & A1 & A2 & A3 & A4 & A5 & A6 & A7 & A8 & A9 & A10 & A11 & A12).
    + now apply unlink_one_ok.
    + intros d M. destruct (H d (or_intror M)) as (M1 & M2). split; [|exact M2]. rewrite R1. apply in_map_iff. exists d.
      split; [|exact M1]. destruct (r_id d =? r_id c) eqn:X; [|reflexivity]. apply Nat.eqb_eq in X. exfalso. apply N.
      rewrite <- X. now apply in_map.
    + exact D'.
    + destruct (coll_changed_frame (with_links (remove1 i (r_links c)) c) false (upd_res (r_id c) (with_links (remove1 i (r_links c))) s))
        as (B1 & B2 & B3 & B4 & B5 & B6 & B7 & B8 & B9 & B10 & B11 & B12 & B13).
      change (coll_changed may (with_links (remove1 i (r_links c)) c) false (upd_res (r_id c) (with_links (remove1 i (r_links c))) s))
        with (unlink_one may i s c) in *.
      rewrite B2 in A2. rewrite B4 in A3. rewrite B5 in A4. rewrite B6 in A5. rewrite B8 in A6.
      rewrite B9 in A7. rewrite B10 in A8. rewrite B11 in A9. rewrite B12 in A10. rewrite B13 in A11.
      split; [exact J|]. split; [|].
      * rewrite A1, R1, map_map. apply map_ext_in. intros r R. unfold unlinked. cbn [map].
        unfold mem. cbn [existsb]. fold (mem (r_id r) (map r_id cs)).
        destruct (r_id r =? r_id c) eqn:X.
        -- apply Nat.eqb_eq in X. assert (r = c) by (apply (nodup_inj r_id (s_res s)); [apply (i_ids may s I)|exact R|exact C|exact X]).
           subst r. cbn [orb]. rewrite with_links_id. change (existsb (Nat.eqb (r_id c)) (map r_id cs)) with (mem (r_id c) (map r_id cs)).
           destruct (mem (r_id c) (map r_id cs)) eqn:M; [apply mem_in in M; contradiction|reflexivity].
        -- cbn [orb]. reflexivity.
      * do 10 (split; [assumption|]). intros j. rewrite A12, B7. cbn [map In]. cbn [upd_res s_ll set_res]. rewrite reset_in, with_links_id.
        split; intros Z; intuition.
Qed.

Lemma inv_del_res i s :
  inv s -> (forall o, In o (s_obs s) -> o_tgt o <> TRes i) -> (forall c, In c (s_res s) -> r_id c <> i -> ~ In i (r_links c)) ->
  (forall e, In e (s_ent s) -> e_what e <> Live i) -> ~ In i (s_chg s) -> ~ In i (s_ntf s) -> ~ In i (s_ll s) -> ~ In i (s_base s) ->
  inv (set_res (filter (fun x => negb (r_id x =? i)) (s_res s)) s).
Proof.
  intros I HO HL HE H1 H2 H3 H4.
  assert (K : forall r, In r (filter (fun x => negb (r_id x =? i)) (s_res s)) <-> In r (s_res s) /\ r_id r <> i).
  { intros r. rewrite filter_In, negb_true_iff, Nat.eqb_neq. reflexivity. }
  assert (A : forall j, alive s j -> j <> i -> alive (set_res (filter (fun x => negb (r_id x =? i)) (s_res s)) s) j).
  { intros j J X. apply alive_ex in J. destruct J as (r & R & E). unfold alive. cbn. apply in_map_iff. exists r. split; [exact E|].
    apply K. split; congruence. }
  constructor; cbn.
  - apply nodup_map_filter, (i_ids may s I).
  - apply nodup_map_filter, (i_uris may s I).
  - intros r R. apply K in R. now apply (i_new may s I).
  - apply (i_oids may s I).
  - apply (i_onew may s I).
  - intros o O. pose proof (i_obs may s I o O) as X. unfold obs_ok in *. specialize (HO o O). destruct (o_tgt o); [exact X|].
    destruct X as (r & R & E1 & E2). exists r. cbn. rewrite K. repeat split; try assumption. intros Z. apply HO. congruence.
  - intros e E. destruct (i_ent may s I e E) as (o & O & E1 & E2 & X). exists o. repeat split; try assumption.
    specialize (HE e E). destruct (e_what e) as [j|u]; [|exact X]. destruct X as (r & R & F1 & F2). exists r. cbn. rewrite K.
    repeat split; try assumption. intros F. apply HE. congruence.
  - intros c j C J. apply K in C. destruct C as (C & X). destruct (i_links may s I c j C J) as (Y & Z). split; [|exact Z].
    apply A; [exact Y|]. intros ->. now apply (HL c).
  - intros c C. apply K in C. now apply (i_once may s I).
  - intros j J. apply A; [now apply (i_chg may s I)|]. intros ->. contradiction.
  - intros j J. apply A; [now apply (i_ntf may s I)|]. intros ->. contradiction.
  - intros j J. destruct (i_ll may s I j J) as (c & C & X & Y). exists c. cbn. rewrite K. repeat split; try assumption.
    intros Z. apply H3. congruence.
  - intros j J. destruct (i_base may s I j J) as (c & C & X & Y). exists c. cbn. rewrite K. repeat split; try assumption.
    intros Z. apply H4. congruence.
Qed.

(** oc_notify_resource_removed: no entry for the resource is left. *)
Lemma removed_fields r s :
  s_res (notify_removed may r s) = s_res s /\ s_obs (notify_removed may r s) = s_obs s
  /\ s_ent (notify_removed may r s) = fold_left (add_one may r true) (s_obs s) (filter (fun e => negb (ent_of_res (r_id r) e)) (s_ent s))
  /\ s_added (notify_removed may r s) = true /\ s_chg (notify_removed may r s) = s_chg s
  /\ s_ntf (notify_removed may r s) = s_ntf s /\ s_ll (notify_removed may r s) = s_ll s
  /\ s_base (notify_removed may r s) = s_base s /\ s_next (notify_removed may r s) = s_next s
  /\ s_nop (notify_removed may r s) = s_nop s /\ s_bw (notify_removed may r s) = s_bw s
  /\ s_out (notify_removed may r s) = s_out s /\ s_disp (notify_removed may r s) = s_disp s.
Proof. repeat split; reflexivity. Qed.
Lemma inv_removed r s : inv s -> r_uri r <> 0 -> inv (notify_removed may r s).
Proof.
  intros I H. unfold notify_removed. apply inv_added, add_ents_gone; [|exact H].
  unfold drop_res_ents. apply inv_ents; [exact I|]. intros e E. apply filter_In in E. now apply (i_ent may s I).
Qed.
Lemma removed_ents r s e : In e (s_ent (notify_removed may r s)) -> e_what e <> Live (r_id r).
Proof.
  destruct (removed_fields r s) as (_ & _ & -> & _). intros E. apply add_fold_in in E.
  destruct E as [E|(o & _ & _ & _ & ->)]; [|cbn; discriminate].
  apply filter_In in E. destruct E as (_ & E). unfold ent_of_res in E. intros F. rewrite F, Nat.eqb_refl in E. discriminate.
Qed.

Lemma mem_false i l : mem i l = false <-> ~ In i l.
Proof. rewrite <- mem_in, not_true_iff_false. reflexivity. Qed.

Lemma holders_ok i s : inv s ->
  (forall c, In c (filter (linking i) (s_res s)) -> In c (s_res s) /\ r_coll c = true)
  /\ NoDup (map r_id (filter (linking i) (s_res s))).
Proof.
  intros I. split; [|apply nodup_map_filter, (i_ids may s I)]. intros c C. apply filter_In in C. unfold linking in C.
  rewrite andb_true_iff in C. tauto.
Qed.
Lemma unlinked_none i s c : inv s -> In c (map (unlinked i (filter (linking i) (s_res s))) (s_res s)) -> ~ In i (r_links c).
Proof.
  intros I C. apply in_map_iff in C. destruct C as (r & <- & R). unfold unlinked.
  destruct (mem (r_id r) (map r_id (filter (linking i) (s_res s)))) eqn:M.
  - cbn. apply remove1_gone. now apply (i_once may s I).
  - intros L. apply mem_false in M. apply M. apply in_map. apply filter_In. split; [exact R|].
    unfold linking. rewrite andb_true_iff, mem_in. split; [now apply (i_links may s I r i)|exact L].
Qed.

Lemma inv_delete i s : inv s -> exists t, delete_resource may i s = Some t /\ inv t /\ (forall r, find_res s i = Some r -> r_coll r = false -> ~ refers t i /\ ~ alive t i).
Proof.
  intros I. unfold delete_resource. destruct (find_res s i) as [r|] eqn:E; [|exists s; split; [reflexivity|]; split; [exact I|]; discriminate].
  destruct (find_res_some _ _ _ E) as (R & RI).
  destruct (r_coll r) eqn:RC; [exists s; split; [reflexivity|]; split; [exact I|]; intros q Q; congruence|]. cbv zeta.
  destruct (holders_ok i s I) as (HC & HD).
  destruct (unlink_fold i (filter (linking i) (s_res s)) s I HC HD) as (J & A1 & A2 & A3 & A4 & A5 & A6 & A7 & A8 & A9 & A10 & A11 & A12).
  set (s1 := fold_left (unlink_one may i) (filter (linking i) (s_res s)) s) in *. clearbody s1.
  set (s2 := set_chg (without i (s_chg s1)) (set_ntf (without i (s_ntf s1)) s1)).
  assert (J2 : inv s2).
  { unfold s2. apply inv_chg; [apply inv_ntf; [exact J|]|]; intros j X; apply without_in in X; [now apply (i_ntf may s1 J)|now apply (i_chg may s1 J)]. }
  destruct (drop_observers_ok may (is_tgt i) s2 J2) as (s3 & D & J3 & T).
  rewrite D. cbn [bind]. eexists. split; [reflexivity|].
  destruct T as (T1 & T2 & T3 & T4 & T5 & T6 & T7 & T8 & T9 & T10 & T11 & T12 & T13).
  assert (U : r_uri r <> 0) by (now apply (i_new may s I)).
  pose proof (inv_removed r s3 J3 U) as J4.
  destruct (removed_fields r s3) as (F1 & F2 & F3 & F4 & F5 & F6 & F7 & F8 & F9 & F10 & F11 & F12 & F13).
  pose proof (removed_ents r s3) as F14. rewrite RI in F14.
  set (s4 := notify_removed may r s3) in *. clearbody s4.
  assert (O : forall o, In o (s_obs s4) -> o_tgt o <> TRes i).
  { intros o O Z. rewrite F2 in O. apply T12 in O. destruct O as (_ & O). apply is_tgt_eq in Z. congruence. }
  assert (L : forall c, In c (s_res s4) -> ~ In i (r_links c)).
  { intros c C. rewrite F1, T1 in C. cbn in C. rewrite A1 in C. now apply (unlinked_none i s c I). }
  assert (N1 : ~ In i (s_chg s4)).
  { rewrite F5, T3. cbn. rewrite without_in. tauto. }
  assert (N2 : ~ In i (s_ntf s4)).
  { rewrite F6, T4. cbn. rewrite without_in. tauto. }
  assert (NL : forall l, (forall j, In j l -> acoll s4 j) -> ~ In i l).
  { intros l H X. destruct (H i X) as (c & C & CI & CC). rewrite F1, T1 in C. cbn in C. rewrite A1 in C.
    apply in_map_iff in C. destruct C as (q & Q & C). assert (r_id q = i /\ r_coll q = true) as (Q1 & Q2).
    { rewrite <- CI, <- CC, <- Q. unfold unlinked. destruct (mem _ _); split; reflexivity. }
    assert (q = r) by (apply (nodup_inj r_id (s_res s)); [apply (i_ids may s I)|exact C|exact R|congruence]). congruence. }
  assert (N3 : ~ In i (s_ll s4)) by (apply NL, (i_ll may s4 J4)).
  assert (N4 : ~ In i (s_base s4)) by (apply NL, (i_base may s4 J4)).
  rewrite <- F1. split.
  - apply inv_del_res; try assumption. intros c C _. now apply L.
  - intros q _ _. split.
    + intros [(o & H & X)|[(c & H & X)|[(e & H & X)|[H|[H|[H|H]]]]]]; cbn in H; try contradiction.
      * now apply (O o).
      * apply filter_In in H. now apply (L c).
      * now apply (F14 e).
    + intros H. apply alive_ex in H. destruct H as (c & H & X). cbn in H. apply filter_In in H. destruct H as (_ & H).
      rewrite X, Nat.eqb_refl in H. discriminate.
Qed.

Lemma inv_delete_coll i s :
  inv s -> cautious s (ODelColl i) ->
  exists t, delete_collection may i s = Some t /\ inv t.
Proof.
  intros I (HO & HL & H1 & H2). unfold delete_collection. destruct (find_res s i) as [c|] eqn:E; [|now exists s].
  destruct (find_res_some _ _ _ E) as (C & CI).
  destruct (r_coll c); [|now exists s]. cbv zeta. eexists. split; [reflexivity|].
  assert (U : r_uri c <> 0) by (now apply (i_new may s I)).
  pose proof (inv_removed c s I U) as J.
  destruct (removed_fields c s) as (F1 & F2 & F3 & F4 & F5 & F6 & F7 & F8 & F9 & F10 & F11 & F12 & F13).
  pose proof (removed_ents c s) as F14. rewrite CI in F14.
  set (s1 := notify_removed may c s) in *. clearbody s1.
  apply inv_del_res; cbn.
  - apply inv_ll; [apply inv_base; [exact J|]|]; intros j X; apply without_in in X; [now apply (i_base may s1 J)|].
    destruct (i_ll may s1 J j) as (d & D); [tauto|]. now exists d.
  - rewrite F2. exact HO.
  - rewrite F1. exact HL.
  - exact F14.
  - now rewrite F5.
  - now rewrite F6.
  - rewrite without_in. tauto.
  - rewrite without_in. tauto.
Qed.

Lemma inv_add u v coll def disc obsv get s : inv s -> inv (add_resource may u v coll def disc obsv get s).
Proof.
  intros I. unfold add_resource. destruct ((u =? 0) || existsb (fun r => r_uri r =? u) (s_res s)) eqn:E; [exact I|].
  apply orb_false_iff in E. destruct E as (E1 & E2). apply Nat.eqb_neq in E1. cbv zeta.
  set (r := mk_res (s_next s) u v coll def [] disc obsv get).
  unfold notify_added. apply inv_added. apply add_ents_live; [|cbn; apply in_app_iff; right; now left].
  assert (A : forall j, alive s j -> alive (set_next (S (s_next s)) (set_res (s_res s ++ [r]) s)) j).
  { intros j J. unfold alive in *. cbn. rewrite map_app. apply in_app_iff. now left. }
  assert (AC : forall j, acoll s j -> acoll (set_next (S (s_next s)) (set_res (s_res s ++ [r]) s)) j).
  { intros j (c & C & X & Y). exists c. cbn. rewrite in_app_iff. auto. }
  constructor; cbn.
  - rewrite map_app. cbn [map]. apply nodup_snoc; [apply (i_ids may s I)|]. intros X. apply in_map_iff in X.
    destruct X as (q & X & Q). destruct (i_new may s I q Q) as (Y & _). subst r. cbn in X. lia.
  - rewrite map_app. cbn [map]. apply nodup_snoc; [apply (i_uris may s I)|]. intros X. apply in_map_iff in X.
    destruct X as (q & X & Q). rewrite <- not_true_iff_false in E2. apply E2. apply existsb_exists. exists q.
    split; [exact Q|]. apply Nat.eqb_eq. exact X.
  - intros q Q. apply in_app_iff in Q. destruct Q as [Q|[Q|[]]].
    + destruct (i_new may s I q Q). split; [lia|assumption].
    + subst q. cbn. split; [lia|exact E1].
  - apply (i_oids may s I).
  - intros o O. pose proof (i_onew may s I o O). lia.
  - intros o O. pose proof (i_obs may s I o O) as X. unfold obs_ok in *. destruct (o_tgt o); [exact X|].
    destruct X as (q & Q & X). exists q. cbn. rewrite in_app_iff. auto.
  - intros e X. destruct (i_ent may s I e X) as (o & O & X1 & X2 & X3). exists o. repeat split; try assumption.
    destruct (e_what e); [|exact X3]. destruct X3 as (q & Q & X3). exists q. cbn. rewrite in_app_iff. auto.
  - intros c j C J. apply in_app_iff in C. destruct C as [C|[C|[]]].
    + destruct (i_links may s I c j C J) as (Y & Z). split; [now apply A|exact Z].
    + subst c. destruct J.
  - intros c C. apply in_app_iff in C. destruct C as [C|[C|[]]]; [now apply (i_once may s I)|subst c; constructor].
  - intros j J. apply A. now apply (i_chg may s I).
  - intros j J. apply A. now apply (i_ntf may s I).
  - intros j J. apply AC. now apply (i_ll may s I).
  - intros j J. apply AC. now apply (i_base may s I).
Qed.

Lemma inv_add_link c i s : inv s -> cautious s (OLink c i) -> exists t, add_link may c i s = Some t /\ inv t.
Proof.
  intros I H. cbn in H. unfold add_link. destruct (find_res s c) as [k|] eqn:E; [|now exists s].
  destruct (find_res s i) as [r|] eqn:F; [|now exists s].
  destruct (find_res_some _ _ _ E) as (K & KI). destruct (find_res_some _ _ _ F) as (R & RI).
  destruct (r_coll k) eqn:KC; [|now exists s].
  destruct (links_ok s k I K) as (us & ->). cbn [bind]. cbv zeta. eexists. split; [reflexivity|].
  apply inv_coll_changed; [|apply upd_coll; [apply (i_ids may s I)|exact K|exact KI]|exact KC].
  apply inv_links; [exact I| | |].
  - apply nodup_snoc; [now apply (i_once may s I)|now apply H].
  - intros j J. apply in_app_iff in J. destruct J as [J|[J|[]]]; [now apply (i_links may s I k)|subst j; rewrite <- RI; now apply alive_in].
  - intros d D X. replace d with k; [exact KC|]. apply (nodup_inj r_id (s_res s)); [apply (i_ids may s I)|exact K|exact D|congruence].
Qed.
Lemma inv_remove_link c i s : inv s -> exists t, remove_link may c i s = Some t /\ inv t.
Proof.
  intros I. unfold remove_link. destruct (find_res s c) as [k|] eqn:E; [|now exists s].
  destruct (find_res_some _ _ _ E) as (K & KI).
  destruct (r_coll k) eqn:KC; cbn [andb]; [|now exists s].
  destruct (mem i (r_links k)); [|now exists s]. cbv zeta. eexists. split; [reflexivity|].
  apply inv_coll_changed; [|apply upd_coll; [apply (i_ids may s I)|exact K|exact KI]|exact KC].
  apply inv_links; [exact I|apply remove1_nodup; now apply (i_once may s I)| |].
  - intros j J. apply remove1_in in J. now apply (i_links may s I k).
  - intros d D X. replace d with k; [exact KC|]. apply (nodup_inj r_id (s_res s)); [apply (i_ids may s I)|exact K|exact D|congruence].
Qed.

Lemma answer_ok s cl t f u b : inv s -> answer may s cl t f = Some (u, b) ->
  obs_ok s (mk_obs (s_next s) cl t u f).
Proof.
  intros I. unfold answer, obs_ok. cbn. destruct t as [|i].
  - intros H. injection H as <- _. reflexivity.
  - destruct (find_res s i) as [r|] eqn:E; cbn [bind]; [|discriminate]. destruct (negb _); [discriminate|].
    intros H. injection H as <- _. destruct (find_res_some _ _ _ E) as (R & RI). now exists r.
Qed.
Lemma inv_snoc_obs s o : inv s -> obs_ok s o -> o_id o = s_next s -> inv (set_next (S (s_next s)) (set_obs (s_obs s ++ [o]) s)).
Proof.
  intros I H E. constructor; cbn; try apply I.
  - intros r R. destruct (i_new may s I r R). split; [lia|assumption].
  - rewrite map_app. cbn [map]. apply nodup_snoc; [apply (i_oids may s I)|]. intros X. apply in_map_iff in X.
    destruct X as (p & X & P). pose proof (i_onew may s I p P). lia.
  - intros p P. apply in_app_iff in P. destruct P as [P|[P|[]]]; [pose proof (i_onew may s I p P); lia|subst p; lia].
  - intros p P. apply in_app_iff in P. destruct P as [P|[P|[]]]; [now apply (i_obs may s I)|now subst p].
  - intros e X. destruct (i_ent may s I e X) as (p & P & Y). exists p. cbn. rewrite in_app_iff. auto.
Qed.
Lemma inv_register big cl t f s : inv s -> exists s', register may big cl t f s = Some s' /\ inv s'.
Proof.
  intros I. unfold register. destruct (answer may s cl t f) as [(u & b)|] eqn:E; [|now exists s]. cbv zeta.
  assert (J : inv (free_bw (xfer_of cl u f) s)) by (eapply inv_frame; [apply frame_free|exact I]).
  destruct (drop_observers_ok may (fun o => (o_cl o =? cl) && (o_url o =? u) && (o_if o =? f)%N) _ J) as (s2 & -> & J2 & T).
  cbn [bind]. eexists. split; [reflexivity|]. eapply inv_frame; [apply frame_emit|].
  assert (R : s_res s2 = s_res s).
  { destruct T as (-> & _). apply frame_free. }
  assert (K : inv (set_next (S (s_next s2)) (set_obs (s_obs s2 ++ [mk_obs (s_next s2) cl t u f]) s2))).
  { apply inv_snoc_obs; [exact J2| |reflexivity]. pose proof (answer_ok s cl t f u b I E) as X.
    unfold obs_ok in *. cbn in *. now rewrite R. }
  destruct big; [apply inv_bw|]; exact K.
Qed.

Lemma inv_fire big t s : inv s -> exists s', fire may big t s = Some s' /\ inv s'.
Proof.
  intros I. destruct t as [| |i|i|i|i]; cbn [fire].
  - destruct (s_disp s); [|now exists s]. apply inv_process, inv_disp, I.
  - destruct (s_added s); [|now exists s]. apply inv_process. eapply inv_frame; [apply frame_disc|]. apply inv_added, I.
  - destruct (mem i (s_chg s)) eqn:M; [|now exists s]. apply mem_in in M. apply inv_notify; [|now apply (i_chg may s I)].
    apply inv_chg; [exact I|]. intros j J. apply without_in in J. now apply (i_chg may s I).
  - destruct (mem i (s_ntf s)) eqn:M; [|now exists s]. apply mem_in in M. apply inv_notify; [|now apply (i_ntf may s I)].
    apply inv_ntf; [exact I|]. intros j J. apply without_in in J. now apply (i_ntf may s I).
  - destruct (mem i (s_ll s)) eqn:M; [|now exists s]. apply mem_in in M. destruct (i_ll may s I i M) as (c & C & CI & CC).
    subst i. rewrite (find_res_in s c (i_ids may s I) C). cbn [bind]. destruct (links_ok s c I C) as (us & ->). cbn [bind]. cbv zeta.
    eexists. split; [reflexivity|].
    assert (J : inv (notify_coll big c LL (BLinks (r_id c) LL (r_links c)) (set_ll (without (r_id c) (s_ll s)) s))).
    { eapply inv_frame; [apply frame_coll|]. apply inv_ll; [exact I|]. intros j J. apply without_in in J. now apply (i_ll may s I). }
    apply inv_base; [exact J|]. intros j X. apply reset_in in X. destruct X as [X|X]; [now apply (i_base may _ J)|].
    subst j. destruct (frame_coll big c LL (BLinks (r_id c) LL (r_links c)) (set_ll (without (r_id c) (s_ll s)) s)) as (F & _).
    exists c. rewrite F. cbn. auto.
  - destruct (mem i (s_base s)) eqn:M; [|now exists s]. apply mem_in in M. destruct (i_base may s I i M) as (c & C & CI & CC).
    subst i. rewrite (find_res_in s c (i_ids may s I) C). cbn [bind]. destruct (links_ok s c I C) as (us & ->). cbn [bind].
    eexists. split; [reflexivity|]. eapply inv_frame; [apply frame_coll|]. apply inv_base; [exact I|].
    intros j J. apply without_in in J. now apply (i_base may s I).
Qed.

Lemma step_ok s p : inv s -> cautious s p -> exists t, step may s p = Some t /\ inv t.
Proof.
  intros I H. destruct p as [u v coll def disc obsv get|i|i|c i|c i|big cl t f|i|big i v|i v|i v|big t|cl u f|cl u f|b]; cbn [step].
  - eexists. split; [reflexivity|]. now apply inv_add.
  - destruct (inv_delete i s I) as (t & A & J & _). now exists t.
  - now apply inv_delete_coll.
  - now apply inv_add_link.
  - now apply inv_remove_link.
  - now apply inv_register.
  - destruct (find_obs s i) as [o|] eqn:E; [|now exists s]. destruct (find_obs_some _ _ _ E) as (O & _).
    rewrite drop_observer_eq by now apply (target_ok may). eexists. split; [reflexivity|]. now apply inv_dropped.
  - destruct (find_res s i) as [r|] eqn:E; [|now exists s]. destruct (find_res_some _ _ _ E) as (R & RI).
    apply inv_notify; [now apply inv_val|]. apply alive_upd; [reflexivity|]. rewrite <- RI. now apply alive_in.
  - destruct (find_res s i) as [r|] eqn:E; [|now exists s]. destruct (find_res_some _ _ _ E) as (R & RI). cbv zeta.
    eexists. split; [reflexivity|]. pose proof (inv_val may i v s I) as J. apply inv_chg; [exact J|].
    intros j X. apply reset_in in X. destruct X as [X|X]; [now apply (i_chg may _ J)|]. subst j.
    apply alive_upd; [reflexivity|]. rewrite <- RI. now apply alive_in.
  - destruct (find_res s i) as [r|] eqn:E; [|now exists s]. destruct (find_res_some _ _ _ E) as (R & RI). cbv zeta.
    eexists. split; [reflexivity|]. pose proof (inv_val may i v s I) as J. destruct (is_observed _ i); [|exact J]. apply inv_ntf; [exact J|].
    intros j X. apply reset_in in X. destruct X as [X|X]; [now apply (i_ntf may _ J)|]. subst j.
    apply alive_upd; [reflexivity|]. rewrite <- RI. now apply alive_in.
  - now apply inv_fire.
  - eexists. split; [reflexivity|]. eapply inv_frame; [apply frame_free|exact I].
  - eexists. split; [reflexivity|]. now apply inv_bw.
  - eexists. split; [reflexivity|]. now apply inv_nop.
Qed.

Lemma run_ok ps s : inv s -> careful may s ps -> exists t, run may s ps = Some t /\ inv t.
Proof.
  revert s. induction ps as [|p ps IH]; intros s I H; cbn [run]; [now exists s|].
  cbn [careful] in H. destruct H as (H1 & H2). destruct (step_ok s p I H1) as (t & E & J). rewrite E. cbn [bind].
  apply IH; [exact J|]. now apply H2.
Qed.
Lemma run_inv ps t : careful may init ps -> run may init ps = Some t -> inv t.
Proof.
  intros H E. destruct (run_ok ps init (inv_init may) H) as (u & F & J). congruence.
Qed.
End Safe.
