(** Proofs about ownership transfer, part 1: what the end of a transfer does
    to the others. *)

From Coq Require Import List Bool Arith Lia.
From Verif Require Obt_Proofs.
From Verif Require Import Otm_Model Otm_Spec.
Import ListNotations.

Definition ids (s : st) : list nat := map cid (ctxs s).
Definition owners (s : st) : list nat := map rown (reqs s).

Definition keepc (L : list nat) (x : ctx) : bool := negb (member (cid x) L).
Definition keepr (L : list nat) (r : req) : bool := negb (member (rown r) L).

Definition gone (L : list nat) (c : nat) : list ev :=
  if member c L then [ELost c; EReport c false] else [].

(** The device [h] belongs to a transfer in L. *)
Definition of_one (L : list nat) (h : nat) (s : st) : Prop :=
  exists x, In x (ctxs s) /\ In (cid x) L /\ hnd x = h.

(** What happens to devices and credentials when the transfers in L end. *)
Record calm (L : list nat) (s s' : st) : Prop := mkcalm {
  k_gets : gets s' = gets s;
  k_len : length (heap s') = length (heap s);
  k_du : forall h, du (get h s') = du (get h s);
  k_da : forall h, da (get h s') = da (get h s);
  k_dl : forall h, dl (get h s') = dl (get h s) \/ of_one L h s;
  k_cred : forall p, In p (creds s) -> In p (creds s') \/
     exists h, of_one L h s /\ du (get h s) = fst p;
  k_sub : forall p, In p (creds s') -> In p (creds s) }.

(** The transfers in L ended with a lost connection, the others did not
    change. *)
Record frame (L : list nat) (s s' : st) : Prop := mkframe {
  fr_ctxs : ctxs s' = filter (keepc L) (ctxs s);
  fr_reqs : reqs s' = filter (keepr L) (reqs s);
  fr_next : next s' = next s;
  fr_hist : forall c, history c (tr s') = history c (tr s) ++ gone L c;
  fr_in : forall c, In c L -> In c (owners s);
  fr_stuck : In EStuck (tr s') -> In EStuck (tr s);
  fr_calm : calm L s s' }.

Definition pre (s : st) : Prop :=
  NoDup (ids s) /\ NoDup (owners s) /\ (forall c, In c (owners s) -> In c (ids s)).

(** [c] is live and has no pending request. *)
Definition pre1 (c : nat) (s : st) : Prop :=
  pre s /\ In c (ids s) /\ ~ In c (owners s).

Lemma member_in : forall x l, member x l = true <-> In x l.
Proof.
  intros x l. unfold member. rewrite existsb_exists. split.
  - intros [y [H E]]. apply Nat.eqb_eq in E. subst. exact H.
  - intros H. exists x. split; [exact H|apply Nat.eqb_refl].
Qed.

Lemma member_false : forall x l, member x l = false <-> ~ In x l.
Proof.
  intros. rewrite <- member_in. destruct (member x l); split; intro; congruence.
Qed.

Lemma member_app : forall x a b, member x (a ++ b) = member x a || member x b.
Proof. intros. unfold member. apply existsb_app. Qed.

Lemma history_app : forall c a b, history c (a ++ b) = history c a ++ history c b.
Proof. intros. apply filter_app. Qed.

Lemma ids_filter : forall L l,
  map cid (filter (keepc L) l) = filter (fun x => negb (member x L)) (map cid l).
Proof. intros. unfold keepc. apply (Obt_Proofs.map_filter _ _ cid (fun x => negb (member x L))). Qed.

Lemma owners_filter : forall L l,
  map rown (filter (keepr L) l) = filter (fun x => negb (member x L)) (map rown l).
Proof. intros. unfold keepr. apply (Obt_Proofs.map_filter _ _ rown (fun x => negb (member x L))). Qed.

Lemma in_keep : forall L l c,
  In c (filter (fun x => negb (member x L)) l) <-> In c l /\ ~ In c L.
Proof.
  intros. rewrite filter_In, negb_true_iff, member_false. reflexivity.
Qed.

Lemma frame_pre : forall L s s', pre s -> frame L s s' -> pre s'.
Proof.
  intros L s s' [A [B C]] F. unfold pre, ids, owners.
  rewrite (fr_ctxs _ _ _ F), (fr_reqs _ _ _ F), ids_filter, owners_filter.
  split; [apply NoDup_filter; exact A|]. split; [apply NoDup_filter; exact B|].
  intros c. rewrite !in_keep. intros [K1 K2]. split; [apply C; exact K1|exact K2].
Qed.

Lemma keep_none : forall l, filter (keepc []) l = l.
Proof. intros. apply Obt_Proofs.filter_true. reflexivity. Qed.

Lemma keepr_none : forall l, filter (keepr []) l = l.
Proof. intros. apply Obt_Proofs.filter_true. reflexivity. Qed.

Lemma calm_refl : forall s, calm [] s s.
Proof. intros s. split; auto. Qed.

Lemma frame_refl : forall s, frame [] s s.
Proof.
  intros s. split; try reflexivity.
  - symmetry. apply keep_none.
  - symmetry. apply keepr_none.
  - intros c. unfold gone. cbn. rewrite app_nil_r. reflexivity.
  - intros c [].
  - auto.
  - apply calm_refl.
Qed.

Lemma calm_trans : forall L M s a b,
  (forall x, In x (ctxs a) -> In x (ctxs s)) ->
  calm L s a -> calm M a b -> calm (L ++ M) s b.
Proof.
  intros L M s a b I F G. 
  assert (O1 : forall h, of_one L h s -> of_one (L ++ M) h s).
  { intros h [x [A [B C]]]. exists x. split; [exact A|]. split; [apply in_or_app; left; exact B|exact C]. }
  assert (O2 : forall h, of_one M h a -> of_one (L ++ M) h s).
  { intros h [x [A [B C]]]. exists x. split; [apply I; exact A|]. split; [apply in_or_app; right; exact B|exact C]. }
  destruct F as [F1 F2 F3 F4 F5 F6 F7], G as [G1 G2 G3 G4 G5 G6 G7]. split.
  - congruence.
  - congruence.
  - intros h. rewrite G3. apply F3.
  - intros h. rewrite G4. apply F4.
  - intros h. destruct (F5 h) as [K|K]; [|right; apply O1; exact K].
    destruct (G5 h) as [J|J]; [left; congruence|right; apply O2; exact J].
  - intros p H. destruct (F6 p H) as [K|[h [K1 K2]]].
    + destruct (G6 p K) as [J|[h [J1 J2]]]; [left; exact J|right].
      exists h. split; [apply O2; exact J1|rewrite <- F3; exact J2].
    + right. exists h. split; [apply O1; exact K1|exact K2].
  - intros p H. apply F7. apply G7. exact H.
Qed.

Lemma frame_trans : forall L M s a b,
  frame L s a -> frame M a b -> frame (L ++ M) s b.
Proof.
  intros L M s a b F G.
  assert (D : forall c, In c M -> ~ In c L).
  { intros c H. apply (fr_in _ _ _ G) in H. unfold owners in H.
    rewrite (fr_reqs _ _ _ F), owners_filter in H. apply in_keep in H. apply H. }
  split.
  - rewrite (fr_ctxs _ _ _ G), (fr_ctxs _ _ _ F), Obt_Proofs.filter_filter.
    apply filter_ext. intros x. unfold keepc. rewrite member_app, negb_orb. reflexivity.
  - rewrite (fr_reqs _ _ _ G), (fr_reqs _ _ _ F), Obt_Proofs.filter_filter.
    apply filter_ext. intros x. unfold keepr. rewrite member_app, negb_orb. reflexivity.
  - rewrite (fr_next _ _ _ G). apply (fr_next _ _ _ F).
  - intros c. rewrite (fr_hist _ _ _ G), (fr_hist _ _ _ F), <- app_assoc. f_equal.
    unfold gone. rewrite member_app. specialize (D c).
    destruct (member c L) eqn:E1, (member c M) eqn:E2; try reflexivity.
    apply member_in in E1, E2. destruct (D E2 E1).
  - intros c H. apply in_app_or in H. destruct H as [H|H]; [apply (fr_in _ _ _ F); exact H|].
    apply (fr_in _ _ _ G) in H. unfold owners in *.
    rewrite (fr_reqs _ _ _ F), owners_filter in H. apply in_keep in H. apply H.
  - intros H. apply (fr_stuck _ _ _ F). apply (fr_stuck _ _ _ G). exact H.
  - apply (calm_trans _ _ _ a); [|apply F|apply G].
    intros x X. rewrite (fr_ctxs _ _ _ F) in X. apply filter_In in X. apply X.
Qed.

(** Events nobody's history has. *)
Lemma frame_emit : forall e s, (forall c, about c e = false) -> e <> EStuck ->
  frame [] s (emit e s).
Proof.
  intros e s A B. destruct (frame_refl s) as [F1 F2 F3 F5 F6 F7 F8].
  split; try assumption.
  - intros c. unfold emit. cbn [tr]. rewrite history_app. unfold history at 2. cbn [filter].
    rewrite A. rewrite app_nil_r. apply F5.
  - unfold emit. cbn [tr]. intros H. apply in_app_or in H. destruct H as [H|[H|[]]]; [exact H|].
    destruct (B H).
  - split; auto.
Qed.

Lemma frame_touch : forall h s, frame [] s (touch h s).
Proof.
  intros. unfold touch. destruct (is_freed (dl (get h s))); [|apply frame_refl].
  apply frame_emit; [reflexivity|discriminate].
Qed.

(** The end of one transfer: [c] leaves with [w], the others as above. *)
Record ends (c : nat) (w : list ev) (L : list nat) (s s' : st) : Prop := mkends {
  en_ctxs : ctxs s' = filter (keepc (c :: L)) (ctxs s);
  en_reqs : reqs s' = filter (keepr L) (reqs s);
  en_next : next s' = next s;
  en_hist : forall x, history x (tr s') =
     history x (tr s) ++ gone L x ++ (if x =? c then w else []);
  en_in : forall x, In x L -> In x (owners s);
  en_stuck : In EStuck (tr s') -> In EStuck (tr s);
  en_calm : calm (c :: L) s s' }.

Lemma calm_less : forall L M s s', calm L s s' -> (forall x, In x L -> In x M) -> calm M s s'.
Proof.
  intros L M s s' F I.
  assert (O : forall h, of_one L h s -> of_one M h s).
  { intros h [x [A [B C]]]. exists x. auto. }
  destruct F as [F1 F2 F3 F4 F5 F6 F7]. split; try assumption.
  - intros h. destruct (F5 h); auto.
  - intros p H. destruct (F6 p H) as [K|[h [K1 K2]]]; [auto|right; exists h; auto].
Qed.

(** The transfer is taken off the list first. *)
Lemma ends_start : forall c s, ends c [] [] s (drop_ctx c s).
Proof.
  intros. unfold drop_ctx, set_ctxs. split; cbn [ctxs reqs next tr].
  - apply filter_ext. intros x. unfold keepc. cbn [member existsb]. rewrite orb_false_r. reflexivity.
  - symmetry. apply keepr_none.
  - reflexivity.
  - intros x. unfold gone. cbn. destruct (x =? c); rewrite app_nil_r; reflexivity.
  - intros x [].
  - auto.
  - split; auto.
Qed.

Lemma ends_frame : forall c w L M s a b,
  ends c w L s a -> w = [] -> frame M a b -> ends c w (L ++ M) s b.
Proof.
  intros c w L M s a b F W G. subst w.
  assert (D : forall x, In x M -> ~ In x L).
  { intros x H. apply (fr_in _ _ _ G) in H. unfold owners in H.
    rewrite (en_reqs _ _ _ _ _ F), owners_filter in H. apply in_keep in H. apply H. }
  split.
  - rewrite (fr_ctxs _ _ _ G), (en_ctxs _ _ _ _ _ F), Obt_Proofs.filter_filter.
    apply filter_ext. intros x. unfold keepc. change (c :: L ++ M) with ((c :: L) ++ M).
    rewrite member_app, negb_orb. reflexivity.
  - rewrite (fr_reqs _ _ _ G), (en_reqs _ _ _ _ _ F), Obt_Proofs.filter_filter.
    apply filter_ext. intros x. unfold keepr. rewrite member_app, negb_orb. reflexivity.
  - rewrite (fr_next _ _ _ G). apply (en_next _ _ _ _ _ F).
  - intros x. rewrite (fr_hist _ _ _ G), (en_hist _ _ _ _ _ F), <- !app_assoc. f_equal.
    replace (if x =? c then [] else []) with (@nil ev) by (destruct (x =? c); reflexivity).
    unfold gone. rewrite member_app. specialize (D x).
    destruct (member x L) eqn:E1, (member x M) eqn:E2; try reflexivity.
    apply member_in in E1, E2. destruct (D E2 E1).
  - intros x H. apply in_app_or in H. destruct H as [H|H]; [apply (en_in _ _ _ _ _ F); exact H|].
    apply (fr_in _ _ _ G) in H. unfold owners in *.
    rewrite (en_reqs _ _ _ _ _ F), owners_filter in H. apply in_keep in H. apply H.
  - intros H. apply (en_stuck _ _ _ _ _ F). apply (fr_stuck _ _ _ G). exact H.
  - apply (calm_trans (c :: L) M _ a); [|apply F|apply G].
    intros x X. rewrite (en_ctxs _ _ _ _ _ F) in X. apply filter_In in X. apply X.
Qed.

(** Changes of devices and credentials only. *)
Definition still (s s' : st) : Prop :=
  ctxs s' = ctxs s /\ reqs s' = reqs s /\ next s' = next s /\
  (forall x, history x (tr s') = history x (tr s)) /\ (In EStuck (tr s') -> In EStuck (tr s)).

Lemma ends_still : forall c w L s a b,
  ends c w L s a -> still a b -> calm (c :: L) s b -> ends c w L s b.
Proof.
  intros c w L s a b F [A [B [C [D E]]]] K.
  destruct F as [F1 F2 F3 F4 F5 F6 F7]. split; try congruence; auto.
  intros x. rewrite D. apply F4.
Qed.

Lemma ends_emit : forall c w L s a e,
  ends c w L s a -> (forall x, about x e = (x =? c)) -> e <> EStuck ->
  ends c (w ++ [e]) L s (emit e a).
Proof.
  intros c w L s a e F A B.
  destruct F as [F1 F2 F3 F5 F6 F7 F8]. split; try assumption.
  - intros x. unfold emit. cbn [tr]. rewrite history_app. unfold history at 2. cbn [filter].
    rewrite A, F5, <- !app_assoc. f_equal. f_equal.
    destruct (x =? c); [reflexivity|apply app_nil_r].
  - unfold emit. cbn [tr]. intros H. apply in_app_or in H. destruct H as [H|[H|[]]]; [apply F7; exact H|].
    destruct (B H).
  - destruct F8. split; assumption.
Qed.

Lemma ends_quiet : forall c w L s a e,
  ends c w L s a -> (forall x, about x e = false) -> e <> EStuck ->
  ends c w L s (emit e a).
Proof.
  intros c w L s a e F A B.
  destruct F as [F1 F2 F3 F5 F6 F7 F8]. split; try assumption.
  - intros x. unfold emit. cbn [tr]. rewrite history_app. unfold history at 2. cbn [filter].
    rewrite A, app_nil_r. apply F5.
  - unfold emit. cbn [tr]. intros H. apply in_app_or in H. destruct H as [H|[H|[]]]; [apply F7; exact H|].
    destruct (B H).
  - destruct F8. split; assumption.
Qed.

Lemma ends_touch : forall c w L s a h, ends c w L s a -> ends c w L s (touch h a).
Proof.
  intros. unfold touch. destruct (is_freed (dl (get h a))); [|assumption].
  apply ends_quiet; [assumption|reflexivity|discriminate].
Qed.

(** [put]. *)
Lemma put_len : forall A (l : list A) h x, length (put h x l) = length l.
Proof. induction l; intros [|h] x; cbn [put length]; auto. Qed.

Lemma put_nth : forall A (l : list A) h i x d,
  nth i (put h x l) d = if (i =? h) && (h <? length l) then x else nth i l d.
Proof.
  induction l as [|y l IH]; intros h i x d.
  - destruct h; cbn [put length]; rewrite andb_false_r; reflexivity.
  - destruct h as [|h], i as [|i]; cbn [put nth length]; try reflexivity.
    rewrite IH. reflexivity.
Qed.

Lemma get_put : forall h i d s,
  get i (set_dev h d s) = if (i =? h) && (h <? length (heap s)) then d else get i s.
Proof. intros. unfold get, set_dev, set_heap. cbn [heap]. apply put_nth. Qed.

(** The end of c changes where its device is kept, and nothing else. *)
Lemma calm_place : forall L s a h p,
  calm L s a -> of_one L h s ->
  calm L s (set_dev h (mkdev (du (get h a)) (da (get h a)) p) a).
Proof.
  intros L s a h p F O. destruct F as [F1 F2 F3 F4 F5 F6 F7]. split; try assumption.
  - unfold set_dev, set_heap. cbn [heap]. rewrite put_len. exact F2.
  - intros i. rewrite get_put. destruct ((i =? h) && _) eqn:E; [|apply F3].
    apply andb_true_iff in E. destruct E as [E _]. apply Nat.eqb_eq in E. subst. apply F3.
  - intros i. rewrite get_put. destruct ((i =? h) && _) eqn:E; [|apply F4].
    apply andb_true_iff in E. destruct E as [E _]. apply Nat.eqb_eq in E. subst. apply F4.
  - intros i. rewrite get_put. destruct ((i =? h) && _) eqn:E; [|apply F5].
    apply andb_true_iff in E. destruct E as [E _]. apply Nat.eqb_eq in E. subst. right. exact O.
Qed.

Lemma remove_first_in : forall u p l, In p l -> In p (remove_first u l) \/ fst p = u.
Proof.
  induction l as [|q l IH]; intros H; [destruct H|]. cbn [remove_first].
  destruct (fst q =? u) eqn:E.
  - destruct H as [<-|H]; [right; apply Nat.eqb_eq; exact E|left; exact H].
  - destruct H as [<-|H]; [left; left; reflexivity|].
    destruct (IH H) as [K|K]; [left; right; exact K|right; exact K].
Qed.

Lemma remove_first_sub : forall u p l, In p (remove_first u l) -> In p l.
Proof.
  induction l as [|q l IH]; cbn [remove_first]; intros H; [exact H|].
  destruct (fst q =? u); [right; exact H|]. destruct H as [H|H]; [left; exact H|right; apply IH; exact H].
Qed.

Lemma calm_forget : forall L s a h,
  calm L s a -> of_one L h s -> calm L s (forget (du (get h a)) a).
Proof.
  intros L s a h F O. assert (D := k_du _ _ _ F h). destruct F as [F1 F2 F3 F4 F5 F6 F7].
  split; try assumption; unfold forget, set_creds; cbn [creds].
  - intros p H. destruct (F6 p H) as [K|K]; [|right; exact K].
    destruct (remove_first_in (du (get h a)) p _ K) as [J|J]; [left; exact J|right].
    exists h. split; [exact O|congruence].
  - intros p H. apply remove_first_sub in H. apply F7. exact H.
Qed.

Lemma still_refl : forall s, still s s.
Proof. intros. unfold still. auto 10. Qed.

Lemma ends_free : forall c w L s a h, ends c w L s a -> of_one (c :: L) h s ->
  ends c w L s (free_device h a).
Proof.
  intros c w L s a h F O. unfold free_device. destruct (is_freed (dl (get h a))).
  - apply ends_quiet; [exact F|reflexivity|discriminate].
  - apply ends_quiet; [|reflexivity|discriminate].
    apply (ends_still _ _ _ _ a); [exact F|solve [unfold still; repeat split; auto]|apply calm_place; [apply F|exact O]].
Qed.

Lemma ends_move : forall c w L s a h, ends c w L s a -> of_one (c :: L) h s ->
  ends c w L s (move h a).
Proof.
  intros c w L s a h F O. unfold move. destruct (is_freed (dl (get h a))).
  - apply ends_quiet; [exact F|reflexivity|discriminate].
  - apply (ends_still _ _ _ _ a); [exact F|solve [unfold still; repeat split; auto]|apply calm_place; [apply F|exact O]].
Qed.

(** Taking a request. *)
Lemma pop_spec : forall u l r l', pop u l = Some (r, l') -> NoDup (map rown l) ->
  In r l /\ l' = filter (keepr [rown r]) l.
Proof.
  induction l as [|q l IH]; cbn [pop]; intros r l' H N; [discriminate|].
  cbn [map] in N. inversion N as [|? ? N1 N2]; subst.
  destruct (secure (rmsg q) && (raddr q =? u)) eqn:E.
  - injection H as <- <-. split; [left; reflexivity|].
    cbn [filter]. unfold keepr at 1. cbn [member existsb]. rewrite Nat.eqb_refl. cbn [orb negb].
    symmetry. apply Obt_Proofs.filter_true. intros x X. unfold keepr. cbn [member existsb].
    rewrite orb_false_r. apply negb_true_iff. apply Nat.eqb_neq. intros Q.
    apply N1. rewrite <- Q. apply in_map. exact X.
  - destruct (pop u l) as [[x k]|] eqn:P; [|discriminate]. injection H as <- <-.
    destruct (IH _ _ eq_refl N2) as [A B]. split; [right; exact A|].
    cbn [filter]. assert (K : keepr [rown x] q = true).
    { unfold keepr. cbn [member existsb]. rewrite orb_false_r. apply negb_true_iff.
      apply Nat.eqb_neq. intros Q. apply N1. rewrite Q. apply in_map. exact A. }
    rewrite K, <- B. reflexivity.
Qed.

Lemma find_ctx_in : forall c s, In c (ids s) -> exists x, find_ctx c s = Some x /\ In x (ctxs s) /\ cid x = c.
Proof.
  intros c s H. unfold ids in H. apply in_map_iff in H. destruct H as [x [E X]].
  unfold find_ctx. destruct (find (fun y => cid y =? c) (ctxs s)) as [y|] eqn:F.
  - exists y. split; [reflexivity|]. apply find_some in F. destruct F as [F1 F2].
    split; [exact F1|apply Nat.eqb_eq; exact F2].
  - apply (find_none _ _ F) in X. rewrite E, Nat.eqb_refl in X. discriminate.
Qed.

Lemma ends_pre : forall c w L s s', pre1 c s -> ends c w L s s' -> pre s'.
Proof.
  intros c w L s s' [[A [B C]] [K N]] F. unfold pre, ids, owners.
  rewrite (en_ctxs _ _ _ _ _ F), (en_reqs _ _ _ _ _ F), ids_filter, owners_filter.
  split; [apply NoDup_filter; exact A|]. split; [apply NoDup_filter; exact B|].
  intros x. rewrite !in_keep. cbn [In]. fold (ids s). fold (owners s).
  intros [K1 K2]. split; [apply C; exact K1|]. intros [<-|J]; [exact (N K1)|exact (K2 J)].
Qed.

Definition has (c h : nat) (s : st) : Prop :=
  exists x, In x (ctxs s) /\ cid x = c /\ hnd x = h.

Lemma frames :
  forall f,
   (forall up c good s, 2 * length (reqs s) + 2 <= f ->
      has (cid c) (hnd c) s -> pre1 (cid c) s ->
      exists L, ends (cid c) [EReport (cid c) good] L s (finish f up c good s)) /\
   (forall up u s, 2 * length (reqs s) + 1 <= f -> pre s ->
      exists L, frame L s (close f up u s)).
Proof.
  induction f as [|f [IH1 IH2]].
  - split; intros; exfalso; lia.
  - split.
    + intros up c good s Hf [z [Z1 [Z2 Z3]]] P. cbn [finish].
      assert (OO : forall L, of_one (cid c :: L) (hnd c) s).
      { intros L. exists z. split; [exact Z1|]. split; [left; symmetry; exact Z2|exact Z3]. }
      pose proof (ends_touch _ _ _ _ _ (hnd c) (ends_start (cid c) s)) as E0.
      set (s0 := touch (hnd c) (drop_ctx (cid c) s)) in *. clearbody s0.
      assert (R : 2 * length (reqs s0) + 1 <= f).
      { rewrite (en_reqs _ _ _ _ _ E0). pose proof (Obt_Proofs.filter_shorter _ (keepr []) (reqs s)). lia. }
      destruct (IH2 up (da (get (hnd c) s0)) s0 R (ends_pre _ _ _ _ _ P E0)) as [L F].
      assert (E := ends_frame _ _ _ _ _ _ _ E0 eq_refl F). cbn [app] in E.
      set (s1 := close f up (da (get (hnd c) s0)) s0) in *. clearbody s1.
      exists L. change [EReport (cid c) good] with ([] ++ [EReport (cid c) good]).
      destruct good.
      * apply ends_emit; [|intros; apply Nat.eqb_sym|discriminate].
        destruct (kd c); first [apply ends_touch; exact E|apply ends_move; [exact E|apply OO]].
      * apply ends_free; [|apply OO].
        apply ends_emit; [|intros; apply Nat.eqb_sym|discriminate].
        assert (E2 := ends_touch _ _ _ _ _ (hnd c) E).
        apply (ends_still _ _ _ _ (touch (hnd c) s1)); [exact E2|solve [unfold still; repeat split; auto]|].
        apply calm_forget; [apply E2|apply OO].
    + intros up u s Hf P. cbn [close].
      destruct (member u up); [|exists []; apply frame_refl].
      destruct (pop u (reqs s)) as [[r l]|] eqn:Q; [|exists []; apply frame_refl].
      assert (P' := P). destruct P' as [P1 [P2 P3]].
      destruct (pop_spec _ _ _ _ Q P2) as [R1 R2].
      assert (Rn : In (rown r) (owners s)) by (apply in_map; exact R1).
      assert (Rl : length l < length (reqs s)).
      { rewrite R2. apply (Obt_Proofs.filter_less _ _ _ r R1). unfold keepr. cbn [member existsb].
        rewrite Nat.eqb_refl. reflexivity. }
      set (s1 := emit (ELost (rown r)) (set_reqs l s)).
      assert (Rs : reqs s1 = l) by reflexivity.
      assert (Rc : ctxs s1 = ctxs s) by reflexivity.
      assert (W1 : pre1 (rown r) s1).
      { unfold pre1. change (ids s1) with (ids s).
        assert (O1 : owners s1 = filter (fun x => negb (member x [rown r])) (owners s)).
        { unfold owners. rewrite Rs, R2. apply owners_filter. }
        unfold pre. change (ids s1) with (ids s). rewrite O1.
        split; [split; [exact P1|split; [apply NoDup_filter; exact P2|]]|].
        - intros x. rewrite in_keep. intros [K _]. apply P3. exact K.
        - split; [apply P3; exact Rn|]. rewrite in_keep. intros [_ K]. apply K. left. reflexivity. }
      destruct (find_ctx_in (rown r) s1) as [c [Fc [Ic Ec]]].
      { destruct W1 as [_ [W _]]. exact W. }
      rewrite Fc. rewrite <- Ec in W1.
      destruct (IH1 up c false s1) as [L E]; [rewrite Rs; lia|exists c; auto|exact W1|].
      set (s2 := finish f up c false s1) in *. clearbody s2.
      assert (NL : ~ In (rown r) L).
      { intros H. apply (en_in _ _ _ _ _ E) in H. destruct W1 as [_ [_ W]].
        apply W. rewrite Ec. exact H. }
      assert (F : frame (rown r :: L) s s2).
      { rewrite Ec in E. destruct E as [E1 E2 E3 E5 E6 E7 E8]. split.
        - rewrite E1, Rc. reflexivity.
        - rewrite E2, Rs, R2, Obt_Proofs.filter_filter. apply filter_ext. intros x. unfold keepr.
          change (rown r :: L) with ([rown r] ++ L). rewrite member_app, negb_orb. reflexivity.
        - rewrite E3. reflexivity.
        - intros x. rewrite E5. unfold s1, emit. cbn [tr set_reqs]. rewrite history_app, <- app_assoc.
          f_equal. unfold history. cbn [filter about]. unfold gone.
          cbn [member existsb]. rewrite (Nat.eqb_sym (rown r) x).
          destruct (x =? rown r) eqn:X; cbn [orb].
          + apply Nat.eqb_eq in X. rewrite X.
            apply member_false in NL. rewrite NL. reflexivity.
          + fold (member x L). rewrite app_nil_r. reflexivity.
        - intros x [<-|H]; [exact Rn|]. apply E6 in H. unfold owners in H. rewrite Rs, R2 in H.
          rewrite owners_filter in H. apply in_keep in H. apply H.
        - intros H. apply E7 in H. unfold s1, emit in H. cbn [tr set_reqs] in H.
          apply in_app_or in H. destruct H as [H|[H|[]]]; [exact H|discriminate H].
        - destruct E8 as [K1 K2 K3 K4 K5 K6 K7]. split; assumption. }
      destruct (IH2 up u s2) as [M G].
      { rewrite (fr_reqs _ _ _ F), (filter_ext (keepr (rown r :: L)) (fun x => keepr [rown r] x && keepr L x)).
        2:{ intros x. unfold keepr. change (rown r :: L) with ([rown r] ++ L).
            rewrite member_app, negb_orb. reflexivity. }
        rewrite <- Obt_Proofs.filter_filter, <- R2. pose proof (Obt_Proofs.filter_shorter _ (keepr L) l). lia. }
      { apply (frame_pre _ _ _ P F). }
      exists ((rown r :: L) ++ M). apply (frame_trans _ _ _ _ _ F G).
Qed.
