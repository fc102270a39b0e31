(** Proofs about the onboarding tool, part 1: what the end of an operation
    does to the others. *)

From Coq Require Import List Bool Arith Lia.
From Verif Require Import Obt_Model Obt_Spec.
Import ListNotations.

Definition ids (s : st) : list nat := map cid (ctxs s).
Definition owners (s : st) : list nat := map rown (reqs s).

Definition keepc (L : list nat) (x : ctx) : bool := negb (member (cid x) L).
Definition keepr (L : list nat) (r : req) : bool := negb (member (rown r) L).

Definition gone (L : list nat) (c : nat) : list ev :=
  if member c L then [ELost c; EReport c false] else [].

(** The operations in L ended with a lost connection, the others did not
    change. *)
Record frame (L : list nat) (s s' : st) : Prop := mkframe {
  fr_ctxs : ctxs s' = filter (keepc L) (ctxs s);
  fr_reqs : reqs s' = filter (keepr L) (reqs s);
  fr_next : next s' = next s;
  fr_nexth : nexth s' = nexth s;
  fr_hist : forall c, history c (tr s') = history c (tr s) ++ gone L c;
  fr_in : forall c, In c L -> In c (owners s);
  fr_stuck : In EStuck (tr s') -> In EStuck (tr s);
  fr_devs : forall d, In d (devs s) -> In d (devs s') \/
     exists x e, In x (ctxs s) /\ In (cid x) L /\ tsk x = TReset e /\ fst e = fst d;
  fr_sub : forall d, In d (devs s') -> In d (devs s);
  fr_nodup : NoDup (map fst (devs s)) -> NoDup (map fst (devs s')) }.

Definition pre (s : st) : Prop :=
  NoDup (ids s) /\ NoDup (owners s) /\ (forall c, In c (owners s) <-> In c (ids s)).

(** [c] is live and has no pending request. *)
Definition pre1 (c : nat) (s : st) : Prop :=
  NoDup (ids s) /\ NoDup (owners s) /\ In c (ids s) /\
  (forall x, In x (owners s) <-> In x (ids s) /\ x <> c).

Lemma member_in : forall x l, member x l = true <-> In x l.
Proof.
  intros x l. unfold member. rewrite existsb_exists. split.
  - intros [y [H E]]. apply Nat.eqb_eq in E. subst. exact H.
  - intros H. exists x. split; [exact H|apply Nat.eqb_refl].
Qed.

Lemma member_false : forall x l, member x l = false <-> ~ In x l.
Proof.
  intros. rewrite <- member_in. destruct (member x l); split; intro; congruence.
Qed.

Lemma member_app : forall x a b, member x (a ++ b) = member x a || member x b.
Proof. intros. unfold member. apply existsb_app. Qed.

Lemma history_app : forall c a b, history c (a ++ b) = history c a ++ history c b.
Proof. intros. apply filter_app. Qed.

Lemma filter_true : forall A (f : A -> bool) l,
  (forall x, In x l -> f x = true) -> filter f l = l.
Proof.
  induction l; cbn [filter]; intros H; [reflexivity|].
  rewrite (H a (or_introl eq_refl)). f_equal. apply IHl. intros. apply H. right. assumption.
Qed.

Lemma filter_filter : forall A (f g : A -> bool) l,
  filter f (filter g l) = filter (fun x => g x && f x) l.
Proof.
  induction l; cbn [filter]; [reflexivity|].
  destruct (g a); cbn [filter andb]; [destruct (f a)|]; rewrite IHl; reflexivity.
Qed.

Lemma map_filter : forall A B (h : A -> B) (f : B -> bool) l,
  map h (filter (fun x => f (h x)) l) = filter f (map h l).
Proof.
  induction l; cbn [filter map]; [reflexivity|].
  destruct (f (h a)); cbn [map]; rewrite IHl; reflexivity.
Qed.

Lemma nodup_filter : forall A (f : A -> bool) l, NoDup l -> NoDup (filter f l).
Proof. intros. apply NoDup_filter. assumption. Qed.

Lemma ids_filter : forall L l,
  map cid (filter (keepc L) l) = filter (fun x => negb (member x L)) (map cid l).
Proof. intros. unfold keepc. apply (map_filter _ _ cid (fun x => negb (member x L))). Qed.

Lemma owners_filter : forall L l,
  map rown (filter (keepr L) l) = filter (fun x => negb (member x L)) (map rown l).
Proof. intros. unfold keepr. apply (map_filter _ _ rown (fun x => negb (member x L))). Qed.

Lemma in_keep : forall L l c,
  In c (filter (fun x => negb (member x L)) l) <-> In c l /\ ~ In c L.
Proof.
  intros. rewrite filter_In, negb_true_iff, member_false. reflexivity.
Qed.

Lemma frame_pre : forall L s s', pre s -> frame L s s' -> pre s'.
Proof.
  intros L s s' [A [B C]] F. unfold pre, ids, owners.
  rewrite (fr_ctxs _ _ _ F), (fr_reqs _ _ _ F), ids_filter, owners_filter.
  split; [apply nodup_filter; exact A|]. split; [apply nodup_filter; exact B|].
  intros c. rewrite !in_keep. rewrite (C c). reflexivity.
Qed.

Lemma keep_none : forall s, filter (keepc []) (ctxs s) = ctxs s.
Proof. intros. apply filter_true. reflexivity. Qed.

Lemma keepr_none : forall l, filter (keepr []) l = l.
Proof. intros. apply filter_true. reflexivity. Qed.

Lemma frame_refl : forall s, frame [] s s.
Proof.
  intros s. split; try reflexivity.
  - symmetry. apply keep_none.
  - symmetry. apply keepr_none.
  - intros c. unfold gone. cbn. rewrite app_nil_r. reflexivity.
  - intros c [].
  - auto.
  - intros d H. left. exact H.
  - auto.
  - auto.
Qed.

Lemma frame_trans : forall L M s a b,
  frame L s a -> frame M a b -> frame (L ++ M) s b.
Proof.
  intros L M s a b F G.
  assert (D : forall c, In c M -> ~ In c L).
  { intros c H. apply (fr_in _ _ _ G) in H. unfold owners in H.
    rewrite (fr_reqs _ _ _ F), owners_filter in H. apply in_keep in H. apply H. }
  split.
  - rewrite (fr_ctxs _ _ _ G), (fr_ctxs _ _ _ F), filter_filter.
    apply filter_ext. intros x. unfold keepc. rewrite member_app, negb_orb. reflexivity.
  - rewrite (fr_reqs _ _ _ G), (fr_reqs _ _ _ F), filter_filter.
    apply filter_ext. intros x. unfold keepr. rewrite member_app, negb_orb. reflexivity.
  - rewrite (fr_next _ _ _ G). apply (fr_next _ _ _ F).
  - rewrite (fr_nexth _ _ _ G). apply (fr_nexth _ _ _ F).
  - intros c. rewrite (fr_hist _ _ _ G), (fr_hist _ _ _ F), <- app_assoc. f_equal.
    unfold gone. rewrite member_app. specialize (D c).
    destruct (member c L) eqn:E1, (member c M) eqn:E2; try reflexivity.
    apply member_in in E1, E2. destruct (D E2 E1).
  - intros c H. apply in_app_or in H. destruct H as [H|H]; [apply (fr_in _ _ _ F); exact H|].
    apply (fr_in _ _ _ G) in H. unfold owners in *.
    rewrite (fr_reqs _ _ _ F), owners_filter in H. apply in_keep in H. apply H.
  - intros H. apply (fr_stuck _ _ _ F). apply (fr_stuck _ _ _ G). exact H.
  - intros d H. destruct (fr_devs _ _ _ F d H) as [K|[x [e [K1 [K2 K3]]]]].
    + destruct (fr_devs _ _ _ G d K) as [J|[x [e [J1 [J2 J3]]]]]; [left; exact J|right].
      exists x, e. rewrite (fr_ctxs _ _ _ F) in J1. apply filter_In in J1.
      split; [apply J1|]. split; [apply in_or_app; right; exact J2|exact J3].
    + right. exists x, e. split; [exact K1|]. split; [apply in_or_app; left; exact K2|exact K3].
  - intros d H. apply (fr_sub _ _ _ F). apply (fr_sub _ _ _ G). exact H.
  - intros H. apply (fr_nodup _ _ _ G). apply (fr_nodup _ _ _ F). exact H.
Qed.

(** Events nobody's history has. *)
Lemma frame_emit : forall e s, (forall c, about c e = false) -> e <> EStuck ->
  frame [] s (emit e s).
Proof.
  intros e s A B. destruct (frame_refl s) as [F1 F2 F3 F4 F5 F6 F7 F8 F9].
  split; try assumption.
  - intros c. unfold emit. cbn [tr]. rewrite history_app. unfold history at 2. cbn [filter].
    rewrite A. rewrite app_nil_r. apply F5.
  - unfold emit. cbn [tr]. intros H. apply in_app_or in H. destruct H as [H|[H|[]]]; [exact H|].
    destruct (B H).
Qed.

Lemma frame_touch : forall d s, frame [] s (touch d s).
Proof.
  intros. unfold touch. destruct (alive (fst d) s); [apply frame_refl|].
  apply frame_emit; [reflexivity|discriminate].
Qed.

(** Frames for the end of one operation: [c] leaves with [w], the others
    as above. *)
Record ends (c : nat) (w : list ev) (L : list nat) (s s' : st) : Prop := mkends {
  en_ctxs : ctxs s' = filter (keepc (c :: L)) (ctxs s);
  en_reqs : reqs s' = filter (keepr L) (reqs s);
  en_next : next s' = next s;
  en_nexth : nexth s' = nexth s;
  en_hist : forall x, history x (tr s') =
     history x (tr s) ++ gone L x ++ (if x =? c then w else []);
  en_in : forall x, In x L -> In x (owners s);
  en_stuck : In EStuck (tr s') -> In EStuck (tr s);
  en_devs : forall d, In d (devs s) -> In d (devs s') \/
     exists x e, In x (ctxs s) /\ In (cid x) (c :: L) /\ tsk x = TReset e /\ fst e = fst d;
  en_sub : forall d, In d (devs s') -> In d (devs s);
  en_nodup : NoDup (map fst (devs s)) -> NoDup (map fst (devs s')) }.

(** The operation is taken off the list first. *)
Lemma ends_start : forall c s, ends c [] [] s (drop_ctx c s).
Proof.
  intros. unfold drop_ctx, set_ctxs. split; cbn [ctxs reqs next nexth tr devs].
  - apply filter_ext. intros x. unfold keepc. cbn [member existsb]. rewrite orb_false_r. reflexivity.
  - symmetry. apply keepr_none.
  - reflexivity.
  - reflexivity.
  - intros x. unfold gone. cbn. destruct (x =? c); rewrite app_nil_r; reflexivity.
  - intros x [].
  - auto.
  - auto.
  - auto.
  - auto.
Qed.

Lemma ends_frame : forall c w L M s a b,
  ends c w L s a -> w = [] -> frame M a b -> ends c w (L ++ M) s b.
Proof.
  intros c w L M s a b F W G. subst w.
  assert (D : forall x, In x M -> ~ In x L).
  { intros x H. apply (fr_in _ _ _ G) in H. unfold owners in H.
    rewrite (en_reqs _ _ _ _ _ F), owners_filter in H. apply in_keep in H. apply H. }
  split.
  - rewrite (fr_ctxs _ _ _ G), (en_ctxs _ _ _ _ _ F), filter_filter.
    apply filter_ext. intros x. unfold keepc. change (c :: L ++ M) with ((c :: L) ++ M).
    rewrite member_app, negb_orb. reflexivity.
  - rewrite (fr_reqs _ _ _ G), (en_reqs _ _ _ _ _ F), filter_filter.
    apply filter_ext. intros x. unfold keepr. rewrite member_app, negb_orb. reflexivity.
  - rewrite (fr_next _ _ _ G). apply (en_next _ _ _ _ _ F).
  - rewrite (fr_nexth _ _ _ G). apply (en_nexth _ _ _ _ _ F).
  - intros x. rewrite (fr_hist _ _ _ G), (en_hist _ _ _ _ _ F), <- !app_assoc. f_equal.
    replace (if x =? c then [] else []) with (@nil ev) by (destruct (x =? c); reflexivity).
    unfold gone. rewrite member_app. specialize (D x).
    destruct (member x L) eqn:E1, (member x M) eqn:E2; try reflexivity.
    apply member_in in E1, E2. destruct (D E2 E1).
  - intros x H. apply in_app_or in H. destruct H as [H|H]; [apply (en_in _ _ _ _ _ F); exact H|].
    apply (fr_in _ _ _ G) in H. unfold owners in *.
    rewrite (en_reqs _ _ _ _ _ F), owners_filter in H. apply in_keep in H. apply H.
  - intros H. apply (en_stuck _ _ _ _ _ F). apply (fr_stuck _ _ _ G). exact H.
  - intros d H. destruct (en_devs _ _ _ _ _ F d H) as [K|[x [e [K1 [K2 K3]]]]].
    + destruct (fr_devs _ _ _ G d K) as [J|[x [e [J1 [J2 J3]]]]]; [left; exact J|right].
      exists x, e. rewrite (en_ctxs _ _ _ _ _ F) in J1. apply filter_In in J1.
      split; [apply J1|]. split; [right; apply in_or_app; right; exact J2|exact J3].
    + right. exists x, e. split; [exact K1|]. split; [|exact K3].
      destruct K2 as [K2|K2]; [left; exact K2|right; apply in_or_app; left; exact K2].
  - intros d H. apply (en_sub _ _ _ _ _ F). apply (fr_sub _ _ _ G). exact H.
  - intros H. apply (fr_nodup _ _ _ G). apply (en_nodup _ _ _ _ _ F). exact H.
Qed.

Lemma ends_emit : forall c w L s a e,
  ends c w L s a -> ~ In c L -> (forall x, about x e = (x =? c)) -> e <> EStuck ->
  ends c (w ++ [e]) L s (emit e a).
Proof.
  intros c w L s a e F N A B.
  destruct F as [F1 F2 F3 F4 F5 F6 F7 F8 F9]. split; try assumption.
  - intros x. unfold emit. cbn [tr]. rewrite history_app. unfold history at 2. cbn [filter].
    rewrite A, F5, <- !app_assoc. f_equal. f_equal.
    destruct (x =? c); [reflexivity|apply app_nil_r].
  - unfold emit. cbn [tr]. intros H. apply in_app_or in H. destruct H as [H|[H|[]]]; [apply F7; exact H|].
    destruct (B H).
Qed.

Lemma ends_quiet : forall c w L s a e,
  ends c w L s a -> (forall x, about x e = false) -> e <> EStuck ->
  ends c w L s (emit e a).
Proof.
  intros c w L s a e F A B.
  destruct F as [F1 F2 F3 F4 F5 F6 F7 F8 F9]. split; try assumption.
  - intros x. unfold emit. cbn [tr]. rewrite history_app. unfold history at 2. cbn [filter].
    rewrite A, app_nil_r. apply F5.
  - unfold emit. cbn [tr]. intros H. apply in_app_or in H. destruct H as [H|[H|[]]]; [apply F7; exact H|].
    destruct (B H).
Qed.

Lemma ends_touch : forall c w L s a d, ends c w L s a -> ends c w L s (touch d a).
Proof.
  intros. unfold touch. destruct (alive (fst d) a); [assumption|].
  apply ends_quiet; [assumption|reflexivity|discriminate].
Qed.

Lemma ends_creds : forall c w L s a l, ends c w L s a -> ends c w L s (set_creds l a).
Proof. intros c w L s a l F. destruct F. split; assumption. Qed.

Lemma ends_free : forall c w L s a x d,
  ends c w L s a -> In x (ctxs s) -> cid x = c -> tsk x = TReset d ->
  ends c w L s (free_device d a).
Proof.
  intros c w L s a x d F X C T. unfold free_device. destruct (alive (fst d) a) eqn:E.
  2:{ apply ends_quiet; [assumption|reflexivity|discriminate]. }
  apply ends_quiet; [|reflexivity|discriminate].
  destruct F as [F1 F2 F3 F4 F5 F6 F7 F8 F9 F10]. split; try assumption.
  - intros e H. unfold set_devs. cbn [devs]. destruct (F8 e H) as [K|K]; [|right; exact K].
    destruct (fst e =? fst d) eqn:Q.
    + right. exists x, d. apply Nat.eqb_eq in Q. split; [exact X|]. split; [left; symmetry; exact C|].
      split; [exact T|symmetry; exact Q].
    + left. apply filter_In. split; [exact K|]. rewrite Q. reflexivity.
  - unfold set_devs. cbn [devs]. intros e H. apply filter_In in H. apply F9. apply H.
  - unfold set_devs. cbn [devs]. intros H. apply F10 in H.
    rewrite (map_filter _ _ fst (fun y => negb (y =? fst d))). apply nodup_filter. exact H.
Qed.

(** Taking a request. *)
Lemma pop_spec : forall u l r l', pop u l = Some (r, l') -> NoDup (map rown l) ->
  In r l /\ l' = filter (keepr [rown r]) l /\ rep r = u.
Proof.
  induction l as [|q l IH]; cbn [pop]; intros r l' H N; [discriminate|].
  cbn [map] in N. inversion N as [|? ? N1 N2]; subst.
  destruct (rep q =? u) eqn:E.
  - injection H as <- <-. split; [left; reflexivity|]. split; [|apply Nat.eqb_eq; exact E].
    cbn [filter]. unfold keepr at 1. cbn [member existsb]. rewrite Nat.eqb_refl. cbn [orb negb].
    symmetry. apply filter_true. intros x X. unfold keepr. cbn [member existsb].
    rewrite orb_false_r. apply negb_true_iff. apply Nat.eqb_neq. intros Q.
    apply N1. rewrite <- Q. apply in_map. exact X.
  - destruct (pop u l) as [[x k]|] eqn:P; [|discriminate]. injection H as <- <-.
    destruct (IH _ _ eq_refl N2) as [A [B C]]. split; [right; exact A|]. split; [|exact C].
    cbn [filter]. assert (K : keepr [rown x] q = true).
    { unfold keepr. cbn [member existsb]. rewrite orb_false_r. apply negb_true_iff.
      apply Nat.eqb_neq. intros Q. apply N1. rewrite Q. apply in_map. exact A. }
    rewrite K, <- B. reflexivity.
Qed.

Lemma filter_shorter : forall A (f : A -> bool) l, length (filter f l) <= length l.
Proof.
  induction l; cbn [filter]; [constructor|]. destruct (f a); cbn [length]; lia.
Qed.

Lemma filter_less : forall A (f : A -> bool) l x, In x l -> f x = false ->
  length (filter f l) < length l.
Proof.
  induction l as [|y l IH]; intros x X F; [destruct X|].
  cbn [filter length]. destruct X as [<-|X].
  - rewrite F. pose proof (filter_shorter _ f l). lia.
  - specialize (IH x X F). destruct (f y); cbn [length]; lia.
Qed.

Lemma find_ctx_in : forall c s, In c (ids s) -> exists x, find_ctx c s = Some x /\ In x (ctxs s) /\ cid x = c.
Proof.
  intros c s H. unfold ids in H. apply in_map_iff in H. destruct H as [x [E X]].
  unfold find_ctx. destruct (find (fun y => cid y =? c) (ctxs s)) as [y|] eqn:F.
  - exists y. split; [reflexivity|]. apply find_some in F. destruct F as [F1 F2].
    split; [exact F1|apply Nat.eqb_eq; exact F2].
  - apply (find_none _ _ F) in X. rewrite E, Nat.eqb_refl in X. discriminate.
Qed.

Lemma ends_pre : forall c w L s s', pre1 c s -> ends c w L s s' -> pre s'.
Proof.
  intros c w L s s' [A [B [K C]]] F. unfold pre, ids, owners.
  rewrite (en_ctxs _ _ _ _ _ F), (en_reqs _ _ _ _ _ F), ids_filter, owners_filter.
  split; [apply nodup_filter; exact A|]. split; [apply nodup_filter; exact B|].
  intros x. rewrite !in_keep. cbn [In]. fold (ids s). fold (owners s).
  rewrite (C x). intuition.
Qed.

Definition ending (t : task) (c : nat) (good : bool) : list ev :=
  match t, good with
  | TReset d, true => [EForget c (snd d); EReport c true]
  | _, _ => [EReport c good]
  end.

Lemma frames :
  forall f,
   (forall up c good s, 2 * length (reqs s) + 2 <= f ->
      (exists x, In x (ctxs s) /\ cid x = cid c /\ tsk x = tsk c) -> pre1 (cid c) s ->
      exists L, ends (cid c) (ending (tsk c) (cid c) good) L s (finish f up c good s)) /\
   (forall up u s, 2 * length (reqs s) + 1 <= f -> pre s ->
      exists L, frame L s (close f up u s)).
Proof.
  induction f as [|f [IH1 IH2]].
  - split; intros; exfalso; lia.
  - split.
    + intros up c good s Hf [z [Z1 [Z2 Z3]]] P. cbn [finish].
      pose proof (ends_start (cid c) s) as E0.
      set (s0 := drop_ctx (cid c) s) in *. clearbody s0.
      (* each close: *)
      assert (CL : forall L s1 u, ends (cid c) [] L s s1 ->
         exists M, ends (cid c) [] M s (close f up u s1)).
      { intros L s1 u E.
        assert (R : 2 * length (reqs s1) + 1 <= f).
        { rewrite (en_reqs _ _ _ _ _ E). pose proof (filter_shorter _ (keepr L) (reqs s)). lia. }
        destruct (IH2 up u s1 R (ends_pre _ _ _ _ _ P E)) as [M F].
        exists (L ++ M). apply (ends_frame _ _ _ _ _ _ _ E eq_refl F). }
      assert (NI : forall w L s1, ends (cid c) w L s s1 -> ~ In (cid c) L).
      { intros w L s1 E H. apply (en_in _ _ _ _ _ E) in H. destruct P as [_ [_ [_ P]]].
        apply P in H. destruct H as [_ H]. apply H. reflexivity. }
      destruct (tsk c) as [d|a b|a b|d x|d x|d x] eqn:T; cbn [ending].
      * destruct (CL _ _ (snd d) (ends_touch _ _ _ _ _ d E0)) as [L E]. exists L.
        set (s1 := close f up (snd d) (touch d s0)) in *. clearbody s1.
        apply (ends_free _ _ _ _ _ z); [|exact Z1|exact Z2|rewrite Z3; reflexivity].
        destruct good.
        -- change [EForget (cid c) (snd d); EReport (cid c) true]
             with (([] ++ [EForget (cid c) (snd d)]) ++ [EReport (cid c) true]).
           apply ends_emit; [|apply (NI _ _ _ E)|intros; apply Nat.eqb_sym|discriminate].
           apply ends_touch.
           apply ends_emit; [|apply (NI _ _ _ E)|intros; apply Nat.eqb_sym|discriminate].
           apply ends_creds. exact E.
        -- change [EReport (cid c) false] with ([] ++ [EReport (cid c) false]).
           apply ends_emit; [|apply (NI _ _ _ E)|intros; apply Nat.eqb_sym|discriminate].
           apply ends_touch. exact E.
      * destruct (CL _ _ (snd a) (ends_touch _ _ _ _ _ a E0)) as [L E].
        destruct (CL _ _ (snd b) (ends_touch _ _ _ _ _ b E)) as [M G]. exists M.
        change [EReport (cid c) good] with ([] ++ [EReport (cid c) good]).
        apply ends_emit; [exact G|apply (NI _ _ _ G)|intros; apply Nat.eqb_sym|discriminate].
      * destruct (CL _ _ (snd a) (ends_touch _ _ _ _ _ a E0)) as [L E].
        destruct (CL _ _ (snd b) (ends_touch _ _ _ _ _ b E)) as [M G]. exists M.
        change [EReport (cid c) good] with ([] ++ [EReport (cid c) good]).
        apply ends_emit; [exact G|apply (NI _ _ _ G)|intros; apply Nat.eqb_sym|discriminate].
      * destruct (CL _ _ (snd d) (ends_touch _ _ _ _ _ d E0)) as [L E]. exists L.
        change [EReport (cid c) good] with ([] ++ [EReport (cid c) good]).
        apply ends_emit; [|apply (NI _ _ _ E)|intros; apply Nat.eqb_sym|discriminate].
        apply ends_touch. exact E.
      * destruct (CL _ _ (snd d) (ends_touch _ _ _ _ _ d E0)) as [L E]. exists L.
        change [EReport (cid c) good] with ([] ++ [EReport (cid c) good]).
        apply ends_emit; [exact E|apply (NI _ _ _ E)|intros; apply Nat.eqb_sym|discriminate].
      * destruct (CL _ _ (snd d) (ends_touch _ _ _ _ _ d E0)) as [L E]. exists L.
        change [EReport (cid c) good] with ([] ++ [EReport (cid c) good]).
        apply ends_emit; [exact E|apply (NI _ _ _ E)|intros; apply Nat.eqb_sym|discriminate].
    + intros up u s Hf P. cbn [close].
      destruct (member u up); [|exists []; apply frame_refl].
      destruct (pop u (reqs s)) as [[r l]|] eqn:Q; [|exists []; apply frame_refl].
      assert (P' := P). destruct P' as [P1 [P2 P3]].
      destruct (pop_spec _ _ _ _ Q P2) as [R1 [R2 R3]].
      assert (Rn : In (rown r) (owners s)) by (apply in_map; exact R1).
      assert (Rl : length l < length (reqs s)).
      { rewrite R2. apply (filter_less _ _ _ r R1). unfold keepr. cbn [member existsb].
        rewrite Nat.eqb_refl. reflexivity. }
      set (s1 := emit (ELost (rown r)) (set_reqs l s)).
      assert (Rs : reqs s1 = l) by reflexivity.
      assert (Rc : ctxs s1 = ctxs s) by reflexivity.
      assert (W1 : pre1 (rown r) s1).
      { unfold pre1. change (ids s1) with (ids s).
        assert (O1 : owners s1 = filter (fun x => negb (member x [rown r])) (owners s)).
        { unfold owners. rewrite Rs, R2. apply owners_filter. }
        rewrite O1. split; [exact P1|]. split; [apply nodup_filter; exact P2|].
        split; [apply P3; exact Rn|]. intros x. rewrite in_keep. cbn [In]. rewrite (P3 x). intuition. }
      destruct (find_ctx_in (rown r) s1) as [c [Fc [Ic Ec]]].
      { destruct W1 as [_ [_ [W _]]]. exact W. }
      rewrite Fc. rewrite <- Ec in W1.
      destruct (IH1 up c false s1) as [L E]; [rewrite Rs; lia|exists c; auto|exact W1|].
      set (s2 := finish f up c false s1) in *. clearbody s2.
      assert (NL : ~ In (rown r) L).
      { intros H. apply (en_in _ _ _ _ _ E) in H. destruct W1 as [_ [_ [_ W]]].
        apply W in H. destruct H as [_ H]. apply H. symmetry. exact Ec. }
      assert (F : frame (rown r :: L) s s2).
      { rewrite Ec in E. destruct E as [E1 E2 E3 E4 E5 E6 E7 E8 E9 E10]. split.
        - rewrite E1, Rc. reflexivity.
        - rewrite E2, Rs, R2, filter_filter. apply filter_ext. intros x. unfold keepr.
          change (rown r :: L) with ([rown r] ++ L). rewrite member_app, negb_orb. reflexivity.
        - rewrite E3. reflexivity.
        - rewrite E4. reflexivity.
        - intros x. rewrite E5. unfold s1, emit. cbn [tr set_reqs]. rewrite history_app, <- app_assoc.
          f_equal. unfold history. cbn [filter about]. unfold gone.
          cbn [member existsb]. rewrite (Nat.eqb_sym (rown r) x).
          destruct (x =? rown r) eqn:X; cbn [orb].
          + apply Nat.eqb_eq in X. rewrite X.
            apply member_false in NL. rewrite NL. cbn [app].
            destruct (tsk c); reflexivity.
          + fold (member x L). rewrite app_nil_r. reflexivity.
        - intros x [<-|H]; [exact Rn|]. apply E6 in H. unfold owners in H. rewrite Rs, R2 in H.
          rewrite owners_filter in H. apply in_keep in H. apply H.
        - intros H. apply E7 in H. unfold s1, emit in H. cbn [tr set_reqs] in H.
          apply in_app_or in H. destruct H as [H|[H|[]]]; [exact H|discriminate H].
        - intros d H. destruct (E8 d H) as [K|K]; [left; exact K|right]. exact K.
        - intros d H. apply E9 in H. exact H.
        - intros H. apply E10. exact H. }
      destruct (IH2 up u s2) as [M G].
      { rewrite (fr_reqs _ _ _ F), (filter_ext (keepr (rown r :: L)) (fun x => keepr [rown r] x && keepr L x)).
        2:{ intros x. unfold keepr. change (rown r :: L) with ([rown r] ++ L).
            rewrite member_app, negb_orb. reflexivity. }
        rewrite <- filter_filter, <- R2. pose proof (filter_shorter _ (keepr L) l). lia. }
      { apply (frame_pre _ _ _ P F). }
      exists ((rown r :: L) ++ M). apply (frame_trans _ _ _ _ _ F G).
Qed.
