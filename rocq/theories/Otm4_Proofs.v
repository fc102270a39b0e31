(** Proofs about ownership transfer, part 4: memory, devices and
    credentials. *)

From Coq Require Import List Bool Arith Lia.
From Verif Require Obt_Proofs.
From Verif Require Import Otm_Model Otm_Spec Otm_Proofs Otm2_Proofs Otm3_Proofs.
Import ListNotations.

Definition safe (s : st) : Prop :=
  (forall c h, has c h s -> dl (get h s) = Cached) /\
  (forall c d h, has c h s -> has d h s -> c = d).

Definition ugly (e : ev) : bool := match e with EFault _ | ENull => true | _ => false end.
Definition clean (s : st) : Prop := forall e, In e (tr s) -> ugly e = false.

Lemma clean_emit : forall e s, clean s -> ugly e = false -> clean (emit e s).
Proof.
  intros e s C U x X. unfold emit in X. cbn [tr] in X. apply in_app_or in X.
  destruct X as [X|[<-|[]]]; [apply C; exact X|exact U].
Qed.

Lemma touch_ok : forall h s, dl (get h s) = Cached -> touch h s = s.
Proof. intros h s E. unfold touch. rewrite E. reflexivity. Qed.

Lemma has_keep : forall L c h s s', ctxs s' = filter (keepc L) (ctxs s) -> has c h s' ->
  has c h s /\ ~ In c L.
Proof.
  intros L c h s s' E [x [A [B C]]]. rewrite E in A. apply filter_In in A. destruct A as [A K].
  split; [exists x; auto|]. unfold keepc in K. apply negb_true_iff in K. apply member_false in K.
  rewrite <- B. exact K.
Qed.

Lemma of_one_has : forall L h s, of_one L h s -> exists c, In c L /\ has c h s.
Proof. intros L h s [x [A [B C]]]. exists (cid x). split; [exact B|exists x; auto]. Qed.

Lemma place_calm : forall L c h s s', safe s -> calm L s s' -> has c h s -> ~ In c L ->
  dl (get h s') = dl (get h s).
Proof.
  intros L c h s s' S K H N. destruct (k_dl _ _ _ K h) as [E|E]; [exact E|exfalso].
  destruct (of_one_has _ _ _ E) as [d [D1 D2]]. rewrite (proj2 S d c h D2 H) in D1. exact (N D1).
Qed.

Lemma safe_calm : forall L s s', ctxs s' = filter (keepc L) (ctxs s) -> calm L s s' -> safe s -> safe s'.
Proof.
  intros L s s' E K S. split.
  - intros c h H. destruct (has_keep _ _ _ _ _ E H) as [A B].
    rewrite (place_calm _ _ _ _ _ S K A B). apply (proj1 S c h A).
  - intros c d h H1 H2. destruct (has_keep _ _ _ _ _ E H1) as [A _].
    destruct (has_keep _ _ _ _ _ E H2) as [B _]. apply (proj2 S _ _ _ A B).
Qed.

(** The device of a transfer that has been taken off the list stays where it
    is while other transfers end. *)
Lemma close_place : forall L c h s s1, safe s -> has c h s ->
  frame L (drop_ctx c s) s1 -> dl (get h s1) = Cached.
Proof.
  intros L c h s s1 S H F. assert (C := proj1 S c h H).
  destruct (k_dl _ _ _ (fr_calm _ _ _ F) h) as [E|E]; [rewrite E; exact C|exfalso].
  destruct E as [x [A [B D]]]. unfold drop_ctx, set_ctxs in A. cbn [ctxs] in A.
  apply filter_In in A. destruct A as [A N].
  assert (Q : cid x = c) by (apply (proj2 S _ _ h); [exists x; auto|exact H]).
  rewrite Q, Nat.eqb_refl in N. discriminate N.
Qed.

Lemma faults : forall f,
   (forall up c good s, 2 * length (reqs s) + 2 <= f ->
      has (cid c) (hnd c) s -> pre1 (cid c) s -> safe s -> clean s -> clean (finish f up c good s)) /\
   (forall up u s, 2 * length (reqs s) + 1 <= f -> pre s -> safe s -> clean s -> clean (close f up u s)).
Proof.
  induction f as [|f [IH1 IH2]].
  - split; intros; exfalso; lia.
  - split.
    + intros up c good s Hf H P S C. cbn [finish].
      pose proof (ends_start (cid c) s) as E0.
      assert (S0 := safe_calm _ _ _ (en_ctxs _ _ _ _ _ E0) (en_calm _ _ _ _ _ E0) S).
      assert (P0 := ends_pre _ _ _ _ _ P E0).
      rewrite touch_ok by (exact (proj1 S _ _ H)).
      set (a := da (get (hnd c) (drop_ctx (cid c) s))). clearbody a.
      assert (R : 2 * length (reqs (drop_ctx (cid c) s)) + 1 <= f).
      { unfold drop_ctx, set_ctxs. cbn [reqs]. lia. }
      destruct (proj2 (frames f) up a _ R P0) as [L F].
      assert (C1 : clean (close f up a (drop_ctx (cid c) s))) by (apply IH2; assumption).
      assert (D := close_place _ _ _ _ _ S H F).
      set (s1 := close f up a (drop_ctx (cid c) s)) in *. clearbody s1.
      rewrite (touch_ok _ _ D). destruct good.
      * apply clean_emit; [|reflexivity]. unfold move. rewrite D. destruct (kd c); exact C1.
      * unfold free_device.
        change (get (hnd c) (emit (EReport (cid c) false) (forget (du (get (hnd c) s1)) s1)))
          with (get (hnd c) s1). rewrite D. cbn [is_freed].
        apply clean_emit; [|reflexivity]. apply (clean_emit (EReport (cid c) false) s1); [exact C1|reflexivity].
    + intros up u s Hf P S C. cbn [close].
      destruct (member u up); [|exact C].
      destruct (pop u (reqs s)) as [[r l]|] eqn:Q; [|exact C].
      assert (P' := P). destruct P' as [P1 [P2 P3]].
      destruct (pop_spec _ _ _ _ Q P2) as [R1 R2].
      assert (Rn : In (rown r) (owners s)) by (apply in_map; exact R1).
      assert (Rl : length l < length (reqs s)).
      { rewrite R2. apply (Obt_Proofs.filter_less _ _ _ r R1). unfold keepr. cbn [member existsb].
        rewrite Nat.eqb_refl. reflexivity. }
      set (s1 := emit (ELost (rown r)) (set_reqs l s)).
      assert (Rs : reqs s1 = l) by reflexivity.
      assert (S1 : safe s1) by exact S.
      assert (N1 : clean s1) by (apply (clean_emit (ELost (rown r)) s); [exact C|reflexivity]).
      assert (W1 : pre1 (rown r) s1).
      { unfold pre1. change (ids s1) with (ids s).
        assert (O1 : owners s1 = filter (fun x => negb (member x [rown r])) (owners s)).
        { unfold owners. rewrite Rs, R2. apply owners_filter. }
        unfold pre. change (ids s1) with (ids s). rewrite O1.
        split; [split; [exact P1|split; [apply NoDup_filter; exact P2|]]|].
        - intros x. rewrite in_keep. intros [K _]. apply P3. exact K.
        - split; [apply P3; exact Rn|]. rewrite in_keep. intros [_ K]. apply K. left. reflexivity. }
      destruct (find_ctx_in (rown r) s1) as [c [Fc [Ic Ec]]].
      { destruct W1 as [_ [W _]]. exact W. }
      rewrite Fc. rewrite <- Ec in W1.
      assert (HC : has (cid c) (hnd c) s1) by (exists c; auto).
      destruct (proj1 (frames f) up c false s1) as [L E]; [rewrite Rs; lia|exact HC|exact W1|].
      apply IH2.
      * rewrite (en_reqs _ _ _ _ _ E), Rs. pose proof (Obt_Proofs.filter_shorter _ (keepr L) l). lia.
      * apply (ends_pre _ _ _ _ _ W1 E).
      * apply (safe_calm _ _ _ (en_ctxs _ _ _ _ _ E) (en_calm _ _ _ _ _ E) S1).
      * apply IH1; [rewrite Rs; lia|exact HC|exact W1|exact S1|exact N1].
Qed.

(** From the POST of the credential on. *)
Definition late (m : msg) : bool :=
  match m with MCred | MSdi | MOwned | MPro | MDelAcl | MAcl | MNop => true | _ => false end.

(** From the POST of the new UUID on. *)
Definition named (m : msg) : bool :=
  match m with MUuid _ | MRowDoxm | MRowAcl | MRowPstat => true | _ => late m end.

(** The invariant; [a] if discovery is kept apart, [f] if UUIDs are fresh. *)
Record G (a f : Prop) (s : st) : Prop := mkG {
  g_cached : forall c h, has c h s -> dl (get h s) = Cached;
  g_apart : forall c d h, has c h s -> has d h s -> c = d;
  g_owned : forall c h k, In (EReport c true) (tr s) -> In (ECall c h k) (tr s) -> k <> AskPin ->
     dl (get h s) = Owned;
  g_req : forall q x, In q (reqs s) -> In x (ctxs s) -> cid x = rown q -> rmsg q = stg x;
  g_ru : forall x, In x (ctxs s) -> named (stg x) = true -> du (get (hnd x) s) = ru x;
  g_gets : a -> forall h, In h (gets s) -> dl (get h s) = Cached /\ forall c, ~ has c h s;
  g_clean : a -> clean s;
  g_uuid : f -> forall h i, dl (get h s) = Cached -> dl (get i s) = Cached ->
     du (get h s) = du (get i s) -> h = i;
  g_keys : f -> forall x, In x (ctxs s) -> late (stg x) = true -> In (du (get (hnd x) s), true) (creds s) }.

Lemma g_safe : forall a f s, G a f s -> safe s.
Proof. intros a f s K. split; apply K. Qed.

(** Some transfers end. *)
Lemma G_less : forall (a f : Prop) L s s',
  G a f s -> ctxs s' = filter (keepc L) (ctxs s) -> (forall q, In q (reqs s') -> In q (reqs s)) ->
  calm L s s' ->
  (forall x, In (EReport x true) (tr s') -> In (EReport x true) (tr s) \/
     forall h k, In (ECall x h k) (tr s) -> k <> AskPin -> dl (get h s') = Owned) ->
  (forall x h k, In (ECall x h k) (tr s') -> In (ECall x h k) (tr s)) ->
  (a -> clean s') -> G a f s'.
Proof.
  intros a f L s s' V E RQ K R C U. assert (S := g_safe _ _ _ V).
  destruct (safe_calm _ _ _ E K S) as [S1 S2].
  assert (PL : forall h, dl (get h s') = dl (get h s) \/ dl (get h s) = Cached).
  { intros h. destruct (k_dl _ _ _ K h) as [Q|Q]; [left; exact Q|right].
    destruct (of_one_has _ _ _ Q) as [c [_ H]]. apply (proj1 S c h H). }
  assert (PC : forall h, dl (get h s') = Cached -> dl (get h s) = Cached).
  { intros h H. destruct (PL h) as [Q|Q]; [rewrite <- Q; exact H|exact Q]. }
  split; try assumption.
  - intros c h k A B D. destruct (R c A) as [Q|Q].
    + assert (O := g_owned _ _ _ V c h k Q (C _ _ _ B) D).
      destruct (PL h) as [J|J]; congruence.
    + apply (Q h k); [apply C; exact B|exact D].
  - intros q x Q X J. rewrite E in X. apply filter_In in X. destruct X as [X _].
    apply (g_req _ _ _ V); [apply RQ; exact Q|exact X|exact J].
  - intros x X N. rewrite E in X. apply filter_In in X. destruct X as [X _].
    rewrite (k_du _ _ _ K). apply (g_ru _ _ _ V); assumption.
  - intros HA h H. rewrite (k_gets _ _ _ K) in H. destruct (g_gets _ _ _ V HA h H) as [A B]. split.
    + destruct (k_dl _ _ _ K h) as [Q|Q]; [rewrite Q; exact A|exfalso].
      destruct (of_one_has _ _ _ Q) as [c [_ J]]. exact (B c J).
    + intros c J. apply (B c). apply (has_keep _ _ _ _ _ E J).
  - intros HF h i A B D. rewrite !(k_du _ _ _ K) in D.
    apply (g_uuid _ _ _ V HF); [apply PC; exact A|apply PC; exact B|exact D].
  - intros HF x X N. assert (X0 := X). rewrite E in X0. apply filter_In in X0. destruct X0 as [X0 KX].
    unfold keepc in KX. apply negb_true_iff, member_false in KX.
    rewrite (k_du _ _ _ K). assert (H := g_keys _ _ _ V HF x X0 N).
    destruct (k_cred _ _ _ K _ H) as [Q|[h [Q1 Q2]]]; [exact Q|exfalso]. cbn [fst] in Q2.
    destruct (of_one_has _ _ _ Q1) as [c [D1 D2]].
    assert (HX : has (cid x) (hnd x) s) by (exists x; auto).
    assert (h = hnd x).
    { apply (g_uuid _ _ _ V HF); [apply (proj1 S c); exact D2|apply (proj1 S _ _ HX)|exact Q2]. }
    subst h. rewrite (proj2 S _ _ _ D2 HX) in D1. exact (KX D1).
Qed.

Lemma frame_rep : forall L s s', frame L s s' ->
  (forall x, In (EReport x true) (tr s') -> In (EReport x true) (tr s)) /\
  (forall x h k, In (ECall x h k) (tr s') -> In (ECall x h k) (tr s)).
Proof.
  intros L s s' F. split.
  - intros x H. apply (in_history x) in H; [|apply Nat.eqb_refl].
    apply (in_history x); [apply Nat.eqb_refl|]. rewrite (fr_hist _ _ _ F) in H.
    apply in_app_or in H. destruct H as [H|H]; [exact H|]. unfold gone in H.
    destruct (member x L); [|destruct H]. destruct H as [H|[H|[]]]; discriminate H.
  - intros x h k H. apply (in_history x) in H; [|apply Nat.eqb_refl].
    apply (in_history x); [apply Nat.eqb_refl|]. rewrite (fr_hist _ _ _ F) in H.
    apply in_app_or in H. destruct H as [H|H]; [exact H|]. unfold gone in H.
    destruct (member x L); [|destruct H]. destruct H as [H|[H|[]]]; discriminate H.
Qed.

Lemma ends_rep : forall c good L s s', ends c [EReport c good] L s s' ->
  (forall x, In (EReport x true) (tr s') -> In (EReport x true) (tr s) \/ (x = c /\ good = true)) /\
  (forall x h k, In (ECall x h k) (tr s') -> In (ECall x h k) (tr s)).
Proof.
  intros c good L s s' F. split.
  - intros x H. apply (in_history x) in H; [|apply Nat.eqb_refl].
    rewrite (in_history x); [|apply Nat.eqb_refl]. rewrite (en_hist _ _ _ _ _ F) in H.
    apply in_app_or in H. destruct H as [H|H]; [left; exact H|]. right.
    apply in_app_or in H. destruct H as [H|H]; [unfold gone in H; destruct (member x L); [|destruct H]|].
    + destruct H as [H|[H|[]]]; discriminate H.
    + destruct (x =? c) eqn:E; [|destruct H]. apply Nat.eqb_eq in E. destruct H as [H|[]].
      injection H as _ ->. auto.
  - intros x h k H. apply (in_history x) in H; [|apply Nat.eqb_refl].
    rewrite (in_history x); [|apply Nat.eqb_refl]. rewrite (en_hist _ _ _ _ _ F) in H.
    apply in_app_or in H. destruct H as [H|H]; [exact H|]. exfalso.
    apply in_app_or in H. destruct H as [H|H]; [unfold gone in H; destruct (member x L); [|destruct H]|].
    + destruct H as [H|[H|[]]]; discriminate H.
    + destruct (x =? c); [|destruct H]. destruct H as [H|[]]. discriminate H.
Qed.

Lemma hangup_frame : forall up u s, pre s -> exists L, frame L s (hangup up u s).
Proof. intros up u s P. unfold hangup. apply (proj2 (frames _)); [lia|exact P]. Qed.

Lemma hangup_G : forall a f up u s, pre s -> G a f s -> G a f (hangup up u s).
Proof.
  intros a f up u s P V. destruct (hangup_frame up u s P) as [L F].
  destruct (frame_rep _ _ _ F) as [R C].
  apply (G_less a f L s); [exact V|apply F| |apply F|intros x H; left; apply R; exact H|exact C|].
  { intros q Q. rewrite (fr_reqs _ _ _ F) in Q. apply filter_In in Q. apply Q. }
  intros HA. unfold hangup. apply (proj2 (faults _)); [lia|exact P|apply (g_safe _ _ _ V)|apply (g_clean _ _ _ V HA)].
Qed.

Lemma done_frame : forall up c good s, pre1 (cid c) s -> has (cid c) (hnd c) s ->
  exists L, ends (cid c) [EReport (cid c) good] L s (done up c good s).
Proof. intros up c good s P H. unfold done. apply (proj1 (frames _)); [lia|exact H|exact P]. Qed.

(** What a success leaves. *)
Lemma done_true : forall up c s, pre1 (cid c) s -> has (cid c) (hnd c) s -> safe s -> kd c <> AskPin ->
  dl (get (hnd c) (done up c true s)) = Owned /\
  du (get (hnd c) (done up c true s)) = du (get (hnd c) s) /\
  ((forall h i, dl (get h s) = Cached -> dl (get i s) = Cached ->
     du (get h s) = du (get i s) -> h = i) ->
   forall b, In (du (get (hnd c) s), b) (creds s) ->
             In (du (get (hnd c) s), b) (creds (done up c true s))).
Proof.
  intros up c s P H S NA. unfold done.
  replace (2 * length (reqs s) + 2) with (Datatypes.S (2 * length (reqs s) + 1)) by lia.
  cbn [finish]. pose proof (ends_start (cid c) s) as E0.
  assert (P0 := ends_pre _ _ _ _ _ P E0).
  rewrite touch_ok by (exact (proj1 S _ _ H)).
  set (a := da (get (hnd c) (drop_ctx (cid c) s))). clearbody a.
  assert (R : 2 * length (reqs (drop_ctx (cid c) s)) + 1 <= 2 * length (reqs s) + 1).
  { unfold drop_ctx, set_ctxs. cbn [reqs]. lia. }
  destruct (proj2 (frames _) up a _ R P0) as [L F].
  assert (D := close_place _ _ _ _ _ S H F).
  set (s1 := close (2 * length (reqs s) + 1) up a (drop_ctx (cid c) s)) in *. clearbody s1.
  assert (M : match kd c with AskPin => touch (hnd c) s1 | _ => move (hnd c) s1 end = move (hnd c) s1).
  { destruct (kd c); try reflexivity. destruct (NA eq_refl). }
  rewrite M. unfold move. rewrite D. cbn [is_freed].
  assert (LT : hnd c < length (heap s1)).
  { destruct (Nat.lt_ge_cases (hnd c) (length (heap s1))) as [Q|Q]; [exact Q|].
    unfold get in D. rewrite nth_overflow in D by exact Q. discriminate D. }
  set (d' := mkdev (du (get (hnd c) s1)) (da (get (hnd c) s1)) Owned).
  assert (Q : get (hnd c) (emit (EReport (cid c) true) (set_dev (hnd c) d' s1)) = d').
  { change (get (hnd c) (emit (EReport (cid c) true) (set_dev (hnd c) d' s1)))
      with (get (hnd c) (set_dev (hnd c) d' s1)).
    rewrite get_put, Nat.eqb_refl. apply Nat.ltb_lt in LT. rewrite LT. reflexivity. }
  rewrite Q. split; [reflexivity|]. split.
  - unfold d'. cbn [du]. rewrite (k_du _ _ _ (fr_calm _ _ _ F)). reflexivity.
  - intros U b I. change (creds (emit (EReport (cid c) true) (set_dev (hnd c) d' s1))) with (creds s1).
    destruct (k_cred _ _ _ (fr_calm _ _ _ F) _ I) as [J|[h [J1 J2]]]; [exact J|exfalso].
    cbn [fst] in J2. destruct J1 as [x [A [B C]]]. unfold drop_ctx, set_ctxs in A. cbn [ctxs] in A.
    apply filter_In in A. destruct A as [A N].
    assert (HX : has (cid x) h s) by (exists x; auto).
    assert (h = hnd c).
    { apply U; [apply (proj1 S _ _ HX)|apply (proj1 S _ _ H)|exact J2]. }
    subst h. assert (Z : cid x = cid c) by (apply (proj2 S _ _ (hnd c)); [rewrite <- H0; exact HX|exact H]).
    rewrite Z, Nat.eqb_refl in N. discriminate N.
Qed.

Definition known_as (c : ctx) (s : st) : Prop :=
  forall h k, In (ECall (cid c) h k) (tr s) -> h = hnd c /\ k = kd c.

Lemma done_G : forall a f up c good s, pre1 (cid c) s -> has (cid c) (hnd c) s ->
  (good = true -> known_as c s) -> G a f s -> G a f (done up c good s).
Proof.
  intros a f up c good s P H KN V. assert (S := g_safe _ _ _ V).
  destruct (done_frame up c good s P H) as [L F]. destruct (ends_rep _ _ _ _ _ F) as [R C].
  apply (G_less a f (cid c :: L) s); [exact V|apply F| |apply F| |exact C|].
  - intros q Q. rewrite (en_reqs _ _ _ _ _ F) in Q. apply filter_In in Q. apply Q.
  - intros x X. destruct (R x X) as [Q|[-> ->]]; [left; exact Q|right]. intros h k Y NA.
    destruct (KN eq_refl h k Y) as [-> ->]. apply done_true; assumption.
  - intros HA. unfold done. apply (proj1 (faults _)); [lia|exact H|exact P|exact S|apply (g_clean _ _ _ V HA)].
Qed.

Lemma has_put : forall c h x s, has (cid x) (hnd x) s -> has c h (put_ctx x s) -> has c h s.
Proof.
  intros c h x s H [y [A [B C]]]. unfold put_ctx in A. cbn [ctxs set_ctxs] in A.
  apply in_map_iff in A. destruct A as [z [E Z]]. destruct (cid z =? cid x).
  - subst y. rewrite <- B, <- C. exact H.
  - subst y. exists z. auto.
Qed.

Lemma send_G : forall (a f : Prop) c s,
  has (cid c) (hnd c) s -> ~ In (cid c) (owners s) -> G a f s ->
  (named (stg c) = true -> du (get (hnd c) s) = ru c) ->
  (f -> late (stg c) = true -> In (du (get (hnd c) s), true) (creds s)) ->
  G a f (send (cid c) (hnd c) (stg c) (put_ctx c s)).
Proof.
  intros a f c s H NO V N K. unfold send. assert (D := g_cached _ _ _ V _ _ H).
  rewrite touch_ok by exact D.
  set (e := ESent (cid c) (da (get (hnd c) (put_ctx c s))) (stg c)).
  assert (HP : forall d h, has d h (put_ctx c s) -> has d h s) by (intros d h Q; apply (has_put _ _ c); assumption).
  assert (IP : forall x, In x (ctxs (put_ctx c s)) -> x = c \/ In x (ctxs s)).
  { intros x X. unfold put_ctx in X. cbn [ctxs set_ctxs] in X. apply in_map_iff in X.
    destruct X as [y [E Y]]. destruct (cid y =? cid c); [left; symmetry; exact E|right; rewrite <- E; exact Y]. }
  assert (TE : forall y, In y (tr s ++ [e]) -> In y (tr s) \/ y = e).
  { intros y Y. apply in_app_or in Y. destruct Y as [Y|[Y|[]]]; auto. }
  split; unfold emit, set_reqs; cbn [tr gets ctxs creds reqs].
  - intros d h Q. apply (g_cached _ _ _ V d). apply HP. exact Q.
  - intros d d' h Q Q'. apply (g_apart _ _ _ V d d' h); apply HP; assumption.
  - intros d h k X Y. destruct (TE _ X) as [X'|X']; [|discriminate X'].
    destruct (TE _ Y) as [Y'|Y']; [|discriminate Y']. apply (g_owned _ _ _ V d h k); assumption.
  - intros q x Q X J. apply in_app_or in Q. destruct Q as [Q|[<-|[]]].
    + change (In q (reqs s)) in Q. assert (NQ : rown q <> cid c).
      { intros Z. apply NO. rewrite <- Z. apply in_map. exact Q. }
      destruct (IP x X) as [->|X']; [destruct (NQ (eq_sym J))|apply (g_req _ _ _ V); assumption].
    + cbn [rown rmsg] in *. unfold put_ctx in X. cbn [ctxs set_ctxs] in X. apply in_map_iff in X.
      destruct X as [y [Z Y]]. destruct (cid y =? cid c) eqn:W; [subst x; reflexivity|].
      subst y. apply Nat.eqb_neq in W. destruct (W J).
  - intros x X Z. destruct (IP x X) as [->|X']; [apply N; exact Z|apply (g_ru _ _ _ V); assumption].
  - intros HA h X. destruct (g_gets _ _ _ V HA h X) as [A B]. split; [exact A|].
    intros d Q. apply (B d). apply HP. exact Q.
  - intros HA y Y. cbn [tr] in Y. destruct (TE _ Y) as [Y'| ->]; [apply (g_clean _ _ _ V HA); exact Y'|reflexivity].
  - exact (g_uuid _ _ _ V).
  - intros HF x X Z. destruct (IP x X) as [->|X']; [apply K; assumption|apply (g_keys _ _ _ V); assumption].
Qed.

Lemma go_G : forall (a f : Prop) up ok c m s,
  pre1 (cid c) s -> has (cid c) (hnd c) s -> G a f s ->
  (named m = true -> du (get (hnd c) s) = ru c) ->
  (f -> late m = true -> In (du (get (hnd c) s), true) (creds s)) ->
  G a f (go up ok c m s).
Proof.
  intros a f up ok c m s P H V N K. unfold go. destruct ok.
  - apply (send_G a f (mkctx (cid c) (hnd c) (kd c) m (ru c))); try assumption. apply P.
  - rewrite touch_ok by (apply (g_cached _ _ _ V _ _ H)).
    apply done_G; [exact P|exact H|discriminate|exact V].
Qed.

Lemma G_creds : forall (a f : Prop) l s, G a f s ->
  (f -> forall x, In x (ctxs s) -> late (stg x) = true -> In (du (get (hnd x) s), true) l) ->
  G a f (set_creds l s).
Proof. intros a f l s V K. destruct V. split; assumption. Qed.

Lemma learn_G : forall (a f : Prop) u b s, G a f s -> G a f (learn u b s).
Proof.
  intros a f u b s V. apply G_creds; [exact V|]. intros HF x X Z.
  apply in_or_app. left. apply (g_keys _ _ _ V); assumption.
Qed.

(** The new UUID of the device of a transfer. *)
Lemma rename_G : forall (a f : Prop) c v l s,
  NoDup (ids s) -> In c (ctxs s) -> named (stg c) = false -> G a f s ->
  (f -> forall h, dl (get h s) = Cached -> du (get h s) <> v) ->
  (forall p, In p (creds s) -> In p l \/ fst p = du (get (hnd c) s)) ->
  G a f (set_dev (hnd c) (mkdev v (da (get (hnd c) s)) (dl (get (hnd c) s))) (set_creds l s)).
Proof.
  intros a f c v l s ND I NL V FR LL.
  set (d := mkdev v (da (get (hnd c) s)) (dl (get (hnd c) s))).
  set (s' := set_dev (hnd c) d (set_creds l s)).
  assert (HC : has (cid c) (hnd c) s) by (exists c; auto).
  assert (GE : forall h, get h s' = if (h =? hnd c) && (hnd c <? length (heap s)) then d else get h s).
  { intros h. exact (get_put (hnd c) h d (set_creds l s)). }
  assert (GL : forall h, dl (get h s') = dl (get h s)).
  { intros h. rewrite GE. destruct ((h =? hnd c) && _) eqn:E; [|reflexivity].
    apply andb_true_iff in E. destruct E as [E _]. apply Nat.eqb_eq in E. subst h. reflexivity. }
  assert (GD : forall h, h <> hnd c -> du (get h s') = du (get h s)).
  { intros h N. rewrite GE. apply Nat.eqb_neq in N. rewrite N. reflexivity. }
  assert (GN : du (get (hnd c) s') = v).
  { rewrite GE, Nat.eqb_refl. assert (C := g_cached _ _ _ V _ _ HC).
    destruct (hnd c <? length (heap s)) eqn:E; [reflexivity|]. apply Nat.ltb_ge in E.
    unfold get in C. rewrite nth_overflow in C by exact E. discriminate C. }
  assert (HN : forall x, In x (ctxs s) -> named (stg x) = true -> hnd x <> hnd c).
  { intros x X Z Q. assert (E : cid x = cid c).
    { apply (g_apart _ _ _ V _ _ (hnd c)); [exists x; auto|exact HC]. }
    rewrite (unique s x c ND X I E) in Z. congruence. }
  split.
  - intros b h Q. rewrite GL. apply (g_cached _ _ _ V b). exact Q.
  - exact (g_apart _ _ _ V).
  - intros b h k X Y Z. rewrite GL. apply (g_owned _ _ _ V b h k); assumption.
  - exact (g_req _ _ _ V).
  - intros x X Z. rewrite GD by (apply HN; assumption). apply (g_ru _ _ _ V); assumption.
  - intros HA h X. rewrite GL. apply (g_gets _ _ _ V HA h X).
  - exact (g_clean _ _ _ V).
  - intros HF h i A B. rewrite GL in A, B. intros E.
    destruct (Nat.eq_dec h (hnd c)) as [->|Nh], (Nat.eq_dec i (hnd c)) as [->|Ni].
    + reflexivity.
    + rewrite GN, (GD i Ni) in E. destruct (FR HF i B (eq_sym E)).
    + rewrite GN, (GD h Nh) in E. destruct (FR HF h A E).
    + rewrite (GD h Nh), (GD i Ni) in E. apply (g_uuid _ _ _ V HF); assumption.
  - intros HF x X Z.
    assert (Z' : named (stg x) = true) by (destruct (stg x); try discriminate Z; reflexivity).
    assert (N := HN x X Z'). rewrite (GD _ N). change (creds s') with l.
    destruct (LL _ (g_keys _ _ _ V HF x X Z)) as [Q|Q]; [exact Q|exfalso]. cbn [fst] in Q.
    apply N. apply (g_uuid _ _ _ V HF); [|apply (g_cached _ _ _ V _ _ HC)|exact Q].
    apply (g_cached _ _ _ V (cid x)). exists x. auto.
Qed.

Lemma advance_G : forall (a f : Prop) up x c s,
  others (cid c) s -> In c (ctxs s) -> known_as c s -> G a f s ->
  (f -> stg c = MOwner -> forall h, dl (get h s) = Cached -> du (get h s) <> rnd x) ->
  G a f (advance up x c s).
Proof.
  intros a f up x c s O I KN V FR. assert (P := o_pre _ _ O).
  assert (H : has (cid c) (hnd c) s) by (exists c; auto).
  assert (D := g_cached _ _ _ V _ _ H). assert (T := touch_ok _ _ D).
  unfold advance. rewrite T.
  assert (NK : forall m, (named m = true -> named (stg c) = true) ->
     named m = true -> du (get (hnd c) s) = ru c).
  { intros m A B. apply (g_ru _ _ _ V c I). apply A. exact B. }
  assert (LK : forall m, (late m = true -> late (stg c) = true) ->
     f -> late m = true -> In (du (get (hnd c) s), true) (creds s)).
  { intros m A HF B. apply (g_keys _ _ _ V HF c I). apply A. exact B. }
  destruct (stg c) eqn:E;
    try (apply go_G; [exact P|exact H|exact V|apply NK; intros Q; first [reflexivity|discriminate Q]
                     |apply LK; intros Q; first [reflexivity|discriminate Q]]).
  - destruct (existsb _ _).
    + apply go_G; [exact P|exact H|exact V|apply NK; intros Q; discriminate Q|apply LK; intros Q; discriminate Q].
    + apply done_G; [exact P|exact H|discriminate|exact V].
  - assert (GO : G a f (go up (sendok x) c MOm (hangup up (da (get (hnd c) s)) s))).
    { destruct (hangup_frame up (da (get (hnd c) s)) s (proj1 P)) as [L F].
      destruct (others_frame _ _ _ _ O F) as [O2 [_ H2]].
      apply go_G; [apply O2|apply H2; exact H|apply hangup_G; [apply P|exact V]|discriminate|discriminate]. }
    destruct (kd c) eqn:K; try exact GO.
    apply done_G; [exact P|exact H|intros _; exact KN|exact V].
  - set (l := match kd c with RandomPin => remove_first (du (get (hnd c) s)) (creds s) | _ => creds s end).
    assert (EQ : match kd c with RandomPin => forget (du (get (hnd c) s)) s | _ => s end = set_creds l s).
    { unfold l. destruct (kd c); try reflexivity; destruct s; reflexivity. }
    rewrite EQ.
    assert (LL : forall p, In p (creds s) -> In p l \/ fst p = du (get (hnd c) s)).
    { intros p Q. unfold l. destruct (kd c); try (left; exact Q). apply remove_first_in. exact Q. }
    assert (V3 : G a f (set_dev (hnd c) (mkdev (rnd x) (da (get (hnd c) s)) (dl (get (hnd c) s))) (set_creds l s))).
    { apply rename_G; try assumption; [apply P|rewrite E; reflexivity|].
      intros HF. apply (FR HF eq_refl). }
    apply go_G.
    + exact P.
    + exact H.
    + exact V3.
    + intros _. cbn [hnd ru]. rewrite get_put, Nat.eqb_refl.
      change (heap (set_creds l s)) with (heap s).
      destruct (hnd c <? length (heap s)) eqn:Q; [reflexivity|]. apply Nat.ltb_ge in Q.
      unfold get in D. rewrite nth_overflow in D by exact Q. discriminate D.
    + discriminate.
  - destruct (keyok x).
    + apply go_G; [exact P|exact H|apply learn_G; exact V|apply (NK MCred); intros Q; reflexivity|].
      intros HF _. apply in_or_app. right. left. reflexivity.
    + apply done_G; [exact P|exact H|discriminate|exact V].
  - apply done_G; [exact P|exact H|intros _; exact KN|exact V].
Qed.

Lemma emit_G : forall (a f : Prop) e s, G a f s ->
  (forall c, e <> EReport c true) -> (forall c h k, e <> ECall c h k) -> (a -> ugly e = false) ->
  G a f (emit e s).
Proof.
  intros a f e s V A B C. destruct V as [V1 V2 V3 V9 V4 V5 V6 V7 V8].
  split; try assumption.
  - unfold emit. cbn [tr]. intros c h k X Y. apply in_app_or in X, Y.
    destruct X as [X|[X|[]]]; [|destruct (A c X)]. destruct Y as [Y|[Y|[]]]; [|destruct (B c h k Y)].
    exact (V3 c h k X Y).
  - intros HA. apply clean_emit; [apply V6; exact HA|apply C; exact HA].
Qed.

Lemma known_took : forall i r q s c l a,
  history (cid c) (tr (took i r q s)) =
       ECall (cid c) (hnd c) (kd c) :: said (cid c) l ++ [ESent (cid c) a (stg c); EAns (cid c) r] ->
  known_as c (took i r q s).
Proof.
  intros i r q s c l a E h k H. apply (in_history (cid c)) in H; [|apply Nat.eqb_refl].
  rewrite E in H. destruct H as [H|H]; [injection H as <- <-; auto|].
  apply in_app_or in H. destruct H as [H|[H|[H|[]]]]; [no_said H|discriminate H|discriminate H].
Qed.

Lemma cut_in : forall A (l : list A) i x, In x (firstn i l ++ skipn (S i) l) -> In x l.
Proof.
  intros A l i x H. apply in_app_or in H. destruct H as [H|H].
  - rewrite <- (firstn_skipn i l). apply in_or_app. left. exact H.
  - rewrite <- (firstn_skipn (S i) l). apply in_or_app. right. exact H.
Qed.

Lemma took_G : forall (a f : Prop) i r q s, G a f s -> G a f (took i r q s).
Proof.
  intros a f i r q s K. apply emit_G; [|discriminate|discriminate|reflexivity].
  destruct K as [K1 K2 K3 K4 K5 K6 K7 K8 K9]. split; try assumption.
  intros y x Y. apply K4. apply (cut_in _ _ i). exact Y.
Qed.

Lemma answer_G : forall (a f : Prop) i r x up s, inv s -> G a f s ->
  (f -> forall q, nth_error (reqs s) i = Some q -> rmsg q = MOwner ->
     forall h, dl (get h s) = Cached -> du (get h s) <> rnd x) ->
  G a f (answer i r x up s).
Proof.
  intros a f i r x up s V K FR. unfold answer.
  destruct (nth_error (reqs s) i) as [q|] eqn:H; [|exact K].
  destruct (took_spec i r q s V H) as [O [c [A [B [C [l [ad [more [D [E F]]]]]]]]]].
  change (emit (EAns (rown q) r) (set_reqs (firstn i (reqs s) ++ skipn (S i) (reqs s)) s))
    with (took i r q s).
  rewrite A. rewrite <- C in O.
  assert (K1 : G a f (took i r q s)) by (apply took_G; exact K).
  assert (FR1 : f -> stg c = MOwner -> forall h, dl (get h s) = Cached -> du (get h s) <> rnd x).
  { intros HF Q. apply (FR HF q eq_refl). rewrite <- Q.
    apply (g_req _ _ _ K); [apply (nth_error_In _ _ H)|exact B|exact C]. }
  assert (KN := known_took _ _ _ _ _ _ _ F).
  change (ctxs s) with (ctxs (took i r q s)) in B.
  destruct (accepted (stg c) r).
  - apply advance_G; assumption.
  - apply done_G; [apply O|exists c; auto|discriminate|exact K1].
Qed.
