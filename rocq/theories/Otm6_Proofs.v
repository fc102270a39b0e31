(** Proofs about ownership transfer, part 6: what a transfer leaves behind. *)

From Coq Require Import List Bool Arith Lia.
From Verif Require Obt_Proofs.
From Verif Require Import Otm_Model Otm_Spec Otm_Proofs Otm2_Proofs Otm3_Proofs Otm4_Proofs Otm5_Proofs.
Import ListNotations.

(** No success is reported. *)
Definition hush (s s' : st) : Prop :=
  forall x, In (EReport x true) (tr s') -> In (EReport x true) (tr s).

Lemma hush_trans : forall s a b, hush s a -> hush a b -> hush s b.
Proof. intros s a b A B x X. apply A, B, X. Qed.

Lemma hush_still : forall s s', still s s' -> hush s s'.
Proof.
  intros s s' S x X. apply (in_history x) in X; [|apply Nat.eqb_refl].
  apply (in_history x); [apply Nat.eqb_refl|]. rewrite (still_hist _ _ _ S) in X. exact X.
Qed.

Lemma hush_emit : forall e s, (forall x, e <> EReport x true) -> hush s (emit e s).
Proof.
  intros e s N x X. unfold emit in X. cbn [tr] in X. apply in_app_or in X.
  destruct X as [X|[X|[]]]; [exact X|destruct (N x X)].
Qed.

Lemma hush_done : forall up c s, pre1 (cid c) s -> has (cid c) (hnd c) s -> hush s (done up c false s).
Proof.
  intros up c s P H x X. destruct (done_frame up c false s P H) as [L F].
  destruct (proj1 (ends_rep _ _ _ _ _ F) x X) as [Q|[_ Q]]; [exact Q|discriminate Q].
Qed.

Lemma hush_hangup : forall up u s, pre s -> hush s (hangup up u s).
Proof. intros up u s P. destruct (hangup_frame up u s P) as [L F]. exact (proj1 (frame_rep _ _ _ F)). Qed.

Lemma hush_send : forall c h m s, hush s (send c h m s).
Proof.
  intros c h m s. unfold send. apply (hush_trans _ (touch h s)); [apply hush_still, still_touch|].
  intros x X. unfold emit, set_reqs in X. cbn [tr] in X. apply in_app_or in X.
  destruct X as [X|[X|[]]]; [exact X|discriminate X].
Qed.

Lemma hush_go : forall up ok c m s, pre1 (cid c) s -> has (cid c) (hnd c) s -> hush s (go up ok c m s).
Proof.
  intros up ok c m s P H. unfold go. destruct ok.
  - intros x X. apply hush_send in X. exact X.
  - apply (hush_trans _ (touch (hnd c) s)); [apply hush_still, still_touch|].
    apply hush_done; [apply (pre1_still _ s); [exact P|apply still_touch]|apply (has_still _ _ s); [exact H|apply still_touch]].
Qed.

Lemma hush_go' : forall up ok c m s s', still s s' -> pre1 (cid c) s -> has (cid c) (hnd c) s ->
  hush s (go up ok c m s').
Proof.
  intros up ok c m s s' S P H. apply (hush_trans _ s'); [apply hush_still; exact S|].
  apply hush_go; [apply (pre1_still _ s); assumption|apply (has_still _ _ s); assumption].
Qed.

Lemma hush_advance : forall up x c s, others (cid c) s -> has (cid c) (hnd c) s ->
  hush s (advance up x c s) \/
  (advance up x c s = done up c true s /\ (stg c = MNop \/ kd c = AskPin)).
Proof.
  intros up x c s O H. assert (P := o_pre _ _ O). assert (R := still_refl s).
  unfold advance. destruct (stg c) eqn:E; try (left; apply hush_go; assumption).
  - left. destruct (existsb _ _); [apply hush_go|apply hush_done]; assumption.
  - assert (GO : hush s (go up (sendok x) c MOm
       (hangup up (da (get (hnd c) (touch (hnd c) s))) (touch (hnd c) s)))).
    { set (t := touch (hnd c) s). assert (T : still s t) by apply still_touch.
      assert (O2 := others_still _ _ _ O T). assert (H2 := has_still _ _ _ _ H T).
      apply (hush_trans _ t); [apply hush_still; exact T|]. clearbody t.
      assert (PT : pre t) by apply O2.
      destruct (hangup_frame up (da (get (hnd c) t)) t PT) as [L F].
      destruct (others_frame _ _ _ _ O2 F) as [O3 [_ H3]].
      apply (hush_trans _ (hangup up (da (get (hnd c) t)) t)); [apply hush_hangup; exact PT|].
      apply hush_go; [apply O3|apply H3; exact H2]. }
    destruct (kd c) eqn:K; try (left; exact GO). right. auto.
  - left. eapply (hush_go' _ _ (mkctx (cid c) (hnd c) (kd c) MOwner (rnd x)) _ s); [|exact P|exact H].
    eapply still_trans; [|apply still_heap].
    destruct (kd c); first [apply still_touch | eapply still_trans; [apply still_touch|apply still_creds]].
  - left. destruct (keyok x).
    + eapply hush_go'; [|exact P|exact H]. eapply still_trans; [apply still_touch|apply still_creds].
    + apply (hush_trans _ (touch (hnd c) s)); [apply hush_still, still_touch|].
      apply hush_done; [apply (pre1_still _ s); [exact P|apply still_touch]|apply (has_still _ _ s); [exact H|apply still_touch]].
  - right. auto.
Qed.

Lemma hush_docall : forall k u l up s, inv s -> hush s (docall k u l up s).
Proof.
  intros k u l up s V.
  assert (NO : forall s, hush s (emit ENo s)) by (intros; apply hush_emit; discriminate).
  assert (RF : forall h k m s, inv s -> hush s (done up (mkctx (next s) h k m 0) false
                  (added (mkctx (next s) h k m 0) (ERefused (next s) h k) s))).
  { clear. intros h k m s V.
    destruct (added_spec (mkctx (next s) h k m 0) (ERefused (next s) h k) s) as [A [B [C D]]];
      [exact V|reflexivity|intros; apply Nat.eqb_sym|discriminate|].
    apply (hush_trans _ (added (mkctx (next s) h k m 0) (ERefused (next s) h k) s)).
    - intros x X. unfold added, emit in X. cbn [tr] in X. apply in_app_or in X.
      destruct X as [X|[X|[]]]; [exact X|discriminate X].
    - apply hush_done; [apply A|exact B]. }
  assert (AC : forall h k m s, hush s (send (next s) h m (added (mkctx (next s) h k m 0) (ECall (next s) h k) s))).
  { clear. intros h k m s. apply (hush_trans _ (added (mkctx (next s) h k m 0) (ECall (next s) h k) s)); [|apply hush_send].
    intros x X. unfold added, emit in X. cbn [tr] in X. apply in_app_or in X.
    destruct X as [X|[X|[]]]; [exact X|discriminate X]. }
  assert (VF := forget_if u s V).
  assert (HF : hush s (if owned u s then forget u s else s)).
  { destruct (owned u s); [apply hush_still, still_creds|apply hush_still, still_refl]. }
  unfold docall. cbv zeta. set (s1 := if owned u s then forget u s else s) in *. clearbody s1.
  assert (JW : forall k h s, inv s ->
    hush s (match l with
         | NoContext => emit ENo s
         | AllWell => send (next s) h MGet (added (mkctx (next s) h k MGet 0) (ECall (next s) h k) s)
         | _ => done up (mkctx (next s) h k MGet 0) false
                  (added (mkctx (next s) h k MGet 0) (ERefused (next s) h k) s)
         end)).
  { intros k0 h s0 V0. destruct l; [apply NO|apply RF; exact V0|apply RF; exact V0|apply AC]. }
  destruct k.
  - destruct (handle u s) as [h|]; [|apply NO].
    apply (hush_trans _ s1); [exact HF|]. apply (JW JustWorks); exact VF.
  - destruct (handle u s) as [h|]; [|apply NO]. apply (hush_trans _ s1); [exact HF|]. destruct l.
    + apply NO.
    + apply (hush_trans _ (emit ENull s1)); [apply hush_emit; discriminate|apply NO].
    + assert (VL : inv (learn u false s1)) by (apply (inv_still s1); [exact VF|apply still_creds]).
      apply (hush_trans _ (hangup up (da (get h s1)) (learn u false s1))).
      * apply (hush_trans _ (learn u false s1)); [apply hush_still, still_creds|].
        apply hush_hangup. apply VL.
      * refine (RF h RandomPin MOm (unlearn u (hangup up (da (get h s1)) (learn u false s1))) _).
        apply (inv_still (hangup up (da (get h s1)) (learn u false s1))); [|apply still_creds].
        apply hangup_inv. exact VL.
    + assert (VL : inv (learn u false s1)) by (apply (inv_still s1); [exact VF|apply still_creds]).
      apply (hush_trans _ (hangup up (da (get h s1)) (learn u false s1))).
      * apply (hush_trans _ (learn u false s1)); [apply hush_still, still_creds|].
        apply hush_hangup. apply VL.
      * apply AC.
  - destruct (handle u s) as [h|]; [|apply NO].
    apply (hush_trans _ s1); [exact HF|]. apply (JW MfgCert); exact VF.
  - destruct (owned u s); [apply NO|]. destruct (handle u s) as [h|]; [|apply NO].
    apply (JW AskPin). exact V.
Qed.

Lemma script_uuid : forall k u v, In (MUuid v) (script k u) -> v = u.
Proof.
  intros k u v H. destruct k; cbn [script main_part In] in H;
    repeat (destruct H as [H|H]; [first [discriminate H|injection H as <-; reflexivity]|]); destruct H.
Qed.

(** The credential at the moment of success. *)
Lemma won : forall ops o c h k a v,
  solo (ops ++ [o]) -> fresh (ops ++ [o]) ->
  ~ In (EReport c true) (tr (run ops)) ->
  In (EReport c true) (tr (run (ops ++ [o]))) ->
  In (ECall c h k) (tr (run (ops ++ [o]))) -> k <> AskPin ->
  In (ESent c a (MUuid v)) (tr (run (ops ++ [o]))) ->
  uuid_of h (run (ops ++ [o])) = v /\ In (v, true) (creds (run (ops ++ [o]))).
Proof.
  intros ops o c h k ad v SO FR N R CA NA SE.
  assert (V := run_inv ops).
  assert (K : G False True (run ops)).
  { apply run_G.
    - intros before k0 u l up after c0 h0 E. subst ops. apply (SO before k0 u l up (after ++ [o])).
      rewrite <- app_assoc. reflexivity.
    - intros [].
    - intros _ before i r x up after q h0 E. subst ops. apply (FR before i r x up (after ++ [o])).
      rewrite <- app_assoc. reflexivity. }
  rewrite run_snoc in *. set (s := run ops) in *. clearbody s. clear SO FR.
  assert (HU : hush s (step s o) -> False) by (intros Q; apply N, Q, R).
  destruct o as [u a2|i|k0 u l up|i r x up|a2 up]; cbn [step] in *.
  - destruct HU. apply hush_still. unfold discover. destruct (handle u s);
      (eapply still_trans; [|apply still_gets]); apply still_heap.
  - destruct HU. apply hush_still. unfold endpoints. destruct (nth_error (gets s) i); [|apply still_refl].
    eapply still_trans; [|apply still_touch]. apply still_gets.
  - destruct HU. apply hush_docall. exact V.
  - unfold answer in *. destruct (nth_error (reqs s) i) as [q|] eqn:H;
      [|destruct HU; apply hush_still, still_refl].
    destruct (took_spec i r q s V H) as [O [x' [A [B [C [l [a3 [more [D [E F]]]]]]]]]].
    change (emit (EAns (rown q) r) (set_reqs (firstn i (reqs s) ++ skipn (S i) (reqs s)) s))
      with (took i r q s) in *.
    rewrite A in *. rewrite <- C in O.
    assert (HT : hush s (took i r q s)).
    { intros y Y. unfold took, emit in Y. cbn [tr set_reqs] in Y. apply in_app_or in Y.
      destruct Y as [Y|[Y|[]]]; [exact Y|discriminate Y]. }
    assert (K1 : G False True (took i r q s)) by (apply took_G; exact K).
    assert (KN := known_took _ _ _ _ _ _ _ F).
    change (ctxs s) with (ctxs (took i r q s)) in B.
    assert (HX : has (cid x') (hnd x') (took i r q s)) by (exists x'; auto).
    set (t := took i r q s) in *. clearbody t.
    destruct (accepted (stg x') r); [|destruct HU; apply (hush_trans _ t); [exact HT|apply hush_done; [apply O|exact HX]]].
    destruct (hush_advance up x x' t O HX) as [Q|[Q W]]; [destruct HU; apply (hush_trans _ t); assumption|].
    rewrite Q in *. clear Q HU.
    destruct (done_frame up x' true t (o_pre _ _ O) HX) as [L EN].
    destruct (ends_rep _ _ _ _ _ EN) as [ER EC].
    destruct (ER c R) as [Z|[-> _]]; [destruct (N (HT c Z))|].
    destruct (KN h k (EC _ _ _ CA)) as [-> ->].
    destruct W as [W|W]; [|destruct (NA W)].
    destruct (done_true up x' t (o_pre _ _ O) HX (g_safe _ _ _ K1) NA) as [_ [DU CR]].
    assert (RU : du (get (hnd x') t) = ru x') by (apply (g_ru _ _ _ K1 x' B); rewrite W; reflexivity).
    assert (KE : In (du (get (hnd x') t), true) (creds t)) by (apply (g_keys _ _ _ K1 Logic.I x' B); rewrite W; reflexivity).
    assert (VE : v = ru x').
    { apply (in_history (cid x')) in SE; [|apply Nat.eqb_refl]. rewrite (en_hist _ _ _ _ _ EN), Nat.eqb_refl in SE.
      apply in_app_or in SE. destruct SE as [SE|SE].
      - rewrite F in SE. destruct SE as [SE|SE]; [discriminate SE|]. apply in_app_or in SE.
        destruct SE as [SE|[SE|[SE|[]]]]; [|injection SE as _ SE; rewrite W in SE; discriminate SE|discriminate SE].
        apply said_in in SE. destruct SE as [tn [T1 [T2|T2]]]; [|discriminate T2]. injection T2 as _ T2.
        apply (script_uuid (kd x')). rewrite D. apply in_or_app. left. rewrite T2. apply in_map. exact T1.
      - apply in_app_or in SE. destruct SE as [SE|[SE|[]]]; [|discriminate SE].
        unfold gone in SE. destruct (member (cid x') L); [|destruct SE].
        destruct SE as [SE|[SE|[]]]; discriminate SE. }
    rewrite uuid_get, DU, RU, VE. split; [reflexivity|].
    rewrite <- RU. apply CR; [apply (g_uuid _ _ _ K1 Logic.I)|exact KE].
  - destruct HU. apply hush_hangup. apply V.
Qed.

(** A failed transfer's device is gone for good. *)
Definition rec (c h : nat) (l : list ev) : Prop :=
  exists k, In (ECall c h k) l \/ In (ERefused c h k) l.

Definition dead (s : st) : Prop :=
  forall c h, rec c h (tr s) ->
    h < length (heap s) /\ (In (EReport c false) (tr s) -> dl (get h s) = Freed).

Definition one (s : st) : Prop := forall c h i, has c h s -> rec c i (tr s) -> i = h.

Record mono (s s' : st) : Prop := mkmono {
  m_len : length (heap s) <= length (heap s');
  m_dl : forall h, dl (get h s) = Freed -> dl (get h s') = Freed;
  m_rec : forall c h, rec c h (tr s') -> rec c h (tr s);
  m_has : forall c h, has c h s' -> has c h s }.

Definition R (s s' : st) : Prop := one s -> dead s -> dead s' /\ mono s s'.

Lemma mono_one : forall s s', mono s s' -> one s -> one s'.
Proof. intros s s' [L A B C] O c h i H I. apply (O c); [apply C; exact H|apply B; exact I]. Qed.

Lemma R_trans : forall s a b, R s a -> R a b -> R s b.
Proof.
  intros s a b A B O D. destruct (A O D) as [D1 M1]. destruct (B (mono_one _ _ M1 O) D1) as [D2 M2].
  split; [exact D2|]. destruct M1, M2. split; auto. lia.
Qed.

Lemma R_refl : forall s, R s s.
Proof. intros s O D. split; [exact D|split; auto]. Qed.

(** Changes that leave the trace alone. *)
Lemma R_same : forall s s', tr s' = tr s -> length (heap s') = length (heap s) -> (forall h, dl (get h s) = Freed -> dl (get h s') = Freed) ->
  (forall c h, has c h s' -> has c h s) -> R s s'.
Proof.
  intros s s' T L D H O DD. split.
  - intros c h A. rewrite T in *. rewrite L. destruct (DD c h A) as [X Y]. split; [exact X|].
    intros B. apply D. apply Y. exact B.
  - split; [lia|exact D|rewrite T; auto|exact H].
Qed.

Lemma rec_app : forall c h l e, rec c h (l ++ [e]) ->
  rec c h l \/ exists k, e = ECall c h k \/ e = ERefused c h k.
Proof.
  intros c h l e [k [H|H]]; apply in_app_or in H; destruct H as [H|[H|[]]];
    [left; exists k; auto|right; exists k; auto|left; exists k; auto|right; exists k; auto].
Qed.

Lemma R_emit : forall e s, (forall c, e <> EReport c false) ->
  (forall c h k, e <> ECall c h k) -> (forall c h k, e <> ERefused c h k) -> R s (emit e s).
Proof.
  intros e s A B C O D. unfold emit.
  assert (Q : forall c h, rec c h (tr s ++ [e]) -> rec c h (tr s)).
  { intros c h Z. apply rec_app in Z. destruct Z as [Z|[k [Z|Z]]]; [exact Z|destruct (B _ _ _ Z)|destruct (C _ _ _ Z)]. }
  split.
  - intros c h X. cbn [tr] in *. apply Q in X. destruct (D c h X) as [X1 X2]. split; [exact X1|].
    intros Y. apply in_app_or in Y. destruct Y as [Y|[Y|[]]]; [exact (X2 Y)|destruct (A c Y)].
  - split; [cbn [heap]; lia|auto|exact Q|auto].
Qed.

Lemma R_touch : forall h s, R s (touch h s).
Proof.
  intros. unfold touch. destruct (is_freed _); [|apply R_refl]. apply R_emit; discriminate.
Qed.

Lemma R_move : forall h s, R s (move h s).
Proof.
  intros h s. unfold move. destruct (is_freed (dl (get h s))) eqn:E; [apply R_emit; discriminate|].
  apply R_same; [reflexivity|apply put_len| |auto].
  intros i Q. rewrite get_put. destruct ((i =? h) && _) eqn:Z; [|exact Q].
  apply andb_true_iff in Z. destruct Z as [Z _]. apply Nat.eqb_eq in Z. subst i.
  rewrite Q in E. discriminate E.
Qed.

Lemma freed_free : forall h s, dl (get h (free_device h s)) = Freed /\
  (forall i, dl (get i s) = Freed -> dl (get i (free_device h s)) = Freed).
Proof.
  intros h s. unfold free_device. destruct (is_freed (dl (get h s))) eqn:E.
  - split; [|auto]. change (dl (get h s) = Freed). destruct (dl (get h s)); try discriminate E. reflexivity.
  - set (d := mkdev (du (get h s)) (da (get h s)) Freed).
    assert (Q : forall i, get i (emit (EFree h) (set_dev h d s)) = if (i =? h) && (h <? length (heap s)) then d else get i s)
      by (intros; apply get_put).
    split.
    + rewrite Q, Nat.eqb_refl. assert (L : h < length (heap s)).
      { apply in_range. intros Z. rewrite Z in E. discriminate E. }
      apply Nat.ltb_lt in L. rewrite L. reflexivity.
    + intros i Z. rewrite Q. destruct ((i =? h) && _); [reflexivity|exact Z].
Qed.

Lemma tr_free : forall h s, exists e, tr (free_device h s) = tr s ++ [e] /\ (e = EFault h \/ e = EFree h).
Proof.
  intros h s. unfold free_device. destruct (is_freed _); [exists (EFault h)|exists (EFree h)]; auto.
Qed.

Lemma len_free : forall h s, length (heap (free_device h s)) = length (heap s).
Proof. intros h s. unfold free_device. destruct (is_freed _); [reflexivity|apply put_len]. Qed.

Lemma ctxs_free : forall h s, ctxs (free_device h s) = ctxs s.
Proof. intros h s. unfold free_device. destruct (is_freed _); reflexivity. Qed.

(** The report of a failure, with the freeing of the device. *)
Lemma R_fail : forall c h s, (forall i, rec c i (tr s) -> i = h) ->
  R s (free_device h (emit (EReport c false) s)).
Proof.
  intros c h s K O D. set (t := emit (EReport c false) s).
  destruct (freed_free h t) as [F1 F2]. destruct (tr_free h t) as [e [T E]].
  assert (Q : forall b i, rec b i (tr (free_device h t)) -> rec b i (tr s)).
  { intros b i Z. rewrite T in Z. apply rec_app in Z. destruct Z as [Z|[k Z]].
    - apply rec_app in Z. destruct Z as [Z|[k [Z|Z]]]; [exact Z|discriminate Z|discriminate Z].
    - destruct E as [-> | ->], Z as [Z|Z]; discriminate Z. }
  split.
  - intros b i X. apply Q in X. destruct (D b i X) as [X1 X2]. split; [rewrite len_free; exact X1|].
    intros Y. rewrite T in Y. unfold t, emit in Y. cbn [tr] in Y.
    rewrite <- app_assoc in Y. apply in_app_or in Y. destruct Y as [Y|[Y|[Y|[]]]].
    + apply F2. exact (X2 Y).
    + injection Y as <-. rewrite (K i X). exact F1.
    + destruct E as [-> | ->]; discriminate Y.
  - split; [rewrite len_free; unfold t; cbn [heap emit]; lia|exact F2|exact Q|]. intros b i [x X]. rewrite ctxs_free in X. exists x. exact X.
Qed.

Lemma fates : forall f,
  (forall up c good s, (forall i, rec (cid c) i (tr s) -> i = hnd c) -> R s (finish f up c good s)) /\
  (forall up u s, R s (close f up u s)).
Proof.
  induction f as [|f [IH1 IH2]].
  - split; intros; apply R_emit; discriminate.
  - split.
    + intros up c good s K. cbn [finish].
      assert (R0 : R s (touch (hnd c) (drop_ctx (cid c) s))).
      { apply (R_trans _ (drop_ctx (cid c) s)); [|apply R_touch]. apply R_same; [reflexivity|reflexivity|auto|].
        intros b h [x [A B]]. unfold drop_ctx, set_ctxs in A. cbn [ctxs] in A. apply filter_In in A.
        exists x. split; [apply A|exact B]. }
      set (s0 := touch (hnd c) (drop_ctx (cid c) s)) in *. clearbody s0.
      assert (R1 : R s (close f up (da (get (hnd c) s0)) s0)) by (apply (R_trans _ s0); [exact R0|apply IH2]).
      set (s1 := close f up (da (get (hnd c) s0)) s0) in *. clearbody s1. destruct good.
      * apply (R_trans _ s1); [exact R1|].
        apply (R_trans _ (match kd c with AskPin => touch (hnd c) s1 | _ => move (hnd c) s1 end));
          [destruct (kd c); first [apply R_touch|apply R_move]|apply R_emit; discriminate].
      * assert (R2 : R s (forget (du (get (hnd c) (touch (hnd c) s1))) (touch (hnd c) s1))).
        { apply (R_trans _ s1); [exact R1|]. apply (R_trans _ (touch (hnd c) s1)); [apply R_touch|].
          apply R_same; auto. }
        set (s2 := forget (du (get (hnd c) (touch (hnd c) s1))) (touch (hnd c) s1)) in *. clearbody s2.
        intros O D. destruct (R2 O D) as [D2 M2].
        assert (R3 : R s2 (free_device (hnd c) (emit (EReport (cid c) false) s2))).
        { apply R_fail. intros i Q. apply K. apply (m_rec _ _ M2). exact Q. }
        exact (R_trans _ _ _ R2 R3 O D).
    + intros up u s. cbn [close]. destruct (member u up); [|apply R_refl].
      destruct (pop u (reqs s)) as [[r l]|]; [|apply R_refl].
      set (s1 := emit (ELost (rown r)) (set_reqs l s)).
      assert (R1 : R s s1).
      { apply (R_trans _ (set_reqs l s)); [apply R_same; auto|apply R_emit; discriminate]. }
      destruct (find_ctx (rown r) s1) as [c|] eqn:F.
      * intros O D. destruct (R1 O D) as [D1 M1]. assert (O1 := mono_one _ _ M1 O).
        unfold find_ctx in F. apply find_some in F. destruct F as [F1 F2].
        assert (R2 : R s1 (finish f up c false s1)).
        { apply IH1. intros i Q. apply (O1 (cid c) (hnd c) i); [exists c; auto|exact Q]. }
        exact (R_trans _ _ _ R1 (R_trans _ _ _ R2 (IH2 up u _)) O D).
      * apply (R_trans _ s1); [exact R1|apply IH2].
Qed.

Lemma R_hangup : forall up u s, R s (hangup up u s).
Proof. intros. unfold hangup. apply (proj2 (fates _)). Qed.

Lemma R_done : forall up c good s, has (cid c) (hnd c) s -> R s (done up c good s).
Proof.
  intros up c good s H O D. unfold done. apply (proj1 (fates _)); [|exact O|exact D].
  intros i Q. exact (O _ _ _ H Q).
Qed.

Lemma R_send : forall c h m s, R s (send c h m s).
Proof.
  intros. unfold send. apply (R_trans _ (touch h s)); [apply R_touch|].
  set (t := touch h s). clearbody t.
  apply (R_trans _ (set_reqs (reqs t ++ [mkreq (da (get h t)) m c]) t)); [apply R_same; auto|].
  apply R_emit; discriminate.
Qed.

Lemma R_go : forall up ok c m s, has (cid c) (hnd c) s -> R s (go up ok c m s).
Proof.
  intros up ok c m s H. unfold go. destruct ok.
  - eapply R_trans; [|apply R_send]. apply R_same; [reflexivity|reflexivity|auto|].
    intros b h Q. apply (has_put _ _ (mkctx (cid c) (hnd c) (kd c) m (ru c))); [exact H|exact Q].
  - apply (R_trans _ (touch (hnd c) s)); [apply R_touch|]. apply R_done.
    apply (has_still _ _ s); [exact H|apply still_touch].
Qed.

Lemma R_advance : forall up x c s, others (cid c) s -> has (cid c) (hnd c) s -> R s (advance up x c s).
Proof.
  intros up x c s O H. assert (HS : forall s', still s s' -> has (cid c) (hnd c) s').
  { intros s' S. apply (has_still _ _ s); assumption. }
  unfold advance. destruct (stg c) eqn:E; try (apply R_go; exact H).
  - destruct (existsb _ _); [apply R_go|apply R_done]; exact H.
  - assert (GO : R s (go up (sendok x) c MOm
       (hangup up (da (get (hnd c) (touch (hnd c) s))) (touch (hnd c) s)))).
    { apply (R_trans _ (touch (hnd c) s)); [apply R_touch|].
      set (t := touch (hnd c) s). assert (T : still s t) by apply still_touch.
      assert (O2 := others_still _ _ _ O T). assert (H2 := HS _ T). clearbody t.
      assert (PT : pre t) by apply O2.
      destruct (hangup_frame up (da (get (hnd c) t)) t PT) as [L F].
      destruct (others_frame _ _ _ _ O2 F) as [_ [_ H3]].
      apply (R_trans _ (hangup up (da (get (hnd c) t)) t)); [apply R_hangup|].
      apply R_go. apply H3. exact H2. }
    destruct (kd c); try exact GO. apply R_done. exact H.
  - apply (R_trans _ (touch (hnd c) s)); [apply R_touch|].
    set (t := touch (hnd c) s). assert (T : still s t) by apply still_touch. clearbody t.
    set (t2 := match kd c with RandomPin => forget (du (get (hnd c) t)) t | _ => t end).
    assert (T2 : still t t2) by (unfold t2; destruct (kd c); first [apply still_refl|apply still_creds]).
    assert (G2 : forall i, get i t2 = get i t) by (intros i; unfold t2; destruct (kd c); reflexivity).
    assert (R2 : R t t2) by (unfold t2; destruct (kd c); first [apply R_refl|apply R_same; auto]).
    clearbody t2. apply (R_trans _ t2); [exact R2|].
    eapply R_trans; [|apply R_go].
    + apply R_same; [reflexivity|apply put_len| |auto]. intros i Q. rewrite get_put.
      destruct ((i =? hnd c) && _) eqn:Z; [|exact Q]. apply andb_true_iff in Z. destruct Z as [Z _].
      apply Nat.eqb_eq in Z. subst i. cbn [dl]. rewrite <- G2. exact Q.
    + cbn [cid hnd]. apply HS. apply (still_trans _ t); [exact T|].
      apply (still_trans _ t2); [exact T2|apply still_heap].
  - apply (R_trans _ (touch (hnd c) s)); [apply R_touch|]. assert (T : still s (touch (hnd c) s)) by apply still_touch.
    destruct (keyok x).
    + eapply R_trans; [|apply R_go; apply HS; eapply still_trans; [exact T|apply still_creds]].
      apply R_same; auto.
    + apply R_done. apply HS. exact T.
  - apply R_done. exact H.
Qed.

(** The device of every transfer is the one of its call. *)
Lemma inv_one : forall s, inv s -> one s.
Proof.
  intros s V c h i [x [X [A B]]] Q. subst c h. destruct (i_live _ V x X) as [l [a [more [_ [_ E]]]]].
  assert (NO : forall e, In e (ECall (cid x) (hnd x) (kd x) :: said (cid x) l ++ [ESent (cid x) a (stg x)]) ->
     (forall k, e = ECall (cid x) i k \/ e = ERefused (cid x) i k -> i = hnd x)).
  { intros e [<-|I] k Z.
    - destruct Z as [Z|Z]; [injection Z as -> _; reflexivity|discriminate Z].
    - exfalso. apply in_app_or in I. destruct I as [I|[<-|[]]].
      + apply said_in in I. destruct I as [t [_ [-> | ->]]]; destruct Z as [Z|Z]; discriminate Z.
      + destruct Z as [Z|Z]; discriminate Z. }
  rewrite <- E in NO. destruct Q as [k [Q|Q]];
    (apply (in_history (cid x)) in Q; [|apply Nat.eqb_refl]); apply (NO _ Q k); auto.
Qed.

Lemma dead_added : forall c e s, inv s -> dead s -> cid c = next s -> hnd c < length (heap s) ->
  (forall x h k, e = ECall x h k \/ e = ERefused x h k -> x = next s /\ h = hnd c) -> (forall x, e <> EReport x false) ->
  dead (added c e s) /\ one (added c e s).
Proof.
  intros c e s V D EC LT E1 E2.
  assert (HN : history (next s) (tr s) = []).
  { destruct (i_closed _ V (next s)) as [[_ Z]|[Z _]]; [|exact Z|lia].
    intros Z. apply (i_next _ V) in Z. lia. }
  assert (NR : forall h, ~ rec (next s) h (tr s)).
  { intros h [k [Q|Q]]; (apply (in_history (next s)) in Q; [|apply Nat.eqb_refl]); rewrite HN in Q; destruct Q. }
  split.
  - intros b h X. unfold added, emit in *. cbn [tr heap] in *. apply rec_app in X. split.
    { destruct X as [X|[k X]]; [apply (D b h X)|]. destruct (E1 _ _ _ X) as [_ ->]. exact LT. }
    intros Y. apply in_app_or in Y. destruct Y as [Y|[Y|[]]]; [|destruct (E2 b Y)].
    destruct X as [X|[k X]]; [exact (proj2 (D b h X) Y)|].
    destruct (E1 _ _ _ X) as [-> _]. apply (in_history (next s)) in Y; [|apply Nat.eqb_refl].
    rewrite HN in Y. destruct Y.
  - intros b h i [x [A [B C]]] X. unfold added, emit in A, X. cbn [ctxs tr] in A, X.
    apply rec_app in X. apply in_app_or in A. destruct A as [A|[<-|[]]].
    + destruct X as [X|[k X]]; [apply (inv_one s V b); [exists x; auto|exact X]|].
      destruct (E1 _ _ _ X) as [Z _]. assert (Q := i_next _ V (cid x) (ids_in _ _ A)). lia.
    + destruct X as [X|[k X]]; [destruct (NR i); rewrite <- EC, B; exact X|].
      destruct (E1 _ _ _ X) as [_ Z]. congruence.
Qed.

Lemma dead_docall : forall k u l up s, inv s -> dead s -> dead (docall k u l up s).
Proof.
  intros k u l up s V D.
  assert (RD : forall s s', inv s -> R s s' -> dead s -> dead s').
  { intros a b VA Q DA. apply Q; [apply inv_one; exact VA|exact DA]. }
  assert (NO : forall s, inv s -> dead s -> dead (emit ENo s)).
  { intros a VA DA. apply (RD a); [exact VA|apply R_emit; discriminate|exact DA]. }
  assert (RF : forall h k m s, inv s -> dead s -> h < length (heap s) -> dead (done up (mkctx (next s) h k m 0) false
                  (added (mkctx (next s) h k m 0) (ERefused (next s) h k) s))).
  { clear. intros h k m s V D LT.
    destruct (added_spec (mkctx (next s) h k m 0) (ERefused (next s) h k) s) as [A [B [C _]]];
      [exact V|reflexivity|intros; apply Nat.eqb_sym|discriminate|].
    destruct (dead_added (mkctx (next s) h k m 0) (ERefused (next s) h k) s) as [D1 O1];
      [exact V|exact D|reflexivity|exact LT| |discriminate|].
    - intros x i k0 [Z|Z]; [discriminate Z|]. injection Z as <- <- _. auto.
    - apply (R_done up (mkctx (next s) h k m 0) false _ B O1 D1). }
  assert (AC : forall h k m s, inv s -> dead s -> h < length (heap s) ->
     dead (send (next s) h m (added (mkctx (next s) h k m 0) (ECall (next s) h k) s))).
  { clear. intros h k m s V D LT.
    destruct (dead_added (mkctx (next s) h k m 0) (ECall (next s) h k) s) as [D1 O1];
      [exact V|exact D|reflexivity|exact LT| |discriminate|].
    - intros x i k0 [Z|Z]; [|discriminate Z]. injection Z as <- <- _. auto.
    - apply (R_send _ _ _ _ O1 D1). }
  assert (VF := forget_if u s V).
  assert (DF : dead (if owned u s then forget u s else s)) by (destruct (owned u s); exact D).
  assert (LF : length (heap (if owned u s then forget u s else s)) = length (heap s)) by (destruct (owned u s); reflexivity).
  assert (HL : forall h, handle u s = Some h -> h < length (heap s)).
  { intros h Q. apply in_range. rewrite (proj1 (handle_some _ _ _ Q)). discriminate. }
  unfold docall. cbv zeta. set (s1 := if owned u s then forget u s else s) in *. clearbody s1.
  assert (JW : forall k h s, inv s -> dead s -> h < length (heap s) ->
    dead (match l with
         | NoContext => emit ENo s
         | AllWell => send (next s) h MGet (added (mkctx (next s) h k MGet 0) (ECall (next s) h k) s)
         | _ => done up (mkctx (next s) h k MGet 0) false
                  (added (mkctx (next s) h k MGet 0) (ERefused (next s) h k) s)
         end)).
  { intros k0 h s0 V0 D0 L0. destruct l; [apply NO|apply RF|apply RF|apply AC]; assumption. }
  destruct k.
  - destruct (handle u s) as [h|]; [|apply NO; assumption]. specialize (HL h eq_refl). rewrite <- LF in HL. apply (JW JustWorks); assumption.
  - destruct (handle u s) as [h|]; [|apply NO; assumption]. specialize (HL h eq_refl). rewrite <- LF in HL. destruct l.
    + apply NO; assumption.
    + apply (RD s1); [exact VF| |exact DF]. apply (R_trans _ (emit ENull s1)); apply R_emit; discriminate.
    + set (s2 := hangup up (da (get h s1)) (learn u false s1)).
      assert (V2 : inv s2) by (apply hangup_inv; apply (inv_still s1); [exact VF|apply still_creds]).
      assert (D2 : dead s2).
      { apply (RD s1); [exact VF| |exact DF]. apply (R_trans _ (learn u false s1)); [apply R_same; auto|apply R_hangup]. }
      assert (L2 : h < length (heap s2)).
      { destruct (hangup_frame up (da (get h s1)) (learn u false s1)) as [M F]; [exact (i_pre _ VF)|].
        unfold s2. rewrite (k_len _ _ _ (fr_calm _ _ _ F)). exact HL. }
      clearbody s2. refine (RF h RandomPin MOm (unlearn u s2) _ D2 L2).
      apply (inv_still s2); [exact V2|apply still_creds].
    + set (s2 := hangup up (da (get h s1)) (learn u false s1)).
      assert (V2 : inv s2) by (apply hangup_inv; apply (inv_still s1); [exact VF|apply still_creds]).
      assert (D2 : dead s2).
      { apply (RD s1); [exact VF| |exact DF]. apply (R_trans _ (learn u false s1)); [apply R_same; auto|apply R_hangup]. }
      assert (L2 : h < length (heap s2)).
      { destruct (hangup_frame up (da (get h s1)) (learn u false s1)) as [M F]; [exact (i_pre _ VF)|].
        unfold s2. rewrite (k_len _ _ _ (fr_calm _ _ _ F)). exact HL. }
      clearbody s2. apply AC; assumption.
  - destruct (handle u s) as [h|]; [|apply NO; assumption]. specialize (HL h eq_refl). rewrite <- LF in HL. apply (JW MfgCert); assumption.
  - destruct (owned u s); [apply NO; assumption|]. destruct (handle u s) as [h|]; [|apply NO; assumption].
    apply (JW AskPin); [assumption|assumption|apply HL; reflexivity].
Qed.

Lemma dead_step : forall o s, inv s -> dead s -> dead (step s o).
Proof.
  intros o s V D. assert (O := inv_one s V).
  assert (RD : forall s', R s s' -> dead s') by (intros s' Q; apply Q; assumption).
  destruct o as [u a|i|k u l up|i r x up|a up]; cbn [step].
  - unfold discover. destruct (handle u s) as [h|] eqn:H.
    + apply RD. apply R_same; [reflexivity|apply put_len| |auto]. intros i Q.
      change (dl (get i (set_dev h (mkdev u a Cached) s)) = Freed). rewrite get_put.
      destruct ((i =? h) && _) eqn:Z; [|exact Q]. apply andb_true_iff in Z. destruct Z as [Z _].
      apply Nat.eqb_eq in Z. subst i. destruct (handle_some _ _ _ H) as [A _]. congruence.
    + intros c h A. destruct (D c h A) as [L Q]. unfold get. cbn [heap set_gets set_heap].
      rewrite app_length. split; [lia|]. intros B. rewrite app_nth1 by exact L. exact (Q B).
  - apply RD. unfold endpoints. destruct (nth_error (gets s) i); [|apply R_refl].
    eapply R_trans; [|apply R_touch]. apply R_same; auto.
  - apply dead_docall; assumption.
  - unfold answer. destruct (nth_error (reqs s) i) as [q|] eqn:H; [|exact D].
    destruct (took_spec i r q s V H) as [OT [c [A [B [C _]]]]].
    change (emit (EAns (rown q) r) (set_reqs (firstn i (reqs s) ++ skipn (S i) (reqs s)) s))
      with (took i r q s).
    rewrite A. rewrite <- C in OT.
    assert (HX : has (cid c) (hnd c) (took i r q s)) by (exists c; auto).
    apply RD. apply (R_trans _ (took i r q s)).
    + unfold took. eapply R_trans; [|apply R_emit; discriminate]. apply R_same; auto.
    + destruct (accepted (stg c) r); [apply R_advance|apply R_done]; assumption.
  - apply RD. apply R_hangup.
Qed.

Lemma run_dead : forall ops, dead (run ops).
Proof.
  induction ops as [|o ops IH] using rev_ind.
  - intros c h [k [[]|[]]].
  - rewrite run_snoc. apply dead_step; [apply run_inv|exact IH].
Qed.
