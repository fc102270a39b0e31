(** Proofs about the onboarding tool, part 2: the story of every operation. *)

From Coq Require Import List Bool Arith Lia.
From Verif Require Common.
From Verif Require Import Obt_Model Obt_Spec Obt_Proofs.
Import ListNotations.

(** The place of a stage in the script. *)
Definition pos (t : task) (g : stage) : option nat :=
  match t, g with
  | TReset _, WReset => Some 0
  | TPair _ _, WPro1 | TOsc _ _, WPro1 => Some 0
  | TPair _ _, WPro2 | TOsc _ _, WPro2 => Some 1
  | TPair _ _, WWork1 | TOsc _ _, WWork1 => Some 2
  | TPair _ _, WWork2 | TOsc _ _, WWork2 => Some 3
  | TPair _ _, WNop1 | TOsc _ _, WNop1 => Some 4
  | TPair _ _, WNop2 | TOsc _ _, WNop2 => Some 5
  | TAce _ _, WPro1 | TDelKey _ _, WPro1 | TDelAce _ _, WPro1 => Some 0
  | TAce _ _, WWork1 | TDelKey _ _, WWork1 | TDelAce _ _, WWork1 => Some 1
  | TAce _ _, WNop1 | TDelKey _ _, WNop1 | TDelAce _ _, WNop1 => Some 2
  | _, _ => None
  end.

Definition plan (x : ctx) : list (nat * msg) := script (tsk x) (sec x) (sid x) (rid x).

Definition live (x : ctx) (h : list ev) : Prop :=
  exists n u m, pos (tsk x) (stg x) = Some n /\ nth_error (plan x) n = Some (u, m) /\
    h = ECall (cid x) (tsk x) :: said (cid x) (firstn n (plan x)) ++ [ESent (cid x) u m].

Inductive ended (c : nat) : list ev -> Prop :=
| e_ok t k a b :
    ended c (ECall c t :: said c (script t k a b) ++ success c t)
| e_unsent t k a b n :
    0 < n -> n < length (script t k a b) ->
    ended c (ECall c t :: said c (firstn n (script t k a b)) ++ [EReport c false])
| e_failed t k a b n u m e :
    nth_error (script t k a b) n = Some (u, m) ->
    e = EAns c false \/ e = ELost c ->
    ended c (ECall c t :: said c (firstn n (script t k a b)) ++ [ESent c u m; e; EReport c false]).

Definition closed (s : st) (c : nat) : Prop :=
  (next s <= c /\ history c (tr s) = []) \/ (c < next s /\ ended c (history c (tr s))).

Record inv (s : st) : Prop := mkinv {
  i_pre : pre s;
  i_next : forall c, In c (ids s) -> c < next s;
  i_live : forall x, In x (ctxs s) -> live x (history (cid x) (tr s));
  i_closed : forall c, ~ In c (ids s) -> closed s c;
  i_stuck : ~ In EStuck (tr s);
  i_hs : NoDup (map fst (devs s));
  i_nexth : forall d, In d (devs s) -> fst d < nexth s }.

(** Everything but the operation [c], whose request has just ended. *)
Record others (c : nat) (s : st) : Prop := mkothers {
  o_pre : pre1 c s;
  o_next : forall x, In x (ids s) -> x < next s;
  o_live : forall x, In x (ctxs s) -> cid x <> c -> live x (history (cid x) (tr s));
  o_closed : forall x, ~ In x (ids s) -> closed s x;
  o_stuck : ~ In EStuck (tr s);
  o_hs : NoDup (map fst (devs s));
  o_nexth : forall d, In d (devs s) -> fst d < nexth s }.

Lemma live_lost : forall x h, live x h -> ended (cid x) (h ++ [ELost (cid x); EReport (cid x) false]).
Proof.
  intros x h [n [u [m [A [B E]]]]]. subst h. cbn [app]. rewrite <- app_assoc.
  apply e_failed; [exact B|right; reflexivity].
Qed.

Lemma ids_in : forall x s, In x (ctxs s) -> In (cid x) (ids s).
Proof. intros. apply in_map. assumption. Qed.

Lemma ctx_of : forall c s, In c (ids s) -> exists x, In x (ctxs s) /\ cid x = c.
Proof.
  intros c s H. unfold ids in H. apply in_map_iff in H. destruct H as [x [E X]].
  exists x. auto.
Qed.

Lemma gone_not : forall L c, ~ In c L -> gone L c = [].
Proof. intros L c H. unfold gone. apply member_false in H. rewrite H. reflexivity. Qed.

Lemma gone_in : forall L c, In c L -> gone L c = [ELost c; EReport c false].
Proof. intros L c H. unfold gone. apply member_in in H. rewrite H. reflexivity. Qed.

Lemma in_dec' : forall (c : nat) l, In c l \/ ~ In c l.
Proof. intros. destruct (in_dec Nat.eq_dec c l); auto. Qed.

Lemma inv_frame : forall L s s', inv s -> frame L s s' -> inv s'.
Proof.
  intros L s s' V F. destruct V as [V1 V2 V3 V4 V5 V6 V7].
  assert (IDS : ids s' = filter (fun x => negb (member x L)) (ids s)).
  { unfold ids. rewrite (fr_ctxs _ _ _ F). apply ids_filter. }
  split.
  - apply (frame_pre _ _ _ V1 F).
  - intros c H. rewrite (fr_next _ _ _ F). rewrite IDS in H. apply in_keep in H. apply V2. apply H.
  - intros x X. rewrite (fr_ctxs _ _ _ F) in X. apply filter_In in X. destruct X as [X K].
    unfold keepc in K. apply negb_true_iff in K. apply member_false in K.
    rewrite (fr_hist _ _ _ F), (gone_not _ _ K), app_nil_r. apply V3. exact X.
  - intros c N. rewrite IDS, in_keep in N. unfold closed. rewrite (fr_next _ _ _ F), (fr_hist _ _ _ F).
    destruct (in_dec' c L) as [H|H].
    + right. assert (C : In c (ids s)).
      { apply V1. apply (fr_in _ _ _ F). exact H. }
      split; [apply V2; exact C|]. rewrite (gone_in _ _ H).
      destruct (ctx_of _ _ C) as [x [X E]]. subst c. apply live_lost. apply V3. exact X.
    + rewrite (gone_not _ _ H), app_nil_r. apply V4. intros Q. apply N. auto.
  - intros H. apply V5. apply (fr_stuck _ _ _ F). exact H.
  - apply (fr_nodup _ _ _ F). exact V6.
  - intros d H. rewrite (fr_nexth _ _ _ F). apply V7. apply (fr_sub _ _ _ F). exact H.
Qed.

Lemma inv_ends : forall c w L s s', others c s -> ends c w L s s' ->
  ended c (history c (tr s) ++ w) -> inv s'.
Proof.
  intros c w L s s' V F W. destruct V as [V1 V2 V3 V4 V5 V6 V7].
  assert (IDS : ids s' = filter (fun x => negb (member x (c :: L))) (ids s)).
  { unfold ids. rewrite (en_ctxs _ _ _ _ _ F). apply ids_filter. }
  assert (NC : ~ In c L).
  { intros H. apply (en_in _ _ _ _ _ F) in H. destruct V1 as [_ [_ [_ K]]]. apply K in H.
    destruct H as [_ H]. apply H. reflexivity. }
  split.
  - apply (ends_pre _ _ _ _ _ V1 F).
  - intros x H. rewrite (en_next _ _ _ _ _ F). rewrite IDS in H. apply in_keep in H. apply V2. apply H.
  - intros x X. rewrite (en_ctxs _ _ _ _ _ F) in X. apply filter_In in X. destruct X as [X K].
    unfold keepc in K. apply negb_true_iff in K. apply member_false in K.
    assert (K1 : cid x <> c) by (intros Q; apply K; left; symmetry; exact Q).
    assert (K2 : ~ In (cid x) L) by (intros Q; apply K; right; exact Q).
    rewrite (en_hist _ _ _ _ _ F), (gone_not _ _ K2).
    apply Nat.eqb_neq in K1. rewrite K1. apply Nat.eqb_neq in K1.
    rewrite !app_nil_r. apply V3; assumption.
  - intros x N. rewrite IDS, in_keep in N. unfold closed.
    rewrite (en_next _ _ _ _ _ F), (en_hist _ _ _ _ _ F).
    destruct (Nat.eq_dec x c) as [->|Q].
    + right. split; [apply V2; destruct V1 as [_ [_ [K _]]]; exact K|].
      rewrite (gone_not _ _ NC), Nat.eqb_refl. exact W.
    + apply Nat.eqb_neq in Q. rewrite Q. apply Nat.eqb_neq in Q. rewrite app_nil_r.
      destruct (in_dec' x L) as [H|H].
      * right. assert (C : In x (ids s)).
        { destruct V1 as [_ [_ [_ K]]]. apply K. apply (en_in _ _ _ _ _ F). exact H. }
        split; [apply V2; exact C|]. rewrite (gone_in _ _ H).
        destruct (ctx_of _ _ C) as [y [X E]]. subst x. apply live_lost. apply V3; assumption.
      * rewrite (gone_not _ _ H), app_nil_r. apply V4. intros C. apply N. split; [exact C|].
        intros [Z|Z]; [apply Q; symmetry; exact Z|exact (H Z)].
  - intros H. apply V5. apply (en_stuck _ _ _ _ _ F). exact H.
  - apply (en_nodup _ _ _ _ _ F). exact V6.
  - intros d H. rewrite (en_nexth _ _ _ _ _ F). apply V7. apply (en_sub _ _ _ _ _ F). exact H.
Qed.

Lemma done_inv : forall up c good s,
  others (cid c) s -> (exists x, In x (ctxs s) /\ cid x = cid c /\ tsk x = tsk c) ->
  ended (cid c) (history (cid c) (tr s) ++ ending (tsk c) (cid c) good) ->
  inv (done up c good s).
Proof.
  intros up c good s V X W. unfold done.
  destruct (frames (fuel s)) as [FR _].
  destruct (FR up c good s) as [L E]; [unfold fuel; lia|exact X|apply V|].
  apply (inv_ends _ _ _ _ _ V E W).
Qed.

(** A quiet event does not matter. *)
Lemma others_touch : forall c d s, others c s -> others c (touch d s).
Proof.
  intros c d s V. unfold touch. destruct (alive (fst d) s); [exact V|].
  destruct V as [V1 V2 V3 V4 V5 V6 V7].
  assert (H : forall x, history x (tr (emit (EFault (fst d)) s)) = history x (tr s)).
  { intros x. unfold emit. cbn [tr]. rewrite history_app. apply app_nil_r. }
  split; try assumption.
  - intros x X N. rewrite H. apply V3; assumption.
  - intros x X. unfold closed. rewrite H. apply V4. exact X.
  - unfold emit. cbn [tr]. intros Q. apply in_app_or in Q.
    destruct Q as [Q|[Q|[]]]; [exact (V5 Q)|discriminate Q].
Qed.

Lemma hist_touch : forall c d s, history c (tr (touch d s)) = history c (tr s).
Proof.
  intros. unfold touch. destruct (alive (fst d) s); [reflexivity|].
  unfold emit. cbn [tr]. rewrite history_app. apply app_nil_r.
Qed.

Lemma ctxs_touch : forall d s, ctxs (touch d s) = ctxs s.
Proof. intros. unfold touch. destruct (alive (fst d) s); reflexivity. Qed.

Lemma reqs_touch : forall d s, reqs (touch d s) = reqs s.
Proof. intros. unfold touch. destruct (alive (fst d) s); reflexivity. Qed.

Lemma devs_touch : forall d s, devs (touch d s) = devs s.
Proof. intros. unfold touch. destruct (alive (fst d) s); reflexivity. Qed.

Lemma next_touch : forall d s, next (touch d s) = next s.
Proof. intros. unfold touch. destruct (alive (fst d) s); reflexivity. Qed.

Lemma nexth_touch : forall d s, nexth (touch d s) = nexth s.
Proof. intros. unfold touch. destruct (alive (fst d) s); reflexivity. Qed.

(** put_ctx. *)
Lemma put_ids : forall c l, map cid (map (fun y => if cid y =? cid c then c else y) l) = map cid l.
Proof.
  induction l as [|y l IH]; [reflexivity|]. cbn [map]. rewrite IH. f_equal.
  destruct (cid y =? cid c) eqn:E; [|reflexivity]. apply Nat.eqb_eq in E. symmetry. exact E.
Qed.

Lemma send_inv : forall c d m s,
  others (cid c) s ->
  live c (history (cid c) (tr s) ++ [ESent (cid c) (snd d) m]) ->
  inv (send (cid c) d m (put_ctx c s)).
Proof.
  intros c d m s V W.
  assert (V' : others (cid c) (touch d (put_ctx c s)) /\ 
     (forall x, In x (ctxs (touch d (put_ctx c s))) -> cid x = cid c -> x = c) /\
     history (cid c) (tr (touch d (put_ctx c s))) = history (cid c) (tr s)).
  { split; [apply others_touch|split].
    - destruct V as [V1 V2 V3 V4 V5 V6 V7].
      assert (I : ids (put_ctx c s) = ids s) by (apply put_ids).
      split; try assumption.
      + unfold pre1. rewrite I. exact V1.
      + intros x. rewrite I. apply V2.
      + unfold put_ctx. cbn [ctxs set_ctxs tr]. intros x X N. apply in_map_iff in X.
        destruct X as [y [E Y]]. destruct (cid y =? cid c) eqn:Q.
        * subst x. destruct (N eq_refl).
        * subst y. apply V3; assumption.
      + intros x. rewrite I. apply V4.
    - rewrite ctxs_touch. unfold put_ctx. cbn [ctxs set_ctxs]. intros x X E.
      apply in_map_iff in X. destruct X as [y [Q Y]]. destruct (cid y =? cid c) eqn:Z; [auto|].
      subst y. apply Nat.eqb_neq in Z. destruct (Z E).
    - rewrite hist_touch. reflexivity. }
  destruct V' as [V' [U H0]]. clear V.
  unfold send. set (t := touch d (put_ctx c s)) in *. clearbody t.
  rewrite <- H0 in W. clear H0.
  destruct V' as [[P1 [P2 [P3 P4]]] V2 V3 V4 V5 V6 V7].
  assert (H : forall x, history x (tr t ++ [ESent (cid c) (snd d) m]) =
     history x (tr t) ++ if cid c =? x then [ESent (cid c) (snd d) m] else []).
  { intros x. rewrite history_app. unfold history at 2. cbn [filter about]. reflexivity. }
  split; unfold emit, set_reqs; cbn [tr ctxs reqs next nexth devs]; try assumption.
  - unfold pre, ids, owners. cbn [ctxs reqs]. rewrite map_app. cbn [map rown].
    split; [exact P1|]. split.
    + apply Common.NoDup_app_snoc; [exact P2|]. intros Q. apply P4 in Q. destruct Q as [_ Q].
      apply Q. reflexivity.
    + intros x. rewrite in_app_iff. fold (owners t). rewrite (P4 x). fold (ids t). cbn [In].
      destruct (Nat.eq_dec x (cid c)) as [->|Q];
        [|split; [intros [[Z _]|[Z|[]]]; [exact Z|destruct (Q (eq_sym Z))]|intros Z; left; split; assumption]].
      split; [intros _; exact P3|]. intros _. right. left. reflexivity.
  - intros x X. rewrite H. destruct (cid c =? cid x) eqn:Q.
    + apply Nat.eqb_eq in Q. rewrite (U x X (eq_sym Q)). exact W.
    + rewrite app_nil_r. apply V3; [exact X|]. apply Nat.eqb_neq in Q. auto.
  - intros x X. unfold closed. cbn [next tr]. rewrite H. destruct (cid c =? x) eqn:Q.
    + apply Nat.eqb_eq in Q. subst x. destruct (X P3).
    + rewrite app_nil_r. apply V4. exact X.
  - intros Q. apply in_app_or in Q. destruct Q as [Q|[Q|[]]]; [exact (V5 Q)|discriminate Q].
Qed.

Lemma go_inv : forall up sendok c d m s,
  others (cid c) s -> (exists x, In x (ctxs s) /\ cid x = cid c /\ tsk x = tsk c) ->
  live c (history (cid c) (tr s) ++ [ESent (cid c) (snd d) m]) ->
  ended (cid c) (history (cid c) (tr s) ++ [EReport (cid c) false]) ->
  inv (go up sendok c d m s).
Proof.
  intros up sendok c d m s V X A B. unfold go. destruct sendok; [apply send_inv; assumption|].
  apply done_inv; [apply others_touch; exact V|rewrite ctxs_touch; exact X|].
  rewrite hist_touch. replace (ending (tsk c) (cid c) false) with [EReport (cid c) false]; [exact B|].
  destruct (tsk c); reflexivity.
Qed.

Definition after (x : ctx) (n : nat) : list ev :=
  ECall (cid x) (tsk x) :: said (cid x) (firstn n (plan x)).

Lemma said_snoc : forall c l n u m, nth_error l n = Some (u, m) ->
  said c (firstn (S n) l) = said c (firstn n l) ++ [ESent c u m; EAns c true].
Proof.
  intros c. induction l as [|p l IH]; intros n u m H; [destruct n; discriminate|].
  destruct n as [|n].
  - cbn in H. injection H as ->. reflexivity.
  - cbn in H. apply IH in H. change (firstn (S (S n)) (p :: l)) with (p :: firstn (S n) l).
    change (firstn (S n) (p :: l)) with (p :: firstn n l).
    unfold said in *. cbn [flat_map]. rewrite H, app_assoc. reflexivity.
Qed.

Lemma step_live : forall t g h n c sec sid rid u m,
  pos t g = Some n -> nth_error (script t sec sid rid) n = Some (u, m) ->
  h = ECall c t :: said c (firstn n (script t sec sid rid)) ->
  live (mkctx c t g sec sid rid) (h ++ [ESent c u m]).
Proof.
  intros. subst h. exists n, u, m. split; [assumption|]. split; [assumption|]. reflexivity.
Qed.

Lemma step_unsent : forall c t k a b n h,
  0 < n -> n < length (script t k a b) ->
  h = ECall c t :: said c (firstn n (script t k a b)) ->
  ended c (h ++ [EReport c false]).
Proof. intros. subst h. apply (e_unsent c t k a b n); assumption. Qed.

Lemma step_ok : forall c t k a b h,
  h = ECall c t :: said c (script t k a b) ->
  ended c (h ++ ending t c true).
Proof.
  intros. subst h. replace (ending t c true) with (success c t); [apply (e_ok c t k a b)|].
  destruct t as [[? ?]| | | | | ]; reflexivity.
Qed.

Ltac go_case h :=
  apply go_inv;
  [ cbn [cid]; repeat (apply others_touch); assumption
  | rewrite ?ctxs_touch; assumption
  | rewrite ?hist_touch; cbn [cid]; rewrite h;
    eapply step_live; [reflexivity|reflexivity|reflexivity]
  | rewrite ?hist_touch; cbn [cid]; rewrite h;
    eapply step_unsent; [| |reflexivity]; cbn; lia ].

Lemma advance_inv : forall up sendok k a b x s,
  others (cid x) s -> In x (ctxs s) ->
  (exists n u m, pos (tsk x) (stg x) = Some n /\ nth_error (plan x) n = Some (u, m) /\
     history (cid x) (tr s) = after x (S n)) ->
  inv (advance up sendok k a b x s).
Proof.
  intros up sendok k a b x s V X [n [u [m [P [N H]]]]].
  assert (E : exists y, In y (ctxs s) /\ cid y = cid x /\ tsk y = tsk x) by (exists x; auto).
  unfold advance. destruct x as [c t g kk aa bb]. unfold after, plan in *.
  cbn [cid tsk stg sec sid rid] in *. unfold at_stage, with_keys.
  cbn [cid tsk stg sec sid rid].
  destruct t as [[h1 u1]|[h1 u1] [h2 u2]|[h1 u1] [h2 u2]|[h1 u1] y|[h1 u1] y|[h1 u1] y];
    destruct g; cbn [pos] in P; try discriminate P;
    injection P as <-; cbn [snd];
    first [ apply done_inv; [exact V|exact E|]; cbn [cid tsk]; rewrite H;
            eapply step_ok; reflexivity
          | solve [go_case H] ].
  Unshelve. all: exact 0.
Qed.

Lemma cut_filter : forall l i r, NoDup (map rown l) -> nth_error l i = Some r ->
  firstn i l ++ skipn (S i) l = filter (keepr [rown r]) l.
Proof.
  induction l as [|q l IH]; intros i r N H; [destruct i; discriminate|].
  cbn [map] in N. inversion N as [|? ? N1 N2]; subst. destruct i as [|i].
  - cbn in H. injection H as ->. change (firstn 0 (r :: l)) with (@nil req).
    change (skipn 1 (r :: l)) with l. cbn [filter app]. unfold keepr at 1. cbn [member existsb].
    rewrite Nat.eqb_refl. cbn [orb negb]. symmetry. apply filter_true. intros x X.
    unfold keepr. cbn [member existsb]. rewrite orb_false_r. apply negb_true_iff.
    apply Nat.eqb_neq. intros Q. apply N1. rewrite <- Q. apply in_map. exact X.
  - cbn in H. change (firstn (S i) (q :: l)) with (q :: firstn i l).
    change (skipn (S (S i)) (q :: l)) with (skipn (S i) l). cbn [app filter].
    assert (K : keepr [rown r] q = true).
    { unfold keepr. cbn [member existsb]. rewrite orb_false_r. apply negb_true_iff.
      apply Nat.eqb_neq. intros Q. apply N1. rewrite Q. apply in_map. apply (nth_error_In _ _ H). }
    rewrite K. f_equal. apply IH; assumption.
Qed.

Definition took (i : nat) (good : bool) (r : req) (s : st) : st :=
  emit (EAns (rown r) good) (set_reqs (firstn i (reqs s) ++ skipn (S i) (reqs s)) s).

Lemma took_spec : forall i good r s, inv s -> nth_error (reqs s) i = Some r ->
  others (rown r) (took i good r s) /\
  exists x, find_ctx (rown r) (took i good r s) = Some x /\ In x (ctxs s) /\ cid x = rown r /\
    exists n u m, pos (tsk x) (stg x) = Some n /\ nth_error (plan x) n = Some (u, m) /\
     history (cid x) (tr (took i good r s)) =
       ECall (cid x) (tsk x) :: said (cid x) (firstn n (plan x)) ++ [ESent (cid x) u m; EAns (cid x) good].
Proof.
  intros i good r s V H. destruct V as [[P1 [P2 P3]] V2 V3 V4 V5 V6 V7].
  assert (R : In (rown r) (owners s)) by (apply in_map; apply (nth_error_In _ _ H)).
  assert (Q : forall x, history x (tr (took i good r s)) =
     history x (tr s) ++ if rown r =? x then [EAns (rown r) good] else []).
  { intros x. unfold took, emit. cbn [tr set_reqs]. rewrite history_app. reflexivity. }
  assert (O : reqs (took i good r s) = filter (keepr [rown r]) (reqs s)).
  { unfold took, emit, set_reqs. cbn [reqs]. apply cut_filter; assumption. }
  split.
  - split; try assumption.
    + unfold pre1. change (ids (took i good r s)) with (ids s). unfold owners. rewrite O.
      rewrite owners_filter. fold (owners s). split; [exact P1|].
      split; [apply nodup_filter; exact P2|]. split; [apply P3; exact R|].
      intros x. rewrite in_keep. cbn [In]. rewrite (P3 x). intuition.
    + intros x X N. rewrite Q. replace (rown r =? cid x) with false.
      * rewrite app_nil_r. apply V3. exact X.
      * symmetry. apply Nat.eqb_neq. auto.
    + intros x X. unfold closed. rewrite Q. replace (rown r =? x) with false.
      * rewrite app_nil_r. apply V4. exact X.
      * symmetry. apply Nat.eqb_neq. intros <-. apply X. apply P3 in R. exact R.
    + unfold took, emit. cbn [tr set_reqs]. intros Z. apply in_app_or in Z.
      destruct Z as [Z|[Z|[]]]; [exact (V5 Z)|discriminate Z].
  - destruct (find_ctx_in (rown r) (took i good r s)) as [x [A [B C]]].
    { apply P3. exact R. }
    exists x. split; [exact A|]. split; [exact B|]. split; [exact C|].
    destruct (V3 x B) as [n [u [m [E1 [E2 E3]]]]]. exists n, u, m.
    split; [exact E1|]. split; [exact E2|]. rewrite Q, <- C, Nat.eqb_refl, E3.
    cbn [app]. rewrite <- app_assoc. reflexivity.
Qed.

Lemma answer_inv : forall i good sendok k a b up s, inv s -> inv (answer i good sendok k a b up s).
Proof.
  intros i good sendok k a b up s V. unfold answer.
  destruct (nth_error (reqs s) i) as [r|] eqn:H; [|exact V].
  destruct (took_spec i good r s V H) as [O [x [A [B [C [n [u [m [D [E F]]]]]]]]]].
  change (emit (EAns (rown r) good) (set_reqs (firstn i (reqs s) ++ skipn (S i) (reqs s)) s))
    with (took i good r s).
  rewrite A. rewrite <- C in O.
  assert (X : In x (ctxs (took i good r s))) by exact B.
  set (t := took i good r s) in *. clearbody t.
  destruct good.
  - apply advance_inv; [exact O|exact X|]. exists n, u, m.
    split; [exact D|]. split; [exact E|]. unfold after.
    rewrite (said_snoc _ _ _ _ _ E). exact F.
  - apply done_inv; [exact O|exists x; auto|]. rewrite F.
    replace (ending (tsk x) (cid x) false) with [EReport (cid x) false] by (destruct (tsk x); reflexivity).
    cbn [app]. rewrite <- app_assoc. apply e_failed; [exact E|left; reflexivity].
Qed.

Lemma quiet_inv : forall e s, inv s -> (forall c, about c e = false) -> e <> EStuck -> inv (emit e s).
Proof. intros e s V A B. apply (inv_frame [] s); [exact V|]. apply frame_emit; assumption. Qed.

Lemma docall_inv : forall k ok s, inv s -> inv (docall k ok s).
Proof.
  intros k ok s V. unfold docall.
  destruct (resolve k s) as [t|]; [|apply quiet_inv; [exact V|reflexivity|discriminate]].
  destruct ok; [|apply quiet_inv; [exact V|reflexivity|discriminate]].
  destruct (start t) as [[w d] m] eqn:ST.
  set (c := next s).
  set (x := mkctx c t w 0 0 0).
  set (s1 := mkst (devs s) (creds s) (ctxs s ++ [x]) (reqs s) (S c) (nexth s) (tr s ++ [ECall c t])).
  destruct V as [[P1 [P2 P3]] V2 V3 V4 V5 V6 V7].
  assert (NC : ~ In c (ids s)) by (intros Q; apply V2 in Q; unfold c in Q; lia).
  assert (HC : history c (tr s) = []).
  { destruct (V4 c NC) as [[_ Q]|[Q _]]; [exact Q|unfold c in Q; lia]. }
  assert (Q : forall y, history y (tr s1) = history y (tr s) ++ if c =? y then [ECall c t] else []).
  { intros y. unfold s1. cbn [tr]. rewrite history_app. reflexivity. }
  assert (I : ids s1 = ids s ++ [c]).
  { unfold ids, s1. cbn [ctxs]. rewrite map_app. reflexivity. }
  assert (O : others c s1).
  { split.
    - unfold pre1. rewrite I. change (owners s1) with (owners s).
      split; [apply Common.NoDup_app_snoc; [exact P1|exact NC]|]. split; [exact P2|].
      split; [apply in_or_app; right; left; reflexivity|].
      intros y. rewrite (P3 y), in_app_iff. cbn [In]. split.
      + intros H. split; [left; exact H|]. intros ->. exact (NC H).
      + intros [[H|[H|[]]] N]; [exact H|]. destruct (N (eq_sym H)).
    - intros y H. rewrite I in H. unfold s1. cbn [next]. apply in_app_or in H.
      destruct H as [H|[<-|[]]]; [apply V2 in H; unfold c; lia|lia].
    - intros y Y N. unfold s1 in Y. cbn [ctxs] in Y. apply in_app_or in Y.
      destruct Y as [Y|[<-|[]]]; [|destruct (N eq_refl)].
      rewrite Q. replace (c =? cid y) with false by (symmetry; apply Nat.eqb_neq; auto).
      rewrite app_nil_r. apply V3. exact Y.
    - intros y Y. rewrite I, in_app_iff in Y. cbn [In] in Y. unfold closed. rewrite Q.
      assert (c <> y) by (intros Z; apply Y; right; left; exact Z).
      replace (c =? y) with false by (symmetry; apply Nat.eqb_neq; assumption).
      rewrite app_nil_r. unfold s1. cbn [next].
      destruct (V4 y) as [[A B]|[A B]].
      + intros Z. apply Y. left. exact Z.
      + left. split; [unfold c in *; lia|exact B].
      + right. split; [unfold c; lia|exact B].
    - unfold s1. cbn [tr]. intros Z. apply in_app_or in Z.
      destruct Z as [Z|[Z|[]]]; [exact (V5 Z)|discriminate Z].
    - exact V6.
    - exact V7. }
  assert (PU : s1 = put_ctx x s1).
  { unfold put_ctx, s1, set_ctxs. cbn [devs creds ctxs reqs next nexth tr]. f_equal.
    rewrite map_app. cbn [map]. change (cid x) with c. rewrite Nat.eqb_refl. f_equal.
    rewrite <- (map_id (ctxs s)) at 1. apply map_ext_in. intros y Y.
    destruct (cid y =? c) eqn:Z; [|reflexivity]. apply Nat.eqb_eq in Z.
    exfalso. apply NC. rewrite <- Z. apply ids_in. exact Y. }
  rewrite PU. change c with (cid x). apply send_inv; [exact O|].
  change (cid x) with c. rewrite Q, HC, Nat.eqb_refl. cbn [app].
  destruct t as [[h1 u1]|[h1 u1] [h2 u2]|[h1 u1] [h2 u2]|[h1 u1] y|[h1 u1] y|[h1 u1] y];
    cbn [start] in ST; injection ST as <- <- <-;
    (eexists; eexists; eexists; split; [reflexivity|split; reflexivity]).
Qed.

Lemma inv_same : forall s s', inv s -> ctxs s' = ctxs s -> reqs s' = reqs s ->
  next s' = next s -> tr s' = tr s -> NoDup (map fst (devs s')) ->
  (forall d, In d (devs s') -> fst d < nexth s') -> inv s'.
Proof.
  intros s s' V A B C D E F. destruct V as [V1 V2 V3 V4 V5 V6 V7].
  split; unfold pre, ids, owners, closed in *; rewrite ?A, ?B, ?C, ?D; assumption.
Qed.

Lemma discover_inv : forall u s, inv s -> inv (discover u s).
Proof.
  intros u s V. unfold discover. destruct (lookup u s); [exact V|]. destruct (owned u s); [|exact V].
  apply (inv_same s); try reflexivity; [exact V| |]; cbn [devs nexth].
  - rewrite map_app. cbn [map fst]. apply Common.NoDup_app_snoc; [apply V|].
    intros H. apply in_map_iff in H. destruct H as [d [E D]]. apply (i_nexth _ V) in D. lia.
  - intros d D. apply in_app_or in D. destruct D as [D|[<-|[]]]; [apply (i_nexth _ V) in D; lia|cbn; lia].
Qed.

Lemma step_inv : forall o s, inv s -> inv (step s o).
Proof.
  intros o s V. destruct o as [u|u|k ok|i good so k a b up|u up]; cbn [step].
  - unfold own. apply discover_inv. destruct (owned u s); [exact V|].
    apply (inv_same s); try reflexivity; [exact V|apply V|apply V].
  - apply discover_inv. exact V.
  - apply docall_inv. exact V.
  - apply answer_inv. exact V.
  - destruct (frames (2 * length (reqs s) + 1)) as [_ FR].
    destruct (FR (u :: up) u s) as [L F]; [lia|apply V|]. apply (inv_frame L s); assumption.
Qed.

Lemma init_inv : inv init.
Proof.
  split.
  - split; [constructor|]. split; [constructor|]. intros c. split; intros [].
  - intros c [].
  - intros x [].
  - intros c _. left. split; [apply Nat.le_0_l|reflexivity].
  - intros [].
  - constructor.
  - intros d [].
Qed.

Lemma run_snoc : forall ops o, run (ops ++ [o]) = step (run ops) o.
Proof. intros. unfold run. rewrite fold_left_app. reflexivity. Qed.

Lemma run_inv : forall ops, inv (run ops).
Proof.
  induction ops as [|o ops IH] using rev_ind; [apply init_inv|].
  rewrite run_snoc. apply step_inv. exact IH.
Qed.
