(** Proofs about ownership transfer, part 2: the story of every transfer. *)

From Coq Require Import List Bool Arith Lia.
From Verif Require Common Obt_Proofs.
From Verif Require Import Otm_Model Otm_Spec Otm_Proofs.
Import ListNotations.

Definition live (x : ctx) (h : list ev) : Prop :=
  exists l a more, script (kd x) (ru x) = map what l ++ stg x :: more /\ Forall welcome l /\
    h = ECall (cid x) (hnd x) (kd x) :: said (cid x) l ++ [ESent (cid x) a (stg x)].

Inductive ended (c : nat) : list ev -> Prop :=
| e_refused h k : ended c [ERefused c h k; EReport c false]
| e_ok h k u l :
    script k u = map what l -> Forall welcome l ->
    ended c (ECall c h k :: said c l ++ [EReport c true])
| e_stopped h k u l m more :
    script k u = map what l ++ m :: more -> Forall welcome l -> l <> [] ->
    ended c (ECall c h k :: said c l ++ [EReport c false])
| e_failed h k u l a m more e :
    script k u = map what l ++ m :: more -> Forall welcome l ->
    (exists r, e = EAns c r /\ ~ welcome (mkturn a m r)) \/ e = ELost c ->
    ended c (ECall c h k :: said c l ++ [ESent c a m; e; EReport c false]).

Definition closed (s : st) (c : nat) : Prop :=
  (next s <= c /\ history c (tr s) = []) \/ (c < next s /\ ended c (history c (tr s))).

Record inv (s : st) : Prop := mkinv {
  i_pre : pre s;
  i_wait : forall c, In c (ids s) -> In c (owners s);
  i_next : forall c, In c (ids s) -> c < next s;
  i_live : forall x, In x (ctxs s) -> live x (history (cid x) (tr s));
  i_closed : forall c, ~ In c (ids s) -> closed s c;
  i_stuck : ~ In EStuck (tr s) }.

(** Everything but the transfer [c], which has no request at the moment. *)
Record others (c : nat) (s : st) : Prop := mkothers {
  o_pre : pre1 c s;
  o_wait : forall x, In x (ids s) -> x <> c -> In x (owners s);
  o_next : forall x, In x (ids s) -> x < next s;
  o_live : forall x, In x (ctxs s) -> cid x <> c -> live x (history (cid x) (tr s));
  o_closed : forall x, ~ In x (ids s) -> closed s x;
  o_stuck : ~ In EStuck (tr s) }.

Lemma live_lost : forall x h, live x h -> ended (cid x) (h ++ [ELost (cid x); EReport (cid x) false]).
Proof.
  intros x h [l [a [more [A [B E]]]]]. subst h. cbn [app]. rewrite <- app_assoc.
  apply (e_failed (cid x) (hnd x) (kd x) (ru x) l a (stg x) more); [exact A|exact B|right; reflexivity].
Qed.

Lemma ids_in : forall x s, In x (ctxs s) -> In (cid x) (ids s).
Proof. intros. apply in_map. assumption. Qed.

Lemma ctx_of : forall c s, In c (ids s) -> exists x, In x (ctxs s) /\ cid x = c.
Proof.
  intros c s H. unfold ids in H. apply in_map_iff in H. destruct H as [x [E X]].
  exists x. auto.
Qed.

Lemma gone_not : forall L c, ~ In c L -> gone L c = [].
Proof. intros L c H. unfold gone. apply member_false in H. rewrite H. reflexivity. Qed.

Lemma gone_in : forall L c, In c L -> gone L c = [ELost c; EReport c false].
Proof. intros L c H. unfold gone. apply member_in in H. rewrite H. reflexivity. Qed.

Lemma in_dec' : forall (c : nat) l, In c l \/ ~ In c l.
Proof. intros. destruct (in_dec Nat.eq_dec c l); auto. Qed.

Lemma inv_frame : forall L s s', inv s -> frame L s s' -> inv s'.
Proof.
  intros L s s' V F. destruct V as [V1 V1' V2 V3 V4 V5].
  assert (IDS : ids s' = filter (fun x => negb (member x L)) (ids s)).
  { unfold ids. rewrite (fr_ctxs _ _ _ F). apply ids_filter. }
  split.
  - apply (frame_pre _ _ _ V1 F).
  - intros c H. rewrite IDS in H. apply in_keep in H. unfold owners.
    rewrite (fr_reqs _ _ _ F), owners_filter. apply in_keep. split; [apply V1'; apply H|apply H].
  - intros c H. rewrite (fr_next _ _ _ F). rewrite IDS in H. apply in_keep in H. apply V2. apply H.
  - intros x X. rewrite (fr_ctxs _ _ _ F) in X. apply filter_In in X. destruct X as [X K].
    unfold keepc in K. apply negb_true_iff in K. apply member_false in K.
    rewrite (fr_hist _ _ _ F), (gone_not _ _ K), app_nil_r. apply V3. exact X.
  - intros c N. rewrite IDS, in_keep in N. unfold closed. rewrite (fr_next _ _ _ F), (fr_hist _ _ _ F).
    destruct (in_dec' c L) as [H|H].
    + right. assert (C : In c (ids s)).
      { apply V1. apply (fr_in _ _ _ F). exact H. }
      split; [apply V2; exact C|]. rewrite (gone_in _ _ H).
      destruct (ctx_of _ _ C) as [x [X E]]. subst c. apply live_lost. apply V3. exact X.
    + rewrite (gone_not _ _ H), app_nil_r. apply V4. intros Q. apply N. auto.
  - intros H. apply V5. apply (fr_stuck _ _ _ F). exact H.
Qed.

Lemma others_frame : forall c L s s', others c s -> frame L s s' -> others c s' /\
  history c (tr s') = history c (tr s) /\
  (forall h, has c h s -> has c h s').
Proof.
  intros c L s s' V F. destruct V as [[V1 [VC VN]] V1' V2 V3 V4 V5].
  assert (NC : ~ In c L).
  { intros H. apply VN. apply (fr_in _ _ _ F). exact H. }
  assert (IDS : ids s' = filter (fun x => negb (member x L)) (ids s)).
  { unfold ids. rewrite (fr_ctxs _ _ _ F). apply ids_filter. }
  assert (OWN : owners s' = filter (fun x => negb (member x L)) (owners s)).
  { unfold owners. rewrite (fr_reqs _ _ _ F). apply owners_filter. }
  split; [|split].
  - split.
    + split; [apply (frame_pre _ _ _ V1 F)|]. rewrite IDS, OWN, !in_keep. split; [auto|].
      intros [K _]. exact (VN K).
    + intros x H N. rewrite IDS in H. apply in_keep in H. rewrite OWN. apply in_keep.
      split; [apply V1'; [apply H|exact N]|apply H].
    + intros x H. rewrite (fr_next _ _ _ F). rewrite IDS in H. apply in_keep in H. apply V2. apply H.
    + intros x X N. rewrite (fr_ctxs _ _ _ F) in X. apply filter_In in X. destruct X as [X K].
      unfold keepc in K. apply negb_true_iff in K. apply member_false in K.
      rewrite (fr_hist _ _ _ F), (gone_not _ _ K), app_nil_r. apply V3; assumption.
    + intros x N. rewrite IDS, in_keep in N. unfold closed. rewrite (fr_next _ _ _ F), (fr_hist _ _ _ F).
      destruct (in_dec' x L) as [H|H].
      * right. assert (C : In x (ids s)).
        { apply V1. apply (fr_in _ _ _ F). exact H. }
        split; [apply V2; exact C|]. rewrite (gone_in _ _ H).
        destruct (ctx_of _ _ C) as [y [X E]]. subst x. apply live_lost. apply V3; [exact X|].
        intros Q. rewrite Q in H. exact (NC H).
      * rewrite (gone_not _ _ H), app_nil_r. apply V4. intros Q. apply N. auto.
    + intros H. apply V5. apply (fr_stuck _ _ _ F). exact H.
  - rewrite (fr_hist _ _ _ F), (gone_not _ _ NC), app_nil_r. reflexivity.
  - intros h [x [A [B C]]]. exists x. split; [|auto]. rewrite (fr_ctxs _ _ _ F). apply filter_In.
    split; [exact A|]. unfold keepc. apply negb_true_iff. apply member_false. rewrite B. exact NC.
Qed.

Lemma inv_ends : forall c w L s s', others c s -> ends c w L s s' ->
  ended c (history c (tr s) ++ w) -> inv s'.
Proof.
  intros c w L s s' V F W. destruct V as [V1 V1' V2 V3 V4 V5].
  assert (P1 := V1). destruct P1 as [[_ [_ PI]] [VC VN]].
  assert (IDS : ids s' = filter (fun x => negb (member x (c :: L))) (ids s)).
  { unfold ids. rewrite (en_ctxs _ _ _ _ _ F). apply ids_filter. }
  assert (NC : ~ In c L).
  { intros H. apply VN. apply (en_in _ _ _ _ _ F). exact H. }
  split.
  - apply (ends_pre _ _ _ _ _ V1 F).
  - intros x H. rewrite IDS in H. apply in_keep in H. destruct H as [H N]. unfold owners.
    rewrite (en_reqs _ _ _ _ _ F), owners_filter. apply in_keep. split.
    + apply V1'; [exact H|]. intros Q. apply N. left. symmetry. exact Q.
    + intros Q. apply N. right. exact Q.
  - intros x H. rewrite (en_next _ _ _ _ _ F). rewrite IDS in H. apply in_keep in H. apply V2. apply H.
  - intros x X. rewrite (en_ctxs _ _ _ _ _ F) in X. apply filter_In in X. destruct X as [X K].
    unfold keepc in K. apply negb_true_iff in K. apply member_false in K.
    assert (K1 : cid x <> c) by (intros Q; apply K; left; symmetry; exact Q).
    assert (K2 : ~ In (cid x) L) by (intros Q; apply K; right; exact Q).
    rewrite (en_hist _ _ _ _ _ F), (gone_not _ _ K2).
    apply Nat.eqb_neq in K1. rewrite K1. apply Nat.eqb_neq in K1.
    rewrite !app_nil_r. apply V3; assumption.
  - intros x N. rewrite IDS, in_keep in N. unfold closed.
    rewrite (en_next _ _ _ _ _ F), (en_hist _ _ _ _ _ F).
    destruct (Nat.eq_dec x c) as [->|Q].
    + right. split; [apply V2; exact VC|].
      rewrite (gone_not _ _ NC), Nat.eqb_refl. exact W.
    + apply Nat.eqb_neq in Q. rewrite Q. apply Nat.eqb_neq in Q. rewrite app_nil_r.
      destruct (in_dec' x L) as [H|H].
      * right. assert (C : In x (ids s)).
        { apply PI. apply (en_in _ _ _ _ _ F). exact H. }
        split; [apply V2; exact C|]. rewrite (gone_in _ _ H).
        destruct (ctx_of _ _ C) as [y [X E]]. subst x. apply live_lost. apply V3; assumption.
      * rewrite (gone_not _ _ H), app_nil_r. apply V4. intros C. apply N. split; [exact C|].
        intros [Z|Z]; [apply Q; symmetry; exact Z|exact (H Z)].
  - intros H. apply V5. apply (en_stuck _ _ _ _ _ F). exact H.
Qed.

Lemma done_inv : forall up c good s,
  others (cid c) s -> has (cid c) (hnd c) s ->
  ended (cid c) (history (cid c) (tr s) ++ [EReport (cid c) good]) ->
  inv (done up c good s).
Proof.
  intros up c good s V X W. unfold done.
  destruct (frames (2 * length (reqs s) + 2)) as [FR _].
  destruct (FR up c good s) as [L E]; [lia|exact X|apply V|].
  apply (inv_ends _ _ _ _ _ V E W).
Qed.

(** Changes of devices and credentials do not matter. *)
Lemma others_still : forall c s s', others c s -> still s s' -> others c s'.
Proof.
  intros c s s' V [A [B [C [D E]]]]. destruct V as [V1 V1' V2 V3 V4 V5].
  split; unfold pre1, pre, ids, owners, closed in *; rewrite ?A, ?B, ?C; try assumption.
  - intros x X N. rewrite D. apply V3; assumption.
  - intros x X. rewrite D. apply V4. exact X.
  - intros H. apply V5. apply E. exact H.
Qed.

Lemma inv_still : forall s s', inv s -> still s s' -> inv s'.
Proof.
  intros s s' V [A [B [C [D E]]]]. destruct V as [V1 V1' V2 V3 V4 V5].
  split; unfold pre, ids, owners, closed in *; rewrite ?A, ?B, ?C; try assumption.
  - intros x X. rewrite D. apply V3; assumption.
  - intros x X. rewrite D. apply V4. exact X.
  - intros H. apply V5. apply E. exact H.
Qed.

Lemma has_still : forall c h s s', has c h s -> still s s' -> has c h s'.
Proof. intros c h s s' [x X] [A _]. exists x. rewrite A. exact X. Qed.

Lemma still_emit : forall e s, (forall c, about c e = false) -> e <> EStuck -> still s (emit e s).
Proof.
  intros e s A B. unfold still, emit. cbn [ctxs reqs next tr]. do 3 (split; [reflexivity|]). split.
  - intros x. rewrite history_app. unfold history at 2. cbn [filter]. rewrite A. apply app_nil_r.
  - intros H. apply in_app_or in H. destruct H as [H|[H|[]]]; [exact H|destruct (B H)].
Qed.

Lemma still_touch : forall h s, still s (touch h s).
Proof.
  intros. unfold touch. destruct (is_freed _); [|apply still_refl].
  apply still_emit; [reflexivity|discriminate].
Qed.

Lemma still_trans : forall s a b, still s a -> still a b -> still s b.
Proof.
  intros s a b [A1 [A2 [A3 [A4 A5]]]] [B1 [B2 [B3 [B4 B5]]]]. unfold still.
  repeat split; try congruence; auto.
Qed.

Lemma still_hist : forall c s s', still s s' -> history c (tr s') = history c (tr s).
Proof. intros c s s' [_ [_ [_ [H _]]]]. apply H. Qed.

Lemma still_heap : forall x s, still s (set_heap x s).
Proof. intros. unfold still. repeat split; auto. Qed.
Lemma still_creds : forall x s, still s (set_creds x s).
Proof. intros. unfold still. repeat split; auto. Qed.
Lemma still_gets : forall x s, still s (set_gets x s).
Proof. intros. unfold still. repeat split; auto. Qed.

(** put_ctx. *)
Lemma put_ids : forall c l, map cid (map (fun y => if cid y =? cid c then c else y) l) = map cid l.
Proof.
  induction l as [|y l IH]; [reflexivity|]. cbn [map]. rewrite IH. f_equal.
  destruct (cid y =? cid c) eqn:E; [|reflexivity]. apply Nat.eqb_eq in E. symmetry. exact E.
Qed.

Lemma send_inv : forall c s,
  others (cid c) s ->
  (forall a, live c (history (cid c) (tr s) ++ [ESent (cid c) a (stg c)])) ->
  inv (send (cid c) (hnd c) (stg c) (put_ctx c s)).
Proof.
  intros c s V W.
  assert (V' : others (cid c) (touch (hnd c) (put_ctx c s)) /\ 
     (forall x, In x (ctxs (touch (hnd c) (put_ctx c s))) -> cid x = cid c -> x = c) /\
     history (cid c) (tr (touch (hnd c) (put_ctx c s))) = history (cid c) (tr s)).
  { split; [apply (others_still _ (put_ctx c s)); [|apply still_touch]|split].
    - destruct V as [V1 V1' V2 V3 V4 V5].
      assert (I : ids (put_ctx c s) = ids s) by (apply put_ids).
      split; try assumption.
      + unfold pre1, pre. rewrite I. exact V1.
      + intros x. rewrite I. apply V1'.
      + intros x. rewrite I. apply V2.
      + unfold put_ctx. cbn [ctxs set_ctxs tr]. intros x X N. apply in_map_iff in X.
        destruct X as [y [E Y]]. destruct (cid y =? cid c) eqn:Q.
        * subst x. destruct (N eq_refl).
        * subst y. apply V3; assumption.
      + intros x. rewrite I. apply V4.
    - destruct (still_touch (hnd c) (put_ctx c s)) as [T _]. rewrite T.
      unfold put_ctx. cbn [ctxs set_ctxs]. intros x X E.
      apply in_map_iff in X. destruct X as [y [Q Y]]. destruct (cid y =? cid c) eqn:Z; [auto|].
      subst y. apply Nat.eqb_neq in Z. destruct (Z E).
    - rewrite (still_hist _ _ _ (still_touch (hnd c) (put_ctx c s))). reflexivity. }
  destruct V' as [V' [U H0]]. clear V.
  unfold send. set (t := touch (hnd c) (put_ctx c s)) in *. clearbody t.
  rewrite <- H0 in W. clear H0.
  set (a := da (get (hnd c) t)). specialize (W a). clearbody a.
  destruct V' as [[[P1 [P2 P3]] [PC PN]] V1' V2 V3 V4 V5].
  assert (H : forall x, history x (tr t ++ [ESent (cid c) a (stg c)]) =
     history x (tr t) ++ if cid c =? x then [ESent (cid c) a (stg c)] else []).
  { intros x. rewrite history_app. unfold history at 2. cbn [filter about]. reflexivity. }
  split; unfold emit, set_reqs; cbn [tr ctxs reqs next]; try assumption.
  - unfold pre, ids, owners. cbn [ctxs reqs]. rewrite map_app. cbn [map rown].
    split; [exact P1|]. split.
    + apply Common.NoDup_app_snoc; [exact P2|exact PN].
    + intros x. rewrite in_app_iff. intros [K|[<-|[]]]; [apply P3; exact K|exact PC].
  - intros x K. unfold owners. cbn [reqs]. rewrite map_app, in_app_iff. cbn [map rown In].
    destruct (Nat.eq_dec x (cid c)) as [->|Q]; [right; left; reflexivity|].
    left. apply V1'; [exact K|exact Q].
  - intros x X. rewrite H. destruct (cid c =? cid x) eqn:Q.
    + apply Nat.eqb_eq in Q. rewrite (U x X (eq_sym Q)). exact W.
    + rewrite app_nil_r. apply V3; [exact X|]. apply Nat.eqb_neq in Q. auto.
  - intros x X. unfold closed. cbn [next tr]. rewrite H. destruct (cid c =? x) eqn:Q.
    + apply Nat.eqb_eq in Q. subst x. destruct (X PC).
    + rewrite app_nil_r. apply V4. exact X.
  - intros Q. apply in_app_or in Q. destruct Q as [Q|[Q|[]]]; [exact (V5 Q)|discriminate Q].
Qed.

(** The script. *)
Definition follows (k : kind) (u : nat) (m : msg) : list msg :=
  let rest := match k with AskPin => [] | _ => main_part u end in
  match m with
  | MGet => MSel (oxm k) :: rest
  | MSel _ => rest
  | MOm => skipn 1 (main_part u)
  | MOwner => skipn 2 (main_part u)
  | MUuid _ => skipn 3 (main_part u)
  | MRowDoxm => skipn 4 (main_part u)
  | MRowAcl => skipn 5 (main_part u)
  | MRowPstat => skipn 6 (main_part u)
  | MCred => skipn 7 (main_part u)
  | MSdi => skipn 8 (main_part u)
  | MOwned => skipn 9 (main_part u)
  | MPro => skipn 10 (main_part u)
  | MDelAcl => skipn 11 (main_part u)
  | MAcl => skipn 12 (main_part u)
  | MNop => []
  end.

Lemma script_next : forall k u l m more, script k u = map what l ++ m :: more ->
  more = follows k u m /\ (m = MOwner -> forall v, script k v = map what l ++ m :: follows k v m).
Proof.
  intros k u l m more E.
  destruct k; cbn [script main_part] in E;
  repeat (destruct l as [|? l]; cbn [map app] in E;
    [ first [discriminate E
            | injection E as <- <-; split; [reflexivity|intros Q; try discriminate Q; intros v;
               repeat match goal with H : _ = what _ |- _ => cbn [map]; rewrite <- H; clear H end;
               reflexivity]]
    | first [discriminate E | let Q := fresh in injection E as Q E]]).
Qed.

Definition reached (c : ctx) (l : list turn) (s : st) : Prop :=
  history (cid c) (tr s) = ECall (cid c) (hnd c) (kd c) :: said (cid c) l /\
  Forall welcome l /\ l <> [].

Lemma go_inv : forall up sendok c m s l more,
  others (cid c) s -> has (cid c) (hnd c) s -> reached c l s ->
  script (kd c) (ru c) = map what l ++ m :: more ->
  inv (go up sendok c m s).
Proof.
  intros up sendok c m s l more V X [H [W NE]] E. unfold go. destruct sendok.
  - apply (send_inv (mkctx (cid c) (hnd c) (kd c) m (ru c)) s); [exact V|].
    cbn [cid stg]. intros a. exists l, a, more. cbn [cid stg kd ru hnd].
    split; [exact E|]. split; [exact W|]. rewrite H. reflexivity.
  - apply done_inv.
    + apply (others_still _ s); [exact V|apply still_touch].
    + apply (has_still _ _ s); [exact X|apply still_touch].
    + rewrite (still_hist _ _ _ (still_touch _ _)), H.
      apply (e_stopped (cid c) (hnd c) (kd c) (ru c) l m more); assumption.
Qed.

Lemma reached_still : forall c l s s', reached c l s -> still s s' -> reached c l s'.
Proof. intros c l s s' [A B] S. split; [rewrite (still_hist _ _ _ S); exact A|exact B]. Qed.

Lemma said_app : forall c a b, said c (a ++ b) = said c a ++ said c b.
Proof. intros. unfold said. apply flat_map_app. Qed.

Lemma advance_inv : forall up x c s l a r,
  others (cid c) s -> has (cid c) (hnd c) s ->
  reached c (l ++ [mkturn a (stg c) r]) s ->
  (exists more, script (kd c) (ru c) = map what l ++ stg c :: more) ->
  inv (advance up x c s).
Proof.
  intros up x c s l a r V X R [more E].
  destruct (script_next _ _ _ _ _ E) as [N D].
  rewrite N in E. clear more N.
  assert (E' : script (kd c) (ru c) = map what (l ++ [mkturn a (stg c) r]) ++ follows (kd c) (ru c) (stg c)).
  { rewrite map_app. cbn [map what]. rewrite <- app_assoc. exact E. }
  set (l' := l ++ [mkturn a (stg c) r]) in *.
  assert (ST : forall h, still s (touch h s)) by (intros; apply still_touch).
  (* giving up *)
  assert (STOP : forall s' m more, still s s' ->
     script (kd c) (ru c) = map what l' ++ m :: more -> inv (done up c false s')).
  { intros s' m more S Q. apply done_inv.
    - apply (others_still _ s); assumption.
    - apply (has_still _ _ s); assumption.
    - rewrite (still_hist _ _ _ S). destruct R as [R1 [R2 R3]]. rewrite R1.
      apply (e_stopped (cid c) (hnd c) (kd c) (ru c) l' m more); assumption. }
  (* going on *)
  assert (GO : forall s' b m more, still s s' ->
     script (kd c) (ru c) = map what l' ++ m :: more -> inv (go up b c m s')).
  { intros s' b m more S Q. apply (go_inv _ _ _ _ _ l' more).
    - apply (others_still _ s); assumption.
    - apply (has_still _ _ s); assumption.
    - apply (reached_still _ _ s); assumption.
    - exact Q. }
  unfold advance. destruct (stg c) eqn:G; cbn [follows skipn main_part] in E';
    try (eapply GO; [apply still_refl|exact E']).
  - (* MGet *)
    destruct (existsb _ _).
    + eapply GO; [apply still_refl|exact E'].
    + eapply STOP; [apply still_refl|exact E'].
  - (* MSel *)
    assert (OM : kd c <> AskPin -> inv (go up (sendok x) c MOm
       (hangup up (da (get (hnd c) (touch (hnd c) s))) (touch (hnd c) s)))).
    { intros NA. set (t := touch (hnd c) s).
      assert (S : still s t) by apply ST.
      assert (V2 := others_still _ _ _ V S). assert (X2 := has_still _ _ _ _ X S).
      assert (R2 := reached_still _ _ _ _ R S). clearbody t.
      unfold hangup. destruct (frames (2 * length (reqs t) + 1)) as [_ FR].
      destruct (FR up (da (get (hnd c) t)) t) as [L F]; [lia|apply V2|].
      destruct (others_frame _ _ _ _ V2 F) as [V3 [H3 X3]].
      apply (go_inv _ _ _ _ _ l' (tl (main_part (ru c)))).
      - exact V3.
      - apply X3. exact X2.
      - destruct R2 as [R21 R22]. split; [rewrite H3; exact R21|exact R22].
      - rewrite E'. f_equal. destruct (kd c); [reflexivity|reflexivity|reflexivity|destruct (NA eq_refl)]. }
    destruct (kd c) eqn:K; try (apply OM; discriminate).
    apply done_inv; [exact V|exact X|]. destruct R as [R1 [R2 R3]]. rewrite R1.
    apply (e_ok (cid c) (hnd c) (kd c) (ru c) l'); [|exact R2].
    rewrite K, E'. rewrite app_nil_r. reflexivity.
  - (* MOwner *)
    specialize (D eq_refl (rnd x)).
    set (t := touch (hnd c) s). assert (S : still s t) by apply ST. clearbody t.
    set (t2 := match kd c with RandomPin => forget (du (get (hnd c) t)) t | _ => t end).
    assert (S2 : still s t2).
    { unfold t2. destruct (kd c); exact S. }
    clearbody t2.
    set (t3 := set_dev (hnd c) (mkdev (rnd x) (da (get (hnd c) t)) (dl (get (hnd c) t))) t2).
    assert (S3 : still s t3) by (apply (still_trans _ t2); [exact S2|apply still_heap]).
    clearbody t3.
    eapply (go_inv _ _ (mkctx (cid c) (hnd c) (kd c) MOwner (rnd x)) _ _ l'); cbn [cid hnd kd ru].
    + apply (others_still _ s); assumption.
    + apply (has_still _ _ s); assumption.
    + exact (reached_still _ _ _ _ R S3).
    + rewrite D. unfold l'. rewrite map_app, <- app_assoc. reflexivity.
  - (* MRowPstat *)
    destruct (keyok x).
    + eapply GO; [|exact E']. apply (still_trans _ (touch (hnd c) s)); [apply ST|apply still_creds].
    + eapply STOP; [apply ST|exact E'].
  - (* MNop *)
    apply done_inv; [exact V|exact X|]. destruct R as [R1 [R2 R3]]. rewrite R1.
    apply (e_ok (cid c) (hnd c) (kd c) (ru c) l'); [|exact R2].
    rewrite E', app_nil_r. reflexivity.
Qed.

Lemma cut_filter : forall l i r, NoDup (map rown l) -> nth_error l i = Some r ->
  firstn i l ++ skipn (S i) l = filter (keepr [rown r]) l.
Proof.
  induction l as [|q l IH]; intros i r N H; [destruct i; discriminate|].
  cbn [map] in N. inversion N as [|? ? N1 N2]; subst. destruct i as [|i].
  - cbn in H. injection H as ->. change (firstn 0 (r :: l)) with (@nil req).
    change (skipn 1 (r :: l)) with l. cbn [filter app]. unfold keepr at 1. cbn [member existsb].
    rewrite Nat.eqb_refl. cbn [orb negb]. symmetry. apply Obt_Proofs.filter_true. intros x X.
    unfold keepr. cbn [member existsb]. rewrite orb_false_r. apply negb_true_iff.
    apply Nat.eqb_neq. intros Q. apply N1. rewrite <- Q. apply in_map. exact X.
  - cbn in H. change (firstn (S i) (q :: l)) with (q :: firstn i l).
    change (skipn (S (S i)) (q :: l)) with (skipn (S i) l). cbn [app filter].
    assert (K : keepr [rown r] q = true).
    { unfold keepr. cbn [member existsb]. rewrite orb_false_r. apply negb_true_iff.
      apply Nat.eqb_neq. intros Q. apply N1. rewrite Q. apply in_map. apply (nth_error_In _ _ H). }
    rewrite K. f_equal. apply IH; assumption.
Qed.

Definition took (i : nat) (r : ans) (q : req) (s : st) : st :=
  emit (EAns (rown q) r) (set_reqs (firstn i (reqs s) ++ skipn (S i) (reqs s)) s).

Lemma took_spec : forall i r q s, inv s -> nth_error (reqs s) i = Some q ->
  others (rown q) (took i r q s) /\
  exists x, find_ctx (rown q) (took i r q s) = Some x /\ In x (ctxs s) /\ cid x = rown q /\
    exists l a more, script (kd x) (ru x) = map what l ++ stg x :: more /\ Forall welcome l /\
     history (cid x) (tr (took i r q s)) =
       ECall (cid x) (hnd x) (kd x) :: said (cid x) l ++ [ESent (cid x) a (stg x); EAns (cid x) r].
Proof.
  intros i r q s V H. destruct V as [[P1 [P2 P3]] V1' V2 V3 V4 V5].
  assert (R : In (rown q) (owners s)) by (apply in_map; apply (nth_error_In _ _ H)).
  assert (Q : forall x, history x (tr (took i r q s)) =
     history x (tr s) ++ if rown q =? x then [EAns (rown q) r] else []).
  { intros x. unfold took, emit. cbn [tr set_reqs]. rewrite history_app. reflexivity. }
  assert (O : owners (took i r q s) = filter (fun x => negb (member x [rown q])) (owners s)).
  { unfold owners, took, emit, set_reqs. cbn [reqs]. rewrite (cut_filter _ _ q) by assumption.
    apply owners_filter. }
  split.
  - split; try assumption.
    + unfold pre1, pre. rewrite O. change (ids (took i r q s)) with (ids s).
      split; [split; [exact P1|split; [apply NoDup_filter; exact P2|]]|].
      * intros x. rewrite in_keep. intros [K _]. apply P3. exact K.
      * split; [apply P3; exact R|]. rewrite in_keep. intros [_ K]. apply K. left. reflexivity.
    + intros x X N. rewrite O. apply in_keep. split; [apply V1'; exact X|].
      intros [K|[]]. apply N. symmetry. exact K.
    + intros x X N. rewrite Q. replace (rown q =? cid x) with false.
      * rewrite app_nil_r. apply V3. exact X.
      * symmetry. apply Nat.eqb_neq. auto.
    + intros x X. unfold closed. rewrite Q. replace (rown q =? x) with false.
      * rewrite app_nil_r. apply V4. exact X.
      * symmetry. apply Nat.eqb_neq. intros <-. apply X. apply P3 in R. exact R.
    + unfold took, emit. cbn [tr set_reqs]. intros Z. apply in_app_or in Z.
      destruct Z as [Z|[Z|[]]]; [exact (V5 Z)|discriminate Z].
  - destruct (find_ctx_in (rown q) (took i r q s)) as [x [A [B C]]].
    { apply P3. exact R. }
    exists x. split; [exact A|]. split; [exact B|]. split; [exact C|].
    destruct (V3 x B) as [l [a [more [E1 [E2 E3]]]]]. exists l, a, more.
    split; [exact E1|]. split; [exact E2|]. rewrite Q, <- C, Nat.eqb_refl, E3.
    cbn [app]. rewrite <- app_assoc. reflexivity.
Qed.

Lemma accepted_welcome : forall a m r, accepted m r = true <-> welcome (mkturn a m r).
Proof.
  intros a m r. unfold welcome. cbn [how what]. split.
  - destruct r; cbn [accepted]; intros H; [left; reflexivity| |discriminate].
    destruct m; try discriminate. right. split; reflexivity.
  - intros [->|[-> ->]]; reflexivity.
Qed.

Lemma answer_inv : forall i r x up s, inv s -> inv (answer i r x up s).
Proof.
  intros i r x up s V. unfold answer.
  destruct (nth_error (reqs s) i) as [q|] eqn:H; [|exact V].
  destruct (took_spec i r q s V H) as [O [c [A [B [C [l [a [more [D [E F]]]]]]]]]].
  change (emit (EAns (rown q) r) (set_reqs (firstn i (reqs s) ++ skipn (S i) (reqs s)) s))
    with (took i r q s).
  rewrite A. rewrite <- C in O.
  assert (X : has (cid c) (hnd c) (took i r q s)) by (exists c; auto).
  set (t := took i r q s) in *. clearbody t.
  destruct (accepted (stg c) r) eqn:G.
  - apply (advance_inv up x c t l a r O X); [|exists more; exact D].
    split; [|split].
    + rewrite F, said_app. reflexivity.
    + apply Forall_app. split; [exact E|]. constructor; [|constructor].
      apply (accepted_welcome a). exact G.
    + destruct l; discriminate.
  - apply done_inv; [exact O|exact X|]. rewrite F.
    cbn [app]. rewrite <- app_assoc.
    apply (e_failed (cid c) (hnd c) (kd c) (ru c) l a (stg c) more); [exact D|exact E|left].
    exists r. split; [reflexivity|]. intros W. apply (accepted_welcome a) in W. congruence.
Qed.

Lemma quiet_inv : forall e s, inv s -> (forall c, about c e = false) -> e <> EStuck -> inv (emit e s).
Proof. intros e s V A B. apply (inv_still s); [exact V|]. apply still_emit; assumption. Qed.

(** A new context, with the first event of its history. *)
Definition added (c : ctx) (e : ev) (s : st) : st :=
  emit e (mkst (heap s) (creds s) (gets s) (ctxs s ++ [c]) (reqs s) (S (next s)) (tr s)).

Lemma added_spec : forall c e s, inv s -> cid c = next s ->
  (forall x, about x e = (x =? next s)) -> e <> EStuck ->
  others (cid c) (added c e s) /\ has (cid c) (hnd c) (added c e s) /\
  history (cid c) (tr (added c e s)) = [e] /\ put_ctx c (added c e s) = added c e s.
Proof.
  intros c e s V EC AB NS.
  destruct V as [[P1 [P2 P3]] V1' V2 V3 V4 V5].
  assert (NC : ~ In (cid c) (ids s)) by (intros Q; apply V2 in Q; lia).
  assert (HC : history (cid c) (tr s) = []).
  { destruct (V4 _ NC) as [[_ Q]|[Q _]]; [exact Q|lia]. }
  assert (Q : forall y, history y (tr (added c e s)) = history y (tr s) ++ if y =? cid c then [e] else []).
  { intros y. unfold added, emit. cbn [tr]. rewrite history_app. unfold history at 2. cbn [filter].
    rewrite AB, EC. reflexivity. }
  assert (I : ids (added c e s) = ids s ++ [cid c]).
  { unfold ids, added, emit. cbn [ctxs]. rewrite map_app. reflexivity. }
  split; [|split; [|split]].
  - split.
    + unfold pre1, pre. rewrite I. change (owners (added c e s)) with (owners s).
      split; [split; [apply Common.NoDup_app_snoc; assumption|split; [exact P2|]]|].
      * intros x X. apply in_or_app. left. apply P3. exact X.
      * split; [apply in_or_app; right; left; reflexivity|]. intros X. apply NC. apply P3. exact X.
    + intros x X N. change (owners (added c e s)) with (owners s). rewrite I in X.
      apply in_app_or in X. destruct X as [X|[X|[]]]; [apply V1'; exact X|].
      destruct (N (eq_sym X)).
    + intros y H. rewrite I in H. unfold added, emit. cbn [next]. apply in_app_or in H.
      destruct H as [H|[<-|[]]]; [apply V2 in H; lia|lia].
    + intros y Y N. unfold added, emit in Y. cbn [ctxs] in Y. apply in_app_or in Y.
      destruct Y as [Y|[<-|[]]]; [|destruct (N eq_refl)].
      rewrite Q. replace (cid y =? cid c) with false by (symmetry; apply Nat.eqb_neq; exact N).
      rewrite app_nil_r. apply V3. exact Y.
    + intros y Y. rewrite I, in_app_iff in Y. cbn [In] in Y. unfold closed. rewrite Q.
      assert (y <> cid c) by (intros Z; apply Y; right; left; symmetry; exact Z).
      replace (y =? cid c) with false by (symmetry; apply Nat.eqb_neq; assumption).
      rewrite app_nil_r. unfold added, emit. cbn [next].
      destruct (V4 y) as [[A B]|[A B]].
      * intros Z. apply Y. left. exact Z.
      * left. split; [lia|exact B].
      * right. split; [lia|exact B].
    + unfold added, emit. cbn [tr]. intros Z. apply in_app_or in Z.
      destruct Z as [Z|[Z|[]]]; [exact (V5 Z)|exact (NS Z)].
  - exists c. split; [|auto]. unfold added, emit. cbn [ctxs]. apply in_or_app. right. left. reflexivity.
  - rewrite Q, HC, Nat.eqb_refl. reflexivity.
  - unfold put_ctx, added, emit, set_ctxs. cbn [heap creds gets ctxs reqs next tr]. f_equal.
    rewrite map_app. cbn [map]. rewrite Nat.eqb_refl. f_equal.
    rewrite <- (map_id (ctxs s)) at 2. apply map_ext_in. intros y Y.
    destruct (cid y =? cid c) eqn:Z; [|reflexivity]. apply Nat.eqb_eq in Z.
    exfalso. apply NC. rewrite <- Z. apply ids_in. exact Y.
Qed.

Lemma accept_inv : forall h k m s more, inv s -> (forall u, script k u = m :: more u) ->
  inv (send (next s) h m (added (mkctx (next s) h k m 0) (ECall (next s) h k) s)).
Proof.
  intros h k m s more V E. set (c := mkctx (next s) h k m 0).
  destruct (added_spec c (ECall (next s) h k) s) as [A [B [C D]]];
    [exact V|reflexivity|intros; apply Nat.eqb_sym|discriminate|].
  rewrite <- D. apply (send_inv c _ A).
  intros a. rewrite C. exists [], a, (more 0). cbn [map app said flat_map].
  split; [apply E|]. split; [constructor|reflexivity].
Qed.

Lemma refuse_inv : forall up c s, inv s -> cid c = next s ->
  inv (done up c false (added c (ERefused (cid c) (hnd c) (kd c)) s)).
Proof.
  intros up c s V E.
  destruct (added_spec c (ERefused (cid c) (hnd c) (kd c)) s) as [A [B [C D]]];
    [exact V|exact E|intros; rewrite <- E; apply Nat.eqb_sym|discriminate|].
  apply done_inv; [exact A|exact B|]. rewrite C. apply e_refused.
Qed.

Lemma hangup_inv : forall up a s, inv s -> inv (hangup up a s).
Proof.
  intros up a s V. unfold hangup. destruct (frames (2 * length (reqs s) + 1)) as [_ FR].
  destruct (FR up a s) as [L F]; [lia|apply V|]. apply (inv_frame L s); assumption.
Qed.

Lemma forget_if : forall u s, inv s -> inv (if owned u s then forget u s else s).
Proof. intros u s V. destruct (owned u s); [apply (inv_still s); [exact V|apply still_creds]|exact V]. Qed.

Lemma docall_inv : forall k u l up s, inv s -> inv (docall k u l up s).
Proof.
  intros k u l up s V. assert (NO : forall s, inv s -> inv (emit ENo s)).
  { intros s' V'. apply quiet_inv; [exact V'|reflexivity|discriminate]. }
  assert (JW : forall k, (exists more, forall u, script k u = MGet :: more u) -> forall h s, inv s ->
    inv (match l with
         | NoContext => emit ENo s
         | AllWell => send (next s) h MGet (added (mkctx (next s) h k MGet 0) (ECall (next s) h k) s)
         | _ => done up (mkctx (next s) h k MGet 0) false
                  (added (mkctx (next s) h k MGet 0) (ERefused (next s) h k) s)
         end)).
  { clear k s V. intros k [more E] h s V. destruct l.
    - apply NO. exact V.
    - apply (refuse_inv up (mkctx (next s) h k MGet 0)); [exact V|reflexivity].
    - apply (refuse_inv up (mkctx (next s) h k MGet 0)); [exact V|reflexivity].
    - apply (accept_inv h k MGet s more); assumption. }
  unfold docall. destruct k.
  - destruct (handle u s) as [h|]; [|apply NO; exact V].
    apply (JW JustWorks); [eexists; intros; reflexivity|apply forget_if; exact V].
  - destruct (handle u s) as [h|]; [|apply NO; exact V].
    assert (V1 := forget_if u s V). set (s1 := if owned u s then forget u s else s) in *. clearbody s1.
    destruct l.
    + apply NO. exact V1.
    + apply NO. apply quiet_inv; [exact V1|reflexivity|discriminate].
    + set (s2 := hangup up (da (get h s1)) (learn u false s1)).
      assert (V2 : inv s2).
      { apply hangup_inv. apply (inv_still s1); [exact V1|apply still_creds]. }
      clearbody s2. 
      apply (refuse_inv up (mkctx (next s2) h RandomPin MOm 0) (unlearn u s2)); [|reflexivity].
      apply (inv_still s2); [exact V2|apply still_creds].
    + set (s2 := hangup up (da (get h s1)) (learn u false s1)).
      assert (V2 : inv s2).
      { apply hangup_inv. apply (inv_still s1); [exact V1|apply still_creds]. }
      clearbody s2.
      apply (accept_inv h RandomPin MOm s2 (fun u => tl (main_part u))); [exact V2|reflexivity].
  - destruct (handle u s) as [h|]; [|apply NO; exact V].
    apply (JW MfgCert); [eexists; intros; reflexivity|apply forget_if; exact V].
  - destruct (owned u s); [apply NO; exact V|].
    destruct (handle u s) as [h|]; [|apply NO; exact V].
    apply (JW AskPin); [exists (fun _ => [MSel 1]); intros; reflexivity|exact V].
Qed.

Lemma step_inv : forall o s, inv s -> inv (step s o).
Proof.
  intros o s V. destruct o as [u a|i|k u l up|i r x up|a up]; cbn [step].
  - apply (inv_still s); [exact V|]. unfold discover. destruct (handle u s);
      (eapply still_trans; [|apply still_gets]); apply still_heap.
  - unfold endpoints. destruct (nth_error (gets s) i) as [h|]; [|exact V].
    apply (inv_still s); [exact V|]. eapply still_trans; [|apply still_touch]. apply still_gets.
  - apply docall_inv. exact V.
  - apply answer_inv. exact V.
  - apply hangup_inv. exact V.
Qed.

Lemma init_inv : inv init.
Proof.
  split.
  - split; [constructor|]. split; [constructor|]. intros c [].
  - intros c [].
  - intros c [].
  - intros x [].
  - intros c _. left. split; [apply Nat.le_0_l|reflexivity].
  - intros [].
Qed.

Lemma run_snoc : forall ops o, run (ops ++ [o]) = step (run ops) o.
Proof. intros. unfold run. rewrite fold_left_app. reflexivity. Qed.

Lemma run_inv : forall ops, inv (run ops).
Proof.
  induction ops as [|o ops IH] using rev_ind; [apply init_inv|].
  rewrite run_snoc. apply step_inv. exact IH.
Qed.

Lemma stories : forall ops c, story c (history c (tr (run ops))).
Proof.
  intros ops c. assert (V := run_inv ops). destruct (in_dec' c (ids (run ops))) as [H|H].
  - destruct (ctx_of _ _ H) as [x [X E]]. subst c.
    destruct (i_live _ V x X) as [l [a [more [A [B C]]]]]. rewrite C.
    apply (under_way (cid x) (hnd x) (kd x) (ru x) l a (stg x) more); assumption.
  - destruct (i_closed _ V c H) as [[_ Q]|[_ Q]]; [rewrite Q; constructor|].
    destruct Q; econstructor; eassumption.
Qed.
