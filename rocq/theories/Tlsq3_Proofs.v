(** Proofs about messages to secured peers: released peers, losses, delivery. *)
From Verif Require Import Common Tlsq_Model Tlsq_Spec Tlsq_Proofs Tlsq2_Proofs.

(** ** Prudent runs *)
Record safe (s : st) : Prop := {
  k_ev : forall e, In e (events s) -> exists p, In p (peers s) /\ q_at p = ev_at e /\ (forall a, e = Write a -> q_over p = true);
  k_roles : forall r, In r (roles s) -> exists p, In p (peers s) /\ q_at p = snd r /\ q_ep p = fst r /\ q_over p = true;
  k_early : early s = [];
  k_bad : bad s = false }.

Lemma drop_bad s mem ep : (forall e, In e (events s) -> exists p, at_ mem (ev_at e) = Some p) ->
  bad (drop_events s mem ep) = bad s.
Proof.
  intros H. unfold drop_events. cbn. replace (existsb _ (events s)) with false; [apply orb_false_r|]. symmetry.
  apply not_true_is_false. intros X. apply existsb_exists in X. destruct X as (e & I & E). destruct (H e I) as [p P]. rewrite P in E. discriminate.
Qed.

Lemma free_safe s p : good (peers s) -> In p (peers s) -> (forall r, In r (roles s) -> fst r <> q_ep p) ->
  safe s -> safe (free_peer s p).
Proof.
  intros G I R [KE KR KY KB].
  assert (ME : forall e, In e (events s) -> exists q, In q (peers s) /\ at_ (p :: without (peers s) (q_at p)) (ev_at e) = Some q /\ q_at q = ev_at e /\ (forall a, e = Write a -> q_over q = true)).
  { intros e E. destruct (KE e E) as (q & Q & QA & QO). exists q. split; [exact Q|]. split; [|auto]. unfold at_. cbn [find].
    destruct (Nat.eqb (q_at p) (ev_at e)) eqn:X.
    - apply Nat.eqb_eq in X. f_equal. apply (same_at _ _ _ G); auto. congruence.
    - apply Nat.eqb_neq in X. assert (A := at_live _ _ G Q). destruct (find _ (without (peers s) (q_at p))) as [z|] eqn:F.
      + apply find_some in F. destruct F as [F1 F2]. apply in_without in F1. apply Nat.eqb_eq in F2. f_equal. apply (same_at _ _ _ G); [tauto|exact Q|congruence].
      + exfalso. assert (W : In q (without (peers s) (q_at p))) by (apply in_without; split; [exact Q|congruence]).
        assert (Y := find_none _ _ F q W). cbv beta in Y. rewrite QA, Nat.eqb_refl in Y. discriminate. }
  assert (MINE : filter (fun r => Nat.eqb (fst r) (q_ep p)) (roles s) = []).
  { destruct (filter _ (roles s)) as [|r l] eqn:F; [reflexivity|]. exfalso. assert (X : In r (r :: l)) by now left. rewrite <- F in X.
    apply filter_In in X. destruct X as [X1 X2]. apply Nat.eqb_eq in X2. exact (R r X1 X2). }
  constructor.
  - intros e E.
    change (In e (filter (fun e => match at_ (p :: without (peers s) (q_at p)) (ev_at e) with
                                   | Some q => negb (Nat.eqb (q_ep q) (q_ep p)) | None => true end) (events s)
                  ++ map (fun r => Write (snd r)) (filter (fun r => Nat.eqb (fst r) (q_ep p)) (roles s)))) in E.
    rewrite MINE in E. cbn [map] in E. rewrite app_nil_r in E. apply filter_In in E. destruct E as [E1 E2]. destruct (ME e E1) as (q & Q & A & QA & QO).
    rewrite A in E2. apply negb_true_iff, Nat.eqb_neq in E2. exists q. split; [|auto]. cbn. apply in_without. split; [exact Q|].
    intros X. apply E2. f_equal. now apply (same_at _ _ _ G).
  - intros r X. unfold free_peer in X. cbv zeta in X. cbn [roles set_events set_roles drop_events set_bad set_lost set_peers] in X.
    apply filter_In in X. destruct X as [X1 X2]. apply negb_true_iff, Nat.eqb_neq in X2. destruct (KR r X1) as (q & Q & QA & QE & QO).
    exists q. split; [|auto]. cbn. apply in_without. split; [exact Q|]. intros Y. assert (q = p) by now apply (same_at _ _ _ G). subst q. congruence.
  - exact KY.
  - unfold free_peer. cbv zeta. change (bad (drop_events (set_lost (set_peers s (without (peers s) (q_at p))) (lost s ++ q_send p)) (p :: without (peers s) (q_at p)) (q_ep p)) = false).
    rewrite drop_bad; [exact KB|]. intros e E. cbn in E. destruct (ME e E) as (q & _ & A & _). eauto.
Qed.

Lemma free_roles s p : (forall r, In r (roles s) -> In r (roles (free_peer s p))) -> forall r, In r (roles s) -> fst r <> q_ep p.
Proof.
  intros H r R. specialize (H r R). unfold free_peer in H. cbv zeta in H. cbn [roles set_events set_roles drop_events set_bad set_lost set_peers] in H.
  apply filter_In in H. destruct H as [_ H]. now apply negb_true_iff, Nat.eqb_neq in H.
Qed.

(** Peers that only change in what leaves the rest alone. *)
Lemma safe_update s s' f a : (forall p, q_at (f p) = q_at p /\ q_ep (f p) = q_ep p /\ (q_over p = true -> q_over (f p) = true)) ->
  peers s' = update (peers s) a f -> events s' = events s -> roles s' = roles s -> early s' = early s -> bad s' = bad s ->
  safe s -> safe s'.
Proof.
  intros F P E R Y B [KE KR KY KB].
  assert (X : forall p, In p (peers s) -> exists p', In p' (peers s') /\ q_at p' = q_at p /\ q_ep p' = q_ep p /\ (q_over p = true -> q_over p' = true)).
  { intros p I. destruct (F p) as (F1 & F2 & F3). rewrite P. destruct (Nat.eq_dec (q_at p) a) as [A|A].
    - exists (f p). split; [apply in_update; right; exists p; auto|auto].
    - exists p. split; [apply in_update; left; auto|auto]. }
  constructor; rewrite ?E, ?R, ?Y, ?B; auto.
  - intros e I. destruct (KE e I) as (p & PI & PA & PO). destruct (X p PI) as (p' & P1 & P2 & _ & P4). exists p'. split; [exact P1|].
    split; [congruence|]. intros a0 W. apply P4. eauto.
  - intros r I. destruct (KR r I) as (p & PI & PA & PE & PO). destruct (X p PI) as (p' & P1 & P2 & P3 & P4). exists p'. repeat split; auto; congruence.
Qed.

Lemma safe_post s e p : In p (peers s) -> q_at p = ev_at e -> (forall a, e = Write a -> q_over p = true) -> safe s -> safe (post s e).
Proof.
  intros I A O [KE KR KY KB]. constructor; auto. intros x X. cbn in X. apply in_app_iff in X. destruct X as [X|[<-|[]]]; [exact (KE x X)|]. exists p. auto.
Qed.

(** A peer whose handshake is not over has no roles. *)
Lemma no_roles s p : good (peers s) -> In p (peers s) -> q_over p = false -> safe s -> forall r, In r (roles s) -> fst r <> q_ep p.
Proof.
  intros G I O K r R E. destruct (k_roles _ K r R) as (q & Q & _ & QE & QO). assert (q = p) by (apply (same_ep _ _ _ G); auto; congruence).
  subst q. congruence.
Qed.

Lemma over_safe s a : safe s -> safe (over_at s a).
Proof. intros K. apply (safe_update s _ set_over a); auto. Qed.
Lemma send_safe s a l : safe s -> safe (send_at s a l).
Proof. intros K. apply (safe_update s _ (fun p => set_send p l) a); auto. Qed.

Lemma handshake_safe s p o : good (peers s) -> In p (peers s) ->
  (forall r, In r (roles s) -> In r (roles (handshake s p o))) -> safe s -> safe (handshake s p o).
Proof.
  intros G I R K. destruct o as [wr| |]; cbn [handshake] in *; [|exact K|].
  - apply (safe_post _ _ (set_over p)); [| |auto|now apply over_safe].
    + cbn. apply in_update. right. exists p. auto.
    + reflexivity.
  - apply free_safe; auto. now apply free_roles.
Qed.

Lemma init_safe s m ep rf a o : good (peers s) -> (forall p, In p (peers s) -> q_ep p = ep -> q_over p = false) ->
  (forall p, In p (peers s) -> q_ep p = ep -> q_client p = false -> forall e, In e (events s) -> ev_at e <> q_at p) ->
  safe s -> safe (init_connection s m ep rf a o).
Proof.
  intros G NO SV K. unfold init_connection. destruct rf; [|destruct K; now constructor].
  set (s1 := match of_ep (peers s) ep with Some p => if q_client p then s else free_invalid s p | None => s end).
  assert (M1 : good (peers s1) /\ safe s1 /\ (forall p, In p (peers s1) -> q_ep p = ep -> q_over p = false)).
  { subst s1. destruct (of_ep (peers s) ep) as [p|] eqn:F; [|auto]. destruct (q_client p) eqn:C; [auto|].
    apply ep_in in F. destruct F as [I E]. split; [|split].
    - exact (moves_good False _ _ (free_invalid_moves False s p [] G I) G).
    - assert (NR := no_roles s p G I (NO p I E) K). destruct K as [KE KR KY KB]. constructor; auto.
      + intros e X. destruct (KE e X) as (q & Q & QA & QO). exists q. split; [|auto]. cbn. apply in_without. split; [exact Q|].
        rewrite QA. exact (SV p I E C e X).
      + intros r X. destruct (KR r X) as (q & Q & QA & QE & QO). exists q. split; [|auto]. cbn. apply in_without. split; [exact Q|].
        intros Y. assert (q = p) by now apply (same_at _ _ _ G). subst q. apply (NR r X). congruence.
    - intros q Q. apply NO. cbn in Q. apply in_without in Q. apply Q. }
  destruct M1 as (G1 & K1 & NO1). clearbody s1. clear G K NO SV.
  assert (LOSE : forall s2, safe s2 -> safe (set_lost s2 (lost s2 ++ [m]))) by (intros s2 [X1 X2 X3 X4]; now constructor).
  assert (FIN : forall s2 p, good (peers s2) -> safe s2 -> In p (peers s2) -> q_over p = false -> q_client p = true ->
    safe (let s3 := if existsb (Nat.eqb m) (q_send p) then set_merged s2 (merged s2 ++ [m]) else send_at s2 (q_at p) (q_send p ++ [m]) in
      match q_send p with [] => match at_ (peers s3) (q_at p) with Some p3 => handshake s3 p3 o | None => s3 end | _ :: _ => s3 end)).
  { intros s2 p G2 K2 I NOV C. cbv zeta.
    set (s3 := if existsb (Nat.eqb m) (q_send p) then set_merged s2 (merged s2 ++ [m]) else send_at s2 (q_at p) (q_send p ++ [m])).
    assert (K3 : safe s3).
    { subst s3. destruct (existsb (Nat.eqb m) (q_send p)); [destruct K2; now constructor|now apply send_safe]. }
    destruct (q_send p) as [|y r] eqn:QS; [|exact K3].
    assert (G3 : good (peers s3)).
    { subst s3. cbn [existsb app]. destruct (at_split _ _ (g_at _ G2) I) as (l1 & l2 & EE & U & _ & _).
      unfold send_at. cbn [peers set_peers]. rewrite U. apply (good_replace l1 p l2); [reflexivity|reflexivity| | |rewrite <- EE; exact G2].
      - cbn. congruence.
      - cbn. constructor; [easy|constructor]. }
    assert (NOV3 : forall q, In q (peers s3) -> q_at q = q_at p -> q_over q = false).
    { intros q Q EA. subst s3. cbn [existsb app] in Q. cbn in Q. apply in_update in Q. destruct Q as [[Q N]|(x & X & XA & ->)]; [congruence|].
      assert (x = p) by now apply (same_at _ _ _ G2). subst x. exact NOV. }
    destruct (at_ (peers s3) (q_at p)) as [p3|] eqn:A; [|exact K3]. apply at_in in A. destruct A as [A1 A2].
    destruct o as [wr| |]; cbn [handshake]; [|exact K3|].
    - apply (safe_post _ _ (set_over p3)); [| |auto|now apply over_safe].
      + cbn. apply in_update. right. exists p3. auto.
      + reflexivity.
    - apply free_safe; auto. apply no_roles; auto. }
  destruct (of_ep (peers s1) ep) as [p|] eqn:F.
  - apply ep_in in F. destruct F as [I E]. destruct (q_client p) eqn:C; [|now apply LOSE].
    exact (FIN s1 p G1 K1 I (NO1 p I E) C).
  - unfold add_peer. destruct (at_ (peers s1) a) as [q|] eqn:A; [now apply LOSE|].
    set (p := Peer a ep true false []). apply at_none in A. apply ep_none in F.
    assert (G2 : good (peers (set_peers s1 (peers s1 ++ [p])))).
    { exact (move_good False _ _ (m_add False (peers s1) [] [] [] [] [] a ep true A F) G1). }
    assert (K2 : safe (set_peers s1 (peers s1 ++ [p]))).
    { destruct K1 as [X1 X2 X3 X4]. constructor; auto.
      - intros e E. destruct (X1 e E) as (q & Q & H). exists q. split; [cbn; apply in_or_app; now left|exact H].
      - intros e E. destruct (X2 e E) as (q & Q & H). exists q. split; [cbn; apply in_or_app; now left|exact H]. }
    assert (I2 : In p (peers (set_peers s1 (peers s1 ++ [p])))) by (cbn; apply in_or_app; right; now left).
    exact (FIN (set_peers s1 (peers s1 ++ [p])) p G2 K2 I2 eq_refl eq_refl).
Qed.

Lemma good_pop s a p m r b : good (peers s) -> In p (peers s) -> q_at p = a -> q_send p = m :: r ->
  good (update (peers s) a (fun x => set_send (if b : bool then set_over x else x) r)).
Proof.
  intros G I E QS. destruct (at_split _ _ (g_at _ G) I) as (l1 & l2 & EE & U & _ & _). rewrite <- E, U.
  apply (good_replace l1 p l2); [destruct b; reflexivity|destruct b; reflexivity| | |rewrite <- EE; exact G].
  - intros C. assert (C' : q_client p = false) by (destruct b; exact C). rewrite (g_srv _ G p I C') in QS. discriminate.
  - assert (D := g_dup _ G p I). rewrite QS in D. inversion D; subst. destruct b; assumption.
Qed.
Lemma over_send s a r : update (update (peers s) a (fun p => set_send p r)) a set_over =
  update (peers s) a (fun x => set_send (set_over x) r).
Proof.
  unfold update. rewrite map_map. apply map_ext. intros x. destruct (Nat.eqb (q_at x) a) eqn:X; [cbn [q_at set_send]; rewrite X; reflexivity|now rewrite X].
Qed.

Lemma write_safe fuel : forall s a ws, good (peers s) -> (forall p, In p (peers s) -> q_at p = a -> q_over p = true) ->
  (forall r, In r (roles s) -> In r (roles (write_data fuel s a ws))) -> safe s -> safe (write_data fuel s a ws).
Proof.
  induction fuel as [|fuel IH]; intros s a ws G OV R K; cbn [write_data] in *; [exact K|].
  destruct (at_ (peers s) a) as [p|] eqn:A; [|exact K]. apply at_in in A. destruct A as [I E].
  destruct (q_send p) as [|m r] eqn:QS; [exact K|]. cbv zeta in *. rewrite (OV p I E) in *.
  assert (GB := fun b => good_pop s a p m r b G I E QS).
  assert (NXT : forall s' b, peers s' = update (peers s) a (fun x => set_send (if b : bool then set_over x else x) r) ->
      events s' = events s -> roles s' = roles s -> early s' = early s -> bad s' = bad s ->
      (forall z, In z (roles s) -> In z (roles (write_data fuel s' a (tl ws)))) ->
      safe (write_data fuel s' a (tl ws))).
  { intros s' b P1 P2 P3 P4 P5 RR. apply IH.
    - rewrite P1. apply GB.
    - intros q Q QA. rewrite P1 in Q. apply in_update in Q. destruct Q as [[Q N]|(y & Y & YA & ->)]; [contradiction|].
      destruct b; cbn; [reflexivity|]. now apply OV.
    - rewrite P3. exact RR.
    - apply (safe_update s s' (fun x => set_send (if b then set_over x else x) r) a); auto.
      intros q. destruct b; cbn; auto. }
  destruct (hd WOk ws).
  - apply (NXT _ true); try reflexivity; [apply over_send|exact R].
  - apply (NXT _ false); try reflexivity. exact R.
  - destruct (at_ (peers (send_at s a r)) a) as [p1|] eqn:A1; [|now apply send_safe].
    apply at_in in A1. apply free_safe; [exact (GB false)|apply A1| |].
    + apply (free_roles (set_lost (send_at s a r) (lost (send_at s a r) ++ [m]))). exact R.
    + assert (X := send_safe s a r K). destruct X. now constructor.
Qed.

Lemma safe_step s o : good (peers s) -> prudent_step s o -> safe s -> safe (step s o).
Proof.
  intros G [PR PS] K.
  assert (R : (forall ep, o <> Answer ep) -> forall r, In r (roles s) -> In r (roles (step s o))).
  { intros N r X. destruct (PR r X) as [Y|[ep Y]]; [exact Y|]. now apply N in Y. }
  clear PR. destruct o as [m ep rf a o w|ep a|o ws|a o|ep o|ep|ep]; cbn [step] in *.
  - specialize (R ltac:(discriminate)). unfold send_message in *. destruct (of_ep (peers s) ep) as [p|] eqn:F.
    + apply ep_in in F. destruct F as [I E]. destruct (q_over p) eqn:O.
      * destruct w; try (destruct K; now constructor). apply free_safe; [exact G|exact I| |destruct K; now constructor].
        exact (free_roles (set_lost s (lost s ++ [m])) p R).
      * assert (NO : forall q, In q (peers s) -> q_ep q = ep -> q_over q = false).
        { intros q Q EQ. assert (q = p) by (apply (same_ep _ _ _ G); auto; congruence). now subst q. }
        apply init_safe; auto.
    + assert (NO : forall q, In q (peers s) -> q_ep q = ep -> q_over q = false).
      { intros q Q EQ. exfalso. apply ep_none in F. apply F. rewrite <- EQ. now apply in_map. }
      apply init_safe; auto.
  - destruct (of_ep (peers s) ep) as [p|] eqn:F.
    + apply ep_in in F. apply (safe_post _ _ p); [tauto|reflexivity|discriminate|exact K].
    + unfold add_peer. destruct (at_ (peers s) a) eqn:A; [exact K|]. set (p := Peer a ep false false []).
      apply (safe_post _ _ p); [cbn; apply in_or_app; right; now left|reflexivity|discriminate|]. destruct K as [X1 X2 X3 X4]. constructor; auto.
      * intros e E. destruct (X1 e E) as (q & Q & H). exists q. split; [cbn; apply in_or_app; now left|exact H].
      * intros e E. destruct (X2 e E) as (q & Q & H). exists q. split; [cbn; apply in_or_app; now left|exact H].
  - specialize (R ltac:(discriminate)). destruct (events s) as [|e r] eqn:EV; [exact K|].
    assert (K1 : safe (set_events s r)).
    { destruct K as [X1 X2 X3 X4]. constructor; auto. intros x X. apply X1. rewrite EV. now right. }
    destruct (k_ev _ K e) as (z & Z & ZA & ZO); [rewrite EV; now left|].
    destruct e as [a|a].
    + destruct (at_ (peers (set_events s r)) a) as [p|] eqn:A; [|exact K1]. apply write_safe; auto.
      intros q Q QA. assert (q = z) by (apply (same_at _ _ _ G); auto; cbn in ZA; congruence). subst q. exact (ZO a eq_refl).
    + unfold read_data in *. destruct (at_ (peers (set_events s r)) a) as [p|] eqn:A; [|exact K1]. apply at_in in A. destruct A as [I E].
      destruct o as [wr| |]; [|exact K1|].
      * destruct (q_over p) eqn:O; [exact K1|]. cbv zeta in *. assert (K2 := over_safe _ a K1).
        assert (I2 : In (set_over p) (peers (over_at (set_events s r) a))) by (cbn; apply in_update; right; exists p; auto).
        destruct wr.
        -- destruct K2 as [X1 X2 X3 X4]. constructor; auto. intros x X. cbn in X. apply in_app_iff in X. destruct X as [X|[<-|[]]]; [exact (X2 x X)|].
           exists (set_over p). auto.
        -- apply (safe_post _ _ (set_over p)); auto.
      * apply free_safe; auto. exact (free_roles (set_events s r) p R).
  - specialize (R ltac:(discriminate)). destruct (at_ (peers s) a) as [p|] eqn:A; [|exact K]. apply at_in in A. destruct A as [I E].
    destruct (q_over p) eqn:O; [exact K|]. destruct o; [now apply over_safe|exact K|]. apply free_safe; auto. now apply free_roles.
  - specialize (R ltac:(discriminate)). destruct (of_ep (peers s) ep) as [p|] eqn:F; [|exact K]. apply ep_in in F. apply handshake_safe; tauto.
  - destruct (find _ (roles s)) as [[x y]|] eqn:F; [|exact K]. apply find_some in F. destruct F as [F1 F2].
    destruct (k_roles _ K _ F1) as (p & I & PA & PE & PO). apply (safe_post _ _ p); [exact I|exact PA|auto|].
    destruct K as [X1 X2 X3 X4]. constructor; auto. intros z Z. apply X2. cbn in Z. clear -Z. induction (roles s) as [|u l IH]; [contradiction|].
    cbn [remove_first] in Z. destruct (Nat.eqb (fst u) ep); [now right|]. destruct Z as [Z|Z]; [now left|right; auto].
  - specialize (R ltac:(discriminate)). destruct (of_ep (peers s) ep) as [p|] eqn:F.
    + apply ep_in in F. apply free_safe; [exact G|tauto| |exact K]. now apply free_roles.
    + destruct K as [X1 X2 X3 X4]. constructor; auto.
      * intros e E. apply X1. unfold drop_events in E. cbn in E. now apply filter_In in E.
      * rewrite drop_bad; [exact X4|]. intros e E. destruct (X1 e E) as (p & P & PA & _). exists p. rewrite <- PA. now apply at_live.
Qed.

Lemma safe_run l : along prudent_step init l -> safe (run init l).
Proof.
  induction l as [|o l IH] using rev_ind; intros A; [constructor; cbn; auto; contradiction|].
  apply along_snoc in A. destruct A as [A1 A2]. rewrite run_snoc. apply safe_step; auto. apply run_good.
Qed.

(** ** No losses without failures *)
Lemma write_lost fuel : forall s a ws, ~ In WFail ws -> lost (write_data fuel s a ws) = lost s.
Proof.
  induction fuel as [|fuel IH]; intros s a ws W; cbn [write_data]; [reflexivity|].
  destruct (at_ (peers s) a) as [p|]; [|reflexivity]. destruct (q_send p) as [|m r]; [reflexivity|]. cbv zeta.
  assert (WT : ~ In WFail (tl ws)) by (destruct ws; [auto|intros X; apply W; now right]).
  destruct (hd WOk ws) eqn:H; [|destruct (q_over p)|]; try (rewrite IH by exact WT; reflexivity).
  exfalso. apply W. destruct ws; [discriminate|]. cbn in H. subst w. now left.
Qed.

Lemma lost_step s o : good (peers s) -> benign s o -> lost (step s o) = lost s.
Proof.
  intros G B. destruct o as [m ep rf a o w|ep a|o ws|a o|ep o|ep|ep]; cbn [step benign] in *.
  - destruct B as (-> & NF & NW & NA). assert (IC : lost (init_connection s m ep true a o) = lost s).
    { unfold init_connection.
      set (s1 := match of_ep (peers s) ep with Some p => if q_client p then s else free_invalid s p | None => s end).
      assert (M1 : lost s1 = lost s /\ (forall x, In x (peers s1) -> In x (peers s)) /\ (forall p, of_ep (peers s1) ep = Some p -> q_client p = true)).
      { subst s1. destruct (of_ep (peers s) ep) as [p|] eqn:F; [|split; [reflexivity|split; [auto|]]; congruence].
        destruct (q_client p) eqn:C; [split; [reflexivity|split; [auto|]]; intros q Q; congruence|].
        apply ep_in in F. destruct F as [I E]. split; [cbn; rewrite (g_srv _ G p I C); apply app_nil_r|]. split.
        - intros x X. cbn in X. apply in_without in X. apply X.
        - intros q Q. apply ep_in in Q. cbn in Q. destruct Q as [Q1 Q2]. apply in_without in Q1. exfalso. apply (proj2 Q1). f_equal. apply (same_ep _ _ _ G); [tauto|exact I|congruence]. }
      destruct M1 as (L1 & I1 & C1). clearbody s1. rewrite <- L1.
      assert (HL : forall s3 p3, lost (handshake s3 p3 o) = lost s3) by (intros; destruct o; try reflexivity; now exfalso).
      destruct (of_ep (peers s1) ep) as [p|] eqn:F.
      - rewrite (C1 p eq_refl). cbv zeta. destruct (q_send p) as [|y l].
        + cbn [existsb app]. destruct (at_ (peers (send_at s1 (q_at p) [m])) (q_at p)); [rewrite HL|]; reflexivity.
        + destruct (existsb (Nat.eqb m) (y :: l)); reflexivity.
      - unfold add_peer. destruct (at_ (peers s1) a) as [q|] eqn:A.
        + exfalso. apply at_in in A. apply NA. destruct A as [A1 <-]. apply in_map, I1, A1.
        + cbv beta iota zeta. cbn [q_client q_send q_at existsb app].
          match goal with |- context [at_ ?l a] => destruct (at_ l a) end; [rewrite HL|]; reflexivity. }
    unfold send_message. destruct (of_ep (peers s) ep) as [p|]; [|exact IC]. destruct (q_over p); [|exact IC].
    destruct w; try reflexivity. now exfalso.
  - destruct (of_ep (peers s) ep); [reflexivity|]. unfold add_peer. destruct (at_ _ _); reflexivity.
  - destruct B as [NF NW]. destruct (events s) as [|[a|a] r]; [reflexivity| |].
    + destruct (at_ _ a); [|reflexivity]. now rewrite write_lost.
    + unfold read_data. destruct (at_ _ a) as [p|]; [|reflexivity]. destruct o as [wr| |]; [|reflexivity|now exfalso].
      destruct (q_over p); [reflexivity|]. destruct wr; reflexivity.
  - destruct (at_ (peers s) a) as [p|]; [|reflexivity]. destruct (q_over p); [reflexivity|]. destruct o; try reflexivity. now exfalso.
  - destruct (of_ep (peers s) ep) as [p|]; [|reflexivity]. destruct o; try reflexivity. now exfalso.
  - destruct (find _ (roles s)); reflexivity.
  - contradiction.
Qed.

(** ** Delivery *)
Definition kept (s s' : st) : Prop :=
  (forall x, In x (sent s) -> In x (sent s')) /\
  forall p, In p (peers s) -> q_over p = true -> exists p', In p' (peers s') /\ q_at p' = q_at p /\ q_ep p' = q_ep p /\ q_over p' = true /\
    forall m, In m (q_send p) -> In m (q_send p') \/ In (q_ep p, m) (sent s').

Lemma kept_refl s : kept s s.
Proof. split; [auto|]. intros p I O. exists p. repeat split; auto. Qed.
Lemma kept_trans a b c : kept a b -> kept b c -> kept a c.
Proof.
  intros [A1 A2] [B1 B2]. split; [auto|]. intros p I O. destruct (A2 p I O) as (p1 & I1 & P1 & P2 & O1 & Q1).
  destruct (B2 p1 I1 O1) as (p2 & I2 & P3 & P4 & O2 & Q2). exists p2. split; [exact I2|]. split; [congruence|]. split; [congruence|]. split; [exact O2|].
  intros m M. destruct (Q1 m M) as [X|X]; [|right; auto]. destruct (Q2 m X) as [Y|Y]; [now left|right]. now rewrite P2 in Y.
Qed.

Lemma write_kept fuel : forall s a, good (peers s) ->
  kept s (write_data fuel s a []) /\ events (write_data fuel s a []) = events s /\ roles (write_data fuel s a []) = roles s.
Proof.
  induction fuel as [|fuel IH]; intros s a G; cbn [write_data]; [split; [apply kept_refl|auto]|].
  destruct (at_ (peers s) a) as [p|] eqn:A; [|split; [apply kept_refl|auto]]. apply at_in in A. destruct A as [I E].
  destruct (q_send p) as [|m r] eqn:QS; [split; [apply kept_refl|auto]|]. cbn [hd tl]. cbv zeta.
  set (s' := set_sent (over_at (send_at s a r) a) (sent (send_at s a r) ++ [(q_ep p, m)])).
  assert (P1 : peers s' = update (peers s) a (fun x => set_send (set_over x) r)) by apply over_send.
  destruct (IH s' a) as (KX & EX & RX); [rewrite P1; exact (good_pop s a p m r true G I E QS)|].
  split; [|split; [exact EX|exact RX]]. eapply kept_trans; [|exact KX]. split.
  - intros x X. cbn. apply in_or_app. now left.
  - intros q Q O. destruct (Nat.eq_dec (q_at q) a) as [EA|NA].
    + assert (q = p) by (apply (same_at _ _ _ G); auto; congruence). subst q. exists (set_send (set_over p) r).
      split; [rewrite P1; apply in_update; right; exists p; auto|]. repeat split. intros x X. rewrite QS in X. destruct X as [<-|X]; [|now left].
      right. cbn. apply in_or_app. right. now left.
    + exists q. split; [rewrite P1; apply in_update; left; auto|]. repeat split; auto.
Qed.

Lemma handle_kept s : good (peers s) -> kept s (step s (Handle Wait [])) /\
  events (step s (Handle Wait [])) = tl (events s) /\ roles (step s (Handle Wait [])) = roles s.
Proof.
  intros G. cbn [step]. destruct (events s) as [|e r] eqn:EV; [split; [apply kept_refl|now rewrite EV]|].
  assert (K0 : kept s (set_events s r)) by (split; [auto|]; intros p I O; exists p; repeat split; auto).
  destruct e as [a|a].
  - destruct (at_ (peers (set_events s r)) a) as [p|]; [|split; [exact K0|auto]].
    destruct (write_kept (length (q_send p)) (set_events s r) a G) as (X & Y & Z). split; [exact (kept_trans _ _ _ K0 X)|]. split; [exact Y|exact Z].
  - unfold read_data. destruct (at_ _ a); split; auto.
Qed.

Lemma delivered n : forall s, good (peers s) -> settled s -> roles s = [] -> length (events s) = n ->
  let s' := run s (repeat (Handle Wait []) n) in
  events s' = [] /\ forall p m, In p (peers s) -> q_over p = true -> In m (q_send p) -> In (q_ep p, m) (sent s').
Proof.
  assert (D : forall n s, good (peers s) -> settled s -> roles s = [] -> length (events s) = n ->
    let s' := run s (repeat (Handle Wait []) n) in kept s s' /\ events s' = [] /\ settled s' /\ roles s' = []).
  { clear n. intros n. induction n as [|n IH]; intros s G S R L; cbn [repeat run].
    - split; [apply kept_refl|]. split; [|auto]. now apply length_zero_iff_nil.
    - destruct (handle_kept s G) as (K & E & RR). destruct (IH (step s (Handle Wait []))) as (K2 & E2 & S2).
      + now apply step_good.
      + apply settled_step; auto. exact Logic.I.
      + congruence.
      + rewrite E. destruct (events s); cbn in *; lia.
      + split; [eapply kept_trans; eauto|auto]. }
  intros s G S R L s'. destruct (D n s G S R L) as (K & E & S' & R'). split; [exact E|]. intros p m I O M.
  destruct K as [_ K]. destruct (K p I O) as (p' & I' & PA & PE & O' & Q). destruct (Q m M) as [X|X]; [|exact X]. exfalso.
  destruct (S' p' I' O') as [W|W]; [intros Z; rewrite Z in X; contradiction| |].
  - fold s' in E. unfold s' in E. rewrite E in W. contradiction.
  - rewrite R' in W. contradiction.
Qed.

(** ** Messages given up because they already wait *)
Lemma free_merged s p : merged (free_peer s p) = merged s.
Proof. reflexivity. Qed.
Lemma handshake_merged s p o : merged (handshake s p o) = merged s.
Proof. destruct o; reflexivity. Qed.
Lemma write_merged fuel : forall s a ws, merged (write_data fuel s a ws) = merged s.
Proof.
  induction fuel as [|fuel IH]; intros s a ws; cbn [write_data]; [reflexivity|].
  destruct (at_ (peers s) a) as [p|]; [|reflexivity]. destruct (q_send p) as [|m r]; [reflexivity|]. cbv zeta.
  destruct (hd WOk ws); [|destruct (q_over p)|]; rewrite ?IH; try reflexivity.
  destruct (at_ _ a); reflexivity.
Qed.
Lemma merged_step s o : merged (step s o) = merged s \/
  exists m ep rf a h w p, o = Send m ep rf a h w /\ In p (peers s) /\ q_ep p = ep /\ In m (q_send p) /\ merged (step s o) = merged s ++ [m].
Proof.
  destruct o as [m ep rf a o w|ep a|o ws|a o|ep o|ep|ep]; cbn [step].
  - assert (IC : merged (init_connection s m ep rf a o) = merged s \/
      exists p, In p (peers s) /\ q_ep p = ep /\ In m (q_send p) /\ merged (init_connection s m ep rf a o) = merged s ++ [m]).
    { unfold init_connection. destruct rf; [|now left].
      set (s1 := match of_ep (peers s) ep with Some p => if q_client p then s else free_invalid s p | None => s end).
      assert (M1 : merged s1 = merged s /\ (forall x, In x (peers s1) -> In x (peers s))).
      { subst s1. destruct (of_ep (peers s) ep) as [p|]; [|auto]. destruct (q_client p); [auto|]. split; [reflexivity|].
        intros x X. cbn in X. apply in_without in X. apply X. }
      destruct M1 as [M1 I1]. clearbody s1. rewrite <- M1. destruct (of_ep (peers s1) ep) as [p|] eqn:F.
      - destruct (q_client p); [|now left]. cbv zeta. apply ep_in in F. destruct F as [I E]. destruct (existsb (Nat.eqb m) (q_send p)) eqn:X.
        + right. exists p. split; [auto|]. split; [exact E|]. apply existsb_exists in X. destruct X as (y & Y & Ey). apply Nat.eqb_eq in Ey. subst y.
          split; [exact Y|]. destruct (q_send p); [contradiction|reflexivity].
        + left. destruct (q_send p); [|reflexivity]. match goal with |- context [at_ ?l ?b] => destruct (at_ l b) end; [rewrite handshake_merged|]; reflexivity.
      - left. unfold add_peer. destruct (at_ (peers s1) a) as [q|]; [reflexivity|]. cbv beta iota zeta. cbn [q_client q_send q_at existsb app].
        match goal with |- context [at_ ?l a] => destruct (at_ l a) end; [rewrite handshake_merged|]; reflexivity. }
    assert (W : merged (send_message s m ep rf a o w) = merged s \/ send_message s m ep rf a o w = init_connection s m ep rf a o).
    { unfold send_message. destruct (of_ep (peers s) ep) as [p|]; [|now right]. destruct (q_over p); [|now right]. left. destruct w; reflexivity. }
    destruct W as [W|W]; [now left|]. rewrite W. destruct IC as [IC|(p & P)]; [now left|]. right. exists m, ep, rf, a, o, w, p. tauto.
  - left. destruct (of_ep (peers s) ep); [reflexivity|]. unfold add_peer. destruct (at_ _ _); reflexivity.
  - left. destruct (events s) as [|[a|a] r]; [reflexivity| |].
    + destruct (at_ _ a); [|reflexivity]. now rewrite write_merged.
    + unfold read_data. destruct (at_ _ a) as [p|]; [|reflexivity]. destruct o as [wr| |]; try reflexivity. destruct (q_over p); [reflexivity|]. destruct wr; reflexivity.
  - left. destruct (at_ (peers s) a) as [p|]; [|reflexivity]. destruct (q_over p); [reflexivity|]. destruct o; reflexivity.
  - left. destruct (of_ep (peers s) ep) as [p|]; [|reflexivity]. apply handshake_merged.
  - left. destruct (find _ (roles s)); reflexivity.
  - left. destruct (of_ep (peers s) ep) as [p|]; reflexivity.
Qed.
