(** Proofs about messages to secured peers: events. *)
From Verif Require Import Common Tlsq_Model Tlsq_Spec Tlsq_Proofs.

Lemma run_good l : good (peers (run init l)).
Proof. apply (run_moves False l). contradiction. Qed.
Lemma step_good s o : good (peers s) -> good (peers (step s o)).
Proof. intros G. apply (moves_good False _ _ (step_moves False s o [] G (fun K => match K with end))). exact G. Qed.

Lemma same_ep P p q : good P -> In p P -> In q P -> q_ep p = q_ep q -> p = q.
Proof.
  intros [_ G _ _]. revert G. induction P as [|x P IH]; [contradiction|]. cbn [map]. intros N I J E.
  inversion N as [|? ? N1 N2]; subst. destruct I as [<-|I], J as [<-|J]; auto; exfalso; apply N1; [rewrite E|rewrite <- E]; now apply in_map.
Qed.
Lemma same_at P p q : good P -> In p P -> In q P -> q_at p = q_at q -> p = q.
Proof.
  intros [G _ _ _]. revert G. induction P as [|x P IH]; [contradiction|]. cbn [map]. intros N I J E.
  inversion N as [|? ? N1 N2]; subst. destruct I as [<-|I], J as [<-|J]; auto; exfalso; apply N1; [rewrite E|rewrite <- E]; now apply in_map.
Qed.
Lemma at_live P p : good P -> In p P -> at_ P (q_at p) = Some p.
Proof. intros G I. now destruct (at_split _ _ (g_at _ G) I) as (_ & _ & _ & _ & _ & A). Qed.
Lemma in_without P a q : In q (without P a) <-> In q P /\ q_at q <> a.
Proof. unfold without. rewrite filter_In, negb_true_iff, Nat.eqb_neq. reflexivity. Qed.
Lemma in_update P a f q : In q (update P a f) <-> (In q P /\ q_at q <> a) \/ exists p, In p P /\ q_at p = a /\ q = f p.
Proof.
  unfold update. rewrite in_map_iff. split.
  - intros (p & E & I). destruct (Nat.eqb (q_at p) a) eqn:A.
    + apply Nat.eqb_eq in A. right. exists p. auto.
    + apply Nat.eqb_neq in A. subst q. now left.
  - intros [[I N]|(p & I & A & ->)].
    + exists q. split; [|exact I]. apply Nat.eqb_neq in N. now rewrite N.
    + exists p. split; [|exact I]. apply Nat.eqb_eq in A. now rewrite A.
Qed.

(** ** Nothing waits for ever *)
Definition cared (s : st) (p : peer) : Prop :=
  q_over p = true -> q_send p <> [] -> In (Write (q_at p)) (events s) \/ In (q_ep p, q_at p) (roles s).
Definition settled (s : st) : Prop := forall p, In p (peers s) -> cared s p.

Lemma drop_keeps s mem ep e : In e (events s) -> (forall p, at_ mem (ev_at e) = Some p -> q_ep p <> ep) ->
  In e (events (drop_events s mem ep)).
Proof.
  intros I N. unfold drop_events. cbn. apply filter_In. split; [exact I|]. destruct (at_ mem (ev_at e)) as [p|] eqn:A; [|reflexivity].
  apply negb_true_iff, Nat.eqb_neq. now apply N.
Qed.

(** Releasing a peer leaves the care for the others. *)
Lemma free_cared s p q : good (peers s) -> In p (peers s) -> In q (peers s) -> q_at q <> q_at p ->
  cared s q -> cared (free_peer s p) q.
Proof.
  intros G I J N C O S. destruct (C O S) as [W|R].
  - left. unfold free_peer. cbv zeta. cbn [events set_events]. apply in_or_app. left. apply drop_keeps; [exact W|].
    cbn [ev_at]. intros r A. cbn [peers set_lost set_peers] in A. unfold at_ in A. cbn [find] in A.
    destruct (Nat.eqb (q_at p) (q_at q)) eqn:X; [apply Nat.eqb_eq in X; congruence|].
    apply find_some in A. destruct A as [A1 A2]. apply Nat.eqb_eq in A2. apply in_without in A1.
    assert (r = q) by (apply (same_at _ _ _ G); tauto). subst r. intros E. apply N. f_equal. now apply (same_ep _ _ _ G).
  - right. unfold free_peer. cbv zeta. cbn [roles set_events set_roles]. apply filter_In. split; [exact R|]. cbn [fst].
    apply negb_true_iff, Nat.eqb_neq. intros E. apply N. f_equal. now apply (same_ep _ _ _ G).
Qed.
Lemma free_settled s p : good (peers s) -> In p (peers s) ->
  (forall q, In q (peers s) -> q_at q <> q_at p -> cared s q) -> settled (free_peer s p).
Proof.
  intros G I H q J. unfold free_peer in J. cbv zeta in J. cbn in J. apply in_without in J. apply free_cared; try tauto. apply H; tauto.
Qed.

Lemma handshake_settled s p o : good (peers s) -> In p (peers s) ->
  (forall q, In q (peers s) -> cared s q) -> settled (handshake s p o).
Proof.
  intros G I H. destruct o as [wr| |]; cbn [handshake].
  - intros q J O S. cbn in J. apply in_update in J. destruct J as [[J N]|(x & J & A & ->)].
    + destruct (H q J O S) as [W|R]; [left; cbn; apply in_or_app; now left|now right].
    + left. cbn. apply in_or_app. right. left. f_equal. now rewrite A.
  - exact H.
  - apply free_settled; auto.
Qed.

Lemma init_settled s m ep rf a o : good (peers s) -> (forall p, In p (peers s) -> q_ep p = ep -> q_over p = false) -> settled s ->
  settled (init_connection s m ep rf a o).
Proof.
  intros G NO H. unfold init_connection. destruct rf; [|exact H].
  set (s1 := match of_ep (peers s) ep with Some p => if q_client p then s else free_invalid s p | None => s end).
  assert (M1 : good (peers s1) /\ settled s1 /\ (forall p, In p (peers s1) -> q_ep p = ep -> q_over p = false)).
  { subst s1. destruct (of_ep (peers s) ep) as [p|] eqn:F; [|auto]. destruct (q_client p); [auto|].
    apply ep_in in F. split; [|split].
    - exact (moves_good False _ _ (free_invalid_moves False s p [] G (proj1 F)) G).
    - intros q Q. cbn in Q. apply in_without in Q. intros O S. destruct (H q (proj1 Q) O S); [now left|now right].
    - intros q Q. apply NO. cbn in Q. apply in_without in Q. apply Q. }
  destruct M1 as (G1 & H1 & NO1). clearbody s1. clear G H NO.
  assert (FIN : forall s2 p, good (peers s2) -> settled s2 -> In p (peers s2) -> q_over p = false ->
    settled (let s3 := if existsb (Nat.eqb m) (q_send p) then set_merged s2 (merged s2 ++ [m]) else send_at s2 (q_at p) (q_send p ++ [m]) in
      match q_send p with [] => match at_ (peers s3) (q_at p) with Some p3 => handshake s3 p3 o | None => s3 end | _ :: _ => s3 end)
    \/ q_client p = false).
  { intros s2 p G2 H2 I NOV. destruct (q_client p) eqn:C; [left|now right]. cbv zeta.
    set (s3 := if existsb (Nat.eqb m) (q_send p) then set_merged s2 (merged s2 ++ [m]) else send_at s2 (q_at p) (q_send p ++ [m])).
    assert (H3 : settled s3).
    { subst s3. destruct (existsb (Nat.eqb m) (q_send p)); [exact H2|]. intros q Q O S. cbn in Q. apply in_update in Q.
      destruct Q as [[Q N]|(x & X & A & ->)]; [exact (H2 q Q O S)|]. exfalso. assert (x = p) by now apply (same_at _ _ _ G2). subst x.
      cbn in O. congruence. }
    destruct (q_send p) as [|y r] eqn:QS; [|exact H3].
    assert (G3 : good (peers s3)).
    { subst s3. cbn [existsb]. cbn [app]. assert (X := m_queue False). destruct (at_split _ _ (g_at _ G2) I) as (l1 & l2 & EE & U & _ & _).
      unfold send_at. cbn [peers set_peers]. rewrite U. apply (good_replace l1 p l2); [reflexivity|reflexivity| | |rewrite <- EE; exact G2].
      - cbn. congruence.
      - cbn. constructor; [easy|constructor]. }
    destruct (at_ (peers s3) (q_at p)) as [p3|] eqn:A; [|exact H3]. apply at_in in A. apply handshake_settled; tauto. }
  destruct (of_ep (peers s1) ep) as [p|] eqn:F.
  - apply ep_in in F. destruct F as [I E]. destruct (FIN s1 p G1 H1 I (NO1 p I E)) as [X|X].
    + destruct (q_client p); [exact X|exact H1].
    + rewrite X. exact H1.
  - unfold add_peer. destruct (at_ (peers s1) a) as [q|] eqn:A; [exact H1|].
    set (p := Peer a ep true false []). apply at_none in A. apply ep_none in F.
    assert (G2 : good (peers (set_peers s1 (peers s1 ++ [p])))).
    { exact (move_good False _ _ (m_add False (peers s1) [] [] [] [] [] a ep true A F) G1). }
    assert (H2 : settled (set_peers s1 (peers s1 ++ [p]))).
    { intros q Q O S. cbn in Q. apply in_app_iff in Q. destruct Q as [Q|[<-|[]]]; [exact (H1 q Q O S)|discriminate]. }
    assert (I2 : In p (peers (set_peers s1 (peers s1 ++ [p])))) by (cbn; apply in_or_app; right; now left).
    destruct (FIN (set_peers s1 (peers s1 ++ [p])) p G2 H2 I2 eq_refl) as [X|X]; [exact X|discriminate].
Qed.

(** All messages of the peer are gone after the write, and the other peers are as before. *)
Lemma write_settled fuel : forall s a ws, good (peers s) -> (forall p, In p (peers s) -> q_at p = a -> length (q_send p) <= fuel)%nat ->
  (forall q, In q (peers s) -> q_at q <> a -> cared s q) -> settled (write_data fuel s a ws).
Proof.
  induction fuel as [|fuel IH]; intros s a ws G L H; cbn [write_data].
  - intros q Q O S. destruct (Nat.eq_dec (q_at q) a) as [E|N]; [|exact (H q Q N O S)].
    exfalso. specialize (L q Q E). destruct (q_send q); [now apply S|cbn in L; lia].
  - destruct (at_ (peers s) a) as [p|] eqn:A.
    2:{ intros q Q O S. apply at_none in A. assert (N : q_at q <> a) by (intros <-; apply A; now apply in_map). exact (H q Q N O S). }
    apply at_in in A. destruct A as [I E]. destruct (q_send p) as [|m r] eqn:QS.
    { intros q Q O S. destruct (Nat.eq_dec (q_at q) a) as [E2|N]; [|exact (H q Q N O S)].
      exfalso. assert (q = p) by (apply (same_at _ _ _ G); auto; congruence). subst q. now apply S. }
    cbv zeta. assert (LP := L p I E). rewrite QS in LP. cbn [length] in LP.
    assert (NXT : forall s' b, peers s' = update (peers s) a (fun x => set_send (if b : bool then set_over x else x) r) ->
      events s' = events s -> roles s' = roles s -> good (peers s') ->
      settled (write_data fuel s' a (tl ws))).
    { intros s' b P1 P2 P3 G'. apply IH; [exact G'| |].
      - intros x X XA. rewrite P1 in X. apply in_update in X. destruct X as [[X N]|(y & Y & YA & ->)]; [contradiction|].
        destruct b; cbn; lia.
      - intros q Q N O S. rewrite P1 in Q. apply in_update in Q. destruct Q as [[Q _]|(y & Y & YA & ->)]; [|exfalso; apply N; destruct b; exact YA].
        unfold cared in H. rewrite P2, P3. now apply H. }
    assert (GO : forall s', good (peers s') -> True) by auto.
    assert (MV := fun ws' => write_data_moves False 1 s a ws' [] G).
    assert (G1 : good (peers (send_at s a r))).
    { destruct (at_split _ _ (g_at _ G) I) as (l1 & l2 & EE & U & _ & _). unfold send_at. cbn [peers set_peers]. rewrite <- E, U.
      apply (good_replace l1 p l2); [reflexivity|reflexivity| | |rewrite <- EE; exact G]; cbn.
      - intros C. rewrite (g_srv _ G p I C) in QS. discriminate.
      - assert (D := g_dup _ G p I). rewrite QS in D. now inversion D. }
    destruct (hd WOk ws).
    + apply (NXT _ true); try reflexivity.
      * cbn. unfold update. rewrite map_map. apply map_ext. intros x. destruct (Nat.eqb (q_at x) a) eqn:X; [cbn [q_at set_send]; rewrite X; reflexivity|now rewrite X].
      * cbn. unfold update. rewrite map_map.
        destruct (at_split _ _ (g_at _ G1) (proj2 (in_update _ _ _ (set_send p r)) (or_intror (ex_intro _ p (conj I (conj E eq_refl)))))) as (l1 & l2 & EE & U & _ & _).
        cbn [send_at peers set_peers] in EE, U. assert (Z := U set_over). unfold update in Z. rewrite map_map in Z. cbn [q_at set_send] in Z. rewrite E in Z. rewrite Z.
        apply (good_replace l1 (set_send p r) l2); [| | | |rewrite <- EE; exact G1]; try reflexivity; cbn.
        -- intros C. rewrite (g_srv _ G p I C) in QS. discriminate.
        -- assert (D := g_dup _ G p I). rewrite QS in D. now inversion D.
    + destruct (q_over p); apply (NXT _ false); try reflexivity; exact G1.
    + destruct (at_ (peers (send_at s a r)) a) as [p1|] eqn:A1.
      * apply at_in in A1. apply free_settled; [exact G1|apply A1|]. intros q Q N O S. cbn in Q. apply in_update in Q.
        destruct Q as [[Q _]|(y & Y & YA & ->)]; [|exfalso; apply N; cbn; destruct A1; congruence].
        assert (NA : q_at q <> a) by (destruct A1; congruence). exact (H q Q NA O S).
      * exfalso. apply at_none in A1. apply A1. cbn. apply in_map_iff. exists (set_send p r). split; [exact E|]. apply in_update. right. exists p. auto.
Qed.

Lemma settled_step s o : good (peers s) -> no_retry_end o -> settled s -> settled (step s o).
Proof.
  intros G NR H. destruct o as [m ep rf a o w|ep a|o ws|a o|ep o|ep|ep]; cbn [step].
  - unfold send_message. destruct (of_ep (peers s) ep) as [p|] eqn:F.
    + apply ep_in in F. destruct F as [I E]. destruct (q_over p) eqn:O.
      * destruct w; try exact H. apply free_settled; [exact G|exact I|]. intros q Q N. exact (H q Q).
      * apply init_settled; auto. intros q Q EQ. assert (q = p) by (apply (same_ep _ _ _ G); auto; congruence). now subst q.
    + apply init_settled; auto. intros q Q EQ. exfalso. apply ep_none in F. apply F. rewrite <- EQ. now apply in_map.
  - destruct (of_ep (peers s) ep) as [p|] eqn:F.
    + intros q Q O S. destruct (H q Q O S); [left; cbn; apply in_or_app; now left|now right].
    + unfold add_peer. destruct (at_ (peers s) a) eqn:A; [exact H|]. intros q Q O S. cbn in Q. apply in_app_iff in Q.
      destruct Q as [Q|[<-|[]]]; [|discriminate]. destruct (H q Q O S); [left; cbn; apply in_or_app; now left|now right].
  - destruct (events s) as [|e r] eqn:EV; [exact H|].
    assert (H1 : forall q, In q (peers s) -> q_at q <> ev_at e \/ (exists a, e = Read a) -> cared (set_events s r) q).
    { intros q Q N O S. destruct (H q Q O S) as [W|R]; [|now right]. rewrite EV in W. destruct W as [W|W]; [|now left].
      exfalso. subst e. destruct N as [N|[x N]]; [now apply N|discriminate]. }
    destruct e as [a|a].
    + destruct (at_ (peers (set_events s r)) a) as [p|] eqn:A.
      * apply at_in in A. destruct A as [I E]. apply write_settled; [exact G| |].
        -- intros x X XA. assert (x = p) by (apply (same_at _ _ _ G); auto; congruence). subst x. lia.
        -- intros q Q N. apply H1; auto.
      * intros q Q. apply H1; [exact Q|]. left. cbn [ev_at]. intros E. apply at_none in A. apply A. rewrite <- E. now apply in_map.
    + assert (H2 : settled (set_events s r)) by (intros q Q; apply H1; eauto). unfold read_data.
      destruct (at_ (peers (set_events s r)) a) as [p|] eqn:A; [|exact H2]. apply at_in in A. destruct A as [I E].
      destruct o as [wr| |]; [|exact H2|apply free_settled; auto]. destruct (q_over p) eqn:O; [exact H2|]. cbv zeta.
      destruct wr; intros q Q OO S; cbn in Q; apply in_update in Q; destruct Q as [[Q N]|(x & X & XA & ->)].
      * destruct (H2 q Q OO S); [now left|right; cbn; apply in_or_app; now left].
      * right. cbn. apply in_or_app. right. left. assert (x = p) by (apply (same_at _ _ _ G); auto; congruence). subst x. now rewrite E.
      * destruct (H2 q Q OO S); [left; cbn; apply in_or_app; now left|now right].
      * left. cbn. apply in_or_app. right. left. now rewrite XA.
  - destruct (at_ (peers s) a) as [p|] eqn:A; [|exact H]. apply at_in in A. destruct A as [I E]. destruct (q_over p); [exact H|].
    destruct o; [contradiction|exact H|]. apply free_settled; auto.
  - destruct (of_ep (peers s) ep) as [p|] eqn:F; [|exact H]. apply ep_in in F. apply handshake_settled; tauto.
  - destruct (find _ (roles s)) as [[x y]|] eqn:F; [|exact H]. intros q Q O S. destruct (H q Q O S) as [W|R].
    + left. cbn. apply in_or_app. now left.
    + cbn. destruct (in_dec (fun u v : nat * nat => ltac:(decide equality; apply Nat.eq_dec)) (q_ep q, q_at q) (remove_first ep (roles s))) as [K|K]; [now right|].
      left. apply in_or_app. right. left. f_equal. clear -R K F. revert R K F. induction (roles s) as [|[u v] l IH]; [contradiction|].
      cbn [remove_first find fst]. destruct (Nat.eqb u ep) eqn:X.
      * intros [R|R] K [= <- <-]; [injection R as _ R; exact R|contradiction].
      * intros [R|R] K F; [exfalso; apply K; left; exact R|]. apply IH; auto. intros Z. apply K. now right.
  - destruct (of_ep (peers s) ep) as [p|] eqn:F.
    + apply ep_in in F. apply free_settled; [exact G|tauto|]. intros q Q _. exact (H q Q).
    + intros q Q O S. destruct (H q Q O S) as [W|R]; [left|now right]. apply drop_keeps; [exact W|]. intros p A. cbn [ev_at] in A.
      apply at_in in A. intros E. apply ep_none in F. apply F. rewrite <- E. now apply in_map.
Qed.

Lemma settled_run l : Forall no_retry_end l -> settled (run init l).
Proof.
  induction l as [|o l IH] using rev_ind; intros F; [intros p []|]. apply Forall_app in F. destruct F as [F1 F2]. inversion F2; subst.
  rewrite run_snoc. apply settled_step; auto. apply run_good.
Qed.
