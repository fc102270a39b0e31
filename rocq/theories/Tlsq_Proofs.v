(** Proofs about messages to secured peers: messages are kept, in order. *)
From Verif Require Import Common Tlsq_Model Tlsq_Spec.

(** ** The moves of messages *)
Record ct := Ct { c_peers : list peer; c_sent : list (nat * nat); c_lost : list nat; c_early : list nat;
                  c_merged : list nat; c_given : list (nat * nat) }.
Definition core (s : st) (g : list (nat * nat)) : ct := Ct (peers s) (sent s) (lost s) (early s) (merged s) g.

Inductive move (ok : Prop) : ct -> ct -> Prop :=
| m_add P S L E M G a ep c : ~ In a (map q_at P) -> ~ In ep (map q_ep P) ->
    move ok (Ct P S L E M G) (Ct (P ++ [Peer a ep c false []]) S L E M G)
| m_queue l1 p l2 S L E M G m : q_client p = true -> q_over p = false -> ~ In m (q_send p) ->
    move ok (Ct (l1 ++ p :: l2) S L E M G) (Ct (l1 ++ set_send p (q_send p ++ [m]) :: l2) S L E M (G ++ [(q_ep p, m)]))
| m_lose P S L E M G ep m : move ok (Ct P S L E M G) (Ct P S (L ++ [m]) E M (G ++ [(ep, m)]))
| m_merge P S L E M G p m : In p P -> In m (q_send p) -> move ok (Ct P S L E M G) (Ct P S L E (M ++ [m]) (G ++ [(q_ep p, m)]))
| m_direct P S L E M G p m : In p P -> q_over p = true -> (ok -> q_send p = []) ->
    move ok (Ct P S L E M G) (Ct P (S ++ [(q_ep p, m)]) L E M (G ++ [(q_ep p, m)]))
| m_over l1 p l2 S L E M G : move ok (Ct (l1 ++ p :: l2) S L E M G) (Ct (l1 ++ set_over p :: l2) S L E M G)
| m_pop_sent l1 p l2 S L E M G m r : q_send p = m :: r -> q_over p = true ->
    move ok (Ct (l1 ++ p :: l2) S L E M G) (Ct (l1 ++ set_send p r :: l2) (S ++ [(q_ep p, m)]) L E M G)
| m_pop_early l1 p l2 S L E M G m r : q_send p = m :: r -> q_over p = false ->
    move ok (Ct (l1 ++ p :: l2) S L E M G) (Ct (l1 ++ set_send p r :: l2) S L (E ++ [m]) M G)
| m_pop_lost l1 p l2 S L E M G m r : q_send p = m :: r ->
    move ok (Ct (l1 ++ p :: l2) S L E M G) (Ct (l1 ++ set_send p r :: l2) S (L ++ [m]) E M G)
| m_del l1 p l2 S L E M G : move ok (Ct (l1 ++ p :: l2) S L E M G) (Ct (l1 ++ l2) S (L ++ q_send p) E M G).

Inductive moves (ok : Prop) : ct -> ct -> Prop :=
| ms_nil c : moves ok c c
| ms_cons c1 c2 c3 : move ok c1 c2 -> moves ok c2 c3 -> moves ok c1 c3.

Lemma moves_trans ok a b c : moves ok a b -> moves ok b c -> moves ok a c.
Proof. intros H. induction H; [auto|]. intros. econstructor; eauto. Qed.
Lemma moves_one ok a b : move ok a b -> moves ok a b.
Proof. intros H. econstructor; [exact H|constructor]. Qed.

(** Addresses and endpoints are unique; only client peers have messages waiting, each once. *)
Record good (P : list peer) : Prop := {
  g_at : NoDup (map q_at P);
  g_ep : NoDup (map q_ep P);
  g_srv : forall p, In p P -> q_client p = false -> q_send p = [];
  g_dup : forall p, In p P -> NoDup (q_send p) }.

Lemma good_replace l1 p l2 p' : q_at p' = q_at p -> q_ep p' = q_ep p -> (q_client p' = false -> q_send p' = []) ->
  NoDup (q_send p') -> good (l1 ++ p :: l2) -> good (l1 ++ p' :: l2).
Proof.
  intros A E S D [G1 G2 G3 G4]. rewrite map_app in G1, G2. cbn [map] in G1, G2. constructor.
  - rewrite map_app. cbn [map]. now rewrite A.
  - rewrite map_app. cbn [map]. now rewrite E.
  - intros x I. apply in_app_iff in I. destruct I as [I|[<-|I]]; auto; apply G3; apply in_app_iff; [now left|right; now right].
  - intros x I. apply in_app_iff in I. destruct I as [I|[<-|I]]; auto; apply G4; apply in_app_iff; [now left|right; now right].
Qed.

Lemma move_good ok c c' : move ok c c' -> good (c_peers c) -> good (c_peers c').
Proof.
  intros M G. destruct M; cbn [c_peers] in *; auto.
  - destruct G as [G1 G2 G3 G4]. constructor.
    + rewrite map_app. apply NoDup_app_snoc; auto.
    + rewrite map_app. apply NoDup_app_snoc; auto.
    + intros p I. apply in_app_iff in I. destruct I as [I|[<-|[]]]; auto.
    + intros p I. apply in_app_iff in I. destruct I as [I|[<-|[]]]; [auto|constructor].
  - eapply good_replace; [| | | |exact G]; try reflexivity.
    + cbn. congruence.
    + cbn. apply NoDup_app_snoc; [|assumption]. apply (g_dup _ G). apply in_elt.
  - eapply good_replace; [| | | |exact G]; try reflexivity; cbn.
    + apply (g_srv _ G), in_elt.
    + apply (g_dup _ G), in_elt.
  - eapply good_replace; [| | | |exact G]; try reflexivity; cbn.
    + intros C. rewrite (g_srv _ G p (in_elt _ _ _) C) in *. discriminate.
    + assert (D := g_dup _ G p (in_elt _ _ _)). rewrite H in D. now inversion D.
  - eapply good_replace; [| | | |exact G]; try reflexivity; cbn.
    + intros C. rewrite (g_srv _ G p (in_elt _ _ _) C) in *. discriminate.
    + assert (D := g_dup _ G p (in_elt _ _ _)). rewrite H in D. now inversion D.
  - eapply good_replace; [| | | |exact G]; try reflexivity; cbn.
    + intros C. rewrite (g_srv _ G p (in_elt _ _ _) C) in *. discriminate.
    + assert (D := g_dup _ G p (in_elt _ _ _)). rewrite H in D. now inversion D.
  - destruct G as [G1 G2 G3 G4]. rewrite map_app in G1, G2. cbn [map] in G1, G2. constructor.
    + rewrite map_app. eapply NoDup_remove_1; eauto.
    + rewrite map_app. eapply NoDup_remove_1; eauto.
    + intros x I. apply G3. apply in_app_iff in I. apply in_app_iff. destruct I; [now left|right; now right].
    + intros x I. apply G4. apply in_app_iff in I. apply in_app_iff. destruct I; [now left|right; now right].
Qed.
Lemma moves_good ok c c' : moves ok c c' -> good (c_peers c) -> good (c_peers c').
Proof. intros H. induction H; auto. intros G. apply IHmoves. eapply move_good; eauto. Qed.

(** ** What the functions do *)
Lemma at_split l p : NoDup (map q_at l) -> In p l -> exists l1 l2, l = l1 ++ p :: l2 /\
  (forall f, update l (q_at p) f = l1 ++ f p :: l2) /\ without l (q_at p) = l1 ++ l2 /\ at_ l (q_at p) = Some p.
Proof.
  induction l as [|x l IH]; intros N I; [contradiction|]. cbn [map] in N. inversion N as [|? ? N1 N2]; subst.
  assert (K : forall y, In y l -> Nat.eqb (q_at y) (q_at x) = false).
  { intros y Y. apply Nat.eqb_neq. intros E. apply N1. rewrite <- E. now apply in_map. }
  destruct I as [<-|I].
  - exists [], l. split; [reflexivity|]. split; [|split].
    + intros f. cbn [update map]. rewrite Nat.eqb_refl. cbn [app]. f_equal. clear -K. induction l as [|y l IH]; [reflexivity|]. cbn [map].
      rewrite (K y) by now left. f_equal. apply IH. intros z Z. apply K. now right.
    + cbn [without filter]. rewrite Nat.eqb_refl. cbn [negb app]. clear -K. induction l as [|y l IH]; [reflexivity|]. cbn [filter].
      rewrite (K y) by now left. cbn [negb]. f_equal. apply IH. intros z Z. apply K. now right.
    + cbn [at_ find]. now rewrite Nat.eqb_refl.
  - destruct (IH N2 I) as (l1 & l2 & E & U & W & A). exists (x :: l1), l2. assert (KX := K p I). rewrite Nat.eqb_sym in KX.
    split; [cbn [app]; now rewrite <- E|]. split; [|split].
    + intros f. cbn [update map]. rewrite KX. cbn [app]. f_equal. apply U.
    + cbn [without filter]. rewrite KX. cbn [negb app]. f_equal. apply W.
    + cbn [at_ find]. rewrite KX. exact A.
Qed.

Lemma at_in l a p : at_ l a = Some p -> In p l /\ q_at p = a.
Proof. intros F. apply find_some in F. destruct F as [I E]. apply Nat.eqb_eq in E. auto. Qed.
Lemma at_none l a : at_ l a = None -> ~ In a (map q_at l).
Proof.
  intros F I. apply in_map_iff in I. destruct I as (p & E & I). assert (X := find_none _ _ F p I). cbv beta in X.
  apply Nat.eqb_neq in X. congruence.
Qed.
Lemma ep_in l e p : of_ep l e = Some p -> In p l /\ q_ep p = e.
Proof. intros F. apply find_some in F. destruct F as [I E]. apply Nat.eqb_eq in E. auto. Qed.
Lemma ep_none l e : of_ep l e = None -> ~ In e (map q_ep l).
Proof.
  intros F I. apply in_map_iff in I. destruct I as (p & E & I). assert (X := find_none _ _ F p I). cbv beta in X.
  apply Nat.eqb_neq in X. congruence.
Qed.

Section Step.
Variable ok : Prop.

Lemma free_peer_moves s p g : good (peers s) -> In p (peers s) -> moves ok (core s g) (core (free_peer s p) g).
Proof.
  intros G I. destruct (at_split _ _ (g_at _ G) I) as (l1 & l2 & E & _ & W & _). apply moves_one.
  unfold free_peer, drop_events, core. cbn. rewrite W. rewrite E. constructor.
Qed.
Lemma free_invalid_moves s p g : good (peers s) -> In p (peers s) -> moves ok (core s g) (core (free_invalid s p) g).
Proof.
  intros G I. destruct (at_split _ _ (g_at _ G) I) as (l1 & l2 & E & _ & W & _). apply moves_one.
  unfold free_invalid, core. cbn. rewrite W. rewrite E. constructor.
Qed.
Lemma over_at_moves s p g : good (peers s) -> In p (peers s) -> moves ok (core s g) (core (over_at s (q_at p)) g).
Proof.
  intros G I. destruct (at_split _ _ (g_at _ G) I) as (l1 & l2 & E & U & _ & _). apply moves_one.
  unfold over_at, core. cbn. rewrite U. rewrite E at 1. constructor.
Qed.
Lemma handshake_moves s p o g : good (peers s) -> In p (peers s) -> moves ok (core s g) (core (handshake s p o) g).
Proof.
  intros G I. destruct o; cbn [handshake]; [|constructor|now apply free_peer_moves].
  exact (over_at_moves s p g G I).
Qed.

Lemma init_connection_moves s m ep rf a o g : good (peers s) ->
  (forall p, In p (peers s) -> q_ep p = ep -> q_over p = false) ->
  moves ok (core s g) (core (init_connection s m ep rf a o) (g ++ [(ep, m)])).
Proof.
  intros G NO. unfold init_connection. destruct rf; [|apply moves_one; unfold core; cbn; constructor].
  set (s1 := match of_ep (peers s) ep with Some p => if q_client p then s else free_invalid s p | None => s end).
  assert (M1 : moves ok (core s g) (core s1 g) /\ (forall p, In p (peers s1) -> q_ep p = ep -> q_over p = false)).
  { subst s1. destruct (of_ep (peers s) ep) as [p|] eqn:F; [|split; [constructor|exact NO]]. destruct (q_client p); [split; [constructor|exact NO]|].
    apply ep_in in F. split; [now apply free_invalid_moves|]. intros q Q. apply NO. cbn in Q. now apply filter_In in Q. }
  destruct M1 as [M1 NO1]. assert (G1 : good (peers s1)) by exact (moves_good _ _ _ M1 G). clearbody s1.
  eapply moves_trans; [exact M1|]. clear M1 G NO.
  destruct (of_ep (peers s1) ep) as [p|] eqn:F.
  - apply ep_in in F. destruct F as [I E]. destruct (q_client p) eqn:C; [|apply moves_one; unfold core; cbn; constructor].
    assert (NO := NO1 p I E).
    set (s3 := if existsb (Nat.eqb m) (q_send p) then set_merged s1 (merged s1 ++ [m]) else send_at s1 (q_at p) (q_send p ++ [m])).
    assert (M3 : moves ok (core s1 g) (core s3 (g ++ [(ep, m)]))).
    { subst s3. rewrite <- E. destruct (existsb (Nat.eqb m) (q_send p)) eqn:X; apply moves_one.
      - unfold core. cbn. constructor; [exact I|]. apply existsb_exists in X. destruct X as (y & Y & Ey). apply Nat.eqb_eq in Ey. now subst y.
      - destruct (at_split _ _ (g_at _ G1) I) as (l1 & l2 & EE & U & _ & _). unfold core, send_at. cbn. rewrite U. rewrite EE at 1.
        constructor; auto. intros Y. assert (Z : existsb (Nat.eqb m) (q_send p) = true) by (apply existsb_exists; exists m; split; [exact Y|apply Nat.eqb_refl]).
        congruence. }
    eapply moves_trans; [exact M3|]. destruct (q_send p); [|constructor].
    destruct (at_ (peers s3) (q_at p)) as [p3|] eqn:A; [|constructor]. apply at_in in A. apply handshake_moves; [|apply A].
    exact (moves_good _ _ _ M3 G1).
  - unfold add_peer. destruct (at_ (peers s1) a) as [q|] eqn:A; [apply moves_one; unfold core; cbn; constructor|].
    cbn [q_client q_send q_at existsb app]. apply at_none in A. apply ep_none in F.
    set (p := Peer a ep true false []). set (s2 := set_peers s1 (peers s1 ++ [p])).
    assert (M2 : moves ok (core s1 g) (core s2 g)) by (apply moves_one; unfold core; cbn; now constructor).
    assert (G2 : good (peers s2)) by exact (moves_good _ _ _ M2 G1). eapply moves_trans; [exact M2|].
    assert (I2 : In p (peers s2)) by (cbn; apply in_or_app; right; now left).
    assert (M3 : moves ok (core s2 g) (core (send_at s2 a [m]) (g ++ [(ep, m)]))).
    { apply moves_one. destruct (at_split _ _ (g_at _ G2) I2) as (l1 & l2 & EE & U & _ & _). cbn [q_at p] in U. unfold core, send_at. cbn [peers sent lost early merged set_peers].
      rewrite U. rewrite EE at 1. change (ep, m) with (q_ep p, m). change (set_send p [m]) with (set_send p (q_send p ++ [m])). constructor; auto. }
    eapply moves_trans; [exact M3|]. destruct (at_ (peers (send_at s2 a [m])) a) as [p3|] eqn:A3; [|constructor].
    apply at_in in A3. apply handshake_moves; [exact (moves_good _ _ _ M3 G2)|apply A3].
Qed.

Lemma write_data_moves fuel : forall s a ws g, good (peers s) -> moves ok (core s g) (core (write_data fuel s a ws) g).
Proof.
  induction fuel as [|fuel IH]; intros s a ws g G; cbn [write_data]; [constructor|].
  destruct (at_ (peers s) a) as [p|] eqn:A; [|constructor]. apply at_in in A. destruct A as [I E].
  destruct (q_send p) as [|m r] eqn:Q; [constructor|]. cbv zeta.
  destruct (at_split _ _ (g_at _ G) I) as (l1 & l2 & EE & U & _ & _).
  assert (U1 : peers (send_at s a r) = l1 ++ set_send p r :: l2) by (unfold send_at; cbn; rewrite <- E; apply U).
  destruct (hd WOk ws).
  - set (s' := set_sent (over_at (send_at s a r) a) (sent (send_at s a r) ++ [(q_ep p, m)])).
    assert (M : moves ok (core s g) (core s' g)).
    { econstructor; [|apply moves_one].
      - unfold core at 1. rewrite EE at 1. apply m_over.
      - assert (UP : peers s' = l1 ++ set_send (set_over p) r :: l2).
        { subst s'. cbn. change (peers s) with (peers s). rewrite <- E. rewrite U. unfold update. rewrite map_app. cbn [map]. cbn [q_at set_send].
          rewrite Nat.eqb_refl. assert (G' := g_at _ G). rewrite EE, map_app in G'. cbn [map] in G'. apply NoDup_remove_2 in G'.
          assert (X : forall l, (forall y, In y l -> In (q_at y) (map q_at l1 ++ map q_at l2)) -> map (fun p0 => if Nat.eqb (q_at p0) (q_at p) then set_over p0 else p0) l = l).
          { intros l H. rewrite <- (map_id l) at 2. apply map_ext_in. intros y Y. destruct (Nat.eqb (q_at y) (q_at p)) eqn:Z; [|reflexivity].
            apply Nat.eqb_eq in Z. exfalso. apply G'. rewrite <- Z. apply H, Y. }
          rewrite !X; [reflexivity| |]; intros y Y; apply in_or_app; [right|left]; now apply in_map. }
        unfold core at 1. rewrite UP. subst s'. cbn [sent lost early merged set_sent over_at send_at set_peers].
        apply (m_pop_sent ok l1 (set_over p) l2); [exact Q|reflexivity]. }
    eapply moves_trans; [exact M|]. apply IH. exact (moves_good _ _ _ M G).
  - destruct (q_over p) eqn:O.
    + set (s' := set_sent (send_at s a r) (sent (send_at s a r) ++ [(q_ep p, m)])).
      assert (M : moves ok (core s g) (core s' g)).
      { apply moves_one. unfold core. subst s'. cbn [peers sent lost early merged set_sent]. rewrite U1. rewrite EE at 1. now apply m_pop_sent. }
      eapply moves_trans; [exact M|]. apply IH. exact (moves_good _ _ _ M G).
    + set (s' := set_early (send_at s a r) (early (send_at s a r) ++ [m])).
      assert (M : moves ok (core s g) (core s' g)).
      { apply moves_one. unfold core. subst s'. cbn [peers sent lost early merged set_early]. rewrite U1. rewrite EE at 1. now apply m_pop_early. }
      eapply moves_trans; [exact M|]. apply IH. exact (moves_good _ _ _ M G).
  - destruct (at_ (peers (send_at s a r)) a) as [p1|] eqn:A1.
    + set (s' := set_lost (send_at s a r) (lost (send_at s a r) ++ [m])).
      assert (M : moves ok (core s g) (core s' g)).
      { apply moves_one. unfold core. subst s'. cbn [peers sent lost early merged set_lost]. rewrite U1. rewrite EE at 1. now apply m_pop_lost with (m := m). }
      eapply moves_trans; [exact M|]. apply free_peer_moves; [exact (moves_good _ _ _ M G)|]. apply at_in in A1. apply A1.
    + exfalso. apply at_none in A1. apply A1. rewrite U1, map_app. apply in_or_app. right. left. cbn. exact E.
Qed.

Lemma read_data_moves s a o g : good (peers s) -> moves ok (core s g) (core (read_data s a o) g).
Proof.
  intros G. unfold read_data. destruct (at_ (peers s) a) as [p|] eqn:A; [|constructor]. apply at_in in A. destruct A as [I E].
  destruct o as [wr| |]; [|constructor|now apply free_peer_moves]. destruct (q_over p); [constructor|].
  destruct wr; rewrite <- E; exact (over_at_moves s p g G I).
Qed.

Lemma step_moves s o g : good (peers s) -> (ok -> prompt_step s o) ->
  moves ok (core s g) (core (step s o) (g ++ given [o])).
Proof.
  intros G PR. destruct o as [m ep rf a o w|ep a|o ws|a o|ep o|ep|ep]; cbn [step given]; rewrite ?app_nil_r.
  - unfold send_message. destruct (of_ep (peers s) ep) as [p|] eqn:F.
    + destruct (q_over p) eqn:O.
      * apply ep_in in F. destruct F as [I E]. assert (OKD : moves ok (core s g) (core (set_sent s (sent s ++ [(ep, m)])) (g ++ [(ep, m)]))).
        { apply moves_one. unfold core. cbn. rewrite <- E. constructor; auto. intros K. apply (PR K p I E O). }
        destruct w; try exact OKD. eapply moves_trans; [apply moves_one|apply free_peer_moves].
        -- unfold core at 1. apply (m_lose ok _ _ _ _ _ _ ep m).
        -- exact G.
        -- exact I.
      * apply init_connection_moves; [exact G|]. intros q Q E. apply ep_in in F. destruct F as [I Ep].
        destruct (Nat.eq_dec (q_at q) (q_at p)) as [EA|NA].
        -- destruct (at_split _ _ (g_at _ G) I) as (_ & _ & _ & _ & _ & A). destruct (at_split _ _ (g_at _ G) Q) as (_ & _ & _ & _ & _ & A').
           rewrite EA in A'. rewrite A in A'. injection A' as <-. exact O.
        -- exfalso. clear -G I Q E Ep NA. destruct G as [_ G _ _]. revert G I Q. generalize (peers s) as l. induction l as [|x l IH]; [contradiction|].
           cbn [map]. intros N I Q. inversion N as [|? ? N1 N2]; subst. destruct I as [<-|I], Q as [<-|Q]; auto; apply N1; [rewrite <- E|rewrite E]; now apply in_map.
    + apply init_connection_moves; [exact G|]. intros q Q E. exfalso. apply ep_none in F. apply F. rewrite <- E. now apply in_map.
  - destruct (of_ep (peers s) ep) as [p|] eqn:F; [constructor|]. unfold add_peer. destruct (at_ (peers s) a) eqn:A; [constructor|].
    apply moves_one. unfold core. cbn. constructor; [now apply at_none|now apply ep_none].
  - destruct (events s) as [|e r]; [constructor|]. destruct e as [a|a].
    + destruct (at_ _ a); [|constructor]. exact (write_data_moves _ (set_events s r) a ws g G).
    + exact (read_data_moves (set_events s r) a o g G).
  - destruct (at_ (peers s) a) as [p|] eqn:A; [|constructor]. apply at_in in A. destruct A as [I E]. destruct (q_over p); [constructor|].
    destruct o; [rewrite <- E; now apply over_at_moves|constructor|now apply free_peer_moves].
  - destruct (of_ep (peers s) ep) as [p|] eqn:F; [|constructor]. apply ep_in in F. now apply handshake_moves.
  - destruct (find _ (roles s)); constructor.
  - destruct (of_ep (peers s) ep) as [p|] eqn:F; [|constructor]. apply ep_in in F. now apply free_peer_moves.
Qed.
End Step.

Lemma given_snoc l o : given (l ++ [o]) = given l ++ given [o].
Proof. induction l as [|x l IH]; [reflexivity|]. destruct x; cbn [app given]; rewrite ?IH; reflexivity. Qed.
Lemma run_snoc s l o : run s (l ++ [o]) = step (run s l) o.
Proof. revert s. induction l as [|x l IH]; intros s; [reflexivity|]. cbn [app run]. apply IH. Qed.
Lemma along_snoc P s l o : along P s (l ++ [o]) <-> along P s l /\ P (run s l) o.
Proof.
  revert s. induction l as [|x l IH]; intros s; cbn [app along run]; [tauto|]. rewrite IH. tauto.
Qed.

Lemma good_init : good [].
Proof. constructor; cbn; try constructor; contradiction. Qed.

Lemma run_moves (ok : Prop) l : (ok -> along prompt_step init l) ->
  moves ok (core init []) (core (run init l) (given l)) /\ good (peers (run init l)).
Proof.
  induction l as [|o l IH] using rev_ind; intros PR; [split; [constructor|apply good_init]|].
  rewrite run_snoc, given_snoc. destruct IH as [M G]; [intros K; now apply (proj1 (along_snoc _ _ _ _) (PR K))|].
  assert (M2 : moves ok (core (run init l) (given l)) (core (step (run init l) o) (given l ++ given [o]))).
  { apply step_moves; [exact G|]. intros K. now apply (proj1 (along_snoc _ _ _ _) (PR K)). }
  split; [eapply moves_trans; eauto|]. exact (moves_good _ _ _ M2 G).
Qed.

(** ** Conservation *)
Lemma times_app m a b : times m (a ++ b) = (times m a + times m b)%nat.
Proof. apply count_occ_app. Qed.

Definition total (m : nat) (c : ct) : nat :=
  (times m (map snd (c_sent c)) + times m (flat_map q_send (c_peers c)) + times m (c_lost c) + times m (c_early c) + times m (c_merged c))%nat.

Lemma move_total ok m c c' : move ok c c' -> (total m c + times m (map snd (c_given c')) = total m c' + times m (map snd (c_given c)))%nat.
Proof.
  intros M. destruct M; unfold total; cbn [c_peers c_sent c_lost c_early c_merged c_given];
    rewrite ?map_app, ?flat_map_app, ?times_app; cbn [flat_map map q_send set_send set_over snd app]; rewrite ?times_app; cbn [flat_map map]; rewrite ?app_nil_r;
    try match goal with H : q_send _ = _ :: _ |- _ => rewrite H end;
    try (change (times m (?x :: ?l)) with (times m ([x] ++ l))); rewrite ?times_app; cbn [times count_occ] in *; try lia.
  all: unfold times in *; cbn [count_occ] in *; try (destruct (Nat.eq_dec m0 m)); try lia.
Qed.
Lemma moves_total ok m c c' : moves ok c c' -> (total m c + times m (map snd (c_given c')) = total m c' + times m (map snd (c_given c)))%nat.
Proof. intros H. induction H; [lia|]. assert (X := move_total ok m _ _ H). lia. Qed.

(** ** Messages go where they should *)
Lemma move_dest ok c c' : move ok c c' ->
  (forall x, In x (c_sent c) -> In x (c_given c)) -> (forall p m, In p (c_peers c) -> In m (q_send p) -> In (q_ep p, m) (c_given c)) ->
  (forall x, In x (c_sent c') -> In x (c_given c')) /\ (forall p m, In p (c_peers c') -> In m (q_send p) -> In (q_ep p, m) (c_given c')).
Proof.
  intros M S Q. destruct M; cbn [c_peers c_sent c_given] in *.
  - split; [exact S|]. intros p m I. apply in_app_iff in I. destruct I as [I|[<-|[]]]; [now apply Q|contradiction].
  - split; [intros x X; apply in_or_app; left; auto|]. intros q x I X. apply in_app_iff in I. apply in_or_app.
    destruct I as [I|[<-|I]].
    + left. apply Q; [apply in_or_app; now left|exact X].
    + cbn [q_send q_ep set_send] in *. apply in_app_iff in X. destruct X as [X|[<-|[]]]; [left; apply Q; [apply in_elt|exact X]|right; now left].
    + left. apply Q; [apply in_or_app; right; now right|exact X].
  - split; intros; apply in_or_app; left; auto.
  - split; intros; apply in_or_app; left; auto.
  - split; [|intros; apply in_or_app; left; auto]. intros x X. apply in_app_iff in X. apply in_or_app. destruct X as [X|X]; [left; auto|now right].
  - split; [exact S|]. intros q x I X. apply in_app_iff in I. destruct I as [I|[<-|I]].
    + apply Q; [apply in_or_app; now left|exact X].
    + cbn in *. apply Q; [apply in_elt|exact X].
    + apply Q; [apply in_or_app; right; now right|exact X].
  - assert (K : In (q_ep p, m) G) by (apply Q; [apply in_elt|rewrite H; now left]). split.
    + intros x X. apply in_app_iff in X. destruct X as [X|[<-|[]]]; auto.
    + intros q x I X. apply in_app_iff in I. destruct I as [I|[<-|I]].
      * apply Q; [apply in_or_app; now left|exact X].
      * cbn in *. apply Q; [apply in_elt|rewrite H; now right].
      * apply Q; [apply in_or_app; right; now right|exact X].
  - split; [exact S|]. intros q x I X. apply in_app_iff in I. destruct I as [I|[<-|I]].
    + apply Q; [apply in_or_app; now left|exact X].
    + cbn in *. apply Q; [apply in_elt|rewrite H; now right].
    + apply Q; [apply in_or_app; right; now right|exact X].
  - split; [exact S|]. intros q x I X. apply in_app_iff in I. destruct I as [I|[<-|I]].
    + apply Q; [apply in_or_app; now left|exact X].
    + cbn in *. apply Q; [apply in_elt|rewrite H; now right].
    + apply Q; [apply in_or_app; right; now right|exact X].
  - split; [exact S|]. intros q x I X. apply in_app_iff in I. apply Q; [|exact X]. apply in_or_app. destruct I; [now left|right; now right].
Qed.

(** ** Order *)
Lemma sub_refl A (l : list A) : sub l l.
Proof. induction l; [constructor|apply sub_take; auto]. Qed.
Lemma sub_nil_l A (l : list A) : sub [] l.
Proof. induction l; constructor; auto. Qed.
Lemma sub_trans A (a b c : list A) : sub a b -> sub b c -> sub a c.
Proof.
  intros H1 H2. revert a H1. induction H2; intros a0 H1; [exact H1|constructor; auto|].
  inversion H1; subst; [constructor; auto|apply sub_take; auto].
Qed.
Lemma sub_app A (a b c d : list A) : sub a b -> sub c d -> sub (a ++ c) (b ++ d).
Proof. intros H1 H2. induction H1; cbn [app]; [exact H2|constructor; auto|apply sub_take; auto]. Qed.

Definition queue (ep : nat) (P : list peer) : list nat := flat_map (fun p => if Nat.eqb (q_ep p) ep then q_send p else []) P.
Lemma queue_app ep a b : queue ep (a ++ b) = queue ep a ++ queue ep b.
Proof. apply flat_map_app. Qed.
Lemma to_ep_app ep a b : to_ep ep (a ++ b) = to_ep ep a ++ to_ep ep b.
Proof. unfold to_ep. now rewrite filter_app, map_app. Qed.
Lemma queue_none ep l : ~ In ep (map q_ep l) -> queue ep l = [].
Proof.
  induction l as [|p l IH]; intros N; [reflexivity|]. cbn [queue flat_map]. destruct (Nat.eqb (q_ep p) ep) eqn:E.
  - exfalso. apply N. left. now apply Nat.eqb_eq.
  - apply IH. intros I. apply N. now right.
Qed.
Lemma queue_elt ep l1 p l2 : NoDup (map q_ep (l1 ++ p :: l2)) ->
  queue ep (l1 ++ p :: l2) = if Nat.eqb (q_ep p) ep then q_send p else queue ep (l1 ++ l2).
Proof.
  intros N. rewrite map_app in N. cbn [map] in N. apply NoDup_remove_2 in N. rewrite !queue_app.
  change (queue ep (p :: l2)) with ((if Nat.eqb (q_ep p) ep then q_send p else []) ++ queue ep l2).
  destruct (Nat.eqb (q_ep p) ep) eqn:E; [|reflexivity]. apply Nat.eqb_eq in E. rewrite <- E.
  rewrite (queue_none _ l1), (queue_none _ l2); [now rewrite app_nil_r| |]; intros I; apply N; apply in_or_app; auto.
Qed.
Lemma queue_elt2 ep l1 p l2 p' : q_ep p' = q_ep p -> NoDup (map q_ep (l1 ++ p :: l2)) ->
  queue ep (l1 ++ p' :: l2) = if Nat.eqb (q_ep p) ep then q_send p' else queue ep (l1 ++ l2).
Proof.
  intros E N. rewrite <- E. apply queue_elt. rewrite map_app in *. cbn [map] in *. now rewrite E.
Qed.

Lemma move_order (ok : Prop) ep c c' : ok -> move ok c c' -> good (c_peers c) ->
  sub (to_ep ep (c_sent c) ++ queue ep (c_peers c)) (to_ep ep (c_given c)) ->
  sub (to_ep ep (c_sent c') ++ queue ep (c_peers c')) (to_ep ep (c_given c')).
Proof.
  intros K M G H. destruct M; cbn [c_peers c_sent c_given] in *.
  - rewrite queue_app. cbn [queue flat_map]. cbn [q_send]. destruct (Nat.eqb _ _); cbn [app]; now rewrite app_nil_r.
  - rewrite (queue_elt2 ep l1 p l2) by (try reflexivity; apply G). rewrite (queue_elt ep l1 p l2) in H by apply G.
    rewrite to_ep_app. unfold to_ep at 3. cbn [filter fst]. destruct (Nat.eqb (q_ep p) ep).
    + cbn [map snd q_send set_send]. rewrite app_assoc. apply sub_app; [exact H|apply sub_refl].
    + cbn [map]. now rewrite app_nil_r.
  - rewrite to_ep_app. rewrite <- (app_nil_r (to_ep ep S ++ queue ep P)). apply sub_app; [exact H|apply sub_nil_l].
  - rewrite to_ep_app. rewrite <- (app_nil_r (to_ep ep S ++ queue ep P)). apply sub_app; [exact H|apply sub_nil_l].
  - rewrite !to_ep_app. apply in_split in H0. destruct H0 as (l1 & l2 & ->). rewrite (queue_elt ep l1 p l2) in * by apply G.
    unfold to_ep at 2 4. cbn [filter fst]. destruct (Nat.eqb (q_ep p) ep).
    + rewrite H2 in * by exact K. rewrite app_nil_r in *. cbn [map snd]. apply sub_app; [exact H|apply sub_refl].
    + cbn [map]. now rewrite !app_nil_r.
  - rewrite (queue_elt2 ep l1 p l2) by (try reflexivity; apply G). rewrite (queue_elt ep l1 p l2) in H by apply G. exact H.
  - rewrite (queue_elt2 ep l1 p l2) by (try reflexivity; apply G). rewrite (queue_elt ep l1 p l2) in H by apply G.
    rewrite to_ep_app. unfold to_ep at 2. cbn [filter fst]. destruct (Nat.eqb (q_ep p) ep).
    + cbn [map snd q_send set_send]. rewrite <- app_assoc. cbn [app]. rewrite H0 in H. exact H.
    + cbn [map]. now rewrite app_nil_r.
  - rewrite (queue_elt2 ep l1 p l2) by (try reflexivity; apply G). rewrite (queue_elt ep l1 p l2) in H by apply G.
    destruct (Nat.eqb (q_ep p) ep); [|exact H]. cbn [q_send set_send]. eapply sub_trans; [|exact H]. rewrite H0.
    apply sub_app; [apply sub_refl|]. constructor. apply sub_refl.
  - rewrite (queue_elt2 ep l1 p l2) by (try reflexivity; apply G). rewrite (queue_elt ep l1 p l2) in H by apply G.
    destruct (Nat.eqb (q_ep p) ep); [|exact H]. cbn [q_send set_send]. eapply sub_trans; [|exact H]. rewrite H0.
    apply sub_app; [apply sub_refl|]. constructor. apply sub_refl.
  - rewrite (queue_elt ep l1 p l2) in H by apply G. destruct (Nat.eqb (q_ep p) ep) eqn:EQ; [|exact H].
    apply Nat.eqb_eq in EQ. assert (N := g_ep _ G). rewrite map_app in N. cbn [map] in N. apply NoDup_remove_2 in N. rewrite EQ in N.
    rewrite <- map_app in N. rewrite queue_none by exact N. rewrite app_nil_r. eapply sub_trans; [|exact H].
    rewrite <- (app_nil_r (to_ep ep S)) at 1. apply sub_app; [apply sub_refl|apply sub_nil_l].
Qed.
Lemma moves_order (ok : Prop) ep c c' : ok -> moves ok c c' -> good (c_peers c) ->
  sub (to_ep ep (c_sent c) ++ queue ep (c_peers c)) (to_ep ep (c_given c)) ->
  sub (to_ep ep (c_sent c') ++ queue ep (c_peers c')) (to_ep ep (c_given c')).
Proof.
  intros K M. induction M; intros G S; [exact S|]. apply IHM; [exact (move_good ok _ _ H G)|]. exact (move_order ok ep _ _ K H G S).
Qed.
