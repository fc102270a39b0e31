From Verif Require Import Common Trans_Model Trans_Spec.
Local Open Scope N_scope.

Section P.
Variable sec : N.

Definition sent (i : N) (s : st) : nat := List.length (times i s).

Lemma times_log (i : N) (s s' : st) : log s = log s' -> times i s = times i s'.
Proof. unfold times. intros ->. reflexivity. Qed.
Lemma times_cons (i j now : N) (l : list tx) (p : list N) (n : N) (g : list (N * N)) (s : st) : log s = g ->
  times i (mkS l p n ((j, now) :: g)) = if j =? i then times i s ++ [now] else times i s.
Proof. unfold times. cbn [log filter map fst]. intros ->. destruct (j =? i); reflexivity. Qed.

Lemma spaced_snoc (ts : list N) : forall w x, spaced w (ts ++ [x]) <->
  spaced w ts /\ (ts = [] \/ last ts 0 + w * 2 ^ N.of_nat (List.length ts - 1) <= x).
Proof.
  induction ts as [|a [|b r] IH]; intros w x.
  - cbn. tauto.
  - cbn [app spaced last List.length]. change (N.of_nat (1 - 1)) with 0. rewrite N.pow_0_r, N.mul_1_r.
    intuition. discriminate.
  - cbn [app]. change (spaced w (a :: b :: r ++ [x])) with (a + w <= b /\ spaced (2 * w) (b :: r ++ [x])).
    change (b :: r ++ [x]) with ((b :: r) ++ [x]). rewrite IH.
    change (spaced w (a :: b :: r)) with (a + w <= b /\ spaced (2 * w) (b :: r)).
    change (last (a :: b :: r) 0) with (last (b :: r) 0).
    replace (N.of_nat (List.length (a :: b :: r) - 1)) with (N.succ (N.of_nat (List.length (b :: r) - 1))) by (cbn [List.length]; lia).
    rewrite N.pow_succ_r'. replace (w * (2 * 2 ^ N.of_nat (List.length (b :: r) - 1))) with (2 * w * 2 ^ N.of_nat (List.length (b :: r) - 1)) by ring.
    intuition; try discriminate.
Qed.

Lemma in_put (u x : tx) (l : list tx) : In x (put_tx u l) -> x = u \/ In x l /\ t_id x <> t_id u.
Proof.
  unfold put_tx. rewrite in_map_iff. intros (y & E & Hy). unfold is_id in E. destruct (N.eqb_spec (t_id y) (t_id u)); subst; auto.
Qed.
Lemma ids_put (u : tx) (l : list tx) : map t_id (put_tx u l) = map t_id l.
Proof.
  unfold put_tx. rewrite map_map. apply map_ext. intros t. unfold is_id. destruct (N.eqb_spec (t_id t) (t_id u)); congruence.
Qed.
Lemma in_put_old (u x : tx) (l : list tx) : In x l -> t_id x <> t_id u -> In x (put_tx u l).
Proof.
  intros H Hn. unfold put_tx. apply in_map_iff. exists x. split; [|exact H]. unfold is_id. destruct (N.eqb_spec (t_id x) (t_id u)); congruence.
Qed.
Lemma put_put (u v : tx) (l : list tx) : t_id u = t_id v -> put_tx v (put_tx u l) = put_tx v l.
Proof.
  intros E. unfold put_tx. rewrite map_map. apply map_ext. intros t. unfold is_id. rewrite E.
  destruct (t_id t =? t_id v) eqn:H; [rewrite E, N.eqb_refl|rewrite H]; reflexivity.
Qed.
Lemma put_in (u : tx) (l : list tx) : In (t_id u) (map t_id l) -> In u (put_tx u l).
Proof.
  intros H. apply in_map_iff in H as (y & E & Hy). unfold put_tx. apply in_map_iff. exists y. split; [|exact Hy].
  unfold is_id. rewrite E, N.eqb_refl. reflexivity.
Qed.
Lemma NoDup_filter_ids (f : tx -> bool) (l : list tx) : NoDup (map t_id l) -> NoDup (map t_id (filter f l)).
Proof.
  induction l as [|t r IH]; intros H; [exact H|]. inversion H; subst. cbn [filter]. destruct (f t); [|auto].
  cbn [map]. constructor; [|auto]. intros Hi. apply H2. apply in_map_iff in Hi as (y & E & Hy). apply filter_In in Hy as [Hy _].
  rewrite <- E. apply in_map, Hy.
Qed.
Lemma find_id_in (i : N) (l : list tx) (t : tx) : find_id i l = Some t -> In t l /\ t_id t = i.
Proof. intros H. apply find_some in H as [H1 H2]. split; [exact H1|]. apply N.eqb_eq, H2. Qed.
Lemma ids_inj (l : list tx) (a b : tx) : NoDup (map t_id l) -> In a l -> In b l -> t_id a = t_id b -> a = b.
Proof.
  induction l as [|t r IH]; intros H Ha Hb E; [destruct Ha|]. inversion H; subst. destruct Ha as [->|Ha], Hb as [->|Hb]; auto.
  - exfalso. apply H2. rewrite E. apply in_map, Hb.
  - exfalso. apply H2. rewrite <- E. apply in_map, Ha.
Qed.

(** One retransmission step of the walk. *)
Definition retry (t : tx) (now : N) (s : st) : st :=
  let u := mkT (t_id t) (t_mid t) (t_ep t) (t_sec t) ((t_count t + 1) mod 256) (t_interval t) (t_start t) false in
  send_transaction sec u 0 now (mkS (put_tx u (txs s)) (peers s) (next_id s) (log s)).

Lemma send_len (t : tx) (rnd now : N) (s : st) : (List.length (txs (send_transaction sec t rnd now s)) <= List.length (txs s))%nat.
Proof.
  unfold send_transaction. destruct (t_count t <? MAX_RETRANSMIT); [cbn [txs]; unfold put_tx; rewrite map_length; lia|].
  assert (Hf : forall (f : tx -> bool) l, (List.length (filter f l) <= List.length l)%nat)
    by (intros f l; induction l as [|x l IH]; cbn [filter List.length]; [lia|destruct (f x); cbn [List.length]; lia]).
  destruct (t_sec t); [|apply Hf]. unfold tls_close. destruct (existsb _ _); [apply Hf|lia].
Qed.
Lemma pass_len (cursor : list N) (now : N) : forall s, let r := pass sec cursor now s in
  (List.length (txs (fst r)) <= List.length (txs s))%nat /\ (snd r = true -> (List.length (txs (fst r)) < List.length (txs s))%nat).
Proof.
  induction cursor as [|i r IH]; intros s; cbn [pass]; [cbn; split; [lia|discriminate]|].
  destruct (find_id i (txs s)) as [t|]; [|apply IH]. destruct (t_armed t); [apply IH|].
  fold (retry t now s). set (s2 := retry t now s).
  assert (H2 : (List.length (txs s2) <= List.length (txs s))%nat).
  { unfold s2, retry. eapply Nat.le_trans; [apply send_len|]. cbn [txs]. unfold put_tx. rewrite map_length. lia. }
  destruct (Nat.ltb_spec (List.length (txs s2) + 1) (List.length (txs s))); [cbn; split; [lia|intros _; lia]|].
  specialize (IH s2). cbv zeta in IH. destruct IH as [I1 I2]. split; [lia|intros H'; specialize (I2 H'); lia].
Qed.
Lemma walk_ends (now : N) (fuel : nat) : forall s, (List.length (txs s) < fuel)%nat -> walk sec fuel now s <> None.
Proof.
  induction fuel as [|f IH]; intros s H; [lia|]. cbn [walk].
  pose proof (pass_len (map t_id (txs s)) now s) as Hl. cbv zeta in Hl.
  destruct (pass sec (map t_id (txs s)) now s) as [s' []]; [|discriminate]. cbn [fst snd] in Hl. apply IH. destruct Hl as [_ Hl]. specialize (Hl eq_refl). lia.
Qed.

(** A property kept by every retransmission step is kept by the walk. *)
Lemma walk_preserves (P : st -> Prop) (now : N) :
  (forall s t, P s -> In t (txs s) -> t_armed t = false -> P (retry t now s)) -> forall s, P s -> P (check_transactions sec now s).
Proof.
  intros Hr. assert (Hp : forall cursor s, P s -> P (fst (pass sec cursor now s))).
  { induction cursor as [|i r IH]; intros s H; [exact H|]. cbn [pass].
    destruct (find_id i (txs s)) as [t|] eqn:E; [|apply IH, H]. destruct (t_armed t) eqn:Ea; [apply IH, H|].
    fold (retry t now s). apply find_id_in in E as [E _]. pose proof (Hr s t H E Ea) as H2.
    destruct (_ <? _)%nat; [exact H2|apply IH, H2]. }
  assert (Hw : forall fuel s s', P s -> walk sec fuel now s = Some s' -> P s').
  { induction fuel as [|f IH]; intros s s' H E; [discriminate|]. cbn [walk] in E.
    pose proof (Hp (map t_id (txs s)) s H) as H2. destruct (pass sec (map t_id (txs s)) now s) as [s2 []]; cbn [fst] in H2;
      [eapply IH; eassumption|congruence]. }
  intros s H. unfold check_transactions. destruct (walk sec (S (List.length (txs s))) now s) as [s'|] eqn:E; [eapply Hw; eassumption|exact H].
Qed.

(** ** At most four transmissions *)
Definition good (s : st) (t : tx) : Prop :=
  t_id t < next_id s /\ t_count t <= 3 /\ sent (t_id t) s = (N.to_nat (t_count t) + 1)%nat /\
  (t_sec t = true -> In (t_ep t) (peers s)).
Definition inv (s : st) : Prop :=
  NoDup (map t_id (txs s)) /\ (forall t, In t (txs s) -> good s t) /\
  (forall i, (sent i s <= 4)%nat) /\ (forall i, next_id s <= i -> sent i s = 0%nat).

Lemma inv_init : inv init.
Proof. split; [constructor|]. split; [intros t []|]. split; intros; unfold sent, times; cbn; lia. Qed.

Lemma inv_filter (f : tx -> bool) (s : st) (ps : list N) : inv s ->
  (forall t, In t (txs s) -> f t = true -> t_sec t = true -> In (t_ep t) ps) ->
  inv (mkS (filter f (txs s)) ps (next_id s) (log s)).
Proof.
  intros (H1 & H2 & H3 & H4) Hp. split; [apply NoDup_filter_ids, H1|]. split.
  - intros t Ht. cbn [txs] in Ht. apply filter_In in Ht as [Ht Hf]. destruct (H2 t Ht) as (G1 & G2 & G3 & G4). repeat split; auto.
  - split; auto.
Qed.

Lemma inv_close (ep : N) (s : st) : inv s -> inv (tls_close ep s).
Proof.
  intros H. unfold tls_close. destruct (existsb _ _); [|exact H]. unfold free_by_endpoint. cbn [txs peers next_id log].
  apply inv_filter; [exact H|]. intros t Ht Hf Hs. apply filter_In. destruct H as (_ & H2 & _). destruct (H2 t Ht) as (_ & _ & _ & G).
  split; [apply G, Hs|exact Hf].
Qed.

Lemma retry_cases (t : tx) (now : N) (s : st) : t_count t <= 3 ->
  let u := mkT (t_id t) (t_mid t) (t_ep t) (t_sec t) (t_count t + 1) (t_interval t) (t_start t) false in
  let v := mkT (t_id t) (t_mid t) (t_ep t) (t_sec t) (t_count t + 1) (t_interval t * 2) now true in
  retry t now s =
  if t_count t <? 3 then mkS (put_tx v (txs s)) (peers s) (next_id s) ((t_id t, now) :: log s)
  else if t_sec t then
    if existsb (N.eqb (t_ep t)) (peers s) then
      mkS (filter (fun x => negb (t_ep x =? t_ep t)) (put_tx u (txs s))) (filter (fun e => negb (e =? t_ep t)) (peers s)) (next_id s) (log s)
    else mkS (put_tx u (txs s)) (peers s) (next_id s) (log s)
  else mkS (filter (fun x => negb (t_id x =? t_id t)) (put_tx u (txs s))) (peers s) (next_id s) (log s).
Proof.
  intros Hc u v. unfold retry. rewrite N.mod_small by lia. fold u. unfold send_transaction, MAX_RETRANSMIT.
  change (t_count u) with (t_count t + 1). change (t_sec u) with (t_sec t). change (t_ep u) with (t_ep t). change (t_id u) with (t_id t).
  destruct (N.ltb_spec (t_count t) 3) as [H|H].
  - replace (t_count t + 1 <? 4) with true by lia. replace (t_count t + 1 =? 0) with false by lia. cbn [txs peers next_id log].
    change (mkT (t_id t) (t_mid u) (t_ep t) (t_sec t) (t_count t + 1) (t_interval u * 2) now true) with v.
    rewrite put_put by reflexivity. reflexivity.
  - replace (t_count t + 1 <? 4) with false by lia. destruct (t_sec t); [|reflexivity].
    unfold tls_close. cbn [peers]. destruct (existsb _ _); reflexivity.
Qed.

Lemma inv_retry (now : N) (s : st) (t : tx) : inv s -> In t (txs s) -> inv (retry t now s).
Proof.
  intros Hi Ht. pose proof Hi as (H1 & H2 & H3 & H4). destruct (H2 t Ht) as (G1 & G2 & G3 & G4). rewrite retry_cases by exact G2. cbv zeta.
  destruct (N.ltb_spec (t_count t) 3) as [Hc|Hc].
  - set (v := mkT _ _ _ _ _ _ _ true).
    assert (Hsent : forall i, sent i (mkS (put_tx v (txs s)) (peers s) (next_id s) ((t_id t, now) :: log s)) =
              (sent i s + if (t_id t =? i)%N then 1 else 0)%nat).
    { intros i. unfold sent. rewrite (times_cons i _ _ _ _ _ _ s) by reflexivity. destruct (t_id t =? i); [rewrite app_length; cbn [List.length]; lia|lia]. }
    split; [cbn [txs]; rewrite ids_put; exact H1|]. split.
    + intros x Hx. cbn [txs] in Hx. apply in_put in Hx as [->|[Hx Hn]].
      * split; [exact G1|]. split; [cbn; lia|]. split; [|exact G4]. rewrite Hsent. cbn [t_id t_count v]. rewrite N.eqb_refl, G3. lia.
      * destruct (H2 x Hx) as (K1 & K2 & K3 & K4). split; [exact K1|]. split; [exact K2|]. split; [|exact K4].
        rewrite Hsent. change (t_id v) with (t_id t) in Hn. replace (t_id t =? t_id x) with false by (symmetry; apply N.eqb_neq; congruence). lia.
    + split.
      * intros i. rewrite Hsent. destruct (N.eqb_spec (t_id t) i) as [<-|]; [rewrite G3; lia|specialize (H3 i); lia].
      * intros i Hn. cbn [next_id] in Hn. rewrite Hsent. replace (t_id t =? i) with false by (symmetry; apply N.eqb_neq; lia). rewrite (H4 i Hn). reflexivity.
  - set (u := mkT _ _ _ _ _ _ _ false).
    assert (Hsub : forall (f : tx -> bool) ps, f u = false ->
              (forall x, In x (txs s) -> t_id x <> t_id t -> f x = true -> t_sec x = true -> In (t_ep x) ps) ->
              inv (mkS (filter f (put_tx u (txs s))) ps (next_id s) (log s))).
    { intros f ps Hf Hps. split; [apply NoDup_filter_ids; rewrite ids_put; exact H1|]. split; [|split; auto].
      intros x Hx. cbn [txs] in Hx. apply filter_In in Hx as [Hx Hfx]. apply in_put in Hx as [->|[Hx Hn]]; [congruence|].
      destruct (H2 x Hx) as (K1 & K2 & K3 & K4). repeat split; auto. }
    destruct (t_sec t) eqn:Es.
    + replace (existsb (N.eqb (t_ep t)) (peers s)) with true
        by (symmetry; apply existsb_exists; exists (t_ep t); split; [apply G4; reflexivity|apply N.eqb_refl]).
      apply Hsub; [cbn; rewrite N.eqb_refl; reflexivity|]. intros x Hx _ Hf Hs. apply filter_In. split; [apply (H2 x Hx), Hs|exact Hf].
    + apply Hsub; [cbn; rewrite N.eqb_refl; reflexivity|]. intros x Hx _ _ Hs. apply (H2 x Hx), Hs.
Qed.

Lemma inv_poll (now : N) (s : st) : inv s -> inv (poll_timers now s).
Proof.
  intros (H1 & H2 & H3 & H4). unfold poll_timers.
  split; [cbn [txs]; rewrite map_map; erewrite map_ext; [exact H1|]; intros t; destruct (_ && _); reflexivity|].
  split; [|split; auto]. intros x Hx. cbn [txs] in Hx. apply in_map_iff in Hx as (t & <- & Ht). destruct (H2 t Ht) as (G1 & G2 & G3 & G4).
  destruct (_ && _); repeat split; auto.
Qed.

Lemma inv_step (s : st) (o : op) : inv s -> peer_known o -> inv (step sec s o).
Proof.
  intros Hi Ho. destruct o as [mid ep secured con peer rnd now|now|mid from|ep]; cbn [step].
  - pose proof Hi as (H1 & H2 & H3 & H4). unfold send_new. set (ps := if peer then ep :: peers s else peers s).
    assert (Hps : forall e, In e (peers s) -> In e ps) by (intros e He; unfold ps; destruct peer; [right|]; exact He).
    assert (Hsent : forall l i, sent i (mkS l ps (next_id s + 1) ((next_id s, now) :: log s)) =
              (sent i s + if (next_id s =? i)%N then 1 else 0)%nat).
    { intros l i. unfold sent. rewrite (times_cons i _ _ _ _ _ _ s) by reflexivity. destruct (next_id s =? i); [rewrite app_length; cbn [List.length]; lia|lia]. }
    assert (Hrest : forall l, NoDup (map t_id l) ->
              (forall t, In t l -> In t (txs s) \/ t_id t = next_id s /\ t_count t = 0 /\ (t_sec t = true -> In (t_ep t) ps)) ->
              inv (mkS l ps (next_id s + 1) ((next_id s, now) :: log s))).
    { intros l Hn Hl. split; [exact Hn|]. split.
      - intros t Ht. destruct (Hl t Ht) as [Hin|(E & Ec & Es)].
        + destruct (H2 t Hin) as (G1 & G2 & G3 & G4). split; [cbn [next_id]; lia|]. split; [exact G2|]. split; [|auto].
          rewrite Hsent. replace (next_id s =? t_id t) with false by (symmetry; apply N.eqb_neq; lia). lia.
        + split; [cbn [next_id]; lia|]. split; [lia|]. split; [|exact Es]. rewrite Hsent, E, N.eqb_refl, Ec, (H4 (next_id s)) by lia. reflexivity.
      - split.
        + intros i. rewrite Hsent. destruct (N.eqb_spec (next_id s) i) as [<-|]; [rewrite H4 by lia; lia|specialize (H3 i); lia].
        + intros i Hn'. cbn [next_id] in Hn'. rewrite Hsent. replace (next_id s =? i) with false by (symmetry; apply N.eqb_neq; lia).
          rewrite H4 by lia. reflexivity. }
    destruct con; cbn [t_id].
    + unfold send_transaction. cbn [t_count]. change (0 <? MAX_RETRANSMIT) with true. change (0 =? 0) with true. cbv iota.
      cbn [t_id txs peers next_id log t_mid t_ep t_sec]. apply Hrest.
      * rewrite ids_put, map_app. cbn [map t_id]. apply NoDup_app_snoc; [exact H1|].
        intros Hin. apply in_map_iff in Hin as (t & E & Ht). destruct (H2 t Ht) as (G1 & _). lia.
      * intros t Ht. apply in_put in Ht as [->|[Ht Hn]]; [right; cbn [t_id t_count t_sec t_ep]|].
        -- split; [reflexivity|]. split; [reflexivity|]. intros ->. unfold ps. cbn [peer_known] in Ho. rewrite Ho. left. reflexivity.
        -- apply in_app_or in Ht as [Ht|[<-|[]]]; [left; exact Ht|]. cbn [t_id] in Hn. congruence.
    + apply Hrest; [exact H1|]. intros t Ht. left. exact Ht.
  - apply walk_preserves with (P := inv); [|apply inv_poll, Hi]. intros s' t Hs Ht _. apply inv_retry; assumption.
  - unfold receive. destruct (find _ _); [|exact Hi]. unfold clear. apply inv_filter; [exact Hi|].
    intros x Hx _ Hs. destruct Hi as (_ & H2 & _). apply (H2 x Hx), Hs.
  - apply inv_close, Hi.
Qed.

Lemma inv_run (ops : list op) : forall s, inv s -> Forall peer_known ops -> inv (run sec ops s).
Proof.
  induction ops as [|o r IH]; intros s H Hf; [exact H|]. inversion Hf; subst. cbn [run fold_left]. apply IH; [apply inv_step; assumption|assumption].
Qed.

Lemma limit (ops : list op) (i : N) : Forall peer_known ops -> (List.length (times i (run sec ops init)) <= 4)%nat.
Proof. intros H. apply (inv_run ops init inv_init H). Qed.

(** ** Spacing *)
Definition sgood (T : N) (s : st) (t : tx) : Prop :=
  t_id t < next_id s /\ t_count t <= 3 /\ sent (t_id t) s = (N.to_nat (t_count t) + 1)%nat /\
  (exists w, 2 * sec <= w <= 3 * sec /\ spaced w (times (t_id t) s) /\ t_interval t = w * 2 ^ t_count t /\
             last (times (t_id t) s) 0 = t_start t) /\
  (t_armed t = false -> t_start t + t_interval t <= T) /\ (t_sec t = true -> In (t_ep t) (peers s)).
Definition sinv (T : N) (s : st) : Prop :=
  NoDup (map t_id (txs s)) /\ (forall t, In t (txs s) -> sgood T s t) /\
  (forall i, exists w, 2 * sec <= w <= 3 * sec /\ spaced w (times i s)) /\
  (forall i, next_id s <= i -> times i s = []).

Lemma sinv_init : sinv 0 init.
Proof.
  split; [constructor|]. split; [intros t []|]. split; [|reflexivity]. intros i. exists (2 * sec). split; [lia|exact I].
Qed.
Lemma sinv_later (T T' : N) (s : st) : T <= T' -> sinv T s -> sinv T' s.
Proof.
  intros HT (H1 & H2 & H3 & H4). split; [exact H1|]. split; [|auto]. intros t Ht. destruct (H2 t Ht) as (G1 & G2 & G3 & G4 & G5 & G6).
  repeat split; auto. intros Ha. specialize (G5 Ha). lia.
Qed.

Lemma sinv_filter (T : N) (f : tx -> bool) (s : st) (ps : list N) : sinv T s ->
  (forall t, In t (txs s) -> f t = true -> t_sec t = true -> In (t_ep t) ps) ->
  sinv T (mkS (filter f (txs s)) ps (next_id s) (log s)).
Proof.
  intros (H1 & H2 & H3 & H4) Hp. split; [apply NoDup_filter_ids, H1|]. split.
  - intros t Ht. cbn [txs] in Ht. apply filter_In in Ht as [Ht Hf]. destruct (H2 t Ht) as (G1 & G2 & G3 & G4 & G5 & G6). repeat split; auto.
  - split; auto.
Qed.

Lemma sinv_close (T ep : N) (s : st) : sinv T s -> sinv T (tls_close ep s).
Proof.
  intros H. unfold tls_close. destruct (existsb _ _); [|exact H]. unfold free_by_endpoint. cbn [txs peers next_id log].
  apply sinv_filter; [exact H|]. intros t Ht Hf Hs. apply filter_In. destruct H as (_ & H2 & _). destruct (H2 t Ht) as (_ & _ & _ & _ & _ & G).
  split; [apply G, Hs|exact Hf].
Qed.

Lemma last_snoc (l : list N) (x : N) : last (l ++ [x]) 0 = x.
Proof. apply last_last. Qed.

Lemma sinv_retry (now : N) (s : st) (t : tx) : sinv now s -> In t (txs s) -> t_armed t = false -> sinv now (retry t now s).
Proof.
  intros Hi Ht Ha. pose proof Hi as (H1 & H2 & H3 & H4). destruct (H2 t Ht) as (G1 & G2 & G3 & (w & Gw & Gs & Gi & Gl) & G5 & G6).
  rewrite retry_cases by exact G2. cbv zeta.
  destruct (N.ltb_spec (t_count t) 3) as [Hc|Hc].
  - set (v := mkT _ _ _ _ _ _ _ true).
    assert (Htm : forall i, times i (mkS (put_tx v (txs s)) (peers s) (next_id s) ((t_id t, now) :: log s)) =
              if t_id t =? i then times i s ++ [now] else times i s) by (intros i; apply times_cons; reflexivity).
    assert (Hsp : spaced w (times (t_id t) s ++ [now])).
    { apply spaced_snoc. split; [exact Gs|]. right. unfold sent in G3. rewrite Gl, G3.
      replace (N.of_nat (N.to_nat (t_count t) + 1 - 1)) with (t_count t) by lia. rewrite <- Gi. apply G5, Ha. }
    split; [cbn [txs]; rewrite ids_put; exact H1|]. split.
    + intros x Hx. cbn [txs] in Hx. apply in_put in Hx as [->|[Hx Hn]].
      * unfold sgood, sent. change (t_id v) with (t_id t). rewrite Htm, N.eqb_refl. split; [exact G1|]. split; [cbn; lia|].
        split; [rewrite app_length; unfold sent in G3; rewrite G3; cbn [t_count v List.length]; lia|].
        split; [|split; [discriminate|exact G6]]. exists w. split; [exact Gw|]. split; [exact Hsp|].
        split; [|apply last_snoc]. cbn [t_interval t_count v]. rewrite Gi, N.add_1_r, N.pow_succ_r'. ring.
      * destruct (H2 x Hx) as (K1 & K2 & K3 & K4 & K5 & K6). change (t_id v) with (t_id t) in Hn.
        unfold sgood, sent. rewrite Htm. replace (t_id t =? t_id x) with false by (symmetry; apply N.eqb_neq; congruence). repeat split; auto.
    + split.
      * intros i. rewrite Htm. destruct (N.eqb_spec (t_id t) i) as [<-|]; [exists w; auto|apply H3].
      * intros i Hn. cbn [next_id] in Hn. rewrite Htm. replace (t_id t =? i) with false by (symmetry; apply N.eqb_neq; lia). apply H4, Hn.
  - set (u := mkT _ _ _ _ _ _ _ false).
    assert (Hsub : forall (f : tx -> bool) ps, f u = false ->
              (forall x, In x (txs s) -> t_id x <> t_id t -> f x = true -> t_sec x = true -> In (t_ep x) ps) ->
              sinv now (mkS (filter f (put_tx u (txs s))) ps (next_id s) (log s))).
    { intros f ps Hf Hps. split; [apply NoDup_filter_ids; rewrite ids_put; exact H1|]. split; [|split; auto].
      intros x Hx. cbn [txs] in Hx. apply filter_In in Hx as [Hx Hfx]. apply in_put in Hx as [->|[Hx Hn]]; [congruence|].
      destruct (H2 x Hx) as (K1 & K2 & K3 & K4 & K5 & K6). repeat split; auto. }
    destruct (t_sec t) eqn:Es.
    + replace (existsb (N.eqb (t_ep t)) (peers s)) with true
        by (symmetry; apply existsb_exists; exists (t_ep t); split; [apply G6; reflexivity|apply N.eqb_refl]).
      apply Hsub; [cbn; rewrite N.eqb_refl; reflexivity|]. intros x Hx _ Hf Hs. apply filter_In. split; [apply (H2 x Hx), Hs|exact Hf].
    + apply Hsub; [cbn; rewrite N.eqb_refl; reflexivity|]. intros x Hx _ _ Hs. apply (H2 x Hx), Hs.
Qed.

Lemma sinv_poll (now : N) (s : st) : sinv now s -> sinv now (poll_timers now s).
Proof.
  intros (H1 & H2 & H3 & H4). unfold poll_timers.
  split; [cbn [txs]; rewrite map_map; erewrite map_ext; [exact H1|]; intros t; destruct (_ && _); reflexivity|].
  split; [|split; auto]. intros x Hx. cbn [txs] in Hx. apply in_map_iff in Hx as (t & <- & Ht). destruct (H2 t Ht) as (G1 & G2 & G3 & G4 & G5 & G6).
  destruct (t_armed t && timer_expired t now) eqn:E; [|repeat split; auto]. repeat split; auto. intros _. cbn [t_start t_interval].
  apply andb_prop in E as [_ E]. unfold timer_expired in E. lia.
Qed.

Lemma first_interval_bounds (rnd : N) : 2 * sec <= first_interval sec rnd <= 3 * sec.
Proof. unfold first_interval. pose proof (N.mod_lt rnd (sec + 1) ltac:(lia)). lia. Qed.

Lemma sinv_send (T now mid ep rnd : N) (secured con peer : bool) (s : st) :
  sinv T s -> T <= now -> (secured = true -> peer = true) -> sinv now (send_new sec mid ep secured con peer rnd now s).
Proof.
  intros Hi HT Ho. apply (sinv_later T now) in Hi; [|exact HT]. pose proof Hi as (H1 & H2 & H3 & H4). unfold send_new.
  set (ps := if peer then ep :: peers s else peers s).
  assert (Hps : forall e, In e (peers s) -> In e ps) by (intros e He; unfold ps; destruct peer; [right|]; exact He).
  assert (Htm : forall l i, times i (mkS l ps (next_id s + 1) ((next_id s, now) :: log s)) =
            if next_id s =? i then times i s ++ [now] else times i s) by (intros l i; apply times_cons; reflexivity).
  assert (Hrest : forall l, NoDup (map t_id l) ->
            (forall t, In t l -> In t (txs s) \/ t_id t = next_id s /\ t_count t = 0 /\ (t_sec t = true -> In (t_ep t) ps) /\
                                 t_armed t = true /\ t_start t = now /\ t_interval t = first_interval sec rnd) ->
            sinv now (mkS l ps (next_id s + 1) ((next_id s, now) :: log s))).
  { intros l Hn Hl. split; [exact Hn|]. split.
    - intros t Ht. unfold sgood, sent. rewrite Htm. destruct (Hl t Ht) as [Hin|(E & Ec & Es & Ea & Est & Ei)].
      + destruct (H2 t Hin) as (G1 & G2 & G3 & G4 & G5 & G6). replace (next_id s =? t_id t) with false by (symmetry; apply N.eqb_neq; lia).
        split; [cbn [next_id]; lia|]. repeat split; auto.
      + rewrite E, N.eqb_refl, (H4 (next_id s)) by lia. cbn [app List.length next_id]. rewrite Ec.
        split; [lia|]. split; [lia|]. split; [reflexivity|]. split; [|split; [congruence|exact Es]].
        exists (first_interval sec rnd). split; [apply first_interval_bounds|]. split; [exact I|]. cbn [last].
        rewrite N.pow_0_r, N.mul_1_r. auto.
    - split.
      + intros i. rewrite Htm. destruct (N.eqb_spec (next_id s) i) as [<-|]; [|apply H3].
        rewrite H4 by lia. exists (2 * sec). split; [lia|exact I].
      + intros i Hn'. cbn [next_id] in Hn'. rewrite Htm. replace (next_id s =? i) with false by (symmetry; apply N.eqb_neq; lia).
        apply H4. lia. }
  destruct con; cbn [t_id].
  + unfold send_transaction. cbn [t_count]. change (0 <? MAX_RETRANSMIT) with true. change (0 =? 0) with true. cbv iota.
    cbn [t_id txs peers next_id log t_mid t_ep t_sec]. apply Hrest.
    * rewrite ids_put, map_app. cbn [map t_id]. apply NoDup_app_snoc; [exact H1|].
      intros Hin. apply in_map_iff in Hin as (t & E & Ht). destruct (H2 t Ht) as (G1 & _). lia.
    * intros t Ht. apply in_put in Ht as [->|[Ht Hn]]; [right; cbn [t_id t_count t_sec t_ep t_armed t_start t_interval]|].
      -- repeat split. intros E. unfold ps. rewrite (Ho E). left. reflexivity.
      -- apply in_app_or in Ht as [Ht|[<-|[]]]; [left; exact Ht|]. cbn [t_id] in Hn. congruence.
  + apply Hrest; [exact H1|]. intros t Ht. left. exact Ht.
Qed.

Lemma sinv_run (ops : list op) : forall T s, sinv T s -> Forall peer_known ops -> timed T ops -> exists T', sinv T' (run sec ops s).
Proof.
  induction ops as [|o r IH]; intros T s H Hf Ht; [exists T; exact H|]. inversion Hf; subst. cbn [run fold_left].
  destruct o as [mid ep secured con peer rnd now|now|mid from|ep]; cbn [timed] in Ht; cbn [step].
  - destruct Ht as [K1 K2]. apply (IH now); [|assumption..]. apply (sinv_send T); [exact H|exact K1|].
    intros Es. match goal with K : peer_known _ |- _ => cbn [peer_known] in K; rewrite Es in K; exact K end.
  - destruct Ht as [K1 K2]. apply (IH now); [|assumption..]. apply walk_preserves with (P := sinv now);
      [intros s' t Hs Ht Ha; apply sinv_retry; assumption|apply sinv_poll, (sinv_later T); assumption].
  - apply (IH T); [|assumption..]. unfold receive. destruct (find _ _); [|exact H]. apply sinv_filter; [exact H|].
    intros x Hx _ Hs. destruct H as (_ & G & _). apply (G x Hx), Hs.
  - apply (IH T); [|assumption..]. apply sinv_close, H.
Qed.

Lemma spacing (ops : list op) (i : N) : Forall peer_known ops -> timed 0 ops ->
  exists w, 2 * sec <= w <= 3 * sec /\ spaced w (times i (run sec ops init)).
Proof. intros H1 H2. destruct (sinv_run ops 0 init sinv_init H1 H2) as (T & _ & _ & H & _). apply H. Qed.

(** ** A message that is no longer waiting is never sent again *)
Definition gone (i : N) (g : list N) (s : st) : Prop := ~ waiting i s /\ times i s = g /\ i < next_id s.

Lemma not_waiting_filter (i : N) (f : tx -> bool) (l : list tx) : ~ In i (map t_id l) -> ~ In i (map t_id (filter f l)).
Proof. intros H Hi. apply H. apply in_map_iff in Hi as (t & E & Ht). apply filter_In in Ht as [Ht _]. rewrite <- E. apply in_map, Ht. Qed.

Lemma gone_send (i : N) (g : list N) (t : tx) (rnd now : N) (s : st) : gone i g s -> t_id t <> i ->
  gone i g (send_transaction sec t rnd now s).
Proof.
  intros (H1 & H2 & H3) Hn. unfold send_transaction. destruct (_ <? _).
  - split; [|split].
    + unfold waiting. cbn [txs]. rewrite ids_put. exact H1.
    + rewrite (times_cons i _ _ _ _ _ _ s) by reflexivity. replace (t_id t =? i) with false by (symmetry; apply N.eqb_neq; exact Hn). exact H2.
    + exact H3.
  - destruct (t_sec t).
    + unfold tls_close. destruct (existsb _ _); [|split; auto]. split; [apply not_waiting_filter, H1|split; assumption].
    + split; [apply not_waiting_filter, H1|split; assumption].
Qed.

Lemma gone_step (i : N) (g : list N) (s : st) (o : op) : gone i g s -> gone i g (step sec s o).
Proof.
  intros H. destruct o as [mid ep secured con peer rnd now|now|mid from|ep]; cbn [step].
  - pose proof H as (H1 & H2 & H3). unfold send_new. destruct con; cbn [t_id].
    + apply gone_send; [|cbn; lia]. split; [|split; [exact H2|cbn [next_id]; lia]]. unfold waiting. cbn [txs]. rewrite map_app, in_app_iff.
      cbn. intros [K|[K|[]]]; [exact (H1 K)|lia].
    + split; [exact H1|]. split; [|cbn [next_id]; lia]. rewrite (times_cons i _ _ _ _ _ _ s) by reflexivity.
      replace (next_id s =? i) with false by (symmetry; apply N.eqb_neq; lia). exact H2.
  - apply walk_preserves with (P := gone i g).
    + intros s' t Hs Ht Ha. pose proof Hs as (K1 & K2 & K3). unfold retry. apply gone_send.
      * split; [|split; assumption]. unfold waiting. cbn [txs]. rewrite ids_put. exact K1.
      * cbn [t_id]. intros E. apply K1. rewrite <- E. unfold waiting. apply in_map, Ht.
    + destruct H as (K1 & K2 & K3). split; [|split; assumption]. unfold waiting, poll_timers in *. cbn [txs]. rewrite map_map.
      erewrite map_ext; [exact K1|]. intros t. destruct (_ && _); reflexivity.
  - unfold receive. destruct (find _ _); [|exact H]. destruct H as (K1 & K2 & K3). split; [apply not_waiting_filter, K1|split; assumption].
  - unfold tls_close. destruct (existsb _ _); [|exact H]. destruct H as (K1 & K2 & K3). split; [apply not_waiting_filter, K1|split; assumption].
Qed.
Lemma gone_run (i : N) (g : list N) (ops : list op) : forall s, gone i g s -> gone i g (run sec ops s).
Proof. induction ops as [|o r IH]; intros s H; [exact H|]. cbn [run fold_left]. apply IH, gone_step, H. Qed.

(** Receiving the message id of the only waiting message with that id removes it. *)
Lemma receive_clears (s : st) (t : tx) (from : N) : NoDup (map t_id (txs s)) -> In t (txs s) ->
  (forall u, In u (txs s) -> t_mid u = t_mid t -> u = t) -> ~ waiting (t_id t) (receive (t_mid t) from s).
Proof.
  intros Hn Ht Hu. unfold receive. destruct (find (fun u => t_mid u =? t_mid t) (txs s)) as [u|] eqn:E.
  - apply find_some in E as [E1 E2]. apply N.eqb_eq in E2. rewrite (Hu u E1 E2). unfold waiting, clear. cbn [txs]. intros Hi.
    apply in_map_iff in Hi as (x & Ex & Hx). unfold drop_id in Hx. apply filter_In in Hx as [_ Hx]. unfold is_id in Hx. rewrite Ex, N.eqb_refl in Hx. discriminate.
  - exfalso. pose proof (find_none _ _ E t Ht) as K. cbv beta in K. rewrite N.eqb_refl in K. discriminate.
Qed.

(** ** Progress *)
Lemma retry_unarmed (now : N) (s : st) (t x : tx) : sinv now s -> In t (txs s) -> t_armed t = false ->
  In x (txs (retry t now s)) -> t_armed x = false -> In x (txs s) /\ t_id x <> t_id t.
Proof.
  intros Hi Ht Ha Hx Hxa. pose proof Hi as (H1 & H2 & H3 & H4). destruct (H2 t Ht) as (G1 & G2 & G3 & G4 & G5 & G6).
  rewrite retry_cases in Hx by exact G2. cbv zeta in Hx.
  destruct (N.ltb_spec (t_count t) 3) as [Hc|Hc].
  - cbn [txs] in Hx. apply in_put in Hx as [->|[Hx Hn]]; [discriminate|split; assumption].
  - destruct (t_sec t) eqn:Es.
    + replace (existsb (N.eqb (t_ep t)) (peers s)) with true in Hx
        by (symmetry; apply existsb_exists; exists (t_ep t); split; [apply G6; reflexivity|apply N.eqb_refl]).
      cbn [txs] in Hx. apply filter_In in Hx as [Hx Hf]. apply in_put in Hx as [->|[Hx Hn]]; [|split; assumption].
      cbn in Hf. rewrite N.eqb_refl in Hf. discriminate.
    + cbn [txs] in Hx. apply filter_In in Hx as [Hx Hf]. apply in_put in Hx as [->|[Hx Hn]]; [|split; assumption].
      cbn in Hf. rewrite N.eqb_refl in Hf. discriminate.
Qed.
Lemma pass_done (now : N) (cursor : list N) : forall s s', sinv now s -> pass sec cursor now s = (s', false) ->
  forall t, In t (txs s') -> t_armed t = false -> In t (txs s) /\ ~ In (t_id t) cursor.
Proof.
  induction cursor as [|i r IH]; intros s s' Hi E t Ht Ha; cbn [pass] in E; [injection E as <-; split; [exact Ht|intros []]|].
  destruct (find_id i (txs s)) as [u|] eqn:Ef.
  - apply find_id_in in Ef as [Hu Eu]. destruct (t_armed u) eqn:Eau.
    + destruct (IH s s' Hi E t Ht Ha) as [K1 K2]. split; [exact K1|]. intros [K|K]; [|exact (K2 K)].
      assert (u = t) by (apply (ids_inj (txs s)); [apply Hi|exact Hu|exact K1|congruence]). congruence.
    + fold (retry u now s) in E. destruct (_ <? _)%nat; [discriminate|].
      destruct (IH _ s' (sinv_retry now s u Hi Hu Eau) E t Ht Ha) as [K1 K2].
      destruct (retry_unarmed now s u t Hi Hu Eau K1 Ha) as [K3 K4]. split; [exact K3|]. intros [K|K]; [congruence|exact (K2 K)].
  - destruct (IH s s' Hi E t Ht Ha) as [K1 K2]. split; [exact K1|]. intros [K|K]; [|exact (K2 K)].
    pose proof (find_none _ _ Ef t K1) as K3. unfold is_id in K3. rewrite <- K, N.eqb_refl in K3. discriminate.
Qed.
Lemma pass_keeps (now : N) (cursor : list N) : forall s, sinv now s -> sinv now (fst (pass sec cursor now s)).
Proof.
  induction cursor as [|i r IH]; intros s H; [exact H|]. cbn [pass].
  destruct (find_id i (txs s)) as [t|] eqn:E; [|apply IH, H]. destruct (t_armed t) eqn:Ea; [apply IH, H|].
  fold (retry t now s). apply find_id_in in E as [E _]. pose proof (sinv_retry now s t H E Ea) as H2.
  destruct (_ <? _)%nat; [exact H2|apply IH, H2].
Qed.
Lemma walk_done (now : N) (fuel : nat) : forall s s', sinv now s -> walk sec fuel now s = Some s' ->
  forall t, In t (txs s') -> t_armed t = true.
Proof.
  induction fuel as [|f IH]; intros s s' Hi E t Ht; [discriminate|]. cbn [walk] in E.
  pose proof (pass_keeps now (map t_id (txs s)) s Hi) as Hk.
  destruct (pass sec (map t_id (txs s)) now s) as [s2 []] eqn:Ep; [exact (IH s2 s' Hk E t Ht)|]. injection E as <-.
  destruct (t_armed t) eqn:Ea; [reflexivity|]. destruct (pass_done now _ s s2 Hi Ep t Ht Ea) as [K1 K2]. exfalso. apply K2, in_map, K1.
Qed.
Lemma check_done (now : N) (s : st) : sinv now s -> forall t, In t (txs (check_transactions sec now s)) -> t_armed t = true.
Proof.
  intros Hi t. unfold check_transactions. pose proof (walk_ends now (S (List.length (txs s))) s ltac:(lia)) as Hw.
  destruct (walk sec (S (List.length (txs s))) now s) as [s'|] eqn:E; [|congruence]. eapply walk_done; eassumption.
Qed.

(** Whether an endpoint is secured is part of the endpoint. *)
Definition plain (ep : N) (s : st) : Prop := forall u, In u (txs s) -> t_ep u = ep -> t_sec u = false.

Lemma plain_retry (ep now : N) (s : st) (t : tx) : plain ep s -> In t (txs s) -> plain ep (retry t now s).
Proof.
  intros Hp Ht u Hu E. unfold retry, send_transaction in Hu.
  assert (Hput : forall v l, (forall x, In x l -> t_ep x = ep -> t_sec x = false) -> t_ep v = t_ep t -> t_sec v = t_sec t ->
                 forall x, In x (put_tx v l) -> t_ep x = ep -> t_sec x = false).
  { intros v l Hl E1 E2 x Hx Ex. apply in_put in Hx as [->|[Hx _]]; [rewrite E2; apply Hp; [exact Ht|congruence]|apply Hl; assumption]. }
  destruct (_ <? _).
  - cbn [txs] in Hu. revert u Hu E. apply Hput; [|reflexivity..]. apply Hput; [exact Hp|reflexivity..].
  - cbn [t_sec t_ep t_id] in Hu. revert u Hu E. destruct (t_sec t) eqn:Es.
    + unfold tls_close. cbn [peers]. destruct (existsb _ _).
      * intros u Hu E. cbn [free_by_endpoint txs] in Hu. apply filter_In in Hu as [Hu _]. revert u Hu E. apply Hput; [exact Hp|reflexivity|auto].
      * apply Hput; [exact Hp|reflexivity|auto].
    + intros u Hu E. cbn [clear txs] in Hu. unfold drop_id in Hu. apply filter_In in Hu as [Hu _]. revert u Hu E. apply Hput; [exact Hp|reflexivity|auto].
Qed.

Lemma put_other (u x : tx) (l : list tx) : In x l -> t_id x <> t_id u -> In x (put_tx u l).
Proof.
  intros Hx Hn. unfold put_tx. apply in_map_iff. exists x. split; [|exact Hx]. unfold is_id.
  replace (t_id x =? t_id u) with false by (symmetry; apply N.eqb_neq; exact Hn). reflexivity.
Qed.

Lemma progress_send (now : N) (s : st) (t : tx) : sinv now s -> plain (t_ep t) s -> In t (txs s) ->
  t_start t + t_interval t <= now -> t_count t < 3 ->
  In (t_id t, now) (log (check_transactions sec now (poll_timers now s))).
Proof.
  intros Hi Hp Ht Htime Hc.
  assert (Hsec : t_sec t = false) by (apply Hp; [exact Ht|reflexivity]).
  set (t' := mkT (t_id t) (t_mid t) (t_ep t) (t_sec t) (t_count t) (t_interval t) (t_start t) false).
  assert (Ht' : In t' (txs (poll_timers now s))).
  { unfold poll_timers. cbn [txs]. apply in_map_iff. exists t. split; [|exact Ht].
    replace (timer_expired t now) with true by (unfold timer_expired; lia). rewrite andb_true_r. unfold t'.
    destruct t as [a b c d e f g []]; reflexivity. }
  set (P := fun s' => sinv now s' /\ plain (t_ep t) s' /\ (In t' (txs s') \/ In (t_id t, now) (log s'))).
  assert (HP : P (check_transactions sec now (poll_timers now s))).
  { apply walk_preserves with (P := P).
    - intros s' u (K1 & K2 & K3) Hu Hua. split; [apply sinv_retry; assumption|]. split; [apply plain_retry; assumption|].
      pose proof K1 as (L1 & L2 & L3 & L4). destruct (L2 u Hu) as (G1 & G2 & G3 & G4 & G5 & G6).
      rewrite retry_cases by exact G2. cbv zeta.
      destruct (N.eq_dec (t_id u) (t_id t)) as [E|E].
      + destruct K3 as [K3|K3].
        * assert (u = t') by (apply (ids_inj (txs s')); [exact L1|exact Hu|exact K3|exact E]). subst u.
          replace (t_count t' <? 3) with true by (cbn [t' t_count]; lia). right. left. reflexivity.
        * right. destruct (_ <? _); [right; exact K3|]. destruct (t_sec u); [destruct (existsb _ _)|]; exact K3.
      + destruct K3 as [K3|K3].
        * left. destruct (_ <? _); [cbn [txs]; apply put_other; [exact K3|cbn [t_id t']; congruence]|].
          assert (Hn : t_id t' <> t_id u) by (cbn [t_id t']; congruence).
          destruct (t_sec u) eqn:Es; [destruct (existsb _ _)|].
          -- cbn [txs]. apply filter_In. split; [apply put_other; assumption|]. change (t_ep t') with (t_ep t).
             destruct (N.eqb_spec (t_ep t) (t_ep u)) as [Ee|]; [|reflexivity]. exfalso. rewrite (K2 u Hu) in Es by congruence. discriminate.
          -- cbn [txs]. apply put_other; assumption.
          -- cbn [txs]. apply filter_In. split; [apply put_other; assumption|]. change (t_id t') with (t_id t).
             destruct (N.eqb_spec (t_id t) (t_id u)) as [Ee|]; [congruence|reflexivity].
        * right. destruct (_ <? _); [right; exact K3|]. destruct (t_sec u); [destruct (existsb _ _)|]; exact K3.
    - split; [apply sinv_poll, Hi|]. split; [|left; exact Ht'].
      intros u Hu E. unfold poll_timers in Hu. cbn [txs] in Hu. apply in_map_iff in Hu as (x & <- & Hx).
      destruct (_ && _); cbn [t_ep t_sec] in *; apply Hp; assumption. }
  destruct HP as (_ & _ & [HP|HP]); [|exact HP].
  pose proof (check_done now (poll_timers now s) (sinv_poll now s Hi) t' HP). discriminate.
Qed.

(** Only its own message id, the loss of its connection, or the last timeout ends the wait. *)
Lemma walk_wait (now : N) (s : st) (t : tx) : sinv now s -> plain (t_ep t) s -> In t (txs s) -> t_count t < 3 ->
  waiting (t_id t) (check_transactions sec now (poll_timers now s)).
Proof.
  intros Hi Hp Ht Hc.
  set (P := fun s' => sinv now s' /\ plain (t_ep t) s' /\
                      exists u, In u (txs s') /\ t_id u = t_id t /\ t_ep u = t_ep t /\ (t_count u <= 2 \/ t_armed u = true)).
  assert (HP : P (check_transactions sec now (poll_timers now s))).
  { apply walk_preserves with (P := P).
    - intros s' x (K1 & K2 & u & U1 & U2 & U3 & U4) Hx Hxa. split; [apply sinv_retry; assumption|]. split; [apply plain_retry; assumption|].
      pose proof K1 as (L1 & L2 & L3 & L4). destruct (L2 x Hx) as (G1 & G2 & G3 & G4 & G5 & G6).
      rewrite retry_cases by exact G2. cbv zeta.
      destruct (N.eq_dec (t_id x) (t_id u)) as [E|E].
      + assert (x = u) by (apply (ids_inj (txs s')); assumption). subst x. destruct U4 as [U4|U4]; [|congruence].
        replace (t_count u <? 3) with true by lia. eexists. cbn [txs]. split; [apply put_in; cbn [t_id]; apply in_map, U1|].
        cbn [t_id t_ep t_armed]. auto.
      + exists u. split; [|auto]. destruct (_ <? _); [apply put_other; [exact U1|cbn [t_id]; congruence]|].
        assert (Hn : t_id u <> t_id x) by congruence.
        destruct (t_sec x) eqn:Es; [destruct (existsb _ _)|].
        * cbn [txs]. apply filter_In. split; [apply put_other; assumption|].
          destruct (N.eqb_spec (t_ep u) (t_ep x)) as [Ee|]; [|reflexivity]. exfalso. rewrite (K2 x Hx) in Es by congruence. discriminate.
        * cbn [txs]. apply put_other; assumption.
        * cbn [txs]. apply filter_In. split; [apply put_other; assumption|].
          destruct (N.eqb_spec (t_id u) (t_id x)) as [Ee|]; [congruence|reflexivity].
    - split; [apply sinv_poll, Hi|]. split.
      + intros u Hu E. unfold poll_timers in Hu. cbn [txs] in Hu. apply in_map_iff in Hu as (x & <- & Hx).
        destruct (_ && _); cbn [t_ep t_sec] in *; apply Hp; assumption.
      + unfold poll_timers. cbn [txs]. eexists. split; [apply in_map, Ht|]. destruct (_ && _); cbn [t_id t_ep t_count]; repeat split; left; lia. }
  destruct HP as (_ & _ & u & U1 & U2 & _). unfold waiting. rewrite <- U2. apply in_map, U1.
Qed.

Lemma timed_app (a b : list op) : forall T, timed T (a ++ b) -> timed T a.
Proof. induction a as [|o r IH]; intros T H; [exact I|]. destruct o; cbn [app timed] in *; try (destruct H as [H1 H]; split; [exact H1|]); apply IH, H. Qed.
Lemma run_app (a b : list op) (s : st) : run sec (a ++ b) s = run sec b (run sec a s).
Proof. apply fold_left_app. Qed.
Lemma sinv_run_now (now : N) (ops : list op) : forall T s, sinv T s -> T <= now -> Forall peer_known ops -> timed T (ops ++ [Check now]) ->
  sinv now (run sec ops s).
Proof.
  induction ops as [|o r IH]; intros T s H HT Hf Ht; [apply (sinv_later T); assumption|]. inversion Hf; subst. cbn [run fold_left].
  destruct o as [mid ep secured con peer rnd t|t|mid from|ep]; cbn [app timed] in Ht; cbn [step].
  - destruct Ht as [K1 K2]. apply (IH t); [|revert K2; clear; revert t; induction r as [|o r IH]; intros t; [intros [K _]; exact K|]|assumption..].
    + apply (sinv_send T); [exact H|exact K1|].
      intros Es. match goal with K : peer_known _ |- _ => cbn [peer_known] in K; rewrite Es in K; exact K end.
    + destruct o; cbn [app timed]; intros K; [destruct K as [K0 K]; apply IH in K; lia|destruct K as [K0 K]; apply IH in K; lia|apply IH, K|apply IH, K].
  - destruct Ht as [K1 K2]. apply (IH t); [|revert K2; clear; revert t; induction r as [|o r IH]; intros t; [intros [K _]; exact K|]|assumption..].
    + apply walk_preserves with (P := sinv t); [intros s' x Hs Hx Ha; apply sinv_retry; assumption|apply sinv_poll, (sinv_later T); assumption].
    + destruct o; cbn [app timed]; intros K; [destruct K as [K0 K]; apply IH in K; lia|destruct K as [K0 K]; apply IH in K; lia|apply IH, K|apply IH, K].
  - apply (IH T); [|assumption..]. unfold receive. destruct (find _ _); [|exact H]. apply sinv_filter; [exact H|].
    intros x Hx _ Hs. destruct H as (_ & G & _). apply (G x Hx), Hs.
  - apply (IH T); [|assumption..]. apply sinv_close, H.
Qed.

Lemma progress (ops : list op) (now : N) (t : tx) : Forall peer_known ops -> timed 0 (ops ++ [Check now]) ->
  let s := run sec ops init in plain (t_ep t) s -> In t (txs s) -> t_count t < 3 ->
  waiting (t_id t) (run sec (ops ++ [Check now]) init) /\
  (t_start t + t_interval t <= now -> In now (times (t_id t) (run sec (ops ++ [Check now]) init))).
Proof.
  intros Hf Ht s Hp Hin Hc. assert (Hi : sinv now s) by (apply (sinv_run_now now ops 0); [apply sinv_init|lia|exact Hf|exact Ht]).
  rewrite run_app. fold s. cbn [run fold_left step]. split; [apply walk_wait; assumption|]. intros Hd.
  pose proof (progress_send now s t Hi Hp Hin Hd Hc) as K. unfold times. rewrite <- in_rev. apply in_map_iff. exists (t_id t, now). split; [reflexivity|].
  apply filter_In. split; [exact K|]. cbn. apply N.eqb_refl.
Qed.

(** ** Sent once when not confirmable *)
Lemma non_once (ops : list op) (mid ep rnd now : N) (secured peer : bool) (rest : list op) :
  Forall peer_known ops ->
  times (next_id (run sec ops init)) (run sec (ops ++ Send mid ep secured false peer rnd now :: rest) init) = [now].
Proof.
  intros Hf. rewrite run_app. set (s := run sec ops init). cbn [run fold_left]. fold (run sec rest). cbn [step].
  assert (Hg : gone (next_id s) [now] (send_new sec mid ep secured false peer rnd now s)).
  { pose proof (inv_run ops init inv_init Hf) as (H1 & H2 & H3 & H4). fold s in H1, H2, H3, H4. unfold send_new. cbn [t_id]. split; [|split].
    - intros Hw. unfold waiting in Hw. cbn [txs] in Hw. apply in_map_iff in Hw as (t & E & Ht). destruct (H2 t Ht) as (G & _). lia.
    - rewrite (times_cons _ _ _ _ _ _ _ s) by reflexivity. rewrite N.eqb_refl. specialize (H4 (next_id s) ltac:(lia)). unfold sent in H4.
      destruct (times (next_id s) s); [reflexivity|discriminate].
    - cbn [next_id]. lia. }
  apply (gone_run _ _ rest) in Hg. apply Hg.
Qed.

(** ** Acknowledged: never sent again *)
Lemma acked (ops : list op) (t : tx) (from : N) (rest : list op) : Forall peer_known ops ->
  let s := run sec ops init in In t (txs s) -> (forall u, In u (txs s) -> t_mid u = t_mid t -> u = t) ->
  times (t_id t) (run sec (ops ++ Receive (t_mid t) from :: rest) init) = times (t_id t) s.
Proof.
  intros Hf s Ht Hu. rewrite run_app. fold s. cbn [run fold_left]. fold (run sec rest). cbn [step].
  pose proof (inv_run ops init inv_init Hf) as (H1 & H2 & H3 & H4). fold s in H1, H2, H3, H4.
  assert (Hg : gone (t_id t) (times (t_id t) s) (receive (t_mid t) from s)).
  { split; [apply receive_clears; assumption|]. destruct (H2 t Ht) as (G & _). unfold receive.
    destruct (find _ _); split; try reflexivity; exact G. }
  apply (gone_run _ _ rest) in Hg. apply Hg.
Qed.

Lemma exact_wait (ops : list op) (t : tx) : Forall peer_known ops -> timed 0 ops -> In t (txs (run sec ops init)) ->
  let ts := times (t_id t) (run sec ops init) in
  exists w, 2 * sec <= w <= 3 * sec /\
    t_interval t = w * 2 ^ N.of_nat (List.length ts - 1) /\ t_start t = last ts 0 /\ (1 <= List.length ts <= 4)%nat.
Proof.
  intros Hf Ht Hin ts. destruct (sinv_run ops 0 init sinv_init Hf Ht) as (T & _ & H & _). destruct (H t Hin) as (G1 & G2 & G3 & (w & Gw & Gs & Gi & Gl) & _).
  exists w. unfold sent in G3. fold ts in G3, Gl. rewrite G3. replace (N.of_nat (N.to_nat (t_count t) + 1 - 1)) with (t_count t) by lia.
  repeat split; try assumption; try lia; congruence.
Qed.
End P.
