From Verif Require Import Common Etag_Model Etag_Spec.
Local Open Scope N_scope.

(** * Drawing *)
Lemma get_bounds g d m : g <= m -> fst d <= m -> room m 1 -> g < get g d /\ fst d < get g d /\ get g d <= m + 1000.
Proof.
  intros G C R. unfold room in R. unfold get, add_random, set_global. set (b := if g <? fst d then fst d else g).
  assert (B : g <= b /\ fst d <= b /\ b <= m) by (unfold b; destruct (g <? fst d) eqn:E; lia).
  pose proof (N.mod_lt (snd d) 1000 ltac:(discriminate)) as M.
  rewrite N.mod_small by lia. assert (Z : b + (snd d mod 1000 + 1) =? 0 = false) by lia. rewrite Z. lia.
Qed.
Lemma room_less m k j : room m k -> (j <= k)%nat -> room m j.
Proof. unfold room. lia. Qed.
Lemma room_step m k : room m (S k) -> room (m + 1000) k.
Proof. unfold room. lia. Qed.

Lemma renew_keys f inp : forall rs n g, map key_of (snd (renew f inp n g rs)) = map key_of rs.
Proof.
  induction rs as [|r rs IH]; intros n g; [reflexivity|]. cbn [renew]. destruct (f r).
  - specialize (IH (S n) (get g (inp n))). destruct (renew f inp (S n) (get g (inp n)) rs) as [[n' g'] rs']. cbn in *. rewrite IH. reflexivity.
  - specialize (IH n g). destruct (renew f inp n g rs) as [[n' g'] rs']. cbn in *. rewrite IH. reflexivity.
Qed.
Definition same_but_tag (a b : res) : Prop := exists t, b = set_tag a t.
Lemma renew_spec f inp : forall rs n g m, g <= m -> clock_below inp m -> room m (List.length rs) ->
  let '(n', g', rs') := renew f inp n g rs in
  g <= g' /\ g' <= m + 1000 * N.of_nat (List.length rs) /\
  forall r', In r' rs' -> In r' rs /\ f r' = false \/ exists r n, In r rs /\ f r = true /\ r' = set_tag r (e_tag r') /\ g < e_tag r' <= g' /\ fst (inp n) < e_tag r'.
Proof.
  induction rs as [|r rs IH]; intros n g m G C R; [cbn; repeat split; try lia; intros r' []|]. cbn [renew]. cbn [List.length] in *. destruct (f r) eqn:F.
  - destruct (get_bounds g (inp n) m G (C n) (room_less _ _ 1 R ltac:(lia))) as (B1 & B2 & B3).
    specialize (IH (S n) (get g (inp n)) (m + 1000) B3 ltac:(intros x; pose proof (C x); lia) (room_step _ _ R)).
    destruct (renew f inp (S n) (get g (inp n)) rs) as [[n' g'] rs']. destruct IH as (I1 & I2 & I3). split; [lia|]. split; [lia|].
    intros r' [<-|I].
    + right. exists r, n. cbn [set_tag e_tag]. split; [left; reflexivity|]. split; [exact F|]. split; [reflexivity|]. lia.
    + destruct (I3 r' I) as [[A B]|(x & k & A & B & D & E & H)]; [left; split; [right; exact A|exact B]|right; exists x, k; split; [right; exact A|]; split; [exact B|]; split; [exact D|]; lia].
  - specialize (IH n g m G C (room_less _ _ (List.length rs) R ltac:(lia))). destruct (renew f inp n g rs) as [[n' g'] rs']. destruct IH as (I1 & I2 & I3). split; [lia|]. split; [lia|].
    intros r' [<-|I].
    + left. split; [left; reflexivity|exact F].
    + destruct (I3 r' I) as [[A B]|(x & k & A & B & D & E)]; [left; split; [right; exact A|exact B]|right; exists x, k; split; [right; exact A|]; split; [exact B|]; split; [exact D|]; lia].
Qed.
Lemma renew_count f inp : forall rs n g, (fst (fst (renew f inp n g rs)) <= n + List.length rs)%nat.
Proof.
  induction rs as [|r rs IH]; intros n g; [cbn; lia|]. cbn [renew List.length]. destruct (f r).
  - specialize (IH (S n) (get g (inp n))). destruct (renew f inp (S n) (get g (inp n)) rs) as [[n' g'] rs']. cbn in *. lia.
  - specialize (IH n g). destruct (renew f inp n g rs) as [[n' g'] rs']. cbn in *. lia.
Qed.

(** * The invariant *)
Record inv (crc : N -> N) (s : st) (seen : list sight) : Prop := mk_inv {
  i_le : forall k t c, In (k, t, c) seen -> t <= g_etag s;
  i_con : consistent seen;
  i_now : forall r, In r (g_res s) -> In (key_of r, e_tag r, crc (e_con r)) seen;
  i_store : forall e, In e (g_store s) -> In (ekey e, s_tag e, s_crc e) seen;
  i_keys : NoDup (map key_of (g_res s));
  i_skeys : NoDup (map ekey (g_store s)) }.

Lemma in_view crc rs k t c : In (k, t, c) (view crc rs) <-> exists r, In r rs /\ key_of r = k /\ e_tag r = t /\ crc (e_con r) = c.
Proof. unfold view. rewrite in_map_iff. split; [intros (r & A & B); exists r; injection A as <- <- <-; auto|intros (r & B & <- & <- & <-); exists r; auto]. Qed.
Lemma nodup_map {A B} (f : A -> B) l a b : NoDup (map f l) -> In a l -> In b l -> f a = f b -> a = b.
Proof.
  induction l as [|x l IH]; intros N I J E; [destruct I|]. cbn [map] in N. inversion N; subst. destruct I as [<-|I], J as [<-|J]; auto.
  - exfalso. apply H1. rewrite E. apply in_map. exact J.
  - exfalso. apply H1. rewrite <- E. apply in_map. exact I.
Qed.
(** What is new has an ETag above all seen before. *)
Lemma inv_next crc seen g' rs' store' b :
  consistent seen -> (forall k t c, In (k, t, c) seen -> t <= b) -> b <= g' -> NoDup (map key_of rs') -> NoDup (map ekey store') ->
  (forall e, In e store' -> In (ekey e, s_tag e, s_crc e) (seen ++ view crc rs')) ->
  (forall r, In r rs' -> In (key_of r, e_tag r, crc (e_con r)) seen \/ b < e_tag r <= g') ->
  inv crc (mk_st g' rs' store') (seen ++ view crc rs').
Proof.
  intros C L B N NS S H. constructor; cbn [g_etag g_res g_store]; auto.
  - intros k t c I. apply in_app_or in I. destruct I as [I|I]; [pose proof (L _ _ _ I); lia|]. apply in_view in I. destruct I as (r & I & <- & <- & <-).
    destruct (H r I) as [X|X]; [pose proof (L _ _ _ X); lia|lia].
  - intros k t c1 c2 I J. apply in_app_or in I, J.
    assert (Q : forall t c, In (k, t, c) (view crc rs') -> In (k, t, c) seen \/ b < t).
    { intros t' c I'. apply in_view in I'. destruct I' as (r & I' & <- & <- & <-). destruct (H r I') as [X|X]; [left; exact X|right; lia]. }
    destruct I as [I|I], J as [J|J].
    + exact (C _ _ _ _ I J).
    + destruct (Q _ _ J) as [X|X]; [exact (C _ _ _ _ I X)|]. pose proof (L _ _ _ I). lia.
    + destruct (Q _ _ I) as [X|X]; [exact (C _ _ _ _ X J)|]. pose proof (L _ _ _ J). lia.
    + apply in_view in I, J. destruct I as (r & I & K & T & <-), J as (r' & J & K' & T' & <-). assert (r = r') by (apply (nodup_map key_of rs'); congruence). subst. reflexivity.
  - intros r I. apply in_or_app. right. apply in_view. exists r. auto.
Qed.
Lemma same_res_spec a b : same_res a b = true <-> key_of a = key_of b.
Proof.
  unfold same_res, key_of. rewrite !andb_true_iff, N.eqb_eq, list_eqb_spec, eqb_true_iff. split; [intros [[A B] C]; congruence|intros [= A B C]; auto].
Qed.
Lemma key_set_tag r t : key_of (set_tag r t) = key_of r. Proof. reflexivity. Qed.
Lemma map_key_change r t rs : map key_of (map (fun x => if same_res x r then set_tag r t else x) rs) = map key_of rs.
Proof.
  induction rs as [|x rs IH]; [reflexivity|]. cbn [map]. rewrite IH. f_equal. destruct (same_res x r) eqn:E; [|reflexivity]. apply same_res_spec in E. rewrite key_set_tag. auto.
Qed.
Lemma nodup_filter_map {A B} (f : A -> B) p l : NoDup (map f l) -> NoDup (map f (filter p l)).
Proof.
  induction l as [|x l IH]; intros N; [constructor|]. cbn [map filter] in *. inversion N; subst. destruct (p x); [|auto]. cbn [map]. constructor; [|auto].
  intros I. apply H1. apply in_map_iff in I. destruct I as (y & E & I). apply filter_In in I. apply in_map_iff. exists y. tauto.
Qed.
Lemma dump_in crc rs e : In e (dump crc rs) -> exists r, In r rs /\ ekey e = key_of r /\ s_tag e = e_tag r /\ s_crc e = crc (e_con r).
Proof. unfold dump. intros I. apply in_map_iff in I. destruct I as (r & <- & I). apply filter_In in I. exists r. repeat split; tauto. Qed.
Lemma dump_keys crc rs : NoDup (map key_of rs) -> NoDup (map ekey (dump crc rs)).
Proof. intros N. unfold dump. rewrite map_map. apply (nodup_filter_map key_of). exact N. Qed.

Lemma entry_of_spec r e : entry_of r e = true <-> ekey e = key_of r.
Proof.
  unfold entry_of, ekey, key_of. rewrite !andb_true_iff, N.eqb_eq, list_eqb_spec, eqb_true_iff. split; [intros [[A B] C]; congruence|intros [= A B C]; auto].
Qed.
Lemma restored_some crc store r t : restored crc store r = Some t -> exists e, In e store /\ ekey e = key_of r /\ s_tag e = t /\ s_crc e = crc (e_con r) /\ t <> 0.
Proof.
  unfold restored. destruct (find (entry_of r) store) as [e|] eqn:F; [|discriminate]. apply find_some in F. destruct F as [I E]. apply entry_of_spec in E.
  destruct (negb (s_tag e =? 0) && e_crc r && (s_crc e =? crc (e_con r))) eqn:C; [|discriminate]. intros [= <-]. rewrite !andb_true_iff, negb_true_iff, N.eqb_neq, N.eqb_eq in C. exists e. tauto.
Qed.
Lemma restored_hit crc store r e : NoDup (map ekey store) -> In e store -> ekey e = key_of r -> e_crc r = true -> s_tag e <> 0 -> s_crc e = crc (e_con r) -> restored crc store r = Some (s_tag e).
Proof.
  intros N I K R T C. unfold restored. destruct (find (entry_of r) store) as [x|] eqn:F.
  - apply find_some in F. destruct F as [J E]. apply entry_of_spec in E. assert (x = e) by (apply (nodup_map ekey store); congruence). subst x.
    apply N.eqb_neq in T. apply N.eqb_eq in C. rewrite R, T, C. reflexivity.
  - exfalso. pose proof (find_none _ _ F e I) as X. apply entry_of_spec in K. congruence.
Qed.
Lemma restored_tag crc store r t : restored crc store (set_tag r t) = restored crc store r. Proof. reflexivity. Qed.
Lemma updatable_tag can r t : updatable can (set_tag r t) = updatable can r. Proof. reflexivity. Qed.

Definition top (crc : N -> N) (store : list entry) (rs : list res) (a : N) : N :=
  fold_left (fun a r => match restored crc store r with Some t => if a <? t then t else a | None => a end) rs a.
Lemma top_ge crc store : forall rs a, a <= top crc store rs a.
Proof. induction rs as [|r rs IH]; intros a; [apply N.le_refl|]. cbn. destruct (restored crc store r) as [t|]; [|apply IH]. destruct (a <? t) eqn:E; specialize (IH (if a <? t then t else a)); rewrite E in IH; unfold top in *; lia. Qed.
Lemma top_restored crc store : forall rs a r t, In r rs -> restored crc store r = Some t -> t <= top crc store rs a.
Proof.
  induction rs as [|x rs IH]; intros a r t I E; [destruct I|]. cbn [top fold_left]. destruct I as [->|I]; [|apply (IH _ r t I E)].
  rewrite E. pose proof (top_ge crc store rs (if a <? t then t else a)) as H. unfold top in H. destruct (a <? t) eqn:L; lia.
Qed.
Lemma top_le crc store m : forall rs a, a <= m -> (forall e, In e store -> s_tag e <= m) -> top crc store rs a <= m.
Proof.
  induction rs as [|x rs IH]; intros a A S; [exact A|]. cbn [top fold_left]. destruct (restored crc store x) as [t|] eqn:R; [|apply IH; auto].
  apply restored_some in R. destruct R as (e & I & _ & <- & _). specialize (S e I) as S'. apply IH; auto. destruct (a <? s_tag e); lia.
Qed.

Definition tags_ok (b : N) (rs : list res) (g : N) : Prop := forall r, In r rs -> b < e_tag r <= g.
Lemma load_inv crc can inp n seen g1 rs store b m :
  consistent seen -> (forall k t c, In (k, t, c) seen -> t <= m) ->
  (forall e, In e store -> In (ekey e, s_tag e, s_crc e) seen) -> NoDup (map key_of rs) ->
  g1 <= m -> clock_below inp m -> room m (List.length rs + 2) ->
  (forall k t c, In (k, t, c) seen -> t <= b) ->
  b <= top crc store rs (get g1 (inp n)) ->
  (forall r, In r rs -> updatable can r = false -> b < e_tag r <= g1) ->
  let s' := load crc can inp n (mk_st g1 rs store) in inv crc s' (seen ++ view crc (g_res s')).
Proof.
  intros C LM ST NK G CL R LB BT NU. unfold load. cbn [g_etag g_res g_store].
  destruct (get_bounds g1 (inp n) m G (CL n) (room_less _ _ 1 R ltac:(lia))) as (B1 & B2 & B3).
  fold (top crc store rs (get g1 (inp n))). set (t := top crc store rs (get g1 (inp n))) in *.
  assert (T1 : get g1 (inp n) <= t) by apply top_ge.
  assert (T2 : t <= m + 1000) by (apply top_le; [lia|intros e I; pose proof (LM _ _ _ (ST e I)); lia]).
  assert (A : t < set_global (add_random t (inp (S n))) <= m + 2000).
  { unfold room in R. unfold add_random, set_global. pose proof (N.mod_lt (snd (inp (S n))) 1000 ltac:(discriminate)) as M. rewrite N.mod_small by lia.
    assert (Z : t + (snd (inp (S n)) mod 1000 + 1) =? 0 = false) by lia. rewrite Z. lia. }
  set (g2 := set_global (add_random t (inp (S n)))) in *.
  set (cl := map (fun r => if updatable can r then match restored crc store r with Some t => set_tag r t | None => set_tag r 0 end else r) rs).
  assert (KC : map key_of cl = map key_of rs).
  { unfold cl. rewrite map_map. apply map_ext. intros r. destruct (updatable can r); [|reflexivity]. destruct (restored crc store r); reflexivity. }
  assert (LC : List.length cl = List.length rs) by (unfold cl; apply map_length).
  pose proof (renew_spec (fun r => updatable can r && (e_tag r =? 0)) inp cl (S (S n)) g2 (m + 2000) (proj2 A) ltac:(intros x; pose proof (CL x); lia) ltac:(rewrite LC; unfold room in *; lia)) as RS.
  pose proof (renew_keys (fun r => updatable can r && (e_tag r =? 0)) inp cl (S (S n)) g2) as RK.
  destruct (renew _ inp (S (S n)) g2 cl) as [[n' g'] rs']. cbn [fst snd] in RK. destruct RS as (R1 & R2 & R3). cbn [g_res].
  apply (inv_next crc seen g' rs' [] b); auto.
  - lia.
  - rewrite RK, KC. exact NK.
  - constructor.
  - intros e [].
  - intros r' I. destruct (R3 r' I) as [[J F]|(x & k & J & F & _ & E & _)].
    + unfold cl in J. apply in_map_iff in J. destruct J as (r & Q & J). destruct (updatable can r) eqn:U.
      * destruct (restored crc store r) as [u|] eqn:RR.
        -- left. subst r'. apply restored_some in RR. destruct RR as (e & IE & K & <- & CE & _). specialize (ST e IE). rewrite K, CE in ST. exact ST.
        -- subst r'. rewrite updatable_tag, U in F. discriminate.
      * subst r'. right. pose proof (NU r J U). lia.
    + right. lia.
Qed.

Lemma step_inv crc s seen p : inv crc s seen -> op_ok crc s seen p -> inv crc (step crc s p) (seen ++ view crc (g_res (step crc s p))).
Proof.
  intros [L C NOW ST K SK] O. destruct p as [r d|r d|r|dev inp| |can inp cfg]; cbn [step].
  - destruct O as ((m & A & B & R) & N). destruct (get_bounds _ _ m A B R) as (G1 & G2 & G3). cbn [g_res].
    apply (inv_next crc seen _ _ _ (g_etag s)); auto; try lia.
    + rewrite map_app. cbn [map]. rewrite key_set_tag. apply NoDup_Add with (a := key_of r) (l := map key_of (g_res s)); [|auto].
      rewrite <- (app_nil_r (map key_of (g_res s))) at 1. apply Add_app.
    + intros e I. apply in_or_app. left. auto.
    + intros x I. apply in_app_or in I. destruct I as [I|[<-|[]]]; [left; auto|right]. cbn [set_tag e_tag]. lia.
  - destruct O as (m & A & B & R). destruct (get_bounds _ _ m A B R) as (G1 & G2 & G3). cbn [g_res].
    apply (inv_next crc seen _ _ _ (g_etag s)); auto; try lia.
    + rewrite map_key_change. exact K.
    + intros e I. apply in_or_app. left. auto.
    + intros x I. apply in_map_iff in I. destruct I as (y & Q & I). destruct (same_res y r); subst x; [right; cbn [set_tag e_tag]; lia|left; auto].
  - cbn [g_res]. apply (inv_next crc seen _ _ _ (g_etag s)); auto; try lia.
    + apply nodup_filter_map. exact K.
    + intros e I. apply in_or_app. left. auto.
    + intros x I. apply filter_In in I. left. apply NOW. tauto.
  - destruct O as (m & A & B & R). pose proof (renew_spec (fun r => negb (e_plat r) && (e_dev r =? dev)) inp (g_res s) 0 (g_etag s) m A B R) as RS.
    pose proof (renew_keys (fun r => negb (e_plat r) && (e_dev r =? dev)) inp (g_res s) 0 (g_etag s)) as RK.
    destruct (renew _ inp 0 (g_etag s) (g_res s)) as [[n' g'] rs']. cbn [fst snd] in RK. destruct RS as (R1 & R2 & R3). cbn [g_res].
    apply (inv_next crc seen _ _ _ (g_etag s)); auto; try lia.
    + rewrite RK. exact K.
    + apply nodup_filter_map. exact SK.
    + intros e I. apply filter_In in I. apply in_or_app. left. apply ST. tauto.
    + intros x I. destruct (R3 x I) as [[J _]|(y & k & J & F & _ & E & _)]; [left; auto|right; lia].
  - cbn [g_res]. apply (inv_next crc seen _ _ _ (g_etag s)); auto; try lia.
    + apply dump_keys. exact K.
    + intros e I. apply dump_in in I. destruct I as (r & I & -> & -> & ->). apply in_or_app. left. auto.
  - destruct O as (NK & (m & A & B & R) & W). unfold restart.
    pose proof (renew_spec (fun _ => true) inp cfg 0 0 m (N.le_0_l m) B (room_less _ _ (List.length cfg) R ltac:(lia))) as RS.
    pose proof (renew_keys (fun _ => true) inp cfg 0 0) as RK.
    assert (RL : List.length (snd (renew (fun _ => true) inp 0 0 cfg)) = List.length cfg) by (rewrite <- (map_length key_of), RK; apply map_length).
    assert (REST : forall store, map (restored crc store) (snd (renew (fun _ => true) inp 0 0 cfg)) = map (restored crc store) cfg).
    { intros store. clear. generalize 0%nat. generalize 0. induction cfg as [|r cfg IH]; intros g n; [reflexivity|]. cbn [renew].
      specialize (IH (get g (inp n)) (S n)). destruct (renew _ inp (S n) (get g (inp n)) cfg) as [[n' g'] rs']. cbn in *. rewrite IH. reflexivity. }
    destruct (renew (fun _ => true) inp 0 0 cfg) as [[n g1] rs1]. cbn [fst snd] in RK, RL, REST. destruct RS as (R1 & R2 & R3).
    set (m2 := m + 1000 * N.of_nat (List.length cfg)) in *.
    assert (LM : forall k t c, In (k, t, c) seen -> t <= m2) by (intros k t c I; pose proof (L _ _ _ I); unfold m2; lia).
    assert (CM : clock_below inp m2) by (intros x; pose proof (B x); unfold m2; lia).
    assert (RM : room m2 (List.length rs1 + 2)) by (unfold room, m2 in *; rewrite RL; lia).
    destruct W as [W|(U & r & e & IR & IE & KE & CE & TE & SE & GE)].
    + apply (load_inv crc can inp n seen g1 rs1 (g_store s) (g_etag s) m2); auto; try lia.
      * rewrite RK. exact NK.
      * destruct (get_bounds g1 (inp n) m2 ltac:(lia) (CM n) (room_less _ _ 1 RM ltac:(lia))) as (_ & G2 & _). pose proof (top_ge crc (g_store s) rs1 (get g1 (inp n))). pose proof (W n). lia.
      * intros x I _. destruct (R3 x I) as [[_ F]|(y & k & _ & _ & _ & E & H)]; [discriminate|]. pose proof (W k). lia.
    + apply (load_inv crc can inp n seen g1 rs1 (g_store s) (s_tag e) m2); auto; try lia.
      * rewrite RK. exact NK.
      * assert (RH : restored crc (g_store s) r = Some (s_tag e)) by (apply restored_hit; auto).
        assert (X : In (Some (s_tag e)) (map (restored crc (g_store s)) rs1)) by (rewrite REST; rewrite <- RH; apply in_map; exact IR).
        apply in_map_iff in X. destruct X as (r1 & E1 & I1). exact (top_restored _ _ _ _ _ _ I1 E1).
      * intros x I F. exfalso. destruct (R3 x I) as [[_ F']|(y & k & J & _ & Q & _)]; [discriminate|]. rewrite Q, updatable_tag in F. unfold updatable in F. destruct (U y J) as [-> | ->] in F; [discriminate|rewrite orb_true_r in F; discriminate].
Qed.
Lemma reach_inv crc s seen : reach crc s seen -> inv crc s seen.
Proof.
  induction 1 as [|s seen p R IH O]; [|apply step_inv; assumption].
  constructor; cbn; try (intros; contradiction); [intros k t c1 c2 []|constructor|constructor].
Qed.
