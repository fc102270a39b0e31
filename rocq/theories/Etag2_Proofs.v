From Verif Require Import Common Etag_Model Etag_Spec Etag_Proofs.
Local Open Scope N_scope.

(** * New ETags *)
Lemma change_greatest crc s seen r d : reach crc s seen -> op_ok crc s seen (Change r d) -> In (key_of r) (map key_of (g_res s)) ->
  exists r', In r' (g_res (step crc s (Change r d))) /\ key_of r' = key_of r /\ e_con r' = e_con r /\
             (forall k t c, In (k, t, c) seen -> t < e_tag r') /\
             (forall x, In x (g_res (step crc s (Change r d))) -> x = r' \/ In x (g_res s) /\ key_of x <> key_of r).
Proof.
  intros R (m & A & B & RM) I. pose proof (reach_inv _ _ _ R) as [L C NOW ST K SK]. destruct (get_bounds _ _ m A B RM) as (G1 & _ & _).
  exists (set_tag r (get (g_etag s) d)). cbn [step g_res]. apply in_map_iff in I. destruct I as (x & E & I). split; [|split; [reflexivity|split; [reflexivity|split]]].
  - apply in_map_iff. exists x. apply same_res_spec in E. rewrite E. auto.
  - intros k t c J. pose proof (L _ _ _ J). cbn [set_tag e_tag]. lia.
  - intros y J. apply in_map_iff in J. destruct J as (z & Q & J). destruct (same_res z r) eqn:S; [left; auto|right]. subst y. split; [exact J|]. intros X. apply same_res_spec in X. congruence.
Qed.
Lemma create_greatest crc s seen r d : reach crc s seen -> op_ok crc s seen (Create r d) ->
  exists t, g_res (step crc s (Create r d)) = g_res s ++ [set_tag r t] /\ forall k u c, In (k, u, c) seen -> u < t.
Proof.
  intros R ((m & A & B & RM) & _). pose proof (reach_inv _ _ _ R) as [L C NOW ST K SK]. destruct (get_bounds _ _ m A B RM) as (G1 & _ & _).
  exists (get (g_etag s) d). split; [reflexivity|]. intros k u c J. pose proof (L _ _ _ J). lia.
Qed.
Lemma answered_valid crc s seen r t c : reach crc s seen -> In r (g_res s) -> In (key_of r, t, c) seen -> not_modified (e_tag r) (Some t) = true -> crc (e_con r) = c.
Proof.
  intros R I S N. unfold not_modified in N. apply andb_true_iff in N. destruct N as [_ N]. apply N.eqb_eq in N. subst t.
  pose proof (reach_inv _ _ _ R) as [L C NOW ST K SK]. exact (C _ _ _ _ (NOW r I) S).
Qed.

(** * A proper restart keeps the ETags *)
Lemma renew_none f inp : forall rs n g, (forall r, In r rs -> f r = false) -> snd (renew f inp n g rs) = rs.
Proof.
  induction rs as [|r rs IH]; intros n g F; [reflexivity|]. cbn [renew]. rewrite (F r (or_introl eq_refl)). specialize (IH n g (fun x I => F x (or_intror I))).
  destruct (renew f inp n g rs) as [[n' g'] rs']. cbn in *. rewrite IH. reflexivity.
Qed.
Lemma renew_all_shape inp : forall rs n g, Forall2 same_but_tag rs (snd (renew (fun _ => true) inp n g rs)).
Proof.
  induction rs as [|r rs IH]; intros n g; [constructor|]. cbn [renew]. specialize (IH (S n) (get g (inp n))). destruct (renew _ inp (S n) (get g (inp n)) rs) as [[n' g'] rs']. cbn in *.
  constructor; [eexists; reflexivity|exact IH].
Qed.
Lemma restart_keeps crc s seen can inp : reach crc s seen ->
  (forall r, In r (g_res s) -> e_ign r = false /\ e_crc r = true /\ e_tag r <> 0 /\ (e_plat r = true \/ can (e_dev r) = true)) ->
  g_res (step crc (step crc s Dump) (Start can inp (g_res s))) = g_res s.
Proof.
  intros R H. pose proof (reach_inv _ _ _ R) as [L C NOW ST K SK]. cbn [step]. unfold restart. pose proof (renew_all_shape inp (g_res s) 0 0) as SH.
  destruct (renew (fun _ => true) inp 0 0 (g_res s)) as [[n g] rs]. cbn [snd] in SH. unfold load. cbn [g_res g_store g_etag].
  assert (RE : forall r, In r (g_res s) -> restored crc (dump crc (g_res s)) r = Some (e_tag r)).
  { intros r I. destruct (H r I) as (A & B & D & _). change (Some (e_tag r)) with (Some (s_tag (mk_entry (e_plat r) (home r) (e_uri r) (e_tag r) (crc (e_con r))))).
    apply restored_hit; auto; [apply dump_keys; exact K|]. unfold dump. apply in_map_iff. exists r. split; [reflexivity|]. apply filter_In. split; [exact I|].
    apply N.eqb_neq in D. rewrite A, B, D. reflexivity. }
  assert (M : map (fun r => if updatable can r then match restored crc (dump crc (g_res s)) r with Some t => set_tag r t | None => set_tag r 0 end else r) rs = g_res s).
  { assert (Q : forall l l', (forall r, In r l -> In r (g_res s)) -> Forall2 same_but_tag l l' ->
      map (fun r => if updatable can r then match restored crc (dump crc (g_res s)) r with Some t => set_tag r t | None => set_tag r 0 end else r) l' = l).
    { intros l l' IN F. induction F as [|r r' l l' [t ->] F IH]; [reflexivity|]. cbn [map]. rewrite IH by (intros x I; apply IN; right; exact I). f_equal.
      rewrite restored_tag, updatable_tag, (RE r (IN r (or_introl eq_refl))). destruct (H r (IN r (or_introl eq_refl))) as (_ & _ & _ & U). unfold updatable.
      assert (X : e_plat r || can (e_dev r) = true) by (destruct U as [-> | ->]; [reflexivity|apply orb_true_r]). rewrite X. destruct r. reflexivity. }
    apply Q; auto. }
  rewrite M. pose proof (renew_none (fun r => updatable can r && (e_tag r =? 0)) inp (g_res s)) as RN.
  match goal with |- context [renew ?f inp ?a ?b (g_res s)] => specialize (RN a b) end.
  rewrite <- RN at 2 by (intros r I; destruct (H r I) as (_ & _ & D & _); apply N.eqb_neq in D; rewrite D; apply andb_false_r).
  destruct (renew _ inp _ _ (g_res s)) as [[n' g'] rs']. reflexivity.
Qed.

(** * Incremental discovery *)
Lemma later_reach crc s1 seen1 s seen : later crc s1 seen1 s seen -> reach crc s1 seen1 -> reach crc s seen.
Proof. induction 1; intros R; [exact R|constructor; auto]. Qed.
Lemma later_new crc s1 seen1 s seen : later crc s1 seen1 s seen -> reach crc s1 seen1 ->
  g_etag s1 <= g_etag s /\ forall r, In r (g_res s) -> In r (g_res s1) \/ g_etag s1 < e_tag r.
Proof.
  induction 1 as [s seen|s1 seen1 s seen p L IH O NS]; intros R; [split; [lia|auto]|]. specialize (IH R). destruct IH as [G IH].
  destruct p as [r d|r d|r|dev inp| |can inp cfg]; cbn [step g_res g_etag].
  - destruct O as ((m & A & B & RM) & _). destruct (get_bounds _ _ m A B RM) as (G1 & _ & _). split; [lia|]. intros x I. apply in_app_or in I. destruct I as [I|[<-|[]]]; [auto|right]. cbn [set_tag e_tag]. lia.
  - destruct O as (m & A & B & RM). destruct (get_bounds _ _ m A B RM) as (G1 & _ & _). split; [lia|]. intros x I. apply in_map_iff in I. destruct I as (y & Q & I). destruct (same_res y r); subst x; [right; cbn [set_tag e_tag]; lia|auto].
  - split; [lia|]. intros x I. apply filter_In in I. apply IH. tauto.
  - destruct O as (m & A & B & RM). pose proof (renew_spec (fun r => negb (e_plat r) && (e_dev r =? dev)) inp (g_res s) 0 (g_etag s) m A B RM) as RS.
    destruct (renew _ inp 0 (g_etag s) (g_res s)) as [[n' g'] rs']. destruct RS as (R1 & R2 & R3). cbn [g_res g_etag]. split; [lia|].
    intros x I. destruct (R3 x I) as [[J _]|(y & k & J & F & _ & E & _)]; [auto|right; lia].
  - split; [lia|auto].
  - exfalso. exact (NS can inp cfg eq_refl).
Qed.
Lemma batch_fold acc m : forall rs a, a <= m -> (forall r, In r rs -> e_tag r <= m) -> fold_left (fun a r => if acc r && (a <? e_tag r) then e_tag r else a) rs a <= m.
Proof.
  induction rs as [|r rs IH]; intros a A H; [exact A|]. cbn [fold_left]. apply IH; [|intros x I; apply H; right; exact I].
  destruct (acc r && (a <? e_tag r)); [apply H; left; reflexivity|exact A].
Qed.
Lemma batch_bound crc s seen acc : reach crc s seen -> batch_etag acc (g_res s) <= g_etag s.
Proof.
  intros R. pose proof (reach_inv _ _ _ R) as [L C NOW ST K SK]. apply batch_fold; [lia|]. intros r I. exact (L _ _ _ (NOW r I)).
Qed.
Lemma find_etag_from acc rs e0 cs : find_etag acc rs e0 cs = 0 \/ e0 = Some (find_etag acc rs e0 cs) \/ In (find_etag acc rs e0 cs) cs.
Proof.
  unfold find_etag. set (a := match e0 with Some e => if has_etag acc rs e then e else 0 | None => 0 end).
  assert (G : forall cs a, fold_left (fun a c => if c <? a then a else if has_etag acc rs c then c else a) cs a = a \/
                           In (fold_left (fun a c => if c <? a then a else if has_etag acc rs c then c else a) cs a) cs).
  { clear. induction cs as [|c cs IH]; intros a; [left; reflexivity|]. cbn [fold_left].
    destruct (IH (if c <? a then a else if has_etag acc rs c then c else a)) as [E|E]; [|right; right; exact E]. rewrite E. destruct (c <? a); [left; reflexivity|]. destruct (has_etag acc rs c); [right; left; reflexivity|left; reflexivity]. }
  destruct (G cs a) as [E|E]; [|right; right; exact E]. rewrite E. unfold a. destruct e0 as [e|]; [|left; reflexivity]. destruct (has_etag acc rs e); [right; left; reflexivity|left; reflexivity].
Qed.
Lemma incremental crc acc s seen (known : list (st * list sight)) e0 cs :
  (forall s1 seen1, In (s1, seen1) known -> reach crc s1 seen1 /\ later crc s1 seen1 s seen) ->
  (forall t, e0 = Some t \/ In t cs -> exists s1 seen1, In (s1, seen1) known /\ t = batch_etag acc (g_res s1)) ->
  (forall l, batch acc (g_res s) e0 cs = Some l -> forall r, In r l -> In r (g_res s) /\ acc r = true) /\
  forall r, In r (g_res s) -> acc r = true -> e_disc r = false ->
    (exists l, batch acc (g_res s) e0 cs = Some l /\ In r l) \/ exists s1 seen1, In (s1, seen1) known /\ In r (g_res s1).
Proof.
  intros KN KT. unfold batch. set (t := find_etag acc (g_res s) e0 cs). split.
  - intros l E r I. destruct (t =? 0).
    + injection E as <-. apply filter_In in I. rewrite !andb_true_iff in I. tauto.
    + destruct (filter _ (g_res s)) as [|x l'] eqn:F; [discriminate|]. injection E as <-. rewrite <- F in I. apply filter_In in I. rewrite !andb_true_iff in I. tauto.
  - intros r I A D. destruct (t =? 0) eqn:Z.
    + left. eexists. split; [reflexivity|]. apply filter_In. rewrite A, D. auto.
    + destruct (t <? e_tag r) eqn:LT.
      * left. assert (X : In r (filter (fun r => acc r && negb (e_disc r) && (t <? e_tag r)) (g_res s))) by (apply filter_In; rewrite A, D, LT; auto).
        destruct (filter _ (g_res s)) as [|x l']; [destruct X|]. eexists. split; [reflexivity|exact X].
      * right. destruct (find_etag_from acc (g_res s) e0 cs) as [E|E]; [fold t in E; rewrite E in Z; discriminate|]. fold t in E.
        destruct (KT t E) as (s1 & seen1 & K & ET). destruct (KN s1 seen1 K) as [R1 L1]. exists s1, seen1. split; [exact K|].
        destruct (later_new _ _ _ _ _ L1 R1) as [_ H]. destruct (H r I) as [X|X]; [exact X|]. pose proof (batch_bound crc s1 seen1 acc R1) as BB. exfalso. apply N.ltb_ge in LT. rewrite ET in LT. lia.
Qed.
