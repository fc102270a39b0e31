From Verif Require Import Common Etimer_Model Etimer_Spec.
Local Open Scope N_scope.

Lemma W_pos : 1 < W.
Proof. unfold W. change (2 ^ 64) with 18446744073709551616. lia. Qed.

Lemma add64_small a b : a + b < W -> add64 a b = a + b.
Proof. intros H. unfold add64. apply N.mod_small. exact H. Qed.

Lemma sub64_small a b : b <= a -> a < W -> sub64 a b = a - b.
Proof.
  intros H Ha. unfold sub64. rewrite (N.mod_small b) by lia.
  replace (a + W - b) with (a - b + 1 * W) by lia. rewrite N.mod_add by (pose proof W_pos; lia). apply N.mod_small. lia.
Qed.

Lemma expired_due t now : now < W - 1 -> timer_expired t now = (deadline t <=? now).
Proof.
  intros Hn. pose proof W_pos. unfold timer_expired, deadline. destruct (now <? t_start t) eqn:E; [lia|].
  rewrite sub64_small by lia. rewrite add64_small by lia. lia.
Qed.

Lemma until_spec t now : now < W - 1 -> deadline t < W -> timer_until t now = deadline t - now.
Proof.
  intros Hn Hd. unfold timer_until. rewrite expired_due by exact Hn. destruct (deadline t <=? now) eqn:E; [lia|].
  unfold deadline in *. rewrite add64_small by lia. rewrite sub64_small by lia. reflexivity.
Qed.

Record inv (s : st) : Prop := {
  i_nodup : NoDup (s_list s);
  i_p : forall i, In i (s_list s) -> t_p (s_tm s i) <> 0;
  i_now : s_now s < W - 1;
  i_dl : forall i, deadline (s_tm s i) < W }.

Definition upper (s : st) : Prop := forall i, In i (s_list s) -> s_next s <= N.max (s_now s) (deadline (s_tm s i)).
Definition lower (s : st) : Prop := s_list s <> [] -> exists i, In i (s_list s) /\ deadline (s_tm s i) <= s_next s.

Lemma min_until_spec tm now l : now < W - 1 -> (forall i, deadline (tm i) < W) ->
  forall d, min_until tm now l d <= d /\ (forall i, In i l -> min_until tm now l d <= deadline (tm i) - now) /\
    (min_until tm now l d = d \/ exists i, In i l /\ min_until tm now l d = deadline (tm i) - now).
Proof.
  intros Hn Hd. induction l as [|x r IH]; intros d; cbn [min_until].
  - split; [lia|]. split; [intros i []|left; reflexivity].
  - rewrite until_spec by auto. destruct (IH (if deadline (tm x) - now <? d then deadline (tm x) - now else d)) as (H1 & H2 & H3).
    destruct (deadline (tm x) - now <? d) eqn:E.
    + split; [lia|]. split; [intros i [<-|K]; [exact H1|exact (H2 i K)]|].
      right. destruct H3 as [H3|(i & K & H3)]; [exists x; split; [left; reflexivity|exact H3]|exists i; split; [right; exact K|exact H3]].
    + split; [exact H1|]. split; [intros i [<-|K]; [lia|exact (H2 i K)]|].
      destruct H3 as [H3|(i & K & H3)]; [left; exact H3|right; exists i; split; [right; exact K|exact H3]].
Qed.

Lemma update_bounds s : inv s -> upper (update_time s) /\ lower (update_time s).
Proof.
  intros I. unfold upper, lower, update_time. cbn [s_list s_next s_now s_tm].
  destruct (s_list s) as [|x r]; [split; [intros i []|congruence]|].
  pose proof (i_now _ I) as Hn. pose proof (i_dl _ I) as Hd. rewrite until_spec by auto.
  destruct (min_until_spec (s_tm s) (s_now s) r Hn Hd (deadline (s_tm s x) - s_now s)) as (H1 & H2 & H3).
  set (m := min_until (s_tm s) (s_now s) r (deadline (s_tm s x) - s_now s)) in *.
  assert (Hm : s_now s + m < W).
  { destruct H3 as [-> | (i & K & ->)]; [pose proof (Hd x)|pose proof (Hd i)]; lia. }
  rewrite add64_small by exact Hm. split.
  - intros i [<-|K]; [lia|specialize (H2 i K); lia].
  - intros _. destruct H3 as [H3|(i & K & H3)]; [exists x; split; [left; reflexivity|lia]|exists i; split; [right; exact K|lia]].
Qed.

Lemma existsb_In l i : existsb (fun x => x =? i) l = true <-> In i l.
Proof. rewrite existsb_exists. split; [intros (x & K & E); apply N.eqb_eq in E; subst; exact K|intros K; exists i; split; [exact K|apply N.eqb_refl]]. Qed.

Lemma inv_update s : inv s -> inv (update_time s).
Proof. intros I. constructor; apply I. Qed.

(** Everything [add_timer] does when it is used from within a process. *)
Lemma add_timer_ok s i cur : NoDup (s_list s) -> (forall j, In j (s_list s) -> t_p (s_tm s j) <> 0) -> s_now s < W - 1 ->
  (forall j, deadline (s_tm s j) < W) -> cur <> 0 ->
  exists s', add_timer s i cur = Some s' /\ inv s' /\ upper s' /\ lower s' /\
    s_now s' = s_now s /\ s_queue s' = s_queue s /\ s_cap s' = s_cap s /\ s_poll s' = true /\
    (forall j, In j (s_list s') <-> j = i \/ In j (s_list s)) /\
    (forall j, s_tm s' j = if j =? i then mkT (t_start (s_tm s i)) (t_int (s_tm s i)) cur else s_tm s j).
Proof.
  intros Nd Hp Hn Hd Hc. unfold add_timer.
  destruct (existsb (fun x => x =? i) (s_list s)) eqn:E.
  - apply existsb_In in E. pose proof (Hp i E). destruct (t_p (s_tm s i) =? 0) eqn:E0; [lia|]. cbn [negb andb].
    match goal with |- context [update_time ?x] => assert (I : inv x) end.
    { constructor; cbn [s_list s_tm s_now]; [exact Nd| |exact Hn|].
      - intros j K. unfold upd. destruct (j =? i); [exact Hc|exact (Hp j K)].
      - intros j. unfold upd. destruct (j =? i); [apply Hd|apply Hd]. }
    destruct (update_bounds _ I) as [U L]. eexists. split; [reflexivity|]. split; [apply inv_update; exact I|]. split; [exact U|]. split; [exact L|].
    cbn [update_time s_now s_queue s_cap s_poll s_list s_tm]. repeat split; auto; intros; intuition (subst; auto).
  - replace (negb (t_p (s_tm s i) =? 0) && false) with false by (symmetry; apply andb_false_r). cbn [negb andb].
    assert (Hni : ~ In i (s_list s)) by (intros K; apply existsb_In in K; congruence).
    match goal with |- context [update_time ?x] => assert (I : inv x) end.
    { constructor; cbn [s_list s_tm s_now]; [constructor; assumption| |exact Hn|].
      - intros j [<-|K]; unfold upd; [rewrite N.eqb_refl; exact Hc|]. destruct (j =? i); [exact Hc|exact (Hp j K)].
      - intros j. unfold upd. destruct (j =? i); apply Hd. }
    destruct (update_bounds _ I) as [U L]. eexists. split; [reflexivity|]. split; [apply inv_update; exact I|]. split; [exact U|]. split; [exact L|].
    cbn [update_time s_now s_queue s_cap s_poll s_list s_tm In]. repeat split; auto; intros; intuition (subst; auto).
Qed.

(** The poll scan. *)
Lemma scan_noroom s l : room s = false -> forall before asked,
  scan s before l asked = (mkSt (s_now s) (s_tm s) (s_list s) (s_next s) (s_queue s) (s_cap s) (s_poll s || (asked || existsb (fun i => timer_expired (s_tm s i) (s_now s)) l)), false).
Proof.
  intros Hr. induction l as [|i r IH]; intros before asked; cbn [scan existsb].
  - rewrite orb_false_r. reflexivity.
  - destruct (timer_expired (s_tm s i) (s_now s)) eqn:E; cbn [negb orb].
    + rewrite Hr. cbn [negb]. rewrite IH. cbn [orb]. rewrite (orb_true_r asked). reflexivity.
    + apply IH.
Qed.

Lemma scan_room s l : room s = true -> forall before,
  (forallb (fun i => negb (timer_expired (s_tm s i) (s_now s))) l = true /\ scan s before l false = (mkSt (s_now s) (s_tm s) (s_list s) (s_next s) (s_queue s) (s_cap s) (s_poll s || false), false))
  \/ exists l1 i l2, l = l1 ++ i :: l2 /\ forallb (fun i => negb (timer_expired (s_tm s i) (s_now s))) l1 = true /\ timer_expired (s_tm s i) (s_now s) = true /\
     scan s before l false = (update_time
              (mkSt (s_now s) (upd (s_tm s) i (mkT (t_start (s_tm s i)) (t_int (s_tm s i)) 0)) ((before ++ l1) ++ l2) (s_next s)
                    (s_queue s ++ [(t_p (s_tm s i), i)]) (s_cap s) (s_poll s || false)), true).
Proof.
  intros Hr. induction l as [|i r IH]; intros before; cbn [scan forallb].
  - left. split; reflexivity.
  - destruct (timer_expired (s_tm s i) (s_now s)) eqn:E; cbn [negb andb].
    + right. rewrite Hr. cbn [negb]. exists [], i, r. rewrite app_nil_r. repeat split; auto.
    + destruct (IH (before ++ [i])) as [[H1 H2]|(l1 & j & l2 & -> & H1 & H2 & H3)].
      * left. split; [exact H1|exact H2].
      * right. exists (i :: l1), j, l2. split; [reflexivity|]. cbn [forallb]. rewrite E. cbn [negb andb]. split; [exact H1|]. split; [exact H2|].
        rewrite H3. rewrite <- (app_assoc before [i] l1). reflexivity.
Qed.

Definition memb (i : N) (l : list N) : bool := existsb (fun x => x =? i) l.

(** What a complete poll does. *)
Record poll_post (s s' : st) (posted : list N) : Prop := {
  pp_now : s_now s' = s_now s; pp_cap : s_cap s' = s_cap s;
  pp_posted : posted = take_opt (free_places s) (filter (due s) (s_list s));
  pp_queue : s_queue s' = s_queue s ++ map (fun i => (t_p (s_tm s i), i)) posted;
  pp_list : s_list s' = filter (fun i => negb (memb i posted)) (s_list s);
  pp_tm : forall i, s_tm s' i = if memb i posted then mkT (t_start (s_tm s i)) (t_int (s_tm s i)) 0 else s_tm s i;
  pp_poll : s_poll s' = s_poll s || negb (List.length posted =? List.length (filter (due s) (s_list s)))%nat;
  pp_upper : upper s -> upper s'; pp_lower : lower s -> lower s' }.

Lemma filter_none {A} (f : A -> bool) l : forallb (fun x => negb (f x)) l = true -> filter f l = [].
Proof. induction l as [|x r IH]; cbn [forallb filter]; [reflexivity|]. intros H. apply andb_true_iff in H. destruct H as [H1 H2]. destruct (f x); [discriminate|]. apply IH; exact H2. Qed.

Lemma filter_true {A} (f : A -> bool) l : (forall x, In x l -> f x = true) -> filter f l = l.
Proof. induction l as [|x r IH]; intros H; cbn [filter]; [reflexivity|]. rewrite (H x (or_introl eq_refl)). f_equal. apply IH. intros y K. apply H. right; exact K. Qed.

Lemma filter_ext_In {A} (f g : A -> bool) l : (forall x, In x l -> f x = g x) -> filter f l = filter g l.
Proof. induction l as [|x r IH]; intros H; cbn [filter]; [reflexivity|]. rewrite (H x (or_introl eq_refl)). rewrite IH by (intros y K; apply H; right; exact K). reflexivity. Qed.

Lemma memb_In i l : memb i l = true <-> In i l.
Proof. apply existsb_In. Qed.

Lemma take_opt_In {A} n (l : list A) x : In x (take_opt n l) -> In x l.
Proof. destruct n as [k|]; cbn [take_opt]; [|tauto]. intros H. rewrite <- (firstn_skipn k l). apply in_or_app. left; exact H. Qed.

Lemma poll_all_ok fuel : forall s, inv s -> (List.length (s_list s) < fuel)%nat ->
  exists s' posted, poll_all fuel s = Some s' /\ poll_post s s' posted /\ inv s'.
Proof.
  induction fuel as [|f IH]; intros s I Hf; [lia|]. cbn [poll_all]. unfold process_poll.
  assert (Hexp : forall i, timer_expired (s_tm s i) (s_now s) = due s i) by (intros i; apply expired_due; apply I).
  destruct (room s) eqn:Er.
  - destruct (scan_room s (s_list s) Er []) as [[H1 H2]|(l1 & i & l2 & El & H1 & H2 & H3)].
    + rewrite H2. assert (Ef : filter (due s) (s_list s) = []).
      { apply filter_none. rewrite forallb_forall in H1 |- *. intros x K. rewrite <- Hexp. exact (H1 x K). }
      eexists; exists []. split; [reflexivity|]. split.
      * constructor; cbn [s_now s_cap s_queue s_list s_tm s_poll]; auto.
        -- rewrite Ef. destruct (free_places s); cbn [take_opt]; [rewrite firstn_nil|]; reflexivity.
        -- cbn [map]. symmetry; apply app_nil_r.
        -- symmetry. apply filter_true. reflexivity.
        -- rewrite Ef. reflexivity.
      * constructor; apply I.
    + rewrite H3. cbn [app]. rewrite orb_false_r.
      set (s1 := mkSt (s_now s) (upd (s_tm s) i (mkT (t_start (s_tm s i)) (t_int (s_tm s i)) 0)) (l1 ++ l2) (s_next s)
                    (s_queue s ++ [(t_p (s_tm s i), i)]) (s_cap s) (s_poll s)) in *.
      pose proof (i_nodup _ I) as Nd. rewrite El in Nd.
      assert (Hni : ~ In i (l1 ++ l2)) by exact (NoDup_remove_2 _ _ _ Nd).
      assert (I1 : inv s1).
      { constructor; cbn [s1 s_list s_tm s_now]; [exact (NoDup_remove_1 _ _ _ Nd)| |apply I|].
        - intros j K. unfold upd. destruct (j =? i) eqn:E; [apply N.eqb_eq in E; subst; contradiction|].
          apply (i_p _ I). rewrite El. apply in_app_or in K. apply in_or_app. cbn [In]. tauto.
        - intros j. unfold upd. destruct (j =? i); apply (i_dl _ I). }
      destruct (IH (update_time s1) (inv_update _ I1)) as (s' & posted & Ep & PP & I').
      { cbn [update_time s_list s1]. rewrite El in Hf. rewrite app_length in *. cbn [List.length] in Hf. lia. }
      exists s', (i :: posted). split; [exact Ep|]. split; [|exact I'].
      destruct (update_bounds _ I1) as [U1 L1].
      assert (Hdue1 : forall j, In j (l1 ++ l2) -> due (update_time s1) j = due s j).
      { intros j K. unfold due. cbn [update_time s_tm s1 s_now]. unfold upd. destruct (j =? i) eqn:E; [apply N.eqb_eq in E; subst; contradiction|reflexivity]. }
      assert (Ef1 : filter (due (update_time s1)) (l1 ++ l2) = filter (due s) l2).
      { rewrite (filter_ext_In _ (due s)) by exact Hdue1. rewrite filter_app.
        rewrite (filter_none (due s) l1); [reflexivity|]. rewrite forallb_forall in H1 |- *. intros x K. rewrite <- Hexp. exact (H1 x K). }
      assert (Ef : filter (due s) (s_list s) = i :: filter (due s) l2).
      { rewrite El, filter_app. rewrite (filter_none (due s) l1) by (rewrite forallb_forall in H1 |- *; intros x K; rewrite <- Hexp; exact (H1 x K)).
        cbn [filter app]. rewrite <- Hexp, H2. reflexivity. }
      assert (Hposted : posted = take_opt (free_places (update_time s1)) (filter (due s) l2)).
      { rewrite (pp_posted _ _ _ PP). cbn [update_time s_list]. change (s_list s1) with (l1 ++ l2). rewrite Ef1. reflexivity. }
      assert (Hpin : forall j, In j posted -> In j l2).
      { intros j K. rewrite Hposted in K. apply take_opt_In in K. apply filter_In in K. tauto. }
      assert (Hip : ~ In i posted) by (intros K; apply Hni; apply in_or_app; right; exact (Hpin i K)).
      constructor.
      * rewrite (pp_now _ _ _ PP). reflexivity.
      * rewrite (pp_cap _ _ _ PP). reflexivity.
      * rewrite Ef, Hposted. unfold free_places, room in *. cbn [update_time s_cap s_queue s1] in *. destruct (s_cap s) as [c|]; cbn [take_opt]; [|reflexivity].
        rewrite app_length. cbn [List.length]. apply Nat.ltb_lt in Er.
        replace (c - List.length (s_queue s))%nat with (S (c - (List.length (s_queue s) + 1)))%nat by lia. reflexivity.
      * rewrite (pp_queue _ _ _ PP). cbn [update_time s_queue s1 s_tm map]. rewrite <- app_assoc. cbn [app]. f_equal. f_equal.
        apply map_ext_in. intros j K. unfold upd. destruct (j =? i) eqn:E; [apply N.eqb_eq in E; subst; contradiction|reflexivity].
      * rewrite (pp_list _ _ _ PP). cbn [update_time s_list]. change (s_list s1) with (l1 ++ l2). rewrite El, !filter_app.
        cbn [filter memb existsb]. rewrite N.eqb_refl. cbn [negb orb].
        f_equal; apply filter_ext_In; intros x K; (destruct (i =? x) eqn:E; [exfalso; apply N.eqb_eq in E; subst; apply Hni; apply in_or_app; tauto|reflexivity]).
      * intros j. rewrite (pp_tm _ _ _ PP j). cbn [update_time s_tm s1 memb existsb]. unfold upd. rewrite (N.eqb_sym i j).
        destruct (j =? i) eqn:E; cbn [orb].
        -- apply N.eqb_eq in E. subst j. destruct (memb i posted) eqn:E1; [apply memb_In in E1; contradiction|reflexivity].
        -- reflexivity.
      * rewrite (pp_poll _ _ _ PP). cbn [update_time s_poll s_list]. change (s_list s1) with (l1 ++ l2). rewrite Ef, Ef1. reflexivity.
      * intros _. exact (pp_upper _ _ _ PP U1).
      * intros _. exact (pp_lower _ _ _ PP L1).
  - rewrite (scan_noroom s (s_list s) Er [] false). cbn [orb].
    eexists; exists []. split; [reflexivity|].
    assert (Ex : existsb (fun i => timer_expired (s_tm s i) (s_now s)) (s_list s) = negb (0 =? List.length (filter (due s) (s_list s)))%nat).
    { clear Hf. induction (s_list s) as [|x r IHl]; [reflexivity|]. cbn [existsb filter]. rewrite Hexp. destruct (due s x); [reflexivity|]. exact IHl. }
    split.
    + constructor; cbn [s_now s_cap s_queue s_list s_tm s_poll]; auto.
      * unfold room, free_places in *. destruct (s_cap s) as [c|]; [|discriminate]. apply Nat.ltb_ge in Er.
        replace (c - List.length (s_queue s))%nat with 0%nat by lia. reflexivity.
      * cbn [map]. symmetry; apply app_nil_r.
      * symmetry. apply filter_true. reflexivity.
      * rewrite Ex. reflexivity.
    + constructor; apply I.
Qed.

Lemma with_timer_dl s i a b : (forall j, deadline (s_tm s j) < W) -> a + b < W -> forall j, deadline (s_tm (with_timer s i a b) j) < W.
Proof. intros H Hab j. cbn [with_timer s_tm]. unfold upd. destruct (j =? i); [exact Hab|apply H]. Qed.
Lemma with_timer_p s i a b : (forall j, In j (s_list s) -> t_p (s_tm s j) <> 0) -> forall j, In j (s_list (with_timer s i a b)) -> t_p (s_tm (with_timer s i a b) j) <> 0.
Proof. intros H j. cbn [with_timer s_tm s_list]. intros K. unfold upd. destruct (j =? i) eqn:E; [apply N.eqb_eq in E; subst; cbn [t_p]|]; apply H; exact K. Qed.

Lemma exec_ok s o : inv s -> op_ok s o -> exists s', exec s o = Some s' /\ inv s' /\ (upper s -> upper s') /\ (no_exit o = true -> lower s -> lower s').
Proof.
  intros I Ok. pose proof (i_nodup _ I) as Nd. pose proof (i_p _ I) as Hp. pose proof (i_now _ I) as Hn. pose proof (i_dl _ I) as Hd.
  assert (Add : forall i a b cur, a + b < W -> cur <> 0 -> exists s', add_timer (with_timer s i a b) i cur = Some s' /\ inv s' /\ (upper s -> upper s') /\ (lower s -> lower s')).
  { intros i a b cur Hab Hc. destruct (add_timer_ok (with_timer s i a b) i cur Nd (with_timer_p s i a b Hp) Hn (with_timer_dl s i a b Hd Hab) Hc)
      as (s' & E & I' & U & L & _). exists s'. auto. }
  destruct o as [i int cur|i int cur|i cur|i cur|i| |p|d|]; cbn [exec op_ok no_exit] in *.
  - destruct Ok as [Ok Hc]. destruct (Add i (s_now s) int cur Ok Hc) as (s' & E & I' & U & L). exists s'. auto.
  - destruct Ok as [Ok Hc]. unfold etimer_reset_new. rewrite add64_small by lia. destruct (Add i _ int cur Ok Hc) as (s' & E & I' & U & L). exists s'. auto.
  - destruct Ok as [Ok Hc]. unfold etimer_reset. rewrite add64_small by lia. destruct (Add i _ _ cur Ok Hc) as (s' & E & I' & U & L). exists s'. auto.
  - destruct Ok as [Ok Hc]. destruct (Add i (s_now s) (t_int (s_tm s i)) cur Ok Hc) as (s' & E & I' & U & L). exists s'. auto.
  - eexists. split; [reflexivity|]. unfold etimer_stop.
    assert (Hf : forall j, In j (filter (fun x => negb (x =? i)) (s_list s)) <-> In j (s_list s) /\ j <> i).
    { intros j. rewrite filter_In. destruct (j =? i) eqn:E; cbn [negb]; split; intros [H1 H2]; split; auto; try congruence; lia. }
    destruct (existsb (fun x => x =? i) (s_list s)) eqn:E.
    + match goal with |- context [update_time ?x] => assert (I1 : inv x) end.
      { constructor; cbn [s_list s_tm s_now]; [apply NoDup_filter; exact Nd| |exact Hn|exact Hd]. intros j K. apply Hf in K. apply Hp. tauto. }
      destruct (update_bounds _ I1) as [U L]. unfold upper, lower in U, L. cbn [update_time s_list s_next s_now s_tm] in U, L.
      split; [|split].
      * constructor; cbn [update_time s_list s_tm s_now]; [apply NoDup_filter; exact Nd| |exact Hn|].
        -- intros j K. apply Hf in K. unfold upd. destruct (j =? i) eqn:E1; [lia|]. apply Hp; tauto.
        -- intros j. unfold upd. destruct (j =? i); apply Hd.
      * intros _. unfold upper. cbn [update_time s_list s_next s_now s_tm]. intros j K. specialize (U j K). apply Hf in K. unfold upd. destruct (j =? i) eqn:E1; [lia|exact U].
      * intros _ _. unfold lower. cbn [update_time s_list s_next s_now s_tm]. intros K. destruct (L K) as (j & K1 & K2). exists j. split; [exact K1|].
        apply Hf in K1. unfold upd. destruct (j =? i) eqn:E1; [lia|exact K2].
    + assert (Hni : ~ In i (s_list s)) by (intros K; apply existsb_In in K; congruence).
      assert (Hne : forall j, In j (s_list s) -> (j =? i) = false) by (intros j K; destruct (j =? i) eqn:E1; [apply N.eqb_eq in E1; subst; contradiction|reflexivity]).
      split; [|split].
      * constructor; cbn [s_list s_tm s_now]; [exact Nd| |exact Hn|].
        -- intros j K. unfold upd. rewrite (Hne j K). apply Hp; exact K.
        -- intros j. unfold upd. destruct (j =? i); apply Hd.
      * unfold upper. cbn [s_list s_next s_now s_tm]. intros U j K. unfold upd. rewrite (Hne j K). exact (U j K).
      * unfold lower. cbn [s_list s_next s_now s_tm]. intros _ L K. destruct (L K) as (j & K1 & K2). exists j. split; [exact K1|]. unfold upd. rewrite (Hne j K1). exact K2.
  - set (s0 := mkSt (s_now s) (s_tm s) (s_list s) (s_next s) (s_queue s) (s_cap s) false).
    assert (I0 : inv s0) by (constructor; apply I).
    destruct (poll_all_ok (S (List.length (s_list s))) s0 I0) as (s' & posted & E & PP & I'); [cbn [s0 s_list]; lia|].
    exists s'. split; [exact E|]. split; [exact I'|]. split; [intros U; apply (pp_upper _ _ _ PP); exact U|intros _ L; apply (pp_lower _ _ _ PP); exact L].
  - eexists. split; [reflexivity|]. split; [|split; [|discriminate]].
    + constructor; cbn [remove_process s_list s_tm s_now]; [apply NoDup_filter; exact Nd| |exact Hn|exact Hd].
      intros j K. apply filter_In in K. apply Hp. tauto.
    + unfold upper. cbn [remove_process s_list s_next s_now s_tm]. intros U j K. apply filter_In in K. apply U; tauto.
  - eexists. split; [reflexivity|]. split; [constructor; cbn [s_list s_tm s_now]; auto|]. split.
    + unfold upper. cbn [s_list s_next s_now s_tm]. intros U j K. specialize (U j K). lia.
    + unfold lower. cbn [s_list s_next s_now s_tm]. intros _ L. exact L.
  - eexists. split; [reflexivity|]. split; [constructor; cbn [s_list s_tm s_now]; auto|]. split; [intros U; exact U|intros _ L; exact L].
Qed.

Lemma inv_init now cap : now < W - 1 -> inv (init now cap) /\ upper (init now cap) /\ lower (init now cap).
Proof.
  intros H. pose proof W_pos. split; [|split].
  - constructor; cbn; [constructor|intros i []|exact H|intros i; unfold deadline; cbn; lia].
  - intros i [].
  - intros K. cbn in K. congruence.
Qed.

Lemma run_ok os : forall s, inv s -> upper s -> ops_ok s os ->
  exists s', run s os = Some s' /\ inv s' /\ upper s' /\ (forallb no_exit os = true -> lower s -> lower s').
Proof.
  induction os as [|o r IH]; intros s I U Ok; cbn [run].
  - exists s. auto.
  - destruct Ok as [O1 O2]. destruct (exec_ok s o I O1) as (s1 & E & I1 & U1 & L1). rewrite E.
    destruct (IH s1 I1 (U1 U) (O2 s1 E)) as (s2 & E2 & I2 & U2 & L2). exists s2. split; [exact E2|]. split; [exact I2|]. split; [exact U2|].
    cbn [forallb]. intros K L. apply andb_true_iff in K. destruct K as [K1 K2]. apply L2; [exact K2|]. apply L1; assumption.
Qed.

(** Timers that are not armed again stay silent. *)
Definition arms (i : N) (o : op) : bool :=
  match o with OSet j _ _ | OResetNew j _ _ | OReset j _ | ORestart j _ => j =? i | _ => false end.

Definition events_of (i : N) (s : st) : list (N * N) := filter (fun e => snd e =? i) (s_queue s).

Lemma silent_step s o s' i : inv s -> op_ok s o -> arms i o = false -> ~ In i (s_list s) -> exec s o = Some s' ->
  ~ In i (s_list s') /\ exists k, events_of i s' = skipn k (events_of i s).
Proof.
  intros I Ok Ha Hni E. pose proof (i_nodup _ I) as Nd. pose proof (i_p _ I) as Hp. pose proof (i_now _ I) as Hn. pose proof (i_dl _ I) as Hd.
  assert (Add : forall j a b cur, a + b < W -> cur <> 0 -> (j =? i) = false -> add_timer (with_timer s j a b) j cur = Some s' ->
                ~ In i (s_list s') /\ exists k, events_of i s' = skipn k (events_of i s)).
  { intros j a b cur Hab Hc Hj Ea. destruct (add_timer_ok (with_timer s j a b) j cur Nd (with_timer_p s j a b Hp) Hn (with_timer_dl s j a b Hd Hab) Hc)
      as (s2 & E2 & _ & _ & _ & _ & Hq & _ & _ & Hl & _). rewrite Ea in E2. injection E2 as <-.
    split; [rewrite Hl; intros [K|K]; [lia|contradiction]|]. exists 0%nat. unfold events_of. rewrite Hq. reflexivity. }
  destruct o as [j int cur|j int cur|j cur|j cur|j| |p|d|]; cbn [exec op_ok arms] in *.
  - destruct Ok as [Ok Hc]. exact (Add _ _ _ _ Ok Hc Ha E).
  - destruct Ok as [Ok Hc]. unfold etimer_reset_new in E. rewrite add64_small in E by lia. exact (Add _ _ _ _ Ok Hc Ha E).
  - destruct Ok as [Ok Hc]. unfold etimer_reset in E. rewrite add64_small in E by lia. exact (Add _ _ _ _ Ok Hc Ha E).
  - destruct Ok as [Ok Hc]. exact (Add _ _ _ _ Ok Hc Ha E).
  - injection E as <-. unfold etimer_stop. destruct (existsb (fun x => x =? j) (s_list s)); cbn [update_time s_list s_queue];
      (split; [|exists 0%nat; reflexivity]); [rewrite filter_In; tauto|exact Hni].
  - set (s0 := mkSt (s_now s) (s_tm s) (s_list s) (s_next s) (s_queue s) (s_cap s) false) in *.
    assert (I0 : inv s0) by (constructor; apply I).
    destruct (poll_all_ok (S (List.length (s_list s))) s0 I0) as (s2 & posted & E2 & PP & I'); [cbn [s0 s_list]; lia|].
    rewrite E in E2. injection E2 as <-. split.
    + rewrite (pp_list _ _ _ PP). rewrite filter_In. cbn [s0 s_list]. tauto.
    + exists 0%nat. unfold events_of. rewrite (pp_queue _ _ _ PP). cbn [s0 s_queue s_tm skipn]. rewrite filter_app.
      replace (filter (fun e : N * N => snd e =? i) (map (fun i0 : N => (t_p (s_tm s i0), i0)) posted)) with (@nil (N * N)); [apply app_nil_r|].
      symmetry. apply filter_none. rewrite forallb_forall. intros [q x] K. apply in_map_iff in K. destruct K as (y & [= <- <-] & K). cbn [snd].
      rewrite (pp_posted _ _ _ PP) in K. apply take_opt_In in K. apply filter_In in K. cbn [s0 s_list] in K.
      destruct (y =? i) eqn:E1; [apply N.eqb_eq in E1; subst; tauto|reflexivity].
  - injection E as <-. cbn [remove_process s_list s_queue]. split; [rewrite filter_In; tauto|exists 0%nat; reflexivity].
  - injection E as <-. cbn [s_list s_queue]. split; [exact Hni|exists 0%nat; reflexivity].
  - injection E as <-. cbn [s_list s_queue]. split; [exact Hni|]. unfold events_of. cbn [s_queue]. destruct (s_queue s) as [|e q]; [exists 0%nat; reflexivity|].
    cbn [tl filter]. destruct (snd e =? i); [exists 1%nat; reflexivity|exists 0%nat; reflexivity].
Qed.

Lemma silent_run i os : forall s s', inv s -> upper s -> ops_ok s os -> forallb (fun o => negb (arms i o)) os = true -> ~ In i (s_list s) -> run s os = Some s' ->
  ~ In i (s_list s') /\ exists k, events_of i s' = skipn k (events_of i s).
Proof.
  induction os as [|o r IH]; intros s s' I U Ok Ha Hni E; cbn [run] in E.
  - injection E as <-. split; [exact Hni|exists 0%nat; reflexivity].
  - destruct Ok as [O1 O2]. cbn [forallb] in Ha. apply andb_true_iff in Ha. destruct Ha as [H1 H2].
    destruct (exec_ok s o I O1) as (s1 & E1 & I1 & U1 & _). rewrite E1 in E.
    destruct (silent_step s o s1 i I O1 (proj1 (negb_true_iff _) H1) Hni E1) as (Hn1 & k1 & K1).
    destruct (IH s1 s' I1 (U1 U) (O2 s1 E1) H2 Hn1 E) as (Hn2 & k2 & K2). split; [exact Hn2|].
    exists (k1 + k2)%nat. rewrite K2, K1, skipn_skipn. reflexivity.
Qed.
