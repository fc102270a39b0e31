(** C24: event timers (util/oc_etimer.c, util/oc_timer.c). *)
From Verif Require Import Common Etimer_Model Etimer_Spec Etimer_Proofs.
Local Open Scope N_scope.

(** In every reachable state, a run of the timer process posts one event for each armed timer whose deadline
    has passed (as many as fit the queue, in list order), to the process that armed it, disarms exactly these
    and no other, and asks to be run again exactly when some did not fit. *)
Theorem C24_poll_posts_exactly_the_due_timers :
  forall now cap os s, now < W - 1 -> ops_ok (init now cap) os -> run (init now cap) os = Some s ->
  exists s' posted, exec s OPoll = Some s' /\
    posted = take_opt (free_places s) (filter (due s) (s_list s)) /\
    NoDup posted /\
    s_queue s' = s_queue s ++ map (fun i => (t_p (s_tm s i), i)) posted /\
    (forall i, In i (s_list s') <-> In i (s_list s) /\ ~ In i posted) /\
    (forall i, etimer_expired s' i = true <-> etimer_expired s i = true \/ In i posted) /\
    (s_poll s' = true <-> exists i, In i (s_list s') /\ due s i = true).
Proof.
  intros now cap os s Hnow Ok E. destruct (inv_init now cap Hnow) as (I0 & U0 & _).
  destruct (run_ok os _ I0 U0 Ok) as (s1 & E1 & I & U & _). rewrite E in E1. injection E1 as <-.
  cbn [exec]. set (s0 := mkSt (s_now s) (s_tm s) (s_list s) (s_next s) (s_queue s) (s_cap s) false).
  assert (Is0 : inv s0) by (constructor; apply I).
  destruct (poll_all_ok (S (List.length (s_list s))) s0 Is0) as (s' & posted & Ep & PP & I'); [cbn [s0 s_list]; lia|].
  exists s', posted. split; [exact Ep|]. split; [exact (pp_posted _ _ _ PP)|].
  assert (Nd : NoDup (filter (due s) (s_list s))) by (apply NoDup_filter; apply I).
  pose proof (pp_posted _ _ _ PP) as Hp. change (free_places s0) with (free_places s) in Hp. change (filter (due s0) (s_list s0)) with (filter (due s) (s_list s)) in Hp.
  assert (Hsplit : exists rest, filter (due s) (s_list s) = posted ++ rest).
  { rewrite Hp. destruct (free_places s) as [k|]; cbn [take_opt]; [exists (skipn k (filter (due s) (s_list s))); symmetry; apply firstn_skipn|exists []; symmetry; apply app_nil_r]. }
  destruct Hsplit as [rest Hr]. split.
  { rewrite Hr in Nd. clear -Nd. induction posted as [|x r IH]; [constructor|]. cbn [app] in Nd. inversion Nd as [|? ? H1 H2]; subst. constructor; [intros K; apply H1; apply in_or_app; left; exact K|auto]. }
  split; [exact (pp_queue _ _ _ PP)|].
  assert (Hlist : forall i, In i (s_list s') <-> In i (s_list s) /\ ~ In i posted).
  { intros i. rewrite (pp_list _ _ _ PP), filter_In. cbn [s0 s_list]. destruct (memb i posted) eqn:Em; cbn [negb].
    - apply memb_In in Em. split; [intros [_ K]; discriminate|intros [_ K]; contradiction].
    - split; intros [K1 K2]; (split; [exact K1|]); [intros K; apply memb_In in K; congruence|reflexivity]. }
  split; [exact Hlist|]. split.
  { intros i. unfold etimer_expired. rewrite (pp_tm _ _ _ PP i). cbn [s0 s_tm]. destruct (memb i posted) eqn:Em; cbn [t_p].
    - apply memb_In in Em. split; [intros _; right; exact Em|intros _; reflexivity].
    - split; [intros K; left; exact K|intros [K|K]; [exact K|apply memb_In in K; congruence]]. }
  rewrite (pp_poll _ _ _ PP). cbn [s0 s_poll s_list orb]. change (filter (due s0) (s_list s)) with (filter (due s) (s_list s)). rewrite Hr, app_length, negb_true_iff, Nat.eqb_neq.
  rewrite Hr in Nd. split.
  - intros K. destruct rest as [|i rest]; [cbn [List.length] in K; lia|]. exists i.
    assert (Hi : In i (filter (due s) (s_list s))) by (rewrite Hr; apply in_or_app; right; left; reflexivity).
    apply filter_In in Hi. split; [apply Hlist|tauto]. split; [tauto|]. intros K2. apply NoDup_remove_2 in Nd. apply Nd. apply in_or_app. left; exact K2.
  - intros (i & K1 & K2). apply Hlist in K1. destruct K1 as [K1 K3].
    assert (Hi : In i (posted ++ rest)) by (rewrite <- Hr; apply filter_In; split; assumption).
    apply in_app_or in Hi. destruct Hi as [Hi|Hi]; [contradiction|]. destruct rest; [destruct Hi|cbn [List.length]; lia].
Qed.
Print Assumptions C24_poll_posts_exactly_the_due_timers.

(** What the four ways of arming mean: start now with the given interval; now with the old interval (restart);
    at the old deadline with the old interval (reset) or a new one.  No other timer is affected. *)
Definition armed_from (s : st) (o : op) : option (N * N * N * N) :=
  match o with
  | OSet i int cur => Some (i, s_now s, int, cur)
  | ORestart i cur => Some (i, s_now s, t_int (s_tm s i), cur)
  | OReset i cur => Some (i, deadline (s_tm s i), t_int (s_tm s i), cur)
  | OResetNew i int cur => Some (i, deadline (s_tm s i), int, cur)
  | _ => None
  end.
Theorem C24_arming :
  forall now cap os s o i start int p, now < W - 1 -> ops_ok (init now cap) os -> run (init now cap) os = Some s ->
  op_ok s o -> armed_from s o = Some (i, start, int, p) ->
  exists s', exec s o = Some s' /\
    s_tm s' i = mkT start int p /\
    (forall j, In j (s_list s') <-> j = i \/ In j (s_list s)) /\
    (forall j, j <> i -> s_tm s' j = s_tm s j) /\
    s_queue s' = s_queue s /\ s_poll s' = true /\ s_now s' = s_now s.
Proof.
  intros now cap os s o i start int p Hnow Ok E Oo Ho. destruct (inv_init now cap Hnow) as (I0 & U0 & _).
  destruct (run_ok os _ I0 U0 Ok) as (s1 & E1 & I & U & _). rewrite E in E1. injection E1 as <-.
  pose proof (i_nodup _ I) as Nd. pose proof (i_p _ I) as Hp. pose proof (i_now _ I) as Hn. pose proof (i_dl _ I) as Hd.
  assert (Add : forall a b c, a + b < W -> c <> 0 -> exists s', add_timer (with_timer s i a b) i c = Some s' /\ s_tm s' i = mkT a b c /\
    (forall j, In j (s_list s') <-> j = i \/ In j (s_list s)) /\ (forall j, j <> i -> s_tm s' j = s_tm s j) /\
    s_queue s' = s_queue s /\ s_poll s' = true /\ s_now s' = s_now s).
  { intros a b c Hab Hc. destruct (add_timer_ok (with_timer s i a b) i c Nd (with_timer_p s i a b Hp) Hn (with_timer_dl s i a b Hd Hab) Hc)
      as (s2 & E2 & _ & _ & _ & Hnw & Hq & _ & Hpo & Hl & Ht). exists s2. split; [exact E2|].
    cbn [with_timer s_now s_queue s_list s_tm] in *. unfold upd in Ht. split; [rewrite (Ht i), !N.eqb_refl; reflexivity|].
    split; [exact Hl|]. split; [|auto]. intros j K. rewrite (Ht j). destruct (j =? i) eqn:Ej; [lia|reflexivity]. }
  destruct o; cbn [armed_from] in Ho; try discriminate; injection Ho as -> <- <- <-; destruct Oo as [Oo Hc]; cbn [exec].
  - exact (Add _ _ _ Oo Hc).
  - unfold etimer_reset_new. rewrite add64_small by lia. exact (Add _ _ _ Oo Hc).
  - unfold etimer_reset. rewrite add64_small by lia. exact (Add _ _ _ Oo Hc).
  - exact (Add _ _ _ Oo Hc).
Qed.
Print Assumptions C24_arming.

(** The reported next expiration is never later than the earliest deadline, except that a deadline already
    passed may be reported as any time up to now: the main loop never oversleeps. *)
Theorem C24_next_expiration_not_late :
  forall now cap os s d, now < W - 1 -> ops_ok (init now cap) os -> run (init now cap) os = Some s -> earliest s d ->
  next_expiration s <= N.max (s_now s) d.
Proof.
  intros now cap os s d Hnow Ok E [(i & Hi & <-) _]. destruct (inv_init now cap Hnow) as (I0 & U0 & _).
  destruct (run_ok os _ I0 U0 Ok) as (s1 & E1 & I & U & _). rewrite E in E1. injection E1 as <-.
  unfold next_expiration. pose proof (U i Hi). destruct (s_list s); [destruct Hi|assumption].
Qed.
Print Assumptions C24_next_expiration_not_late.

(** With no timer armed it is 0, also after the process that armed the last timer has exited. *)
Theorem C24_next_expiration_idle :
  forall now cap os s, run (init now cap) os = Some s -> (forall i, ~ In i (s_list s)) -> next_expiration s = 0.
Proof.
  intros now cap os s _ H. unfold next_expiration. destruct (s_list s) as [|i r]; [reflexivity|]. exfalso. apply (H i). left. reflexivity.
Qed.
Print Assumptions C24_next_expiration_idle.
Example C24_idle_case :
  option_map (fun s => (s_list s, s_next s, next_expiration s)) (run (init 0 None) [OSet 1 100 7; OExited 7]) = Some ([], 100, 0).
Proof. vm_compute. reflexivity. Qed.

(** As long as no process with armed timers exits, it is exact: a future earliest deadline is what is reported. *)
Theorem C24_next_expiration_exact :
  forall now cap os s d, now < W - 1 -> ops_ok (init now cap) os -> forallb no_exit os = true ->
  run (init now cap) os = Some s -> earliest s d ->
  d <= next_expiration s /\ (s_now s <= d -> next_expiration s = d).
Proof.
  intros now cap os s d Hnow Ok Hne E Hd. destruct (inv_init now cap Hnow) as (I0 & U0 & L0).
  destruct (run_ok os _ I0 U0 Ok) as (s1 & E1 & I & U & L). rewrite E in E1. injection E1 as <-.
  specialize (L Hne L0). destruct Hd as [(i & Hi & Ei) Hmin].
  pose proof (U i Hi) as Hu. unfold next_expiration. assert (Hnn : s_list s <> []) by (intros K; rewrite K in Hi; destruct Hi).
  destruct (L Hnn) as (j & Hj & Hlow). specialize (Hmin j Hj). destruct (s_list s); [congruence|]. split; lia.
Qed.
Print Assumptions C24_next_expiration_exact.

(** A stopped timer posts nothing more until it is armed again: whatever happens afterwards, the only events
    of it that can still be delivered are the ones that were queued when it was stopped. *)
Theorem C24_stopped_timer_is_silent :
  forall now cap os s i os' s', now < W - 1 -> ops_ok (init now cap) os -> run (init now cap) os = Some s ->
  ops_ok (etimer_stop s i) os' -> forallb (fun o => negb (arms i o)) os' = true -> run (etimer_stop s i) os' = Some s' ->
  ~ In i (s_list s') /\ exists k, events_of i s' = skipn k (events_of i s).
Proof.
  intros now cap os s i os' s' Hnow Ok E Ok' Ha E'. destruct (inv_init now cap Hnow) as (I0 & U0 & _).
  destruct (run_ok os _ I0 U0 Ok) as (s1 & E1 & I & U & _). rewrite E in E1. injection E1 as <-.
  destruct (exec_ok s (OStop i) I Logic.I) as (s2 & E2 & I2 & U2 & _). injection E2 as <-.
  assert (Hni : ~ In i (s_list (etimer_stop s i))).
  { unfold etimer_stop. destruct (existsb (fun x => x =? i) (s_list s)) eqn:Ex; cbn [update_time s_list].
    - rewrite filter_In, N.eqb_refl. cbn [negb]. intros [_ K]. discriminate.
    - intros K. apply existsb_In in K. congruence. }
  destruct (silent_run i os' _ s' I2 (U2 U) Ok' Ha Hni E') as (H1 & k & H2). split; [exact H1|]. exists k. rewrite H2.
  unfold etimer_stop, events_of. destruct (existsb (fun x => x =? i) (s_list s)); reflexivity.
Qed.
Print Assumptions C24_stopped_timer_is_silent.

(** The side condition as a computation, for the examples. *)
Definition op_okb (s : st) (o : op) : bool :=
  match o with
  | OSet i int cur => (s_now s + int <? W) && negb (cur =? 0)
  | OResetNew i int cur => (t_start (s_tm s i) + t_int (s_tm s i) + int <? W) && negb (cur =? 0)
  | OReset i cur => (t_start (s_tm s i) + t_int (s_tm s i) + t_int (s_tm s i) <? W) && negb (cur =? 0)
  | ORestart i cur => (s_now s + t_int (s_tm s i) <? W) && negb (cur =? 0)
  | OTick d => s_now s + d <? W - 1
  | OExited p => negb (p =? 0)
  | _ => true
  end.
Fixpoint ops_okb (s : st) (os : list op) : bool :=
  match os with [] => true | o :: r => op_okb s o && match exec s o with Some s' => ops_okb s' r | None => true end end.
Lemma ops_okb_ok os : forall s, ops_okb s os = true -> ops_ok s os.
Proof.
  induction os as [|o r IH]; intros s H; cbn [ops_okb ops_ok] in *; [exact I|]. apply andb_true_iff in H. destruct H as [H1 H2]. split.
  - clear H2. destruct o; cbn [op_okb op_ok] in *; try exact I; lia.
  - intros s' E. rewrite E in H2. apply IH, H2.
Qed.

(** After the exit of a process its timers are gone but the cached next expiration is not recomputed: it
    reports the removed timer's deadline (5) although the only armed timer is due at 100. *)
Theorem C24_next_expiration_after_exit_refuted :
  exists os s, ops_ok (init 0 None) os /\ run (init 0 None) os = Some s /\ earliest s 100 /\ s_now s < 100 /\ next_expiration s = 5.
Proof.
  destruct (run (init 0 None) [OSet 1 100 7; OSet 2 5 8; OExited 8]) as [s|] eqn:E; [|vm_compute in E; discriminate].
  exists [OSet 1 100 7; OSet 2 5 8; OExited 8], s. split; [apply ops_okb_ok; vm_compute; reflexivity|]. split; [exact E|].
  vm_compute in E. injection E as <-. split; [|split; vm_compute; reflexivity].
  split; [exists 1; split; [left; reflexivity|vm_compute; reflexivity]|]. intros i [<-|[]]. vm_compute. discriminate.
Qed.
Print Assumptions C24_next_expiration_after_exit_refuted.

(** Starting a timer from outside any process and starting it again closes the list into a loop. *)
Theorem C24_set_outside_process_refuted :
  exists os, run (init 0 None) os = None /\ os = [OSet 1 10 0; OSet 1 10 0].
Proof. exists [OSet 1 10 0; OSet 1 10 0]. split; vm_compute; reflexivity. Qed.
Print Assumptions C24_set_outside_process_refuted.

(** Three timers, two of them due, a queue with room for one more event. *)
Definition sample : list op := [OSet 1 10 5; OSet 2 20 6; OSet 3 5 5; OTick 3; ORestart 3 5; OTick 8; OPoll].
Example C24_case :
  option_map (fun s => (s_queue s, s_list s, s_poll s, next_expiration s)) (run (init 100 (Some 1%nat)) sample) = Some ([(5, 3)], [2; 1], true, 111) /\
  option_map (fun s => (s_queue s, s_list s, s_poll s, next_expiration s)) (run (init 100 None) sample) = Some ([(5, 3); (5, 1)], [2], false, 120).
Proof. split; vm_compute; reflexivity. Qed.
Example C24_case_ok : ops_ok (init 100 None) sample.
Proof. apply ops_okb_ok. vm_compute. reflexivity. Qed.
