(** The retry schedule and registration. *)
From Verif Require Import Common Ea_Model Ea_Spec Ea_Proofs Ea2_Proofs Cloud_Model Cloud_Spec.
Local Open Scope N_scope.

Definition table (l : list N) : list N := l ++ repeat 0 (slots - List.length l).

Lemma existsb_zero l : existsb (N.eqb 0) l = true <-> In 0 l.
Proof.
  rewrite existsb_exists. split.
  - intros (x & Hx & E). apply N.eqb_eq in E. subst. exact Hx.
  - intros H. exists 0. split; [exact H|reflexivity].
Qed.

Lemma set_spec t l :
  ((List.length l <= 6)%nat /\ ~ In 0 l -> set_timeouts t (Some l) = (table l, true)) /\
  (~ ((List.length l <= 6)%nat /\ ~ In 0 l) -> set_timeouts t (Some l) = (t, false)).
Proof.
  unfold set_timeouts. destruct (Nat.ltb_spec slots (List.length l)) as [H|H]; unfold slots in H; cbn [orb].
  - split; [intros [H1 _]; lia|reflexivity].
  - destruct (existsb (N.eqb 0) l) eqn:E.
    + apply existsb_zero in E. split; [intros [_ H1]; contradiction|reflexivity].
    + split; [reflexivity|]. intros H1. exfalso. apply H1. split; [exact H|]. intros H2. apply existsb_zero in H2. congruence.
Qed.

Lemma prefix_table l n : ~ In 0 l -> prefix_nz (l ++ repeat 0 n) = l.
Proof.
  induction l as [|x l IH]; intros H.
  - destruct n; reflexivity.
  - cbn [app prefix_nz]. destruct (N.eqb_spec x 0) as [->|_]; [exfalso; apply H; left; reflexivity|]. rewrite IH; [reflexivity|]. intros Q. apply H. right. exact Q.
Qed.

Lemma table_length l : (List.length l <= 6)%nat -> List.length (table l) = 6%nat.
Proof. intros H. unfold table. rewrite app_length, repeat_length. unfold slots. lia. Qed.

Lemma get_spec l size : (List.length l <= 6)%nat -> ~ In 0 l ->
  get_timeouts (table l) size = if (size <? List.length l)%nat then None else Some l.
Proof.
  intros H1 H2. unfold get_timeouts. rewrite firstn_all2 by (rewrite table_length by exact H1; unfold slots; lia).
  unfold table. rewrite (prefix_table _ _ H2). reflexivity.
Qed.

Lemma good_nz l : Forall (fun t => 1000 <= t) l -> ~ In 0 l.
Proof. intros H Q. rewrite Forall_forall in H. specialize (H 0 Q). cbn beta in H. lia. Qed.

Lemma over_spec l c : (List.length l <= 6)%nat -> ~ In 0 l -> is_over (table l) (N.of_nat c) = (List.length l <=? c)%nat.
Proof.
  intros H1 H2. unfold is_over. rewrite Nat2N.id. unfold slots.
  destruct (Nat.leb_spec (List.length l) c) as [H|H].
  - destruct (N.leb_spec (N.of_nat 6) (N.of_nat c)) as [H3|H3]; [reflexivity|]. cbn [orb]. unfold table. rewrite app_nth2 by lia.
    replace (nth _ (repeat 0 _) 0) with 0; [reflexivity|]. symmetry. apply nth_repeat.
  - destruct (N.leb_spec (N.of_nat 6) (N.of_nat c)) as [H3|H3]; [lia|]. cbn [orb]. unfold table. rewrite app_nth1 by lia.
    destruct (N.eqb_spec (nth c l 0) 0) as [E|E]; [|reflexivity]. exfalso. apply H2. rewrite <- E. apply nth_In. exact H.
Qed.

Lemma schedule_over checks l c rnd : (List.length l <= 6)%nat -> ~ In 0 l -> (List.length l <= c)%nat -> schedule checks (table l) (N.of_nat c) rnd = Over.
Proof. intros H1 H2 H. unfold schedule. rewrite (over_spec l c H1 H2). destruct (Nat.leb_spec (List.length l) c); [reflexivity|lia]. Qed.

Lemma schedule_wait checks l c rnd : (List.length l <= 6)%nat -> Forall (fun t => 1000 <= t) l -> (c < List.length l)%nat ->
  exists d to, schedule checks (table l) (N.of_nat c) rnd = Wait d to /\ nth c l 0 / 2 <= d < nth c l 0 /\ to = nth c l 0 / 1000 /\ 1 <= to.
Proof.
  intros H1 H2 H. pose proof (good_nz l H2) as Hz. unfold schedule. rewrite (over_spec l c H1 Hz). destruct (Nat.leb_spec (List.length l) c); [lia|].
  rewrite Nat2N.id. unfold table. rewrite app_nth1 by exact H.
  assert (G : 1000 <= nth c l 0) by (rewrite Forall_forall in H2; apply H2, nth_In, H).
  set (ms := nth c l 0) in *. destruct (N.ltb_spec ms 1000) as [L|_]; [lia|]. rewrite andb_false_r.
  assert (Q : 500 <= ms / 2) by (apply N.div_le_lower_bound; lia).
  destruct (N.eqb_spec (ms / 2) 0) as [E|_]; [lia|].
  eexists _, _. split; [reflexivity|]. pose proof (N.mod_lt rnd (ms / 2)) as M. assert (2 * (ms / 2) <= ms) by (apply N.mul_div_le; lia).
  split; [split; lia|]. split; [reflexivity|]. apply N.div_le_lower_bound; lia.
Qed.

(** * Registration *)

Section Reg.
  Variables (checks : bool) (l : list N).
  Hypothesis (Hl : (1 <= List.length l <= 6)%nat) (Ht : Forall (fun t => 1000 <= t) l).
  Let n := List.length l.

  Lemma sr_wait c (retry : bool) k rnd : c_count c = N.of_nat k -> (k < 6)%nat -> ((if retry then S k else 0) < n)%nat ->
    exists d to, schedule_register checks (table l) c retry rnd = (mk_cx (c_servers c) (N.of_nat (if retry then S k else 0%nat)) (c_initial c) (c_remaining c) (c_changed c), Wait d to).
  Proof.
    intros Ec Hk H. unfold schedule_register.
    replace (if retry then (c_count c + 1) mod 256 else 0) with (N.of_nat (if retry then S k else 0%nat)) by (rewrite Ec; destruct retry; [rewrite N.mod_small by lia; lia|reflexivity]).
    destruct (schedule_wait checks l _ rnd (proj2 Hl) Ht H) as (d & to & E & _). rewrite E. eauto.
  Qed.

  Lemma sr_over c k rnd : c_count c = N.of_nat k -> (k < 6)%nat -> (n <= S k)%nat ->
    schedule_register checks (table l) c true rnd =
    (mk_cx (fst (select_next (c_servers c))) (N.of_nat (S k)) (c_initial c) (c_remaining c) (c_changed c || snd (select_next (c_servers c))), Over).
  Proof.
    intros Ec Hk H. unfold schedule_register. replace ((c_count c + 1) mod 256) with (N.of_nat (S k)) by (rewrite Ec, N.mod_small by lia; lia).
    rewrite (schedule_over checks l (S k) rnd (proj2 Hl) (good_nz l Ht) H). destruct (select_next (c_servers c)) as [s b]. reflexivity.
  Qed.

  (** Work left, counted in attempts and in steps. *)
  Definition alive (g : reg) : Prop := match g_phase g with Trying => exists k, c_count (g_ctx g) = N.of_nat k /\ (k < n)%nat | Crashed => False | _ => True end.
  Definition budget (g : reg) : nat :=
    match g_phase g with
    | Trying => n - N.to_nat (c_count (g_ctx g)) + n * N.to_nat (c_remaining (g_ctx g))
    | Restarting => n * S (N.to_nat (c_remaining (g_ctx g)))
    | _ => 0
    end.
  Definition fuel (g : reg) : nat :=
    match g_phase g with
    | Trying => n - N.to_nat (c_count (g_ctx g)) + S n * N.to_nat (c_remaining (g_ctx g))
    | Restarting => S n * S (N.to_nat (c_remaining (g_ctx g)))
    | _ => 0
    end.

  Lemma step_measure g ar : alive g -> c_remaining (g_ctx g) < 256 ->
    let g' := step checks (table l) g ar in
    alive g' /\ c_remaining (g_ctx g') < 256 /\
    (List.length (g_tries g') + budget g' <= List.length (g_tries g) + budget g)%nat /\ (fuel g' <= fuel g - 1)%nat.
  Proof.
    intros A B. cbv zeta. destruct ar as [a rnd]. unfold step. unfold alive in A. cbn [fst snd]. destruct (g_phase g) eqn:Ep.
    - destruct A as (k & Ec & Hk). assert (Hk6 : (k < 6)%nat) by lia.
      assert (Tl : forall o, List.length (g_tries g ++ [o]) = S (List.length (g_tries g))) by (intros o; rewrite app_length; cbn [List.length]; lia).
      destruct a; cbn [attempt].
      + destruct (le_lt_dec n (S k)) as [H|H].
        * rewrite (sr_over _ k rnd Ec Hk6 H). cbn [phase_of]. unfold alive, budget, fuel. cbn [g_phase g_ctx g_tries c_remaining c_count]. rewrite Ep, Ec, Nat2N.id, Tl.
          split; [exact I|]. split; [exact B|]. lia.
        * destruct (sr_wait (g_ctx g) true k rnd Ec Hk6 H) as (d & to & E). rewrite E. cbn [phase_of]. unfold alive, budget, fuel. cbn [g_phase g_ctx g_tries c_remaining c_count]. rewrite Ep, Ec, !Nat2N.id, Tl.
          split; [exists (S k); auto|]. split; [exact B|]. lia.
      + destruct (le_lt_dec n (S k)) as [H|H].
        * rewrite (sr_over _ k rnd Ec Hk6 H). set (c' := mk_cx _ _ _ _ _). destruct (may_change c') eqn:Em; unfold alive, budget, fuel; cbn [g_phase g_ctx g_tries c_remaining c_count c' ]; rewrite Ep, Ec, Nat2N.id, Tl.
          -- unfold may_change in Em. cbn [c_remaining c'] in Em. destruct (N.eqb_spec (c_remaining (g_ctx g)) 0) as [|Nz]; [discriminate|].
             replace ((c_remaining (g_ctx g) + 255) mod 256) with (c_remaining (g_ctx g) - 1).
             2:{ replace (c_remaining (g_ctx g) + 255) with (c_remaining (g_ctx g) - 1 + 1 * 256) by lia. rewrite N.mod_add by lia. rewrite N.mod_small by lia. reflexivity. }
             split; [exact I|]. split; [lia|].
             replace (S (N.to_nat (c_remaining (g_ctx g) - 1))) with (N.to_nat (c_remaining (g_ctx g))) by lia. lia.
          -- split; [exact I|]. split; [exact B|]. lia.
        * destruct (sr_wait (g_ctx g) true k rnd Ec Hk6 H) as (d & to & E). rewrite E. cbn [phase_of]. unfold alive, budget, fuel. cbn [g_phase g_ctx g_tries c_remaining c_count]. rewrite Ep, Ec, !Nat2N.id, Tl.
          split; [exists (S k); auto|]. split; [exact B|]. lia.
      + unfold alive, budget, fuel. cbn [g_phase g_ctx g_tries]. rewrite Ep, Ec, Nat2N.id, Tl. split; [exact I|]. split; [exact B|]. lia.
      + unfold alive, budget, fuel. cbn [g_phase g_ctx g_tries]. rewrite Ep, Ec, Nat2N.id, Tl. split; [exact I|]. split; [exact B|]. lia.
    - unfold start. unfold schedule_register. change 0 with (N.of_nat 0).
      destruct (schedule_wait checks l 0 rnd (proj2 Hl) Ht ltac:(lia)) as (d & to & E & _). rewrite E. cbn [phase_of]. unfold alive, budget, fuel. cbn [g_phase g_ctx g_tries c_remaining c_count]. rewrite Ep.
      split; [exists 0%nat; split; [reflexivity|lia]|]. split; [exact B|]. change (N.to_nat (N.of_nat 0)) with 0%nat. lia.
    - unfold alive. rewrite Ep. split; [exact I|]. split; [exact B|]. split; [lia|]. unfold fuel. rewrite Ep. lia.
    - unfold alive. rewrite Ep. split; [exact I|]. split; [exact B|]. split; [lia|]. unfold fuel. rewrite Ep. lia.
    - destruct A.
  Qed.

  Lemma run_measure as_ : forall g, alive g -> c_remaining (g_ctx g) < 256 ->
    let g' := run checks (table l) g as_ in
    alive g' /\ (List.length (g_tries g') <= List.length (g_tries g) + budget g)%nat /\ (fuel g' <= fuel g - List.length as_)%nat.
  Proof.
    induction as_ as [|a t IH]; intros g A B; cbv zeta.
    - cbn [run fold_left List.length]. split; [exact A|]. split; lia.
    - pose proof (step_measure g a A B) as (A1 & B1 & C1 & D1). specialize (IH _ A1 B1). cbv zeta in IH. destruct IH as (A2 & C2 & D2).
      change (run checks (table l) g (a :: t)) with (run checks (table l) (step checks (table l) g a) t). split; [exact A2|].
      cbn [List.length]. split; lia.
  Qed.

  Lemma begin_spec s rnd : (List.length (l_items s) <= 255)%nat -> (selected s = None -> l_items s = []) ->
    begin checks (table l) s rnd = mk_rg (mk_cx s 0 (selected_uri s) (N.of_nat (List.length (l_items s) - 1)) false) Trying [].
  Proof.
    intros Hs Hn. unfold begin, start, schedule_register. cbn [g_ctx]. change 0 with (N.of_nat 0) at 2.
    destruct (schedule_wait checks l 0 rnd (proj2 Hl) Ht ltac:(lia)) as (d & to & E & _). change (N.of_nat 0) with 0 in E. rewrite E. cbn [phase_of g_tries]. unfold reg_init. cbn [c_servers c_initial c_remaining c_changed].
    repeat f_equal. destruct (selected s) as [e|]; [rewrite N.mod_small by lia; lia|]. rewrite (Hn eq_refl). reflexivity.
  Qed.

  Lemma gives_up s rnd as_ : reach s -> (List.length (l_items s) <= 255)%nat ->
    let g := run checks (table l) (begin checks (table l) s rnd) as_ in
    (List.length (g_tries g) <= n * Nat.max 1 (List.length (l_items s)))%nat /\ g_phase g <> Crashed /\
    ((S n * Nat.max 1 (List.length (l_items s)) <= List.length as_)%nat -> ended (g_phase g)).
  Proof.
    intros R Hs. cbv zeta. rewrite begin_spec; [|exact Hs|pose proof (one_selected s R) as O; intros E; rewrite E in O; exact (proj1 O)].
    set (g0 := mk_rg _ _ _). assert (A : alive g0) by (unfold alive, g0; cbn; exists 0%nat; split; [reflexivity|lia]).
    assert (B : c_remaining (g_ctx g0) < 256) by (unfold g0; cbn [g_ctx c_remaining]; lia).
    destruct (run_measure as_ g0 A B) as (A' & C & D). set (g := run _ _ _ _) in *.
    assert (Bud : (budget g0 <= n * Nat.max 1 (List.length (l_items s)))%nat).
    { unfold budget, g0. cbn [g_phase g_ctx c_count c_remaining]. rewrite Nat2N.id. change (N.to_nat 0) with 0%nat. destruct (List.length (l_items s)) as [|w]; [lia|].
      replace (Nat.max 1 (S w)) with (S w) by lia. replace (S w - 1)%nat with w by lia. lia. }
    assert (Fu : (fuel g0 <= S n * Nat.max 1 (List.length (l_items s)) - 1)%nat).
    { unfold fuel, g0. cbn [g_phase g_ctx c_count c_remaining]. rewrite Nat2N.id. change (N.to_nat 0) with 0%nat. destruct (List.length (l_items s)) as [|w]; [lia|].
      replace (Nat.max 1 (S w)) with (S w) by lia. replace (S w - 1)%nat with w by lia. lia. }
    cbn [g_tries g0 List.length] in C. split; [lia|]. unfold alive in A'. split; [intros E; rewrite E in A'; exact A'|].
    intros H. unfold fuel in D at 1. unfold ended. destruct (g_phase g) eqn:Ep; try exact I.
    - destruct A' as (k & Ek & Hk). rewrite Ek, Nat2N.id in D. lia.
    - lia.
  Qed.

  (** ** Every attempt is lost *)
  Lemma lost_round rs : forall k c tries, c_count c = N.of_nat k -> (k + List.length rs < n)%nat ->
    run checks (table l) (mk_rg c Trying tries) (map (pair Lost) rs) =
    mk_rg (mk_cx (c_servers c) (N.of_nat (k + List.length rs)) (c_initial c) (c_remaining c) (c_changed c)) Trying (tries ++ repeat (selected_uri (c_servers c)) (List.length rs)).
  Proof.
    induction rs as [|r rs IH]; intros k c tries Ec H.
    - cbn [map run fold_left List.length repeat]. rewrite Nat.add_0_r, app_nil_r, <- Ec. destruct c; reflexivity.
    - cbn [List.length] in H. cbn [map]. change (run checks (table l) ?g (?a :: ?t)) with (run checks (table l) (step checks (table l) g a) t).
      unfold step. cbn [g_phase fst snd attempt g_ctx g_tries]. assert (K1 : (S k < n)%nat) by lia. destruct (sr_wait c true k r Ec ltac:(lia) K1) as (d & to & E). rewrite E. cbn [phase_of].
      rewrite (IH (S k)); [|reflexivity|lia]. cbn [c_servers c_initial c_remaining c_changed List.length repeat]. rewrite <- app_assoc.
      replace (S k + List.length rs)%nat with (k + S (List.length rs))%nat by lia. reflexivity.
  Qed.

  Lemma run_app g a b : run checks (table l) g (a ++ b) = run checks (table l) (run checks (table l) g a) b.
  Proof. apply fold_left_app. Qed.

  Lemma ended_stays as_ g : ended (g_phase g) -> run checks (table l) g as_ = g.
  Proof.
    intros H. induction as_ as [|a t IH]; [reflexivity|]. cbn [run fold_left]. unfold step at 2. destruct (g_phase g); try destruct H; exact IH.
  Qed.

  Fixpoint rounds (m : nat) (s : eas) : list (option (list N)) :=
    match m with O => [] | S m' => repeat (selected_uri s) n ++ rounds m' (fst (select_next s)) end.

  Lemma next_reach s : reach s -> reach (fst (select_next s)).
  Proof. intros R. exact (ReachS s SelectNext R I). Qed.

  Lemma next_items s : l_items (fst (select_next s)) = l_items s.
  Proof. unfold select_next. destruct (l_sel s); [|reflexivity]. unfold select_. destruct (opt_eqb _ _); reflexivity. Qed.

  Lemma next_changes s : reach s -> (2 <= List.length (l_items s))%nat -> snd (select_next s) = true.
  Proof.
    intros R H. destruct (reach_inv s R) as (z & I). pose proof (selected_cur s z I) as Sc. destruct I as [I2 I3 I1].
    unfold select_next. destruct z as [[[a x] b]|]; [|cbn [zall] in I2; rewrite I2 in H; cbn in H; lia].
    cbn [zall zcur option_map] in *. rewrite I3. rewrite I2. destruct I1 as (I1 & _). 
    assert (Dp : NoDup (map a_ptr (a ++ x :: b))) by (first [exact I1|apply I1]).
    destruct (nodup_mid a_ptr a x b Dp) as (Nx & Ny & _).
    rewrite (proj2 (unlink_mid a x b Nx)). unfold select_. rewrite I3.
    assert (W : forall y, In y (a ++ b) -> opt_eqb (Some (a_ptr x)) (Some (a_ptr y)) = false).
    { intros y Hy. cbn [opt_eqb]. apply N.eqb_neq. intros E. apply in_app_iff in Hy. destruct Hy as [Hy|Hy]; [apply Nx|apply Ny]; rewrite E; apply in_map; exact Hy. }
    destruct b as [|y b].
    - cbn [hd_error next_or_head]. destruct a as [|y a]; [rewrite I2 in H; cbn in H; lia|]. cbn [hd_error app option_map]. rewrite W by (left; reflexivity). reflexivity.
    - cbn [hd_error next_or_head option_map]. rewrite W by (apply in_elt). reflexivity.
  Qed.

  Lemma all_lost m : forall s rs c tries, reach s -> c_servers c = s -> c_count c = 0 -> c_remaining c = N.of_nat m -> c_changed c = false ->
    (m < List.length (l_items s))%nat -> (m <= 255)%nat -> (exists u, c_initial c = Some u /\ In u (map a_uri (l_items s))) ->
    (S n * S m <= S (List.length rs))%nat ->
    let g := run checks (table l) (mk_rg c Trying tries) (map (pair Lost) rs) in
    g_phase g = Failed /\ g_tries g = tries ++ rounds (S m) s.
  Proof.
    induction m as [|m IH]; intros s rs c tries R Es Ec Er Eh Hm Hm2 (u & Eu & Hu) H; cbv zeta.
    - rewrite <- (firstn_skipn (n - 1) rs), map_app, run_app. rewrite (lost_round _ 0) by (try exact Ec; rewrite firstn_length; lia).
      rewrite firstn_length_le by lia. destruct (skipn (n - 1) rs) as [|r q] eqn:Eq.
      { exfalso. assert (L : List.length (skipn (n - 1) rs) = 0%nat) by (rewrite Eq; reflexivity). rewrite skipn_length in L. lia. }
      cbn [map]. change (run checks (table l) ?g (?a :: ?t)) with (run checks (table l) (step checks (table l) g a) t).
      unfold step. cbn [g_phase fst snd attempt g_ctx g_tries]. rewrite (sr_over _ (0 + (n - 1)) r) by (cbn [c_count]; try reflexivity; lia). cbv iota.
      unfold may_change. cbn [c_remaining]. rewrite Er. change (N.of_nat 0 =? 0) with true. cbn [negb andb]. rewrite ended_stays by exact I. cbn [g_phase g_tries]. split; [reflexivity|].
      cbn [rounds c_servers]. rewrite Es, app_nil_r, <- app_assoc. f_equal. change [selected_uri s] with (repeat (selected_uri s) 1). rewrite <- repeat_app. f_equal. lia.
    - rewrite <- (firstn_skipn (n - 1) rs), map_app, run_app. rewrite (lost_round _ 0) by (try exact Ec; rewrite firstn_length; lia).
      rewrite firstn_length_le by lia. 
      assert (L : List.length (skipn (n - 1) rs) = (List.length rs - (n - 1))%nat) by apply skipn_length.
      destruct (skipn (n - 1) rs) as [|r [|r2 q]] eqn:Eq; [cbn in L; lia|cbn in L; lia|]. cbn [List.length] in L.
      cbn [map Nat.add]. change (run checks (table l) ?g (?a :: ?b :: ?t)) with (run checks (table l) (step checks (table l) (step checks (table l) g a) b) t).
      assert (St : forall tr, step checks (table l) (step checks (table l) (mk_rg (mk_cx (c_servers c) (N.of_nat (n - 1)) (c_initial c) (c_remaining c) (c_changed c)) Trying tr) (Lost, r)) (Lost, r2) =
        mk_rg (mk_cx (fst (select_next s)) 0 (c_initial c) (N.of_nat m) false) Trying (tr ++ [selected_uri s])).
      { intros tr. assert (S1 : step checks (table l) (mk_rg (mk_cx (c_servers c) (N.of_nat (n - 1)) (c_initial c) (c_remaining c) (c_changed c)) Trying tr) (Lost, r) =
          mk_rg (mk_cx (fst (select_next s)) (N.of_nat n) (c_initial c) (N.of_nat m) false) Restarting (tr ++ [selected_uri s])).
        { unfold step. cbn [g_phase fst snd attempt g_ctx g_tries]. rewrite (sr_over _ (n - 1) r) by (cbn [c_count]; try reflexivity; lia). cbv iota.
          cbn [c_servers c_initial c_remaining c_changed]. rewrite Es, Eh.
          assert (Ch : snd (select_next s) = true) by (apply next_changes; [exact R|lia]). rewrite Ch. cbn [orb].
          unfold may_change. cbn [c_remaining c_changed c_initial c_servers c_count]. rewrite Er, Eu.
          destruct (N.eqb_spec (N.of_nat (S m)) 0) as [E0|_]; [lia|]. cbn [negb andb].
          replace (contains (fst (select_next s)) u) with true by (symmetry; apply contains_spec; rewrite next_items; exact Hu).
          replace ((N.of_nat (S m) + 255) mod 256) with (N.of_nat m) by (replace (N.of_nat (S m) + 255) with (N.of_nat m + 1 * 256) by lia; rewrite N.mod_add by lia; rewrite N.mod_small by lia; reflexivity).
          replace (S (n - 1)) with n by lia. reflexivity. }
        rewrite S1. unfold step. cbn [g_phase snd]. unfold start, schedule_register. cbn [g_ctx c_servers c_initial c_remaining c_changed g_tries].
        destruct (schedule_wait checks l 0 r2 (proj2 Hl) Ht ltac:(lia)) as (d & to & E & _). change (N.of_nat 0) with 0 in E. rewrite E. reflexivity. }
      rewrite St.
      destruct (IH (fst (select_next s)) q (mk_cx (fst (select_next s)) 0 (c_initial c) (N.of_nat m) false) ((tries ++ repeat (selected_uri (c_servers c)) (n - 1)) ++ [selected_uri s])) as [G1 G2]; try reflexivity.
      + apply next_reach; exact R.
      + rewrite next_items. lia.
      + lia.
      + exists u. split; [exact Eu|rewrite next_items; exact Hu].
      + lia.
      + split; [exact G1|]. rewrite G2. cbn [rounds]. rewrite <- !app_assoc. f_equal.
        rewrite Es, app_assoc. f_equal. change [selected_uri s] with (repeat (selected_uri s) 1). rewrite <- repeat_app. f_equal. lia.
  Qed.

  Lemma rounds_tour m : forall s, rounds (S m) s = concat (map (fun u => repeat u n) (selected_uri s :: tour m s)).
  Proof.
    induction m as [|m IH]; intros s; [reflexivity|].
    change (rounds (S (S m)) s) with (repeat (selected_uri s) n ++ rounds (S m) (fst (select_next s))). rewrite IH. reflexivity.
  Qed.

  Lemma tour_prefix m : forall k s, tour m s = firstn m (tour (m + k) s).
  Proof. induction m as [|m IH]; intros k s; [reflexivity|]. cbn [tour Nat.add firstn]. f_equal. apply IH. Qed.

  Lemma every_server_tried s rnd rs a x b : reach s -> (List.length (l_items s) <= 255)%nat -> shows s (Some (a, x, b)) ->
    (S n * List.length (l_items s) <= S (List.length rs))%nat ->
    let g := run checks (table l) (begin checks (table l) s rnd) (map (pair Lost) rs) in
    g_phase g = Failed /\ g_tries g = concat (map (fun y => repeat (Some (fst y)) n) (x :: b ++ a)).
  Proof.
    intros R Hs Sh H. cbv zeta. rewrite begin_spec; [|exact Hs|pose proof (one_selected s R) as O; intros E; rewrite E in O; exact (proj1 O)].
    assert (Len : List.length (l_items s) = S (List.length (b ++ a))).
    { destruct Sh as [S1 _]. apply (f_equal (@List.length _)) in S1. rewrite map_length in S1. rewrite S1. cbn [all]. rewrite !app_length. cbn [List.length]. lia. }
    assert (Sel : selected_uri s = Some (fst x)).
    { destruct Sh as [_ S2]. unfold selected_uri. destruct (selected s) as [e|]; [|discriminate]. cbn [option_map cursor] in *. injection S2 as <-. reflexivity. }
    destruct (all_lost (List.length (b ++ a)) s rs (mk_cx s 0 (selected_uri s) (N.of_nat (List.length (l_items s) - 1)) false) []) as [G1 G2]; try assumption; try reflexivity.
    - cbn [c_remaining]. f_equal. lia.
    - lia.
    - lia.
    - cbn [c_initial]. rewrite Sel. exists (fst x). split; [reflexivity|]. destruct Sh as [S1 _].
      replace (map a_uri (l_items s)) with (map fst (all (Some (a, x, b)))) by (rewrite <- S1, map_map; reflexivity). apply in_map. cbn [all]. apply in_elt.
    - lia.
    - split; [exact G1|]. rewrite G2. cbn [app]. rewrite rounds_tour, Sel.
      pose proof (tour_all s _ R Sh) as T. cbv iota in T. rewrite (tour_prefix _ 1 s). replace (List.length (b ++ a) + 1)%nat with (List.length (l_items s)) by lia. rewrite T.
      rewrite app_assoc, map_app. rewrite firstn_app, map_length, Nat.sub_diag, firstn_O, app_nil_r. rewrite firstn_all2 by (rewrite map_length; lia).
      cbn [map]. rewrite map_map. reflexivity.
  Qed.
End Reg.

(** Attempts go to servers of the list only. *)
Definition tries_in (s0 : eas) (g : reg) : Prop :=
  reach (c_servers (g_ctx g)) /\ l_items (c_servers (g_ctx g)) = l_items s0 /\ forall u, In (Some u) (g_tries g) -> In u (map a_uri (l_items s0)).

Lemma sr_items checks t c retry rnd : reach (c_servers c) -> reach (c_servers (fst (schedule_register checks t c retry rnd))) /\ l_items (c_servers (fst (schedule_register checks t c retry rnd))) = l_items (c_servers c).
Proof.
  intros R. unfold schedule_register. destruct (schedule _ _ _ _); try (cbn [fst c_servers]; auto).
  pose proof (next_reach _ R) as R'. pose proof (next_items (c_servers c)) as E. destruct (select_next (c_servers c)) as [s b]. cbn [fst c_servers] in *. auto.
Qed.

Lemma sel_in s u : reach s -> selected_uri s = Some u -> In u (map a_uri (l_items s)).
Proof. intros R E. pose proof (one_selected s R) as O. unfold selected_uri in E. destruct (selected s) as [e|]; [|discriminate]. injection E as <-. apply in_map. exact O. Qed.

Lemma tries_step checks t s0 g ar : tries_in s0 g -> tries_in s0 (step checks t g ar).
Proof.
  intros (R & E & H). unfold step. destruct (g_phase g); try (split; [exact R|split; [exact E|exact H]]).
  - assert (H' : forall u, In (Some u) (g_tries g ++ [selected_uri (c_servers (g_ctx g))]) -> In u (map a_uri (l_items s0))).
    { intros u Hu. apply in_app_iff in Hu. destruct Hu as [Hu|[Hu|[]]]; [exact (H u Hu)|]. rewrite <- E. apply sel_in; assumption. }
    destruct (sr_items checks t (g_ctx g) true (snd ar) R) as [R2 E2]. unfold attempt.
    destruct (fst ar); [|destruct (schedule_register checks t (g_ctx g) true (snd ar)) as [c x]; cbn [fst] in *|..].
    + destruct (schedule_register checks t (g_ctx g) true (snd ar)) as [c x]. cbn [fst] in *. split; [exact R2|]. split; [cbn [g_ctx]; congruence|exact H'].
    + destruct x; try (split; [exact R2|split; [cbn [g_ctx]; congruence|exact H']]).
      destruct (may_change c); (split; [exact R2|split; [cbn [g_ctx c_servers]; congruence|exact H']]).
    + split; [exact R|split; [exact E|exact H']].
    + split; [exact R|split; [exact E|exact H']].
  - unfold start. destruct (sr_items checks t (g_ctx g) false (snd ar) R) as [R2 E2].
    destruct (schedule_register checks t (g_ctx g) false (snd ar)) as [c x]. cbn [fst] in *. split; [exact R2|]. split; [cbn [g_ctx]; congruence|exact H].
Qed.

Lemma only_configured checks t s rnd as_ u : reach s -> In (Some u) (g_tries (run checks t (begin checks t s rnd) as_)) -> In u (map a_uri (l_items s)).
Proof.
  intros R. assert (B : tries_in s (begin checks t s rnd)).
  { unfold begin, start. cbn [g_ctx g_tries]. destruct (sr_items checks t (reg_init s) false rnd R) as [R2 E2].
    destruct (schedule_register checks t (reg_init s) false rnd) as [c x]. cbn [fst] in *. split; [exact R2|]. split; [exact E2|intros w []]. }
  revert B. generalize (begin checks t s rnd). induction as_ as [|a t' IH]; intros g B H; [exact (proj2 (proj2 B) u H)|].
  exact (IH _ (tries_step checks t s g a B) H).
Qed.

(** With no timeouts at all the manager reconnects for ever. *)
Lemma no_timeouts_loop checks as_ : forall g, g_phase g = Restarting -> c_count (g_ctx g) = 0 -> g_phase (run checks (table []) g as_) = Restarting /\ g_tries (run checks (table []) g as_) = g_tries g.
Proof.
  induction as_ as [|a t IH]; intros g E C; [split; [exact E|reflexivity]|]. cbn [run fold_left]. 
  destruct (IH (step checks (table []) g a)) as [A B].
  - unfold step. rewrite E. unfold start, schedule_register. change (schedule checks (table []) 0 (snd a)) with Over. destruct (select_next (c_servers (g_ctx g))). reflexivity.
  - unfold step. rewrite E. unfold start, schedule_register. change (schedule checks (table []) 0 (snd a)) with Over. destruct (select_next (c_servers (g_ctx g))). reflexivity.
  - split; [exact A|]. unfold run in B. rewrite B. unfold step. rewrite E. unfold start, schedule_register. change (schedule checks (table []) 0 (snd a)) with Over.
    destruct (select_next (c_servers (g_ctx g))). reflexivity.
Qed.
