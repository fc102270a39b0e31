From Verif Require Import Common Cli_Model Cli_Spec Cli_Proofs Cli2_Proofs Cli3_Proofs Cli4_Proofs.
From Coq Require Import Lia.
Local Open Scope N_scope.

Section Build.
Variables oscore tcp : bool.

Lemma find_skip {A} (f : A -> bool) l x : (forall y, In y l -> f y = false) -> f x = true -> find f (l ++ [x]) = Some x.
Proof.
  intros H Hx. induction l as [|y l IH]; cbn [app find].
  - rewrite Hx. reflexivity.
  - rewrite (H y (or_introl eq_refl)). apply IH. intros z Hz. apply H. right; exact Hz.
Qed.
Lemma find_first_app {A} (f : A -> bool) l l' x : find f l = Some x -> find f (l ++ l') = Some x.
Proof. induction l as [|y l IH]; cbn [app find]; [discriminate|]. destruct (f y); auto. Qed.

(* what a request leaves in the list *)
Lemma request_cbs q s : q_kind q = KObserve -> s_cbs (request q Sent s) = s_cbs s ++ [new_cb (s_next s) q] /\
  s_stack (request q Sent s) = s_stack s.
Proof.
  intros Hk. unfold request. rewrite Hk. cbn [kind_eqb]. unfold arm. change (REGISTER =? NOT_SET)%Z with false.
  destruct (q_timeout q); split; reflexivity.
Qed.

Lemma repeated_observe ok s t q c r : history oscore tcp ok s t -> s_stack s = [] -> q_kind q = KObserve ->
  In c (s_cbs s) -> c_kind c = KObserve -> (forall d, In d (s_cbs s) -> c_tok d = c_tok c -> d = c) ->
  q_tok q = c_tok c -> q_uri q = c_uri c -> q_ep q = a_ep r ->
  a_tok r = c_tok c -> a_obs r = REGISTER -> a_body r = Payload true ->
  exists s', run oscore tcp s [Request q Sent; Deliver r; Return false] = Some (s', [Called (c_id c) (c_kind c) Answered]) /\
    lookup s' (c_id c) <> None /\ lookup s' (s_next s) = None.
Proof.
  intros H Hst Hq Hc Hkc Hone Ht Hu He Hrt Hro Hrb.
  assert (Hb : base s) by (apply (history_hist oscore tcp ok s t H)).
  destruct Hb as [Hnd Hnext].
  assert (Hlt : c_id c < s_next s).
  { apply (Hnext (c_id c) c). unfold lookup. exact (find_in _ c Hnd Hc). }
  destruct (request_cbs q s Hq) as [E1 E2]. set (s1 := request q Sent s) in *. set (n := new_cb (s_next s) q) in *.
  assert (Hfind : find (fun c => list_eqb (c_tok c) (a_tok r)) (s_cbs s1) = Some c).
  { rewrite E1. apply find_first_app. destruct (find _ (s_cbs s)) as [d|] eqn:E.
    - apply find_some in E as [Hd E]. apply list_eqb_spec in E. rewrite Hrt in E. f_equal. exact (Hone d Hd E).
    - exfalso. pose proof (List.find_none _ _ E c Hc) as X. cbn beta in X. rewrite Hrt, list_eqb_refl in X. discriminate. }
  assert (Hdisc : c_disc c = false) by (unfold c_disc; rewrite Hkc; reflexivity).
  cbn [run may]. change (step oscore tcp s (Request q Sent)) with (Some (s1, @nil call)). cbv iota.
  cbn [may]. unfold main_loop at 1. rewrite E2, Hst. cbn [step]. rewrite Hfind. unfold invoke. rewrite Hro.
  change (SEQ_START <=? REGISTER)%Z with false. rewrite andb_false_r. cbn [andb]. rewrite Hrb, Hdisc.
  set (s2 := update (c_id c) (set_busy true) s1).
  cbn [may main_loop push s_stack negb app step].
  set (s3 := mk_st (s_cbs s2) (s_tm s2) (s_next s2) (s_pend s2) (s_stack s2)).
  assert (Hc2 : s_cbs s3 = map (fun d => if is_id (c_id c) d then set_busy true d else d) (s_cbs s) ++ [n]).
  { unfold s3, s2, update, set_cbs. cbn [s_cbs]. rewrite E1, map_app. cbn [map]. unfold is_id at 2. unfold n at 1. cbn [new_cb c_id].
    destruct (N.eqb_spec (s_next s) (c_id c)); [lia|reflexivity]. }
  set (c2 := set_busy true c).
  assert (Hf3 : find (is_id (c_id c)) (s_cbs s3) = Some c2).
  { rewrite Hc2. apply find_first_app. pose proof (find_update (s_cbs s) (c_id c) (c_id c) (set_busy true) (fun _ => eq_refl)) as X.
    rewrite X, N.eqb_refl, (find_in _ c Hnd Hc). reflexivity. }
  change (mk_st (s_cbs (push s2 (FAnswer (c_id c) false r))) (s_tm (push s2 (FAnswer (c_id c) false r))) (s_next (push s2 (FAnswer (c_id c) false r))) (s_pend (push s2 (FAnswer (c_id c) false r))) (s_stack s2)) with s3.
  unfold finish. rewrite Hf3. replace (c_disc c2) with false by (symmetry; exact Hdisc). cbn [andb].
  rewrite Hro. change (REGISTER =? NOT_SET)%Z with false. cbn [andb].
  set (s4 := if tcp && list_eqb (c_uri c2) ping_uri then drop_timer (c_id c) TPing s3 else s3).
  assert (E4 : s_cbs s4 = s_cbs s3) by (unfold s4; destruct (tcp && _); reflexivity).
  set (s5 := update (c_id c) (set_busy false) s4).
  unfold set_observe. cbv zeta. change (REGISTER =? REGISTER)%Z with true. cbv iota.
  set (s6 := update (c_id c2) (set_obs REGISTER) s5).
  pose (g := fun d : cb => if is_id (c_id c) d then set_obs REGISTER (set_busy false (set_busy true d)) else d).
  assert (E6 : s_cbs s6 = map g (s_cbs s) ++ [n]).
  { unfold s6, s5, update, set_cbs. cbn [s_cbs]. rewrite E4, Hc2, !map_app, !map_map. f_equal.
    - apply map_ext. intros d. unfold g. change (c_id c2) with (c_id c). unfold is_id. destruct (N.eqb_spec (c_id d) (c_id c)) as [X|X].
      + change (c_id (set_busy true d)) with (c_id d). destruct (N.eqb_spec (c_id d) (c_id c)) as [_|Y]; [|contradiction].
        change (c_id (set_busy false (set_busy true d))) with (c_id d). destruct (N.eqb_spec (c_id d) (c_id c)) as [_|Y]; [reflexivity|contradiction].
      + destruct (N.eqb_spec (c_id d) (c_id c)) as [Y|_]; [contradiction|]. destruct (N.eqb_spec (c_id d) (c_id c)) as [Y|_]; [contradiction|reflexivity].
    - cbn [map]. change (c_id c2) with (c_id c). unfold is_id. change (c_id n) with (s_next s).
      destruct (N.eqb_spec (s_next s) (c_id c)); [lia|]. change (c_id n) with (s_next s). destruct (N.eqb_spec (s_next s) (c_id c)); [lia|reflexivity]. }
  assert (Hdup : find (duplicate c2 (a_ep r)) (s_cbs s6) = Some n).
  { rewrite E6. apply find_skip.
    - intros y Hy. apply in_map_iff in Hy as (d & <- & Hd). unfold g, is_id. destruct (N.eqb_spec (c_id d) (c_id c)) as [X|X].
      + unfold duplicate. change (c_id (set_obs REGISTER (set_busy false (set_busy true d)))) with (c_id d). change (c_id c2) with (c_id c).
        rewrite X, N.eqb_refl. reflexivity.
      + unfold duplicate. change (c_tok c2) with (c_tok c). destruct (list_eqb (c_tok d) (c_tok c)) eqn:E.
        * apply list_eqb_spec in E. rewrite (Hone d Hd E) in X. congruence.
        * rewrite andb_false_r. reflexivity.
    - unfold duplicate. change (c_id n) with (s_next s). change (c_id c2) with (c_id c). destruct (N.eqb_spec (s_next s) (c_id c)); [lia|].
      change (c_tok n) with (q_tok q). change (c_uri n) with (q_uri q). change (c_ep n) with (q_ep q).
      change (c_tok c2) with (c_tok c). change (c_uri c2) with (c_uri c). rewrite Ht, Hu, He, !list_eqb_refl, N.eqb_refl.
      unfold n, new_cb. cbn [c_obs]. rewrite Hq. reflexivity. }
  rewrite Hdup. eexists. split; [reflexivity|]. change (c_id n) with (s_next s). rewrite !lookup_remove, N.eqb_refl.
  split; [|reflexivity]. destruct (N.eqb_spec (c_id c) (s_next s)); [lia|].
  unfold lookup. rewrite E6. intros X. pose proof (List.find_none _ _ X (g c)) as Y. cbn beta in Y.
  assert (Hin : In (g c) (map g (s_cbs s) ++ [n])) by (apply in_app_iff; left; apply in_map; exact Hc).
  specialize (Y Hin). unfold g, is_id in Y. rewrite N.eqb_refl in Y.
  change (c_id (set_obs REGISTER (set_busy false (set_busy true c)))) with (c_id c) in Y. rewrite N.eqb_refl in Y. discriminate.
Qed.
End Build.
