From Verif Require Import Common Ep_Model Ep_Spec Ep_Proofs Obs_Model Obs_Spec Obs_Proofs Obs2_Proofs Obs3_Proofs.
Local Open Scope N_scope.

(** Concrete histories for the examples and refutations. *)
Definition ri0 (r : nat) : rinfo := match r with O => mk_ri [47; 97] true false false | _ => mk_ri [47; 98] true false false end.
Definition cl (port : N) : ep := mk_ep 8 0 [254;128;0;0;0;0;0;0;0;0;0;0;0;0;0;1] port 0 0.
Definition rq (r : nat) (ob : N) (port tok : N) : op := Request (mk_req r ob (cl port) [tok] (r_uri (ri0 r)) IF_BASELINE 1024 true true true).
Definition note (r : nat) : op := Notify r None true true true all_fine.

Definition ep_okb (e : ep) : bool :=
  (e_flags e <? 256) && (List.length (e_addr e) =? 16)%nat && forallb (fun b => b <? 256) (e_addr e) && (e_port e <? 65536).
Lemma ep_okb_spec e : ep_okb e = true -> ep_ok e.
Proof.
  unfold ep_okb. rewrite !andb_true_iff, N.ltb_lt, Nat.eqb_eq, N.ltb_lt. intros (((A & B) & C) & D). constructor; try assumption.
  apply Forall_forall. intros x I. rewrite forallb_forall in C. apply N.ltb_lt. auto.
Qed.
Definition op_okb (ri : nat -> rinfo) (s : st) (p : op) : bool :=
  match p with
  | Request q => ep_okb (q_ep q) && N.testbit (e_flags (q_ep q)) 3 && s_live s (q_res q) && list_eqb (strip (r_uri (ri (q_res q)))) (strip (q_url q))
  | Notify r _ _ _ _ _ => s_live s r
  | Delete r => s_live s r
  | _ => true
  end.
Lemma op_okb_spec ri s p : op_okb ri s p = true -> op_ok ri s p.
Proof.
  destruct p; cbn; auto. rewrite !andb_true_iff. intros (((A & B) & C) & D). apply ep_okb_spec in A. apply list_eqb_spec in D. exact (conj A (conj (or_introl B) (conj C D))).
Qed.
Fixpoint oks (ri : nat -> rinfo) (s : st) (ps : list op) : bool := match ps with [] => true | p :: ps => op_okb ri s p && oks ri (fst (step ri s p)) ps end.
Lemma run_reach ri : forall ps s l, reach ri always s l -> oks ri s ps = true -> reach ri always (fst (run ri s ps)) (l ++ snd (run ri s ps)).
Proof.
  induction ps as [|p ps IH]; intros s l R O; [cbn; rewrite app_nil_r; exact R|]. cbn [oks] in O. apply andb_true_iff in O. destruct O as [O1 O2]. cbn [run].
  pose proof (IH _ _ (ReachS ri always s l p R (op_okb_spec _ _ _ O1) I) O2) as H. destruct (step ri s p) as [s' it]. cbn [fst snd] in H. destruct (run ri s' ps) as [s'' it']. cbn [fst snd] in *. rewrite <- app_assoc in H. exact H.
Qed.
Lemma run0 ps : oks ri0 init ps = true -> reach ri0 always (fst (run ri0 init ps)) (snd (run ri0 init ps)).
Proof. intros O. exact (run_reach ri0 ps init [] (Reach0 _ _) O). Qed.

(** 256 clients. *)
Definition many : list op := map (fun i => rq 0 0 (1000 + N.of_nat i) 7) (seq 0 256).
Lemma many_ok : oks ri0 init many = true. Proof. vm_compute. reflexivity. Qed.
Lemma many_refuted : exists ri s l r, reach ri always s l /\ count r (s_obs s) = 256%nat /\
  snd (step ri s (Notify r None true true true all_fine)) = [] /\
  s_live (fst (step ri s (Delete r))) r = false /\ count r (s_obs (fst (step ri s (Delete r)))) = 256%nat /\ snd (step ri s (Delete r)) = [].
Proof.
  exists ri0, (fst (run ri0 init many)), (snd (run ri0 init many)), 0%nat. split; [apply run0, many_ok|]. vm_compute. repeat split; reflexivity.
Qed.

(** One token for two resources. *)
Definition twice : list op := [rq 0 0 1000 7; rq 1 0 1000 7].
Lemma token_refuted : exists ri s l q o o', reach ri always s l /\ op_ok ri s (Request q) /\ q_obs q = 1 /\
  In o (s_obs s) /\ o_res o <> q_res q /\ o_res o' = q_res q /\ o_url o' = q_url q /\ o_ep o' = q_ep q /\ o_tok o' = q_tok q /\
  s_obs (fst (step ri s (Request q))) = [o'].
Proof.
  exists ri0, (fst (run ri0 init twice)), (snd (run ri0 init twice)), (mk_req 1 1 (cl 1000) [7] [47; 98] IF_BASELINE 1024 true true true),
    (mk_obs 0 [47; 97] (cl 1000) [7] 0 1024 2 IF_BASELINE), (mk_obs 1 [47; 98] (cl 1000) [7] 0 1024 2 IF_BASELINE).
  split; [apply run0; vm_compute; reflexivity|]. split; [apply op_okb_spec; vm_compute; reflexivity|]. vm_compute. repeat split; auto. discriminate.
Qed.
Lemma mid_refuted : exists ri s l e o, reach ri always s l /\ seqs l = 0%nat /\ s_obs s = [o] /\ o_ep o = e /\ s_obs (fst (step ri s (RstMid e 0))) = [].
Proof.
  exists ri0, (fst (run ri0 init [rq 0 0 1000 7])), (snd (run ri0 init [rq 0 0 1000 7])), (cl 1000), (mk_obs 0 [47; 97] (cl 1000) [7] 0 1024 2 IF_BASELINE).
  split; [apply run0; vm_compute; reflexivity|]. vm_compute. repeat split; reflexivity.
Qed.
Lemma told_refuted : exists ri s q, op_ok ri s (Request q) /\ reach ri always s [] /\ snd (fst (handle_observation ri s q)) = Some 0 /\ s_obs (fst (fst (handle_observation ri s q))) = [].
Proof.
  exists ri0, init, (mk_req 0 0 (cl 1000) [7] [47; 97] IF_BASELINE 1024 false true true). split; [apply op_okb_spec; vm_compute; reflexivity|]. split; [apply Reach0|]. vm_compute. split; reflexivity.
Qed.
Definition failing : obs -> nenv := fun o => mk_ne true false true 160 10 1 (Some 78) true.
Lemma error_refuted : exists ri s l r o o' env, reach ri always s l /\ s_obs s = [o] /\ s_live s r = true /\
  snd (step ri s (Notify r None true true true env)) = [IErr (key_of o) 160] /\ s_obs (fst (step ri s (Notify r None true true true env))) = [o'] /\ same_relation o o'.
Proof.
  exists ri0, (fst (run ri0 init [rq 0 0 1000 7])), (snd (run ri0 init [rq 0 0 1000 7])), 0%nat, (mk_obs 0 [47; 97] (cl 1000) [7] 0 1024 2 IF_BASELINE), (mk_obs 0 [47; 97] (cl 1000) [7] 78 1024 2 IF_BASELINE), failing.
  split; [apply run0; vm_compute; reflexivity|]. split; [vm_compute; reflexivity|]. split; [vm_compute; reflexivity|]. split; [vm_compute; reflexivity|]. split; [vm_compute; reflexivity|].
  split; [|split; reflexivity]. split; [reflexivity|]. split; [reflexivity|]. split; [reflexivity|]. split; [left; reflexivity|]. left. split; reflexivity.
Qed.

(** * Counters *)
Lemma val_23 : val (2 ^ 23) = 2 ^ 23 + 2. Proof. vm_compute. reflexivity. Qed.
(** The newcomer next to the single observer of the state is notified with the global counter. *)
Lemma newcomer s l r c port tok : (r < 2)%nat -> reach ri0 always s l -> single s r c ->
  (forall o, In o (s_obs s) -> ep_compare (o_ep o) (cl port) = false) -> port < 65536 -> op_ok ri0 s (rq r 0 port tok) ->
  let n := mk_obs r (r_uri (ri0 r)) (cl port) [tok] 0 1024 c IF_BASELINE in
  let '(s', ob, it) := handle_observation ri0 s (mk_req r 0 (cl port) [tok] (r_uri (ri0 r)) IF_BASELINE 1024 true true true) in
  ob = Some 0 /\ it = [IReg (key_of n)] /\ exists con, In (ISeq (key_of n) c true con) (snd (step ri0 s' (note r))).
Proof.
  intros RR R S D PL O n. pose proof (reach_good _ _ _ _ R) as G.
  assert (V : r_obsv (ri0 r) = true) by (destruct r; reflexivity).
  assert (PC : r_per (ri0 r) = false /\ r_coll (ri0 r) = false) by (destruct r; split; reflexivity). destruct PC as [PE CO].
  pose proof (ReachS ri0 always s l (rq r 0 port tok) R O I) as R'. cbn [step] in R'. unfold rq in R'. cbn [step] in R'.
  set (q := mk_req r 0 (cl port) [tok] (r_uri (ri0 r)) IF_BASELINE 1024 true true true) in *.
  destruct S as (o & SO & SR & SC & SI & SG & SN & SL).
  assert (HO : s_obs (fst (fst (handle_observation ri0 s q))) = [o; n] /\ snd (fst (handle_observation ri0 s q)) = Some 0 /\ snd (handle_observation ri0 s q) = [IReg (key_of n)]).
  { unfold handle_observation. change (q_res q) with r. rewrite V. change (q_obs q =? 0) with true. cbn [negb]. cbv iota.
    destruct (add_observation_obs ri0 s q) as (it & A & _ & C & E & F & OK). destruct (add_observation ri0 s q) as [[s1 ok] it']. cbn in A, C, E, OK. rewrite PE, CO in OK. cbn in OK. subst ok it'.
    cbn [fst snd]. rewrite F, A, SO. cbn [filter]. unfold same_data. rewrite (D o) by (rewrite SO; left; reflexivity). cbn [andb negb app]. unfold new_obs. rewrite SG. repeat split; reflexivity. }
  destruct (handle_observation ri0 s q) as [[s' ob] it]. cbn [fst snd] in HO, R'. destruct HO as (HO & -> & ->).
  split; [reflexivity|]. split; [reflexivity|].
  destruct (notified ri0 always s' _ r None true true all_fine R' V) as (con & _ & EQ).
  - rewrite HO. unfold count. cbn [filter]. rewrite SR, Nat.eqb_refl. change (o_res n) with r. rewrite Nat.eqb_refl. cbn. lia.
  - intros X. contradiction.
  - intros x _ _. repeat split; discriminate.
  - exists (con n). unfold note. rewrite EQ. apply in_map_iff. exists n. split; [reflexivity|]. apply filter_In. split; [rewrite HO; right; left; reflexivity|].
    unfold eligible. change (o_res n) with r. rewrite Nat.eqb_refl, CO. reflexivity.
Qed.
(** The peer of the observers does not change by notifications: a reachable state with a single observer at port 2000. *)
Lemma reach_count_at n : forall s0 l0, reach ri0 always s0 l0 -> forall i, single s0 0 (val i) -> Forall (fun o => o_ep o = cl 2000) (s_obs s0) ->
  exists s l, reach ri0 always s (l0 ++ l) /\ single s 0 (val (i + n)) /\ Forall (fun o => o_ep o = cl 2000) (s_obs s).
Proof.
  induction n as [|n IH] using N.peano_ind; intros s0 l0 R i S F.
  - exists s0, []. rewrite app_nil_r, N.add_0_r. auto.
  - destruct (IH s0 l0 R i S F) as (s & l & R' & S' & F'). exists (fst (step ri0 s (note 0))), (l ++ snd (step ri0 s (note 0))). rewrite app_assoc. split; [|split].
    + apply ReachS; [exact R'| |exact I]. destruct S' as (o & _ & _ & _ & _ & _ & _ & L). exact L.
    + apply (single_step ri0 s 0 _ eq_refl) in S'. rewrite inc_val in S'. replace (i + N.succ n) with (i + n + 1) by lia. exact S'.
    + cbn [step note]. unfold notify. destruct (negb (r_obsv (ri0 0)) || negb true || (s_num s 0 =? 0)); [exact F'|]. cbv zeta. cbn [andb]. cbv iota.
      pose proof (iterate_reg ri0 0 None (true || false) all_fine (s_num s 0) (s_obs s) (s_cnt s)) as Q. destruct (iterate _ _ _ _ _ _ _ _) as [[l' g] it]. cbn in Q |- *. clear - Q F'. revert F'.
      induction Q as [|x y lx ly X Q IH]; intros F; [constructor|]. inversion F; subst. constructor; [|auto]. destruct X as (_ & _ & <- & _). assumption.
Qed.
Definition start : list op := [rq 0 0 1000 7; note 0; Gone (cl 1000); rq 0 0 2000 7].
Definition kA : key := key_of (mk_obs 0 [47; 97] (cl 1000) [7] 0 1024 0 IF_BASELINE).
Lemma start_single : single (fst (run ri0 init start)) 0 (val 1).
Proof. exists (mk_obs 0 [47; 97] (cl 2000) [7] 0 1024 3 IF_BASELINE). vm_compute. repeat split; reflexivity. Qed.
Lemma start_log : snd (run ri0 init start) = [IReg kA] ++ ISeq kA 2 true false :: [IReg (key_of (mk_obs 0 [47; 97] (cl 2000) [7] 0 1024 0 IF_BASELINE))].
Proof. vm_compute. reflexivity. Qed.
Lemma start_peers : Forall (fun o => o_ep o = cl 2000) (s_obs (fst (run ri0 init start))).
Proof.
  assert (E : s_obs (fst (run ri0 init start)) = [mk_obs 0 [47; 97] (cl 2000) [7] 0 1024 3 IF_BASELINE]) by (vm_compute; reflexivity). rewrite E. repeat constructor.
Qed.
Lemma start_ok : oks ri0 init start = true. Proof. vm_compute. reflexivity. Qed.

Lemma wrapped : exists s l, reach ri0 always s (snd (run ri0 init start) ++ l) /\ single s 0 (2 ^ 23 + 2) /\ Forall (fun o => o_ep o = cl 2000) (s_obs s).
Proof.
  destruct (reach_count_at (2 ^ 23 - 1) _ _ (run0 start start_ok) 1 start_single start_peers) as (s & l & R & S & F). exists s, l. split; [exact R|]. split; [|exact F].
  change (1 + (2 ^ 23 - 1)) with (2 ^ 23) in S. rewrite val_23 in S. exact S.
Qed.
Lemma seq_refuted : exists ri s l q p k v1 v2 con,
  reach ri always s l /\ op_ok ri s (Request q) /\ q_obs q = 0 /\
  snd (fst (handle_observation ri s q)) = Some 0 /\ snd (handle_observation ri s q) = [IReg k] /\
  (exists se c, In (ISeq k v1 se c) l) /\ In (ISeq k v2 true con) (snd (step ri (fst (fst (handle_observation ri s q))) p)) /\
  ~ fresher 0 v2 /\ ~ fresher v1 v2.
Proof.
  destruct wrapped as (s & l & R & S & F).
  set (q := mk_req 0 0 (cl 1000) [7] [47; 97] IF_BASELINE 1024 true true true).
  assert (LV : s_live s 0 = true) by (destruct S as (o & _ & _ & _ & _ & _ & _ & L); exact L).
  assert (O : op_ok ri0 s (rq 0 0 1000 7)) by (apply op_okb_spec; unfold rq, op_okb; cbn [q_res q_ep q_url]; rewrite LV; vm_compute; reflexivity).
  pose proof (newcomer s _ 0 (2 ^ 23 + 2) 1000 7 ltac:(lia) R S) as NC. cbn zeta in NC. change (r_uri (ri0 0)) with [47; 97] in NC. fold q in NC.
  assert (D : forall o, In o (s_obs s) -> ep_compare (o_ep o) (cl 1000) = false) by (intros o I; rewrite Forall_forall in F; rewrite (F o I); vm_compute; reflexivity).
  specialize (NC D ltac:(lia) O). exists ri0, s, (snd (run ri0 init start) ++ l), q, (note 0), kA, 2, (2 ^ 23 + 2).
  destruct (handle_observation ri0 s q) as [[s' ob] it]. destruct NC as (-> & -> & con & IN). exists con. cbn [fst snd].
  split; [exact R|]. split; [exact O|]. split; [reflexivity|]. split; [reflexivity|]. split; [reflexivity|]. split.
  - exists true, false. rewrite start_log. apply in_or_app. left. right. left. reflexivity.
  - split; [exact IN|]. unfold fresher. change (2 ^ 23) with 8388608. split; lia.
Qed.
