(** Proofs about delayed responses. *)
From Verif Require Import Common Sep_Model Sep_Spec.
Local Open Scope N_scope.

Lemma same_spec tok obs r : same tok obs r = true <-> q_tok r = tok /\ q_obs r = obs.
Proof. unfold same. rewrite andb_true_iff, list_eqb_spec, Z.eqb_eq. tauto. Qed.

Lemma known_rid w tok obs ep uri : no_clash w tok obs ep -> (existsb (same tok obs) w = true <-> In (rid (mk_req tok obs ep uri)) (map rid w)).
Proof.
  intros C. rewrite existsb_exists, in_map_iff. split.
  - intros (r & I & S). apply same_spec in S. destruct S as [S1 S2]. exists r. split; [|assumption]. unfold rid. cbn. rewrite (C r I S1 S2), S1, S2. reflexivity.
  - intros (r & E & I). exists r. split; [assumption|]. apply same_spec. unfold rid in E. cbn in E. injection E as E1 E2 E3. auto.
Qed.

Lemma retarget_id w tok obs ep : no_clash w tok obs ep -> retarget tok obs ep w = w.
Proof.
  induction w as [|r w IH]; intros C; cbn [retarget]; [reflexivity|]. destruct (same tok obs r) eqn:S.
  - apply same_spec in S. destruct S as [S1 S2]. rewrite <- (C r (or_introl eq_refl) S1 S2). destruct r; reflexivity.
  - rewrite IH; [reflexivity|]. intros x I. apply C. now right.
Qed.

Lemma drop_snoc w tok obs ep uri : existsb (same tok obs) w = false -> drop tok obs (w ++ [mk_req tok obs ep uri]) = w.
Proof.
  induction w as [|r w IH]; intros E; cbn [app drop existsb] in *.
  - rewrite (proj2 (same_spec tok obs (mk_req tok obs ep uri))); [reflexivity|auto].
  - apply orb_false_iff in E. destruct E as [E1 E2]. rewrite E1, (IH E2). reflexivity.
Qed.

Lemma drop_mid a x b tok obs : same tok obs x = true -> existsb (same tok obs) a = false -> drop tok obs (a ++ x :: b) = a ++ b.
Proof.
  intros Sx. induction a as [|r a IH]; cbn [app drop existsb]; [now rewrite Sx|]. intros E. apply orb_false_iff in E. destruct E as [E1 E2].
  rewrite E1, (IH E2). reflexivity.
Qed.

Record inv (h : handle) (w : list req) : Prop := {
  i_reqs : h_reqs h = w;
  i_act : h_active h = false -> w = [];
  i_buf : h_active h = true -> h_buf h = BLive;
  i_ids : NoDup (map rid w) }.

Lemma leaves_eq w r w' : NoDup (map rid w) -> leaves w r w' -> no_clash w (q_tok r) (q_obs r) (q_ep r) ->
  drop (q_tok r) (q_obs r) w = w'.
Proof.
  intros N L C. destruct L as [w r H|a x b r E H].
  - assert (K : existsb (same (q_tok r) (q_obs r)) w = false).
    { destruct (existsb _ w) eqn:K; [|reflexivity]. apply (known_rid w (q_tok r) (q_obs r) (q_ep r) (q_uri r) C) in K. destruct r. contradiction. }
    clear -K. induction w as [|y w IH]; cbn [drop existsb] in *; [reflexivity|]. apply orb_false_iff in K. destruct K as [K1 K2]. rewrite K1, IH; auto.
  - apply drop_mid.
    + apply same_spec. unfold rid in E. injection E as E1 E2 E3. auto.
    + destruct (existsb _ a) eqn:K; [|reflexivity]. exfalso. apply H. rewrite map_app, in_app_iff. left.
      assert (C' : no_clash a (q_tok r) (q_obs r) (q_ep r)) by (intros y I; apply C; rewrite in_app_iff; auto).
      apply (known_rid a _ _ _ (q_uri r) C') in K. destruct r. exact K.
Qed.

Lemma leaves_nodup w r w' : NoDup (map rid w) -> leaves w r w' -> NoDup (map rid w').
Proof.
  intros N L. inversion L as [w0 r0 H|a x b r0 E H]; subst; [assumption|]. rewrite map_app in *. cbn [map] in N. now apply NoDup_remove_1 in N.
Qed.

Lemma drop_none w tok obs : existsb (same tok obs) w = false -> drop tok obs w = w.
Proof. induction w as [|r w IH]; cbn [drop existsb]; [reflexivity|]. intros E. apply orb_false_iff in E. destruct E as [E1 E2]. rewrite E1, IH; auto. Qed.

Lemma accept_inv h w k con tok obs ep uri h' b w' : inv h w -> no_clash w tok obs ep -> accept h k con tok obs ep uri = (h', b) ->
  (if b then joins w (mk_req tok obs ep uri) w' else leaves w (mk_req tok obs ep uri) w') -> inv h' w'.
Proof.
  intros [R A B D] C H J. unfold accept in H.
  destruct (negb (h_active h) && negb (k_buf k)) eqn:F1.
  { injection H as <- <-. apply andb_true_iff in F1. destruct F1 as [F1 _]. apply negb_true_iff in F1. pose proof (A F1) as E. rewrite E in J. 
    pose proof (leaves_eq [] _ _ (NoDup_nil _) J (fun r (i : In r []) => match i with end)) as L. cbn in L. subst w'. constructor; cbn; auto; [discriminate|constructor]. }
  set (h1 := if h_active h then h else _) in H.
  assert (I1 : inv (mk_handle true (h_reqs h1) (h_buf h1) (h_leak h1)) w /\ (h_active h1 = h_active h)).
  { unfold h1. destruct (h_active h) eqn:Ea; [destruct h; cbn in *; subst; split; [constructor; auto|reflexivity]|]. split; [|reflexivity].
    rewrite (A eq_refl). constructor; cbn; auto. constructor. }
  destruct I1 as [[R1 A1 B1 _] Act]. cbn in R1, A1, B1. clearbody h1. clear F1.
  assert (Bl : h_buf h1 = BLive) by auto. rewrite R1 in H.
  assert (KN := known_rid w tok obs ep uri C).
  destruct (existsb (same tok obs) w) eqn:K; cbn [negb andb] in H.
  - pose proof (proj1 KN eq_refl) as I. rewrite (retarget_id _ _ _ _ C) in H.
    destruct (con && negb (k_ack k)) eqn:F; injection H as <- <-.
    + pose proof (leaves_eq _ _ _ D J C) as L. cbn [q_tok q_obs] in L. rewrite L. pose proof (leaves_nodup _ _ _ D J).
      constructor; cbn; auto. rewrite Act. intros Hf. pose proof (A Hf) as E. rewrite E in L. cbn in L. auto.
    + inversion J; subst; [|tauto]. constructor; cbn; auto; discriminate.
  - assert (NI : ~ In (rid (mk_req tok obs ep uri)) (map rid w)) by (intros I; apply KN in I; discriminate).
    destruct (k_req k); cbn [negb] in H.
    + destruct (con && negb (k_ack k)) eqn:F; injection H as <- <-.
      * rewrite (drop_snoc _ _ _ _ _ K). pose proof (leaves_eq _ _ _ D J C) as L. cbn [q_tok q_obs] in L. rewrite (drop_none _ _ _ K) in L. subst w'.
        constructor; cbn; auto. rewrite Act. exact A.
      * inversion J; subst; [tauto|]. constructor; cbn; auto; [discriminate|]. rewrite map_app. now apply NoDup_app_snoc.
    + injection H as <- <-. pose proof (leaves_eq _ _ _ D J C) as L. cbn [q_tok q_obs] in L. rewrite (drop_none _ _ _ K) in L. subst w'.
      constructor; auto. rewrite Act. exact A.
Qed.

Lemma reach_inv h w : reach h w -> inv h w.
Proof.
  induction 1 as [|h w k con tok obs ep uri h' w' R IH C H J|h w k con tok obs ep uri h' w' R IH C H J|h w h' out R IH H].
  - constructor; cbn; auto; [discriminate|constructor].
  - eapply accept_inv; eassumption.
  - eapply accept_inv; eassumption.
  - cbn [step] in H. destruct (h_active h) eqn:A; [|injection H as <- <-; assumption].
    unfold send in H. rewrite (i_buf _ _ IH A) in H. cbn [negb] in H. injection H as <- <-. constructor; cbn; auto; [discriminate|constructor].
Qed.

Lemma answer_expected r : expected r (answer r).
Proof. unfold expected, answer. destruct (Z.ltb_spec (q_obs r) 2); split; intros; try reflexivity; lia. Qed.

Lemma send_answers h w : reach h w -> w <> [] ->
  exists h' out, step h (Send true) = Some (h', out) /\ Forall2 expected w out /\ NoDup (map rid w) /\ reach h' [].
Proof.
  intros R N. pose proof (reach_inv h w R) as I. destruct (h_active h) eqn:A; [|now pose proof (i_act _ _ I A)].
  exists (mk_handle false [] BFreed (h_leak h)), (map answer w).
  assert (E : step h (Send true) = Some (mk_handle false [] BFreed (h_leak h), map answer w)).
  { cbn [step]. rewrite A. unfold send. rewrite (i_buf _ _ I A). cbn [negb]. now rewrite (i_reqs _ _ I). }
  split; [exact E|]. split; [|split; [exact (i_ids _ _ I)|]].
  - induction w as [|r w IH]; constructor; [apply answer_expected|]. clear. induction w; constructor; auto using answer_expected.
  - pose proof (ReachS h w _ _ R E) as K. rewrite A in K. exact K.
Qed.

Lemma never_stuck h w : reach h w -> step h (Send true) <> None.
Proof.
  intros R. pose proof (reach_inv h w R) as I. cbn [step]. destruct (h_active h) eqn:A; [|discriminate].
  unfold send. rewrite (i_buf _ _ I A). discriminate.
Qed.

Lemma client_answered h w r : reach h w -> In r w -> (q_obs r < 2)%Z ->
  exists h' out, step h (Send true) = Some (h', out) /\ In (Response (q_ep r) (q_tok r)) out.
Proof.
  intros R I L. destruct (send_answers h w R) as (h' & out & E & F & _ & _); [intros ->; destruct I|]. exists h', out. split; [exact E|].
  clear -I L F. induction F as [|x m w out Hx F IH]; [destruct I|]. destruct I as [<-|I]; [left; now apply Hx|right; auto].
Qed.

Lemma nobody_else_answered h w h' out ep tok : reach h w -> step h (Send true) = Some (h', out) -> In (Response ep tok) out ->
  exists r, In r w /\ q_ep r = ep /\ q_tok r = tok.
Proof.
  intros R E I. pose proof (reach_inv h w R) as V. cbn [step] in E. destruct (h_active h) eqn:A; [|injection E as <- <-; destruct I].
  unfold send in E. rewrite (i_buf _ _ V A) in E. cbn [negb] in E. injection E as <- <-. rewrite (i_reqs _ _ V) in I.
  apply in_map_iff in I. destruct I as (r & Er & I). exists r. split; [assumption|]. unfold answer in Er. destruct (_ <? _)%Z; [|discriminate]. injection Er as -> ->. auto.
Qed.
