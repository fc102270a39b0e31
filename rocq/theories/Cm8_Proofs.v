(* The parameters of API calls are freed once, and never used afterwards. *)
From Coq Require Import List Bool Arith ZArith Lia Permutation.
Import ListNotations.
From Verif Require Import Cm_Model Cm_Spec Cm_Proofs.

Transparent dereg_stop free_param use_param.
Global Arguments ctx_clear : simpl never.
Global Arguments set_exp : simpl never.
Global Arguments call_cb : simpl never.
Global Arguments close : simpl never.
Global Arguments finish_api : simpl never.

Definition flat (p : param) : Prop := ids_c (pcont p) = [].
Definition wf_c (c : cont) : Prop :=
  match c with
  | KTryLogin p | KTryRefreshed p => flat p
  | _ => True
  end.
Definition wf_req (q : req) : Prop :=
  match q with QApi _ p => wf_c (pcont p) | _ => True end.

Lemma flat_wf : forall p, flat p -> wf_c (pcont p).
Proof.
  intros [i c] H. unfold flat in H. cbn in *. destruct c as [| b | [j c] | [j c]];
    cbn in *; auto; discriminate.
Qed.

Record M (ex : list nat) (s : ctx) : Prop := {
  M_bad : bad s = false;
  M_nodup : NoDup (live s);
  M_lt : Forall (fun i => i < nxt s) (live s);
  M_perm : Permutation (live s) (ex ++ owned s);
  M_reqs : Forall wf_req (reqs s);
  M_refd : Forall flat (t_refd (tm s));
  M_rst : Forall flat (t_rst (tm s)) }.

Lemma M_eq : forall ex s s', M ex s -> bad s' = bad s -> live s' = live s ->
  nxt s' = nxt s -> reqs s' = reqs s -> t_refd (tm s') = t_refd (tm s) ->
  t_rst (tm s') = t_rst (tm s) -> M ex s'.
Proof.
  intros ex s s' [A B C D E F G] E1 E2 E3 E4 E5 E6.
  constructor; unfold owned in *; rewrite ?E1, ?E2, ?E3, ?E4, ?E5, ?E6; assumption.
Qed.

Lemma M_ex : forall ex ex' s, Permutation ex ex' -> M ex s -> M ex' s.
Proof.
  intros ex ex' s P [A B C D E F G]. constructor; try assumption.
  rewrite <- P. exact D.
Qed.

Lemma mem_true : forall i l, mem i l = true <-> In i l.
Proof.
  intros i l. unfold mem. rewrite existsb_exists. split.
  - intros (x & H & E). apply Nat.eqb_eq in E. subst. exact H.
  - intros H. exists i. split; [exact H | apply Nat.eqb_refl].
Qed.

Lemma M_use : forall ex s p, M ex s -> In (pid p) ex -> use_param p s = s.
Proof.
  intros ex s p H I. unfold use_param.
  assert (X : mem (pid p) (live s) = true).
  { apply mem_true. apply (Permutation_in _ (Permutation_sym (M_perm _ _ H))).
    apply in_or_app. left. exact I. }
  rewrite X. reflexivity.
Qed.

Lemma remove_not : forall i l, ~ In i l -> remove Nat.eq_dec i l = l.
Proof. intros i l H. apply notin_remove. exact H. Qed.

Lemma nodup_remove_perm : forall i l l', NoDup l -> Permutation l (i :: l') ->
  Permutation (remove Nat.eq_dec i l) l'.
Proof.
  intros i l l' N P.
  assert (I : In i l) by (apply (Permutation_in _ (Permutation_sym P)); left; reflexivity).
  apply in_split in I. destruct I as (a & b & ->).
  assert (NA : ~ In i (a ++ b)) by (apply NoDup_remove_2; exact N).
  rewrite remove_app. cbn. destruct (Nat.eq_dec i i) as [_ | X]; [| congruence].
  rewrite !remove_not by (intros X; apply NA; apply in_or_app; auto).
  apply (Permutation_cons_inv (a := i)). rewrite <- P. apply Permutation_middle.
Qed.

Lemma nodup_remove : forall i (l : list nat), NoDup l -> NoDup (remove Nat.eq_dec i l).
Proof.
  intros i l N. induction N as [| x l H N IH]; [constructor |].
  cbn. destruct (Nat.eq_dec i x); [exact IH |]. constructor; [| exact IH].
  intros X. apply in_remove in X. tauto.
Qed.

Lemma M_free : forall p ex s, M (pid p :: ex) s -> M ex (free_param p s).
Proof.
  intros p ex s H. pose proof H as [A B C D E F G]. unfold free_param.
  assert (X : mem (pid p) (live s) = true).
  { apply mem_true. apply (Permutation_in _ (Permutation_sym D)). left. reflexivity. }
  rewrite X. constructor; cbn; try assumption.
  - apply nodup_remove. exact B.
  - rewrite Forall_forall in *. intros i I. apply in_remove in I. apply C. tauto.
  - change (owned (w_live (remove Nat.eq_dec (pid p) (live s)) s)) with (owned s).
    apply nodup_remove_perm; assumption.
Qed.

Lemma M_new : forall c ex s, M ex s ->
  M (nxt s :: ex) (snd (new_param c s)).
Proof.
  intros c ex s [A B C D E F G]. unfold new_param. cbn [snd].
  constructor; cbn; try assumption.
  - constructor; [| exact B]. intros I. rewrite Forall_forall in C. apply C in I. lia.
  - constructor; [lia |]. rewrite Forall_forall in *. intros i I. apply C in I. lia.
  - change (owned _) with (owned s). constructor. exact D.
Qed.

Lemma M_frees : forall l ex s, M (map pid l ++ ex) s ->
  M ex (fold_left (fun a p => free_param p a) l s)
  /\ exists lv, fold_left (fun a p => free_param p a) l s = w_live lv s.
Proof.
  induction l as [| p l IH]; intros ex s H; cbn [fold_left map app] in *.
  - split; [exact H |]. exists (live s). destruct s; reflexivity.
  - pose proof H as [_ _ _ D _ _ _].
    assert (X : mem (pid p) (live s) = true).
    { apply mem_true. apply (Permutation_in _ (Permutation_sym D)). left. reflexivity. }
    apply M_free in H. destruct (IH ex _ H) as (A & lv & B).
    split; [exact A |]. exists lv. rewrite B. unfold free_param. rewrite X. reflexivity.
Qed.

Lemma flat_ids : forall l, Forall flat l -> flat_map ids l = map pid l.
Proof.
  induction l as [| p l IH]; intros H; [reflexivity |]. inversion H; subst.
  cbn [flat_map map]. unfold ids at 1. unfold flat in H2. rewrite H2, IH by assumption.
  reflexivity.
Qed.

Lemma M_dstop : forall ex s, M ex s -> M ex (dereg_stop s).
Proof.
  intros ex s H. pose proof H as [A B C D E F G]. unfold dereg_stop. cbv zeta.
  set (s0 := uptm (w_t_refd []) s).
  assert (H0 : M (map pid (t_refd (tm s)) ++ ex) s0).
  { constructor; unfold s0; cbn; try assumption; [| constructor].
    unfold owned in D |- *. cbn. rewrite <- (flat_ids _ F).
    eapply Permutation_trans; [exact D |].
    set (a := flat_map ids_req (reqs s)). set (b := flat_map ids (t_refd (tm s))).
    set (c := flat_map ids (t_rst (tm s))).
    rewrite (Permutation_app_comm b ex). rewrite <- !app_assoc.
    apply Permutation_app_head. rewrite !app_assoc. apply Permutation_app_tail.
    apply Permutation_app_comm. }
  destruct (M_frees (t_refd (tm s)) ex s0 H0) as (H1 & lv & E1).
  assert (E2 : exists lv', fold_left (fun a p => free_param p a) (t_refd (tm s)) s = w_live lv' s
    /\ lv' = lv).
  { assert (X : forall l x, M (map pid l ++ ex) (uptm (w_t_refd []) x) ->
      exists lv', fold_left (fun a p => free_param p a) l x = w_live lv' x
      /\ fold_left (fun a p => free_param p a) l (uptm (w_t_refd []) x)
         = w_live lv' (uptm (w_t_refd []) x)).
    { induction l as [| p l IH]; intros x Y; cbn [fold_left map app] in *.
      - exists (live x). destruct x; split; reflexivity.
      - pose proof Y as [_ _ _ DD _ _ _].
        assert (Q : mem (pid p) (live x) = true).
        { apply mem_true. apply (Permutation_in _ (Permutation_sym DD)). left. reflexivity. }
        apply M_free in Y.
        assert (Z1 : free_param p (uptm (w_t_refd []) x)
          = uptm (w_t_refd []) (w_live (remove Nat.eq_dec (pid p) (live x)) x)).
        { unfold free_param. change (live (uptm (w_t_refd []) x)) with (live x). rewrite Q. reflexivity. }
        assert (Z2 : free_param p x = w_live (remove Nat.eq_dec (pid p) (live x)) x).
        { unfold free_param. rewrite Q. reflexivity. }
        rewrite Z1 in *. rewrite Z2. destruct (IH _ Y) as (lv' & P1 & P2).
        exists lv'. rewrite P1, P2. split; reflexivity. }
    destruct (X (t_refd (tm s)) s H0) as (lv' & P1 & P2). exists lv'.
    split; [exact P1 |]. fold s0 in P2. rewrite E1 in P2.
    apply (f_equal live) in P2. cbn in P2. congruence. }
  destruct E2 as (lv' & E2 & ->). rewrite E2.
  set (s2 := uptm (fun t => w_t_clear false (w_t_refd [] t)) (w_live lv s)).
  assert (H2 : M ex s2).
  { rewrite E1 in H1. eapply M_eq; [exact H1 | ..]; reflexivity. }
  set (s2' := uptm (w_t_rst []) s2).
  assert (H3 : M (map pid (t_rst (tm s2)) ++ ex) s2').
  { destruct H2 as [A2 B2 C2 D2 E3 F2 G2].
    constructor; unfold s2' in *; cbn; try assumption; [| constructor ..].
    unfold owned in D2 |- *. change (t_rst (tm s2)) with (t_rst (tm s)) in *.
    change (reqs s2) with (reqs s) in *. cbn in D2 |- *. rewrite app_nil_r.
    rewrite <- (flat_ids _ G). 
    eapply Permutation_trans; [exact D2 |].
    rewrite (Permutation_app_comm (flat_map ids (t_rst (tm s))) ex).
    rewrite <- !app_assoc. apply Permutation_app_head. apply Permutation_app_comm. }
  assert (X : forall l x, M (map pid l ++ ex) (uptm (w_t_rst []) x) ->
      uptm (w_t_rst []) (fold_left (fun a p => free_param p a) l x)
      = fold_left (fun a p => free_param p a) l (uptm (w_t_rst []) x)).
  { induction l as [| p l IH]; intros x Y; cbn [fold_left map app] in *; [reflexivity |].
    pose proof Y as [_ _ _ DD _ _ _].
    assert (Q : mem (pid p) (live x) = true).
    { apply mem_true. apply (Permutation_in _ (Permutation_sym DD)). left. reflexivity. }
    apply M_free in Y.
    assert (Z1 : free_param p (uptm (w_t_rst []) x)
          = uptm (w_t_rst []) (w_live (remove Nat.eq_dec (pid p) (live x)) x)).
    { unfold free_param. change (live (uptm (w_t_rst []) x)) with (live x). rewrite Q. reflexivity. }
    assert (Z2 : free_param p x = w_live (remove Nat.eq_dec (pid p) (live x)) x).
    { unfold free_param. rewrite Q. reflexivity. }
    rewrite Z1 in *. rewrite Z2. apply IH. exact Y. }
  rewrite (X _ _ H3). apply M_frees. exact H3.
Qed.

Global Opaque dereg_stop free_param use_param.

Definition cl_m (cl : ctx -> ctx) : Prop := forall ex s, M ex s -> M ex (cl s).

Lemma M_clear : forall cl ex s, cl_m cl -> M ex s -> M ex (ctx_clear cl s).
Proof.
  intros cl ex s C H. unfold ctx_clear.
  assert (H1 : M ex (reset_endpoint cl s)).
  { unfold reset_endpoint. destruct (ep s); [apply C in H | ];
      eapply M_eq; try exact H; reflexivity. }
  set (y := reset_endpoint cl s) in *. clearbody y.
  assert (H2 : M ex (mgr_stop y)) by (eapply M_eq; [exact H1 | reflexivity ..]).
  set (z := mgr_stop y) in *. clearbody z.
  apply M_dstop in H2. set (w := dereg_stop z) in *. clearbody w.
  eapply M_eq; [exact H2 | reflexivity ..].
Qed.

Lemma M_send : forall e need q ex s, M (ids_req q ++ ex) s -> wf_req q ->
  match send_req e need q s with
  | (true, s1) => M ex s1
  | (false, s1) => M (ids_req q ++ ex) s1
  end.
Proof.
  intros e need q ex s H W. unfold send_req.
  assert (X : M (ids_req q ++ ex) (snd (set_endpoint e s))).
  { unfold set_endpoint. destruct (ep s); [exact H |].
    destruct (en_addr e); [| exact H]. eapply M_eq; [exact H | reflexivity ..]. }
  destruct (set_endpoint e s) as [ok s1]. cbn [snd] in X.
  destruct (ok && need s1 && en_send e); [| exact X].
  destruct X as [A B C D E F G]. constructor; cbn; try assumption.
  - unfold owned in D |- *. cbn. rewrite flat_map_app. cbn [flat_map]. rewrite app_nil_r.
    eapply Permutation_trans; [exact D |].
    rewrite (Permutation_app_comm (ids_req q) ex). rewrite <- !app_assoc.
    apply Permutation_app_head. rewrite !app_assoc.
    apply Permutation_app_tail. apply Permutation_app_tail. apply Permutation_app_comm.
  - apply Forall_app. split; [exact E | constructor; [exact W | constructor]].
Qed.

Lemma M_refd_add : forall p ex s, M (pid p :: ex) s -> flat p ->
  M ex (uptm (fun t => w_t_refd (t_refd t ++ [p]) t) s).
Proof.
  intros p ex s [A B C D E F G] FP. constructor; cbn; try assumption.
  - unfold owned in D |- *. cbn. rewrite flat_map_app. cbn [flat_map].
    rewrite app_nil_r. unfold ids at 2. unfold flat in FP. rewrite FP.
    eapply Permutation_trans; [exact D |].
    set (a := flat_map ids_req (reqs s)). set (b := flat_map ids (t_refd (tm s))).
    set (c := flat_map ids (t_rst (tm s))).
    change ((pid p :: ex) ++ a ++ b ++ c) with ([pid p] ++ ex ++ a ++ b ++ c).
    rewrite Permutation_app_comm. rewrite <- !app_assoc.
    apply Permutation_app_head. apply Permutation_app_head.
    apply Permutation_app_head. apply Permutation_app_comm.
  - apply Forall_app. split; [exact F | constructor; [exact FP | constructor]].
Qed.

Lemma M_rst_add : forall p ex s, M (pid p :: ex) s -> flat p ->
  M ex (uptm (fun t => w_t_rst (t_rst t ++ [p]) t) s).
Proof.
  intros p ex s [A B C D E F G] FP. constructor; cbn; try assumption.
  - unfold owned in D |- *. cbn. rewrite !flat_map_app. cbn [flat_map].
    rewrite app_nil_r. unfold ids at 3. unfold flat in FP. rewrite FP.
    eapply Permutation_trans; [exact D |].
    set (a := flat_map ids_req (reqs s)). set (b := flat_map ids (t_refd (tm s))).
    set (c := flat_map ids (t_rst (tm s))).
    change ((pid p :: ex) ++ a ++ b ++ c) with ([pid p] ++ ex ++ a ++ b ++ c).
    rewrite Permutation_app_comm. rewrite <- !app_assoc. reflexivity.
  - apply Forall_app. split; [exact G | constructor; [exact FP | constructor]].
Qed.

Lemma M_cb : forall cl e i c ex s, cl_m cl -> wf_c c -> M (ids_c c ++ ex) s ->
  M ex (call_cb cl e i c s).
Proof.
  intros cl e i c ex s C W H. unfold call_cb. destruct c as [| [|] | p | p].
  - eapply M_eq; [exact H | reflexivity ..].
  - apply M_clear; assumption.
  - eapply M_eq; [exact H | reflexivity ..].
  - cbv zeta. cbn in W. destruct p as [j c]. cbn [ids_c] in H. unfold flat in W.
    cbn in W. rewrite W in H. cbn [app] in H.
    rewrite (M_use (j :: ex) s (Param j c) H) by (left; reflexivity).
    destruct (s_log (st s)).
    + unfold by_request.
      pose proof (M_send e need_none (QApi ADereg (Param j c)) ex s) as S.
      cbn [ids_req] in S. unfold ids in S. cbn [pid pcont] in S. rewrite W in S.
      specialize (S H (flat_wf (Param j c) W)).
      destruct (send_req _ _ _ _) as [ok s1]. destruct ok; [exact S |].
      apply M_clear; [exact C |]. apply M_free. exact S.
    + apply M_clear; [exact C |]. apply M_free. exact H.
  - cbv zeta. cbn in W. destruct p as [j c]. cbn [ids_c] in H. unfold flat in W.
    cbn in W. rewrite W in H. cbn [app] in H.
    rewrite (M_use (j :: ex) s (Param j c) H) by (left; reflexivity).
    destruct (s_rfr (st s)).
    + apply M_refd_add; [exact H | exact W].
    + apply M_clear; [exact C |]. apply M_free. exact H.
Qed.

Lemma M_finish : forall cl e p f ex s, cl_m cl -> wf_c (pcont p) -> M (ids p ++ ex) s ->
  M ex (upst f (finish_api cl e p s)).
Proof.
  intros cl e p f ex s C W H. unfold finish_api.
  eapply (M_eq ex (free_param p _)); [| reflexivity ..].
  apply M_free. apply M_cb; [exact C | exact W |].
  eapply M_ex; [| exact H]. unfold ids. cbn [app]. apply Permutation_middle.
Qed.

Ltac meq H := eapply M_eq; [exact H | reflexivity ..].

Lemma M_exp : forall z ex s, M ex s -> M ex (set_exp z s).
Proof.
  intros z ex s H. unfold set_exp. cbv zeta. destruct (0 <? z)%Z; meq H.
Qed.

Lemma M_reg_core : forall cl r ex s, cl_m cl -> M ex s -> M ex (snd (reg_core cl r s)).
Proof.
  intros cl r ex s C H. unfold reg_core. cbv zeta.
  destruct r as [[d |] | | | |]; try (destruct (is_init (st s))); cbn [snd];
    try (meq H).
  match goal with |- context [set_exp ?z ?x] =>
    assert (A : M ex (set_exp z x)) by (apply M_exp; meq H); set (y := set_exp z x) in * end.
  clearbody y. destruct (pl_redirect d); [| meq A].
  unfold reset_endpoint. destruct (ep y); [| meq A].
  apply C in A. set (w := cl y) in *. clearbody w. meq A.
Qed.
Lemma M_login_core : forall r ex s, M ex s -> M ex (snd (login_core r s)).
Proof.
  intros r ex s H. unfold login_core. cbv zeta.
  destruct r as [[d |] | | | |]; try (destruct (s_reg (st s))); cbn [snd];
    try (meq H).
  assert (A : M ex (set_exp (pl_exp d) s)) by (apply M_exp; exact H).
  set (y := set_exp _ _) in *. clearbody y. meq A.
Qed.
Lemma M_refresh_core : forall r ex s, M ex s -> M ex (snd (refresh_core r s)).
Proof.
  intros r ex s H. unfold refresh_core. cbv zeta.
  destruct r as [[d |] | | | |]; try (destruct (s_reg (st s))); cbn [snd];
    try (meq H).
  match goal with |- context [set_exp ?z ?x] =>
    assert (A : M ex (set_exp z x)) by (apply M_exp; meq H); set (y := set_exp z x) in * end.
  clearbody y. meq A.
Qed.

Lemma M_cbt : forall ex s, M ex s -> M ex (uptm (w_t_cb true) s).
Proof. intros ex s H. meq H. Qed.

Lemma M_handle : forall cl e r q ex s, cl_m cl -> wf_req q -> M (ids_req q ++ ex) s ->
  M ex (handle cl e r q s).
Proof.
  intros cl e r q ex s C W H. destruct q as [| | | | a p]; cbn [handle ids_req app] in *.
  - unfold h_register.
    assert (A : M ex (snd (reg_core cl r (uptm (w_t_reg false) s)))).
    { apply M_reg_core; [exact C |]. meq H. }
    destruct (reg_core _ _ _) as [er s1]. cbn [snd] in A. cbv zeta.
    destruct er; ifs; meq A.
  - unfold h_login. cbv zeta.
    assert (A : M ex (snd (login_core r (uptm (w_t_login false) s)))).
    { apply M_login_core. meq H. }
    destruct (login_core _ _) as [[er c] s1]. cbn [snd] in A.
    destruct (s_reg _); [| meq H].
    destruct er; try (ifs; meq A).
    match goal with |- context [if ?c then uptm (w_t_rfr true) ?x else _] =>
      destruct c end.
    + meq A.
    + apply M_cbt. apply M_clear; [exact C |]. meq A.
  - unfold h_refresh.
    assert (A : M ex (snd (refresh_core r (uptm (w_t_rfr false) s)))).
    { apply M_refresh_core. meq H. }
    destruct (refresh_core _ _) as [er s1]. cbn [snd] in A. cbv zeta.
    destruct er; try (ifs; meq A).
    apply M_cbt. apply M_clear; [exact C |]. meq A.
  - unfold h_ping. ifs; meq H.
  - cbv zeta. rewrite (M_use _ s p H) by (left; reflexivity). cbn in W.
    destruct a.
    + unfold h_api_register.
      assert (A : M (ids p ++ ex) (snd (reg_core cl r s))) by (apply M_reg_core; assumption).
      destruct (reg_core _ _ _) as [er s1]. cbn [snd] in A. cbv zeta.
      apply M_finish; [exact C | exact W |]. meq A.
    + unfold h_api_login.
      assert (A : M (ids p ++ ex) (snd (login_core r s))) by (apply M_login_core; assumption).
      destruct (login_core _ _) as [[er c] s1]. cbn [snd] in A. cbv zeta.
      apply M_finish; [exact C | exact W |]. destruct er; meq A.
    + unfold h_api_logout. cbv zeta. apply M_finish; [exact C | exact W |].
      destruct r; meq H.
    + unfold h_api_refresh.
      assert (A : M (ids p ++ ex) (snd (refresh_core r s))) by (apply M_refresh_core; assumption).
      destruct (refresh_core _ _) as [er s1]. cbn [snd] in A. cbv zeta.
      apply M_finish; [exact C | exact W |]. destruct er; meq A.
    + unfold h_api_dereg. cbv zeta. apply M_finish; [exact C | exact W |].
      destruct r; meq H.
Qed.

Lemma cl_m_id : cl_m (fun x => x).
Proof. intros ex s H. exact H. Qed.

Lemma M_add : forall q ex s, M (ids_req q ++ ex) s -> wf_req q ->
  M ex (w_reqs (reqs s ++ [q]) s).
Proof.
  intros q ex s [A B C D E F G] W. constructor; cbn; try assumption.
  - unfold owned in D |- *. cbn. rewrite flat_map_app. cbn [flat_map]. rewrite app_nil_r.
    eapply Permutation_trans; [exact D |].
    rewrite (Permutation_app_comm (ids_req q) ex). rewrite <- !app_assoc.
    apply Permutation_app_head. rewrite !app_assoc.
    apply Permutation_app_tail. apply Permutation_app_tail. apply Permutation_app_comm.
  - apply Forall_app. split; [exact E | constructor; [exact W | constructor]].
Qed.

Lemma M_pass : forall rs ces ex s, Forall wf_req rs -> M (flat_map ids_req rs ++ ex) s ->
  M ex (pass rs ces s).
Proof.
  induction rs as [| q rs IH]; intros ces ex s W H; cbn [pass flat_map app] in *; [exact H |].
  inversion W; subst. cbv zeta. apply IH; [assumption |].
  rewrite <- app_assoc in H.
  destruct (en_hit _); [apply M_handle; [exact cl_m_id | assumption | exact H] |].
  apply M_add; assumption.
Qed.

Lemma M_take : forall ex s, M ex s -> M (flat_map ids_req (reqs s) ++ ex) (w_reqs [] s).
Proof.
  intros ex s [A B C D E F G]. constructor; cbn; try assumption; [| constructor].
  unfold owned in D |- *. cbn. eapply Permutation_trans; [exact D |].
  rewrite !app_assoc. apply Permutation_app_tail. apply Permutation_app_tail.
  apply Permutation_app_comm.
Qed.

Lemma M_restart : forall ex s, M ex s -> M ex (cm_restart s).
Proof.
  intros ex s H. unfold cm_restart.
  assert (H2 : M ex (mgr_stop s)) by (meq H).
  set (z := mgr_stop s) in *. clearbody z.
  apply M_dstop in H2. set (w := dereg_stop z) in *. clearbody w. meq H2.
Qed.

Lemma M_down : forall ex s, M ex s -> M ex (session_down s).
Proof.
  intros ex s H. unfold session_down. cbv zeta.
  destruct (subs s && ep s && conn s); [| exact H].
  assert (X : M ex (w_conn false s)) by (meq H).
  destruct (_ && _); [apply M_restart; exact X | exact X].
Qed.

Lemma M_close : forall ces, cl_m (close ces).
Proof.
  intros ces ex s H. unfold close. destruct (peer s); [| exact H].
  apply M_down. unfold closed_requests. cbv zeta.
  assert (H0 : M ex (w_peer false s)) by (meq H).
  set (x := w_peer false s) in *. clearbody x.
  assert (H1 : M ex (pass (reqs x) ces (w_reqs [] x))).
  { apply M_pass; [apply (M_reqs _ _ H0) | apply M_take; exact H0]. }
  set (y := pass (reqs x) _ _) in *. clearbody y.
  apply M_pass; [apply (M_reqs _ _ H1) | apply M_take; exact H1].
Qed.

Lemma M_mrestart : forall ces ex s, M ex s -> M ex (manager_restart ces s).
Proof.
  intros ces ex s H. unfold manager_restart. cbv zeta.
  destruct (mgr s); [| exact H]. destruct (conn s); [| meq H].
  assert (X : M ex (if ep s then close ces s else s)).
  { destruct (ep s); [apply M_close; exact H | exact H]. }
  set (y := if ep s then close ces s else s) in *. clearbody y.
  destruct (ep s && tcp s); [exact X | meq X].
Qed.

Lemma M_start : forall e ex s, M ex s -> M ex (start_process e s).
Proof. intros e ex s H. unfold start_process, fail_reconnect. ifs; meq H. Qed.

Lemma M_fire : forall t e ces s, M [] s -> M [] (fire t e ces s).
Proof.
  intros t e ces s H. destruct t; cbn [fire].
  - unfold f_register. cbv zeta.
    assert (X : M [] (uptm (w_t_reg false) s)) by (meq H).
    set (y := uptm _ _) in *. clearbody y. destruct (is_init (st y)); [| exact X].
    pose proof (M_send e need_reg QReg [] y X I) as A.
    destruct (send_req _ _ _ _) as [ok s1]. destruct ok; [meq A |].
    destruct (en_sched e); meq A.
  - unfold f_login. cbv zeta.
    assert (X : M [] (uptm (w_t_login false) s)) by (meq H).
    set (y := uptm _ _) in *. clearbody y. destruct (s_reg (st y)); [| exact X].
    pose proof (M_send e need_login QLogin [] y X I) as A.
    destruct (send_req _ _ _ _) as [ok s1]. destruct ok; [meq A |].
    destruct (en_sched e); meq A.
  - unfold f_ping. cbv zeta.
    assert (X : M [] (uptm (w_t_ping false) s)) by (meq H).
    set (y := uptm _ _) in *. clearbody y. destruct (_ && _); [| exact X].
    pose proof (M_add QPing [] y X I) as A. set (w := w_reqs _ _) in *. clearbody w. meq A.
  - unfold f_refresh. cbv zeta.
    assert (X : M [] (uptm (w_t_rfr false) s)) by (meq H).
    set (y := uptm _ _) in *. clearbody y. destruct (s_reg (st y)); [| exact X].
    assert (X2 : M [] (uptm (w_t_ping false) y)) by (meq X).
    set (y2 := uptm _ _) in *. clearbody y2.
    pose proof (M_send e need_refresh QRefresh [] y2 X2 I) as A.
    destruct (send_req _ _ _ _) as [ok s1]. destruct ok; [meq A |].
    destruct (en_sched e); meq A.
  - unfold f_reconnect. apply M_mrestart. meq H.
  - unfold f_callback. cbv zeta. meq H.
  - unfold restart_manager. assert (X : M [] (uptm (w_t_restart false) s)) by (meq H).
    destruct (mgr _); [apply M_restart |]; exact X.
  - unfold start_manager. cbv zeta.
    match goal with |- context [start_process e ?x] =>
      assert (X : M [] (start_process e x)) by
        (apply M_start; destruct (s_reg _); meq H); set (y := start_process e x) in * end.
    clearbody y. meq X.
  - apply M_clear; [apply M_close |]. meq H.
Qed.

(* API calls *)
Lemma M_call : forall e need a c ex s, M (ids_c c ++ ex) s -> wf_c c ->
  match send_req e need (QApi a (Param (nxt s) c)) (snd (new_param c s)) with
  | (true, s1) => M ex s1
  | (false, s1) => M (ids_c c ++ ex) (free_param (Param (nxt s) c) s1)
  end.
Proof.
  intros e need a c ex s H W. apply (M_new c) in H.
  pose proof (M_send e need (QApi a (Param (nxt s) c)) ex (snd (new_param c s)) H W) as S.
  destruct (send_req _ _ _ _) as [ok s1]. destruct ok; [exact S |].
  apply M_free. exact S.
Qed.

Lemma M_login : forall cl e al c ex s, cl_m cl -> M (ids_c c ++ ex) s -> wf_c c ->
  match do_login cl e al c s with
  | (true, s1) => M ex s1
  | (false, s1) => M (ids_c c ++ ex) s1
  end.
Proof.
  intros cl e al c ex s C H W. unfold do_login. destruct (s_log (st s)).
  - apply M_cb; assumption.
  - destruct (s_reg (st s) && al); [| exact H].
    pose proof (M_call e need_login ALogin c ex s H W) as A. unfold new_param in *.
    cbn [snd] in A. destruct (send_req _ _ _ _) as [ok s1]. destruct ok; exact A.
Qed.

Lemma M_refresh : forall e al c ex s, M (ids_c c ++ ex) s -> wf_c c ->
  match do_refresh e al c s with
  | (true, s1) => M ex s1
  | (false, s1) => M (ids_c c ++ ex) s1
  end.
Proof.
  intros e al c ex s H W. unfold do_refresh.
  destruct (s_reg (st s) && al); [| exact H].
  pose proof (M_call e need_refresh ARefresh c ex s H W) as A. unfold new_param in *.
  cbn [snd] in A. destruct (send_req _ _ _ _) as [ok s1]. destruct ok; exact A.
Qed.

Lemma M_dereg : forall cl e y c ex s, cl_m cl -> ids_c c = [] -> M ex s ->
  M ex (snd (do_deregister cl e y c s)).
Proof.
  intros cl e y c ex s C FC H. unfold do_deregister.
  destruct (s_reg (st s)); [| exact H].
  destruct (cps_eqb (cps s) CDeregistering); [exact H |].
  destruct (en_alloc e); [| exact H].
  pose proof (M_new c ex s H) as H1. unfold new_param in *. cbn [snd] in H1. cbv zeta.
  set (p := Param (nxt s) c). change (nxt s) with (pid p) in H1.
  match goal with |- context [w_cps CDeregistering ?x] =>
    assert (H2 : M (pid p :: ex) (w_cps CDeregistering x)) by (meq H1);
    set (s2 := w_cps CDeregistering x) in * end.
  assert (FP : flat p) by exact FC.
  clearbody s2 p. clear H1 H.
  destruct (en_short e || s_log (st s2)).
  - unfold by_request.
    pose proof (M_send e need_none (QApi ADereg p) ex s2) as S.
    cbn [ids_req] in S. unfold ids in S. rewrite FP in S. specialize (S H2 (flat_wf p FP)).
    destruct (send_req _ _ _ _) as [ok s3]. destruct ok; cbn [snd]; [exact S |].
    apply M_free. exact S.
  - destruct y; [cbn [snd]; apply M_free; exact H2 |].
    destruct (k_rfr (tok s2) && negb (permanent s2)).
    + pose proof (M_refresh e (en_alloc2 e) (KTryRefreshed p) ex s2) as S.
      destruct p as [j c']. unfold flat in FP. cbn in FP. cbn [ids_c wf_c] in S.
      rewrite FP in S. specialize (S H2 FP).
      destruct (do_refresh _ _ _ _) as [ok s3]. destruct ok; cbn [snd]; [exact S |].
      apply M_free. exact S.
    + pose proof (M_login cl e (en_alloc2 e) (KTryLogin p) ex s2 C) as S.
      destruct p as [j c']. unfold flat in FP. cbn in FP. cbn [ids_c wf_c] in S.
      rewrite FP in S. specialize (S H2 FP).
      destruct (do_login _ _ _ _ _) as [ok s3]. destruct ok; cbn [snd]; [exact S |].
      apply M_free. exact S.
Qed.

Lemma drop_perm : forall (A : Type) (f : A -> list nat) l i x, nth_error l i = Some x ->
  Permutation (flat_map f l) (f x ++ flat_map f (drop i l)).
Proof.
  induction l as [| a l IH]; intros [| i] x E; cbn in E; try discriminate.
  - inversion E; subst. reflexivity.
  - cbn [drop flat_map]. rewrite (IH i x E). rewrite !app_assoc.
    apply Permutation_app_tail. apply Permutation_app_comm.
Qed.

Lemma drop_forall : forall (A : Type) (P : A -> Prop) l i, Forall P l -> Forall P (drop i l).
Proof.
  induction l as [| a l IH]; intros i H; [destruct i; constructor |].
  inversion H; subst. destruct i; cbn [drop]; [assumption | constructor; auto].
Qed.

Lemma nth_forall : forall (A : Type) (P : A -> Prop) l i x, Forall P l ->
  nth_error l i = Some x -> P x.
Proof.
  intros A P l i x H E. rewrite Forall_forall in H. apply H. eapply nth_error_In. exact E.
Qed.

(* The delayed second half of a deregistration that can send its request. *)
Lemma M_goes : forall ces e p s,
  M [pid p] s -> flat p ->
  (ep s || en_addr e) && en_send e
    && (en_short e || s_log (st s)
        || (s_reg (st s) && en_alloc e && k_uid (tok s) && k_acc (tok s))) = true ->
  M [] (f_refreshed ces e p s).
Proof.
  intros ces e p s H FP G. unfold f_refreshed. cbv zeta.
  rewrite (M_use [pid p] s p H) by (left; reflexivity).
  rewrite !andb_true_iff in G. destruct G as ((G1 & G2) & G3).
  assert (SN : forall need q x, ep x || en_addr e = true ->
    (forall z, tok z = tok x -> need z = true) ->
    exists s1, send_req e need q x = (true, s1)).
  { intros need q x X N. unfold send_req, set_endpoint. destruct (ep x).
    - rewrite (N x eq_refl), G2. cbn. eauto.
    - cbn in X. rewrite X. rewrite N by reflexivity. rewrite G2. cbn. eauto. }
  destruct (en_short e) eqn:SH.
  - unfold by_request.
    pose proof (M_send e need_none (QApi ADereg p) [] s) as S.
    cbn [ids_req] in S. unfold ids in S. rewrite FP in S. specialize (S H (flat_wf p FP)).
    destruct (SN need_none (QApi ADereg p) s G1) as (s1 & E); [reflexivity |].
    rewrite E in *. exact S.
  - pose proof (M_login (close ces) e (en_alloc e) (KTryLogin p) [] s (M_close ces)) as S.
    destruct p as [j c]. unfold flat in FP. cbn in FP. cbn [ids_c wf_c] in S.
    rewrite FP in S. specialize (S H FP).
    assert (X : fst (do_login (close ces) e (en_alloc e) (KTryLogin (Param j c)) s) = true).
    { unfold do_login. destruct (s_log (st s)); [reflexivity |]. cbn [orb] in G3.
      rewrite !andb_true_iff in G3. destruct G3 as (((R & AL) & U) & AC).
      rewrite R, AL. cbn [andb]. unfold new_param.
      match goal with |- context [send_req e need_login ?q ?x] =>
        destruct (SN need_login q x) as (s1 & E) end.
      - exact G1.
      - intros z Z. unfold need_login. rewrite Z. cbn. rewrite U, AC. reflexivity.
      - rewrite E. reflexivity. }
    destruct (do_login _ _ _ _ _) as [ok s1]. cbn [fst] in X. subst ok. exact S.
Qed.

Lemma M_step : forall o s, M [] s -> goes_on s o = true -> M [] (step s o).
Proof.
  intros o s H GO.
  destruct o as [t e ces | i e ces | i e ces | i r e ces | | ces | | e | rs ces | ces
    | ces | fo y e ces | e ces | e | e ces | e | e]; cbn [step].
  - destruct (pending t (tm s)); [apply M_fire; exact H | exact H].
  - destruct (nth_error (t_refd (tm s)) i) as [p |] eqn:NE; [| exact H].
    pose proof (nth_forall _ _ _ _ _ (M_refd _ _ H) NE) as FP.
    assert (X : M [pid p] (uptm (fun t => w_t_refd (drop i (t_refd t)) t) s)).
    { destruct H as [A B C D E F G]. constructor; cbn; try assumption.
      - unfold owned in D |- *. cbn. eapply Permutation_trans; [exact D |]. cbn [app].
        rewrite (drop_perm _ ids _ _ _ NE). unfold ids at 1. rewrite FP. cbn [app].
        symmetry. apply Permutation_middle.
      - apply drop_forall. exact F. }
    apply M_goes; [exact X | exact FP | exact GO].
  - destruct (nth_error (t_rst (tm s)) i) as [p |] eqn:NE; [| exact H].
    pose proof (nth_forall _ _ _ _ _ (M_rst _ _ H) NE) as FP.
    assert (X : M [pid p] (uptm (fun t => w_t_rst (drop i (t_rst t)) t) s)).
    { destruct H as [A B C D E F G]. constructor; cbn; try assumption.
      - unfold owned in D |- *. cbn. eapply Permutation_trans; [exact D |]. cbn [app].
        rewrite (drop_perm _ ids _ _ _ NE). unfold ids at 2. rewrite FP. cbn [app].
        rewrite app_assoc. symmetry. rewrite app_assoc. apply Permutation_middle.
      - apply drop_forall. exact G. }
    set (sx := uptm _ _) in *. clearbody sx.
    unfold f_on_reset. cbv zeta.
    rewrite (M_use [pid p] sx p X) by (left; reflexivity).
    apply M_free in X. set (z := free_param p sx) in *. clearbody z.
    pose proof (M_dereg (close ces) e false (KReset false) [] z (M_close ces) eq_refl X) as A.
    destruct (do_deregister _ _ _ _ _) as [r s2]. cbn [snd] in A.
    destruct r; try exact A. apply M_clear; [apply M_close | exact A].
  - destruct (nth_error (reqs s) i) as [q |] eqn:NE; [| exact H].
    apply M_handle; [apply M_close | exact (nth_forall _ _ _ _ _ (M_reqs _ _ H) NE) |].
    rewrite app_nil_r. destruct H as [A B C D E F G]. constructor; cbn; try assumption.
    + unfold owned in D |- *. cbn. eapply Permutation_trans; [exact D |]. cbn [app].
      rewrite (drop_perm _ ids_req _ _ _ NE). rewrite <- app_assoc. reflexivity.
    + apply drop_forall. exact E.
  - unfold session_up. destruct (_ && _); [meq H | exact H].
  - destruct (ep s); [apply M_close; exact H | exact H].
  - unfold interface_up. destruct (_ && _); [apply M_restart |]; exact H.
  - unfold manager_start. apply (M_start e) in H. set (y := start_process e s) in *.
    clearbody y. meq H.
  - unfold manager_stop. cbv zeta.
    match goal with |- context [reset_endpoint (close ces) ?x] =>
      assert (H1 : M [] x) by (meq H); set (s1 := x) in * end. clearbody s1.
    assert (H2 : M [] (reset_endpoint (close ces) s1)).
    { unfold reset_endpoint. destruct (ep s1); [| meq H1].
      apply (M_close ces) in H1. set (w := close ces s1) in *. clearbody w. meq H1. }
    set (s2 := reset_endpoint (close ces) s1) in *. clearbody s2.
    destruct (rs || negb (k_acc (tok s2))); [meq H2 |].
    destruct (s_reg (st (upst (w_s_log false) s2))); meq H2.
  - apply M_mrestart. exact H.
  - unfold update_conf. cbv zeta.
    assert (H2 : M [] (reset_endpoint (close ces) s)).
    { unfold reset_endpoint. destruct (ep s); [| meq H].
      apply (M_close ces) in H. set (w := close ces s) in *. clearbody w. meq H. }
    set (s2 := reset_endpoint (close ces) s) in *. clearbody s2.
    assert (H3 : M [] (mgr_stop (reinit_store s2))) by (meq H2).
    set (s3 := mgr_stop (reinit_store s2)) in *. clearbody s3.
    apply M_dstop in H3. set (s4 := dereg_stop s3) in *. clearbody s4.
    match goal with |- M [] (if mgr ?x then _ else _) =>
      assert (H5 : M [] x) by (meq H3); set (s5 := x) in * end. clearbody s5.
    destruct (mgr s5); [apply M_mrestart |]; exact H5.
  - unfold cloud_reset. destruct (_ && en_tls e);
      [| apply M_clear; [apply M_close | exact H]].
    cbv zeta. assert (H1 : M [] (mgr_stop s)) by (meq H).
    set (s1 := mgr_stop s) in *. clearbody s1. destruct y.
    + pose proof (M_dereg (close ces) e true (KReset true) [] s1 (M_close ces) eq_refl H1) as A.
      destruct (do_deregister _ _ _ _ _) as [r s2]. cbn [snd] in A.
      destruct r; try exact A. apply M_clear; [apply M_close | exact A].
    + destruct (en_alloc e); [| apply M_clear; [apply M_close | exact H1]].
      pose proof (M_new KUser [] s1 H1) as A. unfold new_param in *. cbn [snd] in A.
      apply M_rst_add; [exact A | reflexivity].
  - apply M_dereg; [apply M_close | reflexivity | exact H].
  - unfold do_register. destruct (s_reg (st s)); [meq H |].
    destruct (is_init (st s) && en_alloc e); [| exact H].
    pose proof (M_call e need_reg AReg KUser [] s H I) as A. unfold new_param in *.
    cbn [snd] in A. destruct (send_req _ _ _ _) as [ok s1]. destruct ok; cbn [snd];
      [meq A | exact A].
  - pose proof (M_login (close ces) e (en_alloc e) KUser [] s (M_close ces) H I) as A.
    destruct (do_login _ _ _ _ _) as [ok s1]. destruct ok; exact A.
  - unfold do_logout. destruct (s_log (st s) && en_alloc e); [| exact H].
    pose proof (M_call e need_login ALogout KUser [] s H I) as A. unfold new_param in *.
    cbn [snd] in A. destruct (send_req _ _ _ _) as [ok s1]. destruct ok; exact A.
  - pose proof (M_refresh e (en_alloc e) KUser [] s H I) as A.
    destruct (do_refresh _ _ _ _) as [ok s1]. destruct ok; exact A.
Qed.

Lemma M_run : forall l s, M [] s -> along goes_on s l = true -> M [] (run s l).
Proof.
  induction l as [| o l IH]; intros s HI H; [exact HI |].
  cbn [along] in H. apply andb_true_iff in H. destruct H as [H1 H2].
  cbn [run fold_left]. apply IH; [apply M_step; assumption | exact H2].
Qed.

Lemma M_boot : forall o t r c k, M [] (boot o t r c k).
Proof.
  intros o t r c k. unfold boot. destruct (cps_eqb c CDeregistering);
    constructor; cbn; try constructor.
Qed.
