(** Messages protected with OSCORE: where an accepted message comes from. *)
From Verif Require Import Common Oscore_Model Oscore_Spec Oscore_Proofs Osx_Model Osx_Spec Osx_Proofs Osx2_Proofs.
Local Open Scope N_scope.

Section Auth.
Variable civ : list N -> list N.
Hypothesis civ_len : forall k, List.length (civ k) = 13%nat.
Variable known : list N -> bool.
Notation inv := (inv civ).
Notation with_ctx := (with_ctx civ).

(** ** Steps extend the histories *)
Lemma protect_prot s d m s1 m1 o : protect civ s d m = (s1, m1, o) ->
  acc s1 = acc s /\ (prot s1 = prot s \/
   exists c e, find (has_subject (g_peer m)) (d_ctxs (devs s d)) = Some c /\ prot s1 = prot s ++ [e] /\ e_dev e = d /\ e_secret e = x_secret c /\
     e_send e = x_send c /\ e_mid e = g_mid m /\ e_token e = g_token m /\ e_ans e = g_ans m /\ e_inner e = inner_obs (g_inner m) /\
     e_to e = if is_request (i_code (g_inner m)) then None else Some (g_piv m)).
Proof.
  unfold protect. destruct (find (has_subject (g_peer m)) (d_ctxs (devs s d))) as [c|] eqn:F; [|intros H; injection H as <- <- <-; auto].
  cbv zeta. destruct (is_request (i_code (g_inner m))) eqn:R.
  - destruct (d_rfnop (devs s d)); [|intros H; injection H as <- <- <-; auto].
    destruct (find (has_token (g_token m)) (d_cbs (devs s d))) as [b|]; intros H; injection H as <- <- <-; [|auto]. cbn [acc prot]. split; [reflexivity|].
    right. eexists c, _. split; [reflexivity|]. split; [reflexivity|]. repeat split.
  - destruct (g_piv m) as [|x r] eqn:G; intros H; injection H as <- <- <-; [auto|]. cbn [acc prot]. split; [reflexivity|].
    right. eexists c, _. split; [reflexivity|]. split; [reflexivity|]. repeat split.
Qed.

Lemma dispatch_prot s d m con : acc (dispatch civ s d m con) = acc s /\ exists s1 m1 o, protect civ s d m = (s1, m1, o) /\ prot (dispatch civ s d m con) = prot s1.
Proof.
  unfold dispatch. destruct (protect civ s d m) as [[s1 m1] o] eqn:P. destruct (protect_prot _ _ _ _ _ _ P) as [A _].
  destruct con; cbn [acc prot]; (split; [exact A|]); exists s1, m1, o; auto.
Qed.

(** What a step adds to the history of protected messages. *)
Definition adds (s : st) (o : op) (e : sent_) : Prop :=
  e_to e = None \/
  (exists d n ty mid tok i con a c, o = Respond d n ty mid tok i con /\ nth_error (acc s) n = Some a /\ a_dev a = d /\ a_mcast a = false /\
     find (has_subject (a_from a)) (d_ctxs (devs s d)) = Some c /\
     e_dev e = d /\ e_secret e = x_secret c /\ e_send e = x_send c /\ e_ans e = Some n /\ e_to e = Some (a_piv a)) \/
  (exists d k m, o = Again d k /\ nth_error (d_trs (devs s d)) k = Some m /\ is_request (i_code (g_inner m)) = false).

Lemma step_hist s o : (exists l, acc (step civ s o) = acc s ++ l) /\
  (prot (step civ s o) = prot s \/ exists e, prot (step civ s o) = prot s ++ [e] /\ adds s o e).
Proof.
  assert (N0 : forall x : st, acc x = acc s -> exists l, acc x = acc s ++ l) by (intros x ->; exists []; now rewrite app_nil_r).
  destruct o as [d peer ty mid tok i con|d n ty mid tok i con|d mid tok i|d k|d k|d tok|d p mc dup]; cbn [step].
  - destruct (is_request (i_code i) && _ && _) eqn:B; [|split; [now apply N0|auto]]. apply andb_true_iff in B. destruct B as [B _]. apply andb_true_iff in B. destruct B as [RQ _].
    match goal with |- context [dispatch civ ?x d ?m con] => set (s0 := x); set (mm := m) end.
    destruct (dispatch_prot s0 d mm con) as (A & s1 & m1 & q & P & E). split; [apply N0; rewrite A; reflexivity|]. rewrite E.
    destruct (protect_prot _ _ _ _ _ _ P) as [_ [X|(c & e & _ & X & _ & _ & _ & _ & _ & _ & _ & T)]]; [left; rewrite X; reflexivity|]. right. exists e.
    split; [exact X|]. left. rewrite T. cbn [mm g_inner]. now rewrite RQ.
  - destruct (nth_error (acc s) n) as [a|] eqn:NA; [|split; [now apply N0|auto]].
    destruct (Nat.eqb (a_dev a) d && negb (a_mcast a) && negb (is_request (i_code i))) eqn:B; [|split; [now apply N0|auto]].
    apply andb_true_iff in B. destruct B as [B R]. apply andb_true_iff in B. destruct B as [B M]. apply Nat.eqb_eq in B. apply negb_true_iff in R, M.
    match goal with |- context [dispatch civ ?x d ?m con] => set (mm := m) end.
    destruct (dispatch_prot s d mm con) as (A & s1 & m1 & q & P & E). split; [apply N0; rewrite A; reflexivity|]. rewrite E.
    destruct (protect_prot _ _ _ _ _ _ P) as [_ [X|(c & e & F & X & E1 & E2 & E3 & _ & _ & E4 & _ & T)]]; [left; rewrite X; reflexivity|]. right. exists e.
    split; [exact X|]. right. left. exists d, n, ty, mid, tok, i, con, a, c. cbn [mm g_inner g_peer g_ans g_piv] in *. rewrite R in T. repeat split; auto.
  - unfold protect_group. destruct (find is_group (d_ctxs (devs s d))) as [c|]; [|split; [now apply N0|auto]]. cbn [fst acc prot]. split; [now apply N0|].
    right. eexists. split; [reflexivity|]. now left.
  - destruct (nth_error (d_trs (devs s d)) k) as [m|] eqn:NK; [|split; [now apply N0|auto]]. destruct (protect civ s d m) as [[s1 m1] q] eqn:P. cbn [acc prot].
    destruct (protect_prot _ _ _ _ _ _ P) as [A X]. split; [now apply N0|]. destruct X as [X|(c & e & F & X & E1 & E2 & E3 & _ & _ & E4 & _ & T)]; [auto|].
    right. exists e. split; [exact X|]. destruct (is_request (i_code (g_inner m))) eqn:R; [left; exact T|]. right. right. exists d, k, m. auto.
  - split; [now apply N0|auto].
  - split; [now apply N0|auto].
  - destruct (accept_cases civ s d p mc dup) as (EP & _ & _ & X). split; [|auto]. destruct X as [X|(c & rp & i & _ & _ & _ & X)]; rewrite X; [exists []; now rewrite app_nil_r|eauto].
Qed.

Lemma prot_incl s o e : In e (prot s) -> In e (prot (step civ s o)).
Proof. intros I. destruct (step_hist s o) as [_ [X|(x & X & _)]]; rewrite X; [exact I|]. apply in_or_app. auto. Qed.

Lemma step_grow s o : inv s -> grow s (step civ s o).
Proof.
  intros V.
  assert (DG : forall x d m con s1 m1 q, grow s x -> protect civ x d m = (s1, m1, q) -> grow x s1 -> grow s (dispatch civ x d m con)).
  { intros x d m con s1 m1 q G P G1. unfold dispatch. rewrite P. destruct con; [|eapply grow_trans; eauto]. eapply grow_trans; [exact G|]. eapply grow_trans; [exact G1|].
    apply grow_upd. apply forall2_refl. }
  assert (PG : forall x d m s1 m1 q, protect civ x d m = (s1, m1, q) -> grow x s1).
  { intros x d m s1 m1 q. unfold protect. destruct (find (has_subject (g_peer m)) (d_ctxs (devs x d))) as [c|] eqn:F; [|intros H; injection H as <- <- <-; apply grow_refl].
    assert (G1 : Forall2 le_ctx (d_ctxs (devs x d)) (upd_first (has_subject (g_peer m)) (set_ssn (x_ssn c + 1)) (d_ctxs (devs x d)))).
    { apply upd_first_le. intros k Fk. rewrite F in Fk. injection Fk as <-. split; [reflexivity|cbn; lia]. }
    cbv zeta. destruct (is_request (i_code (g_inner m))).
    - destruct (d_rfnop (devs x d)); [|intros H; injection H as <- <- <-; apply grow_refl].
      destruct (find (has_token (g_token m)) (d_cbs (devs x d))) as [b|]; intros H; injection H as <- <- <-; apply grow_upd; exact G1.
    - destruct (g_piv m); intros H; injection H as <- <- <-; [apply grow_refl|apply grow_upd; exact G1]. }
  destruct o as [d peer ty mid tok i con|d n ty mid tok i con|d mid tok i|d k|d k|d tok|d p mc dup]; cbn [step].
  - destruct (is_request (i_code i) && _ && _); [|apply grow_refl]. match goal with |- grow s (dispatch civ ?x d ?m con) => destruct (protect civ x d m) as [[s1 m1] q] eqn:P end.
    eapply DG; [|exact P|eapply PG; exact P]. apply grow_upd. apply forall2_refl.
  - destruct (nth_error (acc s) n) as [a|]; [|apply grow_refl]. destruct (Nat.eqb (a_dev a) d && _ && _); [|apply grow_refl].
    match goal with |- grow s (dispatch civ ?x d ?m con) => destruct (protect civ x d m) as [[s1 m1] q] eqn:P end. eapply DG; [apply grow_refl|exact P|eapply PG; exact P].
  - unfold protect_group. destruct (find is_group (d_ctxs (devs s d))) as [c|] eqn:F; [|apply grow_refl]. cbn [fst]. apply grow_upd. apply upd_first_le. intros k Fk. rewrite F in Fk. injection Fk as <-.
    split; [reflexivity|cbn; lia].
  - destruct (nth_error (d_trs (devs s d)) k) as [m|]; [|apply grow_refl]. destruct (protect civ s d m) as [[s1 m1] q] eqn:P. eapply grow_trans; [eapply PG; exact P|]. apply grow_upd. apply forall2_refl.
  - apply grow_upd. apply forall2_refl.
  - apply grow_upd. apply forall2_refl.
  - apply accept_cases.
Qed.

(** ** Origin *)
(** [e], protected in [c'], is the origin of [a]. *)
Definition from (s : st) (a : acc_) (e : sent_) (c' : ctx) : Prop :=
  In e (prot s) /\ In c' (d_ctxs (devs s (e_dev e))) /\ with_ctx c' e /\ origin a e /\
  (a_to a = None -> a_piv a = store_piv (e_ssn e)) /\ (forall rp, a_to a = Some rp -> x_recv c' = a_send a).
Definition authentic (s : st) : Prop := forall a, In a (acc s) -> known (a_secret a) = false -> exists e c', from s a e c'.

Lemma from_grow s s' a e c' : grow s s' -> (forall x, In x (prot s) -> In x (prot s')) -> from s a e c' -> exists c2, from s' a e c2.
Proof.
  intros G P (A & B & C & D & E & F). destruct (forall2_in _ _ _ (G (e_dev e)) B) as (c2 & I2 & L & _). unfold stat in L. injection L as L1 L2 L3 L4 L5.
  exists c2. split; [auto|]. split; [exact I2|]. split; [|split; [exact D|split; [exact E|]]].
  - unfold Osx_Proofs.with_ctx, aad_of in *. now rewrite <- L3, <- L4, <- L5.
  - intros rp X. rewrite <- L5. eauto.
Qed.

Lemma found_rp s d p c rp : inv s -> found_by (devs s d) p c rp -> rp <> [] -> bytes_ok rp /\ (List.length rp <= 5)%nat.
Proof.
  intros [W P T N A C R PR M] [I FB] NE. destruct FB as [(_ & X & _)|(_ & _ & FA)]; [contradiction|].
  assert (MN : forall q, mine s d (x_subject c) q rp -> bytes_ok rp /\ (List.length rp <= 5)%nat).
  { intros q (e & k & _ & _ & _ & _ & _ & _ & -> & _). destruct (store_piv_shape (e_ssn e)) as (X & Y & _). auto. }
  unfold answered in FA. destruct (find (has_token (o_token p)) (d_cbs (devs s d))) as [b|] eqn:FBt.
  - injection FA as E1 E2. apply find_in in FBt. destruct FBt as [Ib Hb]. destruct (C d b Ib) as [X|X]; [congruence|]. rewrite E1, E2 in X. eauto.
  - assert (TT : exists t, In t (d_trs (devs s d)) /\ g_peer t = x_subject c /\ g_piv t = rp).
    { destruct (find (fun t => bytes_eqb (o_token p) (g_token t)) (d_trs (devs s d))) as [t|] eqn:FT.
      - injection FA as E1 E2. apply find_in in FT. exists t. tauto.
      - destruct (find (fun t => g_mid t =? o_mid p) (d_trs (devs s d))) as [t|] eqn:FM; [|discriminate]. injection FA as E1 E2. apply find_in in FM. exists t. tauto. }
    destruct TT as (t & It & E1 & E2). destruct (R d t It) as [X|[X|X]]; [congruence| |].
    + exfalso. apply X. rewrite E1. now apply in_map.
    + rewrite E1, E2 in X. eauto.
Qed.

Lemma accepted_from s d p mc c rp i : inv s -> network known s (Deliver d p mc false) -> found_by (devs s d) p c rp -> known (x_secret c) = false ->
  open (x_secret c, x_recv c) (nonce_of civ c p rp) (opened_by c p rp) (o_ct p) = Some i -> exists e c', from s (acc_of d c p mc rp i) e c'.
Proof.
  intros V (BP & LP & NW) FB KN O. assert (W := v_wf _ _ V). assert (RP := found_rp s d p c rp V FB).
  unfold open in O. destruct (o_ct p) as [k n ad j|] eqn:CT; [|discriminate]. cbn [fst snd] in O.
  destruct (bytes_eqb (x_secret c) (fst k) && bytes_eqb (x_recv c) (snd k) && bytes_eqb (nonce_of civ c p rp) n && bytes_eqb (opened_by c p rp) ad) eqn:B; [|discriminate].
  injection O as ->. apply andb_true_iff in B. destruct B as [B B4]. apply andb_true_iff in B. destruct B as [B B3]. apply andb_true_iff in B. destruct B as [B1 B2].
  apply bytes_eqb_eq in B1, B2, B3, B4. destruct NW as [NW|NW]; [congruence|]. apply in_map_iff in NW. destruct NW as (e & EC & IE).
  destruct (v_prot _ _ V e IE) as (c' & Ic' & WC & _). exists e, c'. destruct WC as (W1 & W2 & W3).
  assert (CE : Ct k n ad i = Ct (x_secret c', x_send c') (aead_nonce (x_send c') (store_piv (e_ssn e)) (civ (x_secret c'))) (aad_of c' e) (e_inner e)) by congruence.
  injection CE as K1 K2 K3 K4. rewrite K1 in B1, B2. rewrite K2 in B3. rewrite K3 in B4. cbn [fst snd] in B1, B2.
  destruct FB as [I FB]. destruct (proj1 W d c I) as (WL1 & WL2 & WB1 & WB2 & _ & _ & _ & _ & WN). destruct (proj1 W (e_dev e) c' Ic') as (XL1 & XL2 & XB1 & XB2 & _ & _ & _ & _ & XN).
  destruct (store_piv_shape (e_ssn e)) as (SL & SB & _). assert (SV := store_piv_value (e_ssn e)).
  unfold from, origin. cbn [acc_of a_secret a_recv a_inner a_to a_piv a_send].
  assert (WC : with_ctx c' e) by (repeat split; auto).
  unfold opened_by in B4. unfold nonce_of in B3. destruct (o_code p <=? 5) eqn:RQ.
  - destruct (o_piv p) as [|x r] eqn:PV; [unfold aad_of in B4; destruct (e_to e); discriminate|]. destruct (1 <=? o_code p) eqn:R1; [|unfold aad_of in B4; destruct (e_to e); discriminate].
    unfold aad_of in B4. destruct (e_to e) as [rq|] eqn:ET.
    + exfalso. apply aad_inj in B4. destruct B4. congruence.
    + apply aad_inj in B4. destruct B4 as [B4 B5]. repeat split; auto; try congruence.
  - unfold aad_of in B4. destruct (e_to e) as [rq|] eqn:ET.
    2:{ exfalso. apply aad_inj in B4. destruct B4. congruence. }
    apply aad_inj in B4. destruct B4 as [B4 B5]. assert (NE : rp <> []) by (rewrite B5; exact (v_to _ _ V e rq IE ET)). destruct (RP NE) as [RB RL].
    destruct (o_piv p) as [|x r] eqn:PV.
    + exfalso. rewrite B1 in B3. apply nonce_injective in B3; auto. destruct B3. congruence.
    + rewrite B1 in B3. apply nonce_injective in B3; auto. destruct B3 as [_ B3]. repeat split; auto; try congruence.
Qed.

Lemma step_authentic s o : inv s -> network known s o -> authentic s -> authentic (step civ s o).
Proof.
  intros V NW AU a I KN.
  assert (OLD : In a (acc s) -> exists e c', from (step civ s o) a e c').
  { intros J. destruct (AU a J KN) as (e & c' & F). exists e. eapply from_grow; [apply step_grow; exact V|intros x; apply prot_incl|exact F]. }
  destruct o as [d peer ty mid tok i con|d n ty mid tok i con|d mid tok i|d k|d k|d tok|d p mc dup].
  1: { apply OLD; cbn [step] in I; destruct (is_request (i_code i) && _ && _); [|exact I]. rewrite (proj1 (dispatch_prot _ _ _ _)) in I. exact I. }
  1: { apply OLD; cbn [step] in I; destruct (nth_error (acc s) n); [|exact I]. destruct (Nat.eqb _ d && _ && _); [|exact I]. rewrite (proj1 (dispatch_prot _ _ _ _)) in I. exact I. }
  1: { apply OLD; cbn [step] in I; unfold protect_group in I. destruct (find is_group _); exact I. }
  1: { apply OLD; cbn [step] in I; destruct (nth_error (d_trs (devs s d)) k) as [m|]; [|exact I]. destruct (protect civ s d m) as [[s1 m1] q] eqn:P. cbn [acc] in I. rewrite (proj1 (protect_prot _ _ _ _ _ _ P)) in I. exact I. }
  1: { apply OLD; exact I. }
  1: { apply OLD; exact I. }
  cbn [step] in *. destruct (accept_cases civ s d p mc dup) as (EP & G & CT & X). destruct X as [X|(c & rp & i & FB & _ & O & X)]; [apply OLD; congruence|].
  rewrite X in I. apply in_app_or in I. destruct I as [I|[<-|[]]]; [auto|].
  destruct (accepted_from s d p mc c rp i V) as (e & c' & F); auto.
  exists e. eapply from_grow; [exact G|intros x; rewrite EP; auto|exact F].
Qed.

Lemma run_authentic l : forall s, inv s -> along civ (network known) s l -> authentic s -> authentic (run civ s l).
Proof. induction l as [|o l IH]; [intros s V _ AU; exact AU|]. intros s V [A B] AU. cbn. apply IH; [now apply step_inv|exact B|now apply step_authentic]. Qed.
End Auth.
