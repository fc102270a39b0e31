(** Messages protected with OSCORE: identifiers, contexts and the invariant of the histories. *)
From Verif Require Import Common Oscore_Model Oscore_Spec Oscore_Proofs Osx_Model Osx_Spec.
Local Open Scope N_scope.

(** ** Additional data *)
Lemma bytes_eqb_eq a b : bytes_eqb a b = true <-> a = b.
Proof. apply list_eqb_spec. Qed.

Lemma bstr_app_inj a r a' r' : bstr a ++ r = bstr a' ++ r' -> a = a' /\ r = r'.
Proof.
  unfold bstr. cbn [app]. intros H. assert (L : List.length a = List.length a').
  { assert (E := f_equal (hd 0) H). cbn [hd] in E. lia. }
  apply (f_equal (@tl N)) in H. cbn [tl] in H. split.
  - apply (f_equal (firstn (List.length a))) in H. rewrite firstn_app, Nat.sub_diag, firstn_all, firstn_O, app_nil_r in H.
    rewrite L, firstn_app, Nat.sub_diag, firstn_all, firstn_O, app_nil_r in H. exact H.
  - apply (f_equal (skipn (List.length a))) in H. rewrite skipn_app, Nat.sub_diag, skipn_all, skipn_O in H.
    rewrite L, skipn_app, Nat.sub_diag, skipn_all, skipn_O in H. exact H.
Qed.

Lemma aad_inj k p k' p' : compose_aad k p = compose_aad k' p' -> k = k' /\ p = p'.
Proof.
  intros H. unfold compose_aad in H. apply app_inv_head in H. apply app_inv_head in H.
  rewrite <- (app_nil_r (bstr ([0x85; 0x01; 0x81; 10] ++ bstr k ++ bstr p ++ bstr []))) in H.
  rewrite <- (app_nil_r (bstr ([0x85; 0x01; 0x81; 10] ++ bstr k' ++ bstr p' ++ bstr []))) in H.
  apply bstr_app_inj in H. destruct H as [H _]. apply app_inv_head in H. apply bstr_app_inj in H. destruct H as [K H].
  apply bstr_app_inj in H. tauto.
Qed.
Lemma aad_nonempty k p : compose_aad k p <> [].
Proof. discriminate. Qed.

(** ** Contexts change in sequence number and window only *)
Definition stat (c : ctx) := (x_subject c, x_type c, x_secret c, x_send c, x_recv c).
Definition le_ctx (c c' : ctx) : Prop := stat c = stat c' /\ x_ssn c <= x_ssn c'.
Definition grow (s s' : st) : Prop := forall d, Forall2 le_ctx (d_ctxs (devs s d)) (d_ctxs (devs s' d)).

Lemma le_ctx_refl c : le_ctx c c. Proof. split; [reflexivity|lia]. Qed.
Lemma forall2_refl l : Forall2 le_ctx l l. Proof. induction l; constructor; auto using le_ctx_refl. Qed.
Lemma forall2_trans l1 : forall l2 l3, Forall2 le_ctx l1 l2 -> Forall2 le_ctx l2 l3 -> Forall2 le_ctx l1 l3.
Proof.
  induction l1 as [|x l1 IH]; intros l2 l3 A B; inversion A; subst; inversion B; subst; constructor; [|eauto].
  match goal with H : le_ctx x ?y, H2 : le_ctx ?y ?z |- _ => destruct H, H2 end. split; [congruence|lia].
Qed.
Lemma grow_refl s : grow s s. Proof. intros d. apply forall2_refl. Qed.
Lemma grow_trans a b c : grow a b -> grow b c -> grow a c.
Proof. intros A B d. eapply forall2_trans; [apply A|apply B]. Qed.
Lemma forall2_in l l' c : Forall2 le_ctx l l' -> In c l -> exists c', In c' l' /\ le_ctx c c'.
Proof. intros F. induction F as [|x y l l' X F IH]; intros I; [contradiction|]. destruct I as [->|I]; [exists y; cbn; auto|]. destruct (IH I) as (c' & A & B). exists c'. cbn. auto. Qed.
Lemma forall2_in_r l l' c : Forall2 le_ctx l l' -> In c l' -> exists c0, In c0 l /\ le_ctx c0 c.
Proof. intros F. induction F as [|x y l l' X F IH]; intros I; [contradiction|]. destruct I as [->|I]; [exists x; cbn; auto|]. destruct (IH I) as (c' & A & B). exists c'. cbn. auto. Qed.
Lemma forall2_subject l l' : Forall2 le_ctx l l' -> map x_subject l = map x_subject l'.
Proof. intros F. induction F as [|x y l l' [X _] F IH]; [reflexivity|]. cbn. f_equal; [|exact IH]. unfold stat in X. congruence. Qed.

Lemma upd_first_le p f l : (forall c, find p l = Some c -> le_ctx c (f c)) -> Forall2 le_ctx l (upd_first p f l).
Proof.
  induction l as [|x l IH]; intros H; [constructor|]. cbn [upd_first find] in *. destruct (p x); constructor; auto using le_ctx_refl, forall2_refl.
Qed.
Lemma upd_first_in {A} (p : A -> bool) f l c : find p l = Some c -> In (f c) (upd_first p f l).
Proof. induction l as [|x l IH]; [discriminate|]. cbn. destruct (p x); intros H; [injection H as ->; now left|right; auto]. Qed.
Lemma in_upd_first {A} (p : A -> bool) f l y : In y (upd_first p f l) -> In y l \/ exists x, find p l = Some x /\ y = f x.
Proof.
  induction l as [|x l IH]; [contradiction|]. cbn. destruct (p x).
  - intros [<-|I]; [right; eauto|left; auto].
  - intros [<-|I]; [auto|]. destruct (IH I) as [J|J]; auto.
Qed.

Lemma upd_same f d x : upd f d x d = x. Proof. unfold upd. now rewrite Nat.eqb_refl. Qed.
Lemma upd_other f d x e : e <> d -> upd f d x e = f e. Proof. intros H. unfold upd. apply Nat.eqb_neq in H. now rewrite H. Qed.
Lemma grow_upd s d D p a : Forall2 le_ctx (d_ctxs (devs s d)) (d_ctxs D) -> grow s (St (upd (devs s) d D) p a).
Proof. intros F e. cbn. unfold upd. destruct (Nat.eqb e d) eqn:E; [apply Nat.eqb_eq in E; now subst|apply forall2_refl]. Qed.

Lemma wf_grow s s' : grow s s' -> wf s -> wf s'.
Proof.
  intros G (A & B & C). split; [|split].
  - intros d c I. destruct (forall2_in_r _ _ _ (G d) I) as (c0 & I0 & L & _). unfold stat in L. injection L as E1 E2 E3 E4 E5.
    specialize (A d c0 I0). rewrite <- E2, <- E4, <- E5. exact A.
  - intros d. rewrite <- (forall2_subject _ _ (G d)). apply B.
  - intros d c d' c' I I' S S' E E'. destruct (forall2_in_r _ _ _ (G d) I) as (c0 & I0 & L & _). destruct (forall2_in_r _ _ _ (G d') I') as (c1 & I1 & L1 & _).
    unfold stat in L, L1. injection L as F1 F2 F3 F4 F5. injection L1 as K1 K2 K3 K4 K5. unfold sends in *.
    rewrite <- F1, <- K1. apply (C d c0 d' c1); auto; congruence.
Qed.

(** In a device with one context per subject. *)
Lemma one_ctx s d c c' : wf s -> In c (d_ctxs (devs s d)) -> In c' (d_ctxs (devs s d)) -> x_subject c = x_subject c' -> c = c'.
Proof.
  intros (_ & B & _) I I' E. specialize (B d). revert B I I'. generalize (d_ctxs (devs s d)). induction l as [|x l IH]; [contradiction|].
  cbn. intros B I I'. inversion B as [|? ? X Y]; subst. destruct I as [->|I], I' as [->|I']; auto.
  - exfalso. apply X. rewrite E. now apply in_map.
  - exfalso. apply X. rewrite <- E. now apply in_map.
Qed.
Lemma has_send s d c : wf s -> In c (d_ctxs (devs s d)) -> x_send c <> [] -> sends c.
Proof. intros (A & _) I N T. apply N. now apply (A d c I). Qed.

(** ** The histories *)
Section Inv.
Variable civ : list N -> list N.

Definition aad_of (c : ctx) (e : sent_) : list N :=
  match e_to e with None => compose_aad (x_send c) (store_piv (e_ssn e)) | Some rp => compose_aad (x_recv c) rp end.
(** [c] is the context [e] was protected in *)
Definition with_ctx (c : ctx) (e : sent_) : Prop :=
  e_secret e = x_secret c /\ e_send e = x_send c /\
  e_ct e = Ct (x_secret c, x_send c) (aead_nonce (x_send c) (store_piv (e_ssn e)) (civ (x_secret c))) (aad_of c e) (e_inner e).

Definition kssn (e : sent_) := (e_secret e, e_send e, e_ssn e).
Definition sendable (e : sent_) : bool := match e_send e with [] => false | _ => true end.

(** [rp] is what device [d] remembers of one of its messages with that token or message id to [u] *)
Definition mine (s : st) (d : nat) (u : N) (q : list N -> N -> Prop) (rp : list N) : Prop :=
  exists e c, In e (prot s) /\ e_dev e = d /\ In c (d_ctxs (devs s d)) /\ x_subject c = u /\ e_secret e = x_secret c /\ e_send e = x_send c /\
              rp = store_piv (e_ssn e) /\ q (e_token e) (e_mid e).

Record inv (s : st) : Prop := Inv {
  v_wf : wf s;
  v_prot : forall e, In e (prot s) -> exists c, In c (d_ctxs (devs s (e_dev e))) /\ with_ctx c e /\ e_ssn e < x_ssn c;
  v_to : forall e rp, In e (prot s) -> e_to e = Some rp -> rp <> [];
  v_nodup : NoDup (map kssn (filter sendable (prot s)));
  v_actx : forall a, In a (acc s) -> exists c, In c (d_ctxs (devs s (a_dev a))) /\ stat c = (a_from a, a_type a, a_secret a, a_send a, a_recv a);
  v_cb : forall d b, In b (d_cbs (devs s d)) -> b_piv b = [] \/ mine s d (b_peer b) (fun t _ => t = b_token b) (b_piv b);
  v_tr : forall d m, In m (d_trs (devs s d)) -> g_piv m = [] \/ ~ In (g_peer m) (map x_subject (d_ctxs (devs s d))) \/
                     mine s d (g_peer m) (fun t i => t = g_token m /\ i = g_mid m) (g_piv m);
  v_pair : forall d b m, In b (d_cbs (devs s d)) -> In m (d_trs (devs s d)) -> is_request (i_code (g_inner m)) = true -> b_token b = g_token m -> b_peer b = g_peer m;
  v_mine : forall a rp, In a (acc s) -> a_to a = Some rp -> rp = [] \/
                        mine s (a_dev a) (a_from a) (fun t i => t = a_token a \/ i = a_mid a) rp }.

Lemma mine_grow s s' d u q rp : grow s s' -> (forall e, In e (prot s) -> In e (prot s')) -> mine s d u q rp -> mine s' d u q rp.
Proof.
  intros G P (e & c & I & E & C & X). destruct (forall2_in _ _ _ (G d) C) as (c' & C' & L & _). unfold stat in L. injection L as L1 L2 L3 L4 L5.
  exists e, c'. rewrite <- L1, <- L3, <- L4. auto.
Qed.
Lemma mine_weak s d u (q q' : list N -> N -> Prop) rp : (forall t i, q t i -> q' t i) -> mine s d u q rp -> mine s d u q' rp.
Proof. intros T (e & c & A & B & C & D & E & F & G & H). exists e, c. repeat split; auto. Qed.

(** Nothing protected or accepted, callbacks and transactions subject to [v_cb] and [v_tr]. *)
Lemma inv_quiet s s' : inv s -> grow s s' -> prot s' = prot s -> acc s' = acc s ->
  (forall d b, In b (d_cbs (devs s' d)) -> b_piv b = [] \/ In b (d_cbs (devs s d))) ->
  (forall d m, In m (d_trs (devs s' d)) -> g_piv m = [] \/ In m (d_trs (devs s d))) ->
  (forall d b m, In b (d_cbs (devs s' d)) -> In m (d_trs (devs s' d)) -> is_request (i_code (g_inner m)) = true -> b_token b = g_token m -> b_peer b = g_peer m) -> inv s'.
Proof.
  intros [W P T N A C R PR M] G EP EA HC HT HP.
  assert (Q : forall e, In e (prot s) -> In e (prot s')) by (rewrite EP; auto). constructor.
  - eapply wf_grow; eauto.
  - rewrite EP. intros e I. destruct (P e I) as (c & Ic & X & Y). destruct (forall2_in _ _ _ (G (e_dev e)) Ic) as (c' & C' & L & Z). unfold stat in L.
    injection L as L1 L2 L3 L4 L5. exists c'. split; [exact C'|]. split; [|lia]. unfold with_ctx, aad_of in *. now rewrite <- L3, <- L4, <- L5.
  - rewrite EP. exact T.
  - rewrite EP. exact N.
  - rewrite EA. intros a I. destruct (A a I) as (c & Ic & X). destruct (forall2_in _ _ _ (G (a_dev a)) Ic) as (c' & C' & L & _). exists c'. split; [exact C'|congruence].
  - intros d b I. destruct (HC d b I) as [E|J]; [auto|]. destruct (C d b J) as [E|X]; [auto|]. right. eapply mine_grow; eauto.
  - intros d m I. destruct (HT d m I) as [E|J]; [auto|]. destruct (R d m J) as [E|[X|X]]; [auto| |].
    + right. left. now rewrite <- (forall2_subject _ _ (G d)).
    + right. right. eapply mine_grow; eauto.
  - exact HP.
  - rewrite EA. intros a rp I E. destruct (M a rp I E) as [X|X]; [auto|]. right. eapply mine_grow; eauto.
Qed.

Lemma find_in {A} (p : A -> bool) l x : find p l = Some x -> In x l /\ p x = true.
Proof. apply find_some. Qed.

(** One message protected in context [c] of device [d]. *)
Lemma inv_protect s s' d c e : inv s -> In c (d_ctxs (devs s d)) -> grow s s' ->
  (exists c', In c' (d_ctxs (devs s' d)) /\ stat c' = stat c /\ x_ssn c < x_ssn c') ->
  prot s' = prot s ++ [e] -> acc s' = acc s -> e_dev e = d -> with_ctx c e -> e_ssn e = x_ssn c -> (forall rp, e_to e = Some rp -> rp <> []) ->
  (forall d b, In b (d_cbs (devs s' d)) -> b_piv b = [] \/ In b (d_cbs (devs s d)) \/ mine s' d (b_peer b) (fun t _ => t = b_token b) (b_piv b)) ->
  (forall d m, In m (d_trs (devs s' d)) -> In m (d_trs (devs s d))) ->
  (forall d b m, In b (d_cbs (devs s' d)) -> In m (d_trs (devs s' d)) -> is_request (i_code (g_inner m)) = true -> b_token b = g_token m -> b_peer b = g_peer m) -> inv s'.
Proof.
  intros [W P T N A C R PR M] I G (c' & Ic' & S' & L') EP EA ED WC SN TO HC HT HP.
  assert (Q : forall x, In x (prot s) -> In x (prot s')) by (intros x X; rewrite EP; apply in_or_app; auto).
  assert (PX : forall x, In x (prot s') -> In x (prot s) \/ x = e).
  { intros x X. rewrite EP in X. apply in_app_or in X. destruct X as [X|[X|[]]]; auto. }
  constructor.
  - eapply wf_grow; eauto.
  - intros x X. destruct (PX x X) as [J|J].
    + destruct (P x J) as (k & Ik & U & V). destruct (forall2_in _ _ _ (G (e_dev x)) Ik) as (k' & K' & L & Z). unfold stat in L.
      injection L as L1 L2 L3 L4 L5. exists k'. split; [exact K'|]. split; [|lia]. unfold with_ctx, aad_of in *. now rewrite <- L3, <- L4, <- L5.
    + subst x. rewrite ED. exists c'. split; [exact Ic'|]. unfold stat in S'. injection S' as L1 L2 L3 L4 L5. split; [|lia].
      unfold with_ctx, aad_of in *. now rewrite L3, L4, L5.
  - intros x rp X E. destruct (PX x X) as [J|J]; [eauto|]. subst x. auto.
  - rewrite EP, filter_app, map_app. cbn [filter]. destruct (sendable e) eqn:SE; [|now rewrite app_nil_r]. cbn [map]. apply NoDup_app_snoc; [exact N|].
    intros X. apply in_map_iff in X. destruct X as (x & E & X). apply filter_In in X. destruct X as [X SX].
    destruct (P x X) as (k & Ik & U & V). unfold kssn in E. injection E as E1 E2 E3.
    destruct U as (U1 & U2 & _). destruct WC as (W1 & W2 & _).
    assert (NE : x_send c <> []) by (unfold sendable in SE; rewrite W2 in SE; destruct (x_send c); [discriminate|discriminate]).
    destruct (proj2 (proj2 W) (e_dev x) k d c Ik I) as [Y Z].
    + apply (has_send s (e_dev x)); [exact W|exact Ik|congruence].
    + now apply (has_send s d).
    + congruence.
    + congruence.
    + rewrite Y in Ik. assert (k = c) by (apply (one_ctx s d); auto). subst k. lia.
  - rewrite EA. intros a J. destruct (A a J) as (k & Ik & X). destruct (forall2_in _ _ _ (G (a_dev a)) Ik) as (k' & K' & L & _). exists k'. split; [exact K'|congruence].
  - intros d0 b J. destruct (HC d0 b J) as [E|[K|K]]; [auto| |auto]. destruct (C d0 b K) as [E|X]; [auto|]. right. eapply mine_grow; eauto.
  - intros d0 m J. apply HT in J. destruct (R d0 m J) as [E|[X|X]]; [auto| |].
    + right. left. now rewrite <- (forall2_subject _ _ (G d0)).
    + right. right. eapply mine_grow; eauto.
  - exact HP.
  - rewrite EA. intros a rp J E. destruct (M a rp J E) as [X|X]; [auto|]. right. eapply mine_grow; eauto.
Qed.

(** [protect]: the invariant holds on, and what the message remembers fits. *)
Definition fits (s : st) (d : nat) (m : msg) : Prop :=
  g_piv m = [] \/ ~ In (g_peer m) (map x_subject (d_ctxs (devs s d))) \/
  mine s d (g_peer m) (fun t i => t = g_token m /\ i = g_mid m) (g_piv m).

Lemma subject_find l u : find (has_subject u) l = None -> ~ In u (map x_subject l).
Proof.
  intros F C. apply in_map_iff in C. destruct C as (c & E & I). assert (X := find_none _ _ F c I). unfold has_subject in X. rewrite E, N.eqb_refl in X. discriminate.
Qed.

(** the callbacks of its token belong to its peer *)
Definition paired (s : st) (d : nat) (m : msg) : Prop :=
  forall b, In b (d_cbs (devs s d)) -> b_token b = g_token m -> b_peer b = g_peer m.

Definition protected_ok (s : st) (d : nat) (m : msg) (s1 : st) (m1 : msg) : Prop :=
  inv s1 /\ grow s s1 /\ fits s1 d m1 /\ (g_peer m1 = g_peer m /\ g_inner m1 = g_inner m /\ g_token m1 = g_token m) /\ acc s1 = acc s /\
  (forall x, d_trs (devs s1 x) = d_trs (devs s x)) /\
  (forall x b, In b (d_cbs (devs s1 x)) -> exists b0, In b0 (d_cbs (devs s x)) /\ b_token b0 = b_token b /\ b_peer b0 = b_peer b).

Lemma protect_inv s d m s1 m1 o : protect civ s d m = (s1, m1, o) -> inv s ->
  (is_request (i_code (g_inner m)) = true -> fits s d m /\ paired s d m) -> protected_ok s d m s1 m1.
Proof.
  intros H V FR.
  assert (SAME : fits s d m -> protected_ok s d m s m).
  { intros X. split; [exact V|]. split; [apply grow_refl|]. split; [exact X|]. split; [auto|]. split; [reflexivity|]. split; [reflexivity|]. eauto. }
  unfold protect in H. destruct (find (has_subject (g_peer m)) (d_ctxs (devs s d))) as [c|] eqn:F.
  2:{ injection H as <- <- <-. apply SAME. right. left. now apply subject_find. }
  assert (FI := find_in _ _ _ F). destruct FI as [I HS]. unfold has_subject in HS. apply N.eqb_eq in HS. cbv zeta in H.
  assert (G1 : Forall2 le_ctx (d_ctxs (devs s d)) (upd_first (has_subject (g_peer m)) (set_ssn (x_ssn c + 1)) (d_ctxs (devs s d)))).
  { apply upd_first_le. intros k Fk. rewrite F in Fk. injection Fk as <-. split; [reflexivity|cbn; lia]. }
  assert (C1 : In (set_ssn (x_ssn c + 1) c) (upd_first (has_subject (g_peer m)) (set_ssn (x_ssn c + 1)) (d_ctxs (devs s d)))) by now apply upd_first_in.
  destruct (is_request (i_code (g_inner m))) eqn:RQ.
  - destruct (FR eq_refl) as [FI PA]. clear FR. destruct (d_rfnop (devs s d)); [|injection H as <- <- <-; now apply SAME].
    destruct (find (has_token (g_token m)) (d_cbs (devs s d))) as [b|] eqn:FB.
    + injection H as <- <- _.
      match goal with |- protected_ok _ _ _ ?x _ => set (s1 := x) end.
      assert (G : grow s s1) by (apply grow_upd; exact G1).
      set (e := Sent d (x_secret c) (x_send c) (g_mid m) (g_token m) (x_ssn c) None (g_ans m) (inner_obs (g_inner m))
                     (Ct (x_secret c, x_send c) (aead_nonce (x_send c) (store_piv (x_ssn c)) (civ (x_secret c))) (compose_aad (x_send c) (store_piv (x_ssn c))) (inner_obs (g_inner m)))).
      assert (ME : forall u (q : list N -> N -> Prop), x_subject c = u -> q (g_token m) (g_mid m) -> mine s1 d u q (store_piv (x_ssn c))).
      { intros u q EU TI. exists e, (set_ssn (x_ssn c + 1) c). split; [cbn; apply in_or_app; right; now left|]. split; [reflexivity|].
        split; [unfold s1; cbn [devs]; rewrite upd_same; exact C1|]. cbn. repeat split; auto. }
      assert (TR : forall x, d_trs (devs s1 x) = d_trs (devs s x)).
      { intros x. unfold s1. cbn [devs]. unfold upd. destruct (Nat.eqb x d) eqn:ED; [|reflexivity]. apply Nat.eqb_eq in ED. now subst x. }
      assert (CB : forall x b, In b (d_cbs (devs s1 x)) -> exists b0, In b0 (d_cbs (devs s x)) /\ b_token b0 = b_token b /\ b_peer b0 = b_peer b).
      { intros x y J. unfold s1 in J. cbn [devs] in J. unfold upd in J. destruct (Nat.eqb x d) eqn:ED; [|eauto]. apply Nat.eqb_eq in ED. subst x.
        cbn [d_cbs set_cbs] in J. apply in_upd_first in J. destruct J as [J|(z & Fz & ->)]; [eauto|]. apply find_in in Fz. exists z. cbn. tauto. }
      split; [|split; [exact G|]; split; [|split; [auto|]; split; [reflexivity|]; split; [exact TR|exact CB]]].
      2:{ right. right. cbn [g_peer g_token g_mid g_piv set_g_piv]. apply ME; [exact HS|auto]. }
      apply (inv_protect s s1 d c e V I G).
      * exists (set_ssn (x_ssn c + 1) c). split; [unfold s1; cbn [devs]; rewrite upd_same; exact C1|]. split; [reflexivity|cbn; lia].
      * reflexivity.
      * reflexivity.
      * reflexivity.
      * repeat split.
      * reflexivity.
      * discriminate.
      * intros d0 x J. unfold s1 in J. cbn [devs] in J. unfold upd in J. destruct (Nat.eqb d0 d) eqn:ED; [|auto]. apply Nat.eqb_eq in ED. subst d0.
        cbn [d_cbs set_cbs] in J. apply in_upd_first in J. destruct J as [J|(y & Fy & ->)]; [auto|]. right. right.
        apply find_in in Fy. destruct Fy as [Iy Hy]. unfold has_token in Hy. apply bytes_eqb_eq in Hy. cbn [b_peer b_token b_piv set_cb_piv].
        apply ME; [|exact Hy]. rewrite (PA y Iy); [exact HS|congruence].
      * intros d0 x. now rewrite TR.
      * intros d0 x y J K RQy E. rewrite TR in K. destruct (CB _ _ J) as (b0 & J0 & T0 & P0). rewrite <- P0. apply (v_pair _ V d0); auto. congruence.
    + injection H as <- <- _. match goal with |- protected_ok _ _ _ ?x _ => set (s1 := x) end.
      assert (G : grow s s1) by (apply grow_upd; exact G1).
      assert (CB : forall x, d_cbs (devs s1 x) = d_cbs (devs s x) /\ d_trs (devs s1 x) = d_trs (devs s x)).
      { intros x. unfold s1. cbn [devs]. unfold upd. destruct (Nat.eqb x d) eqn:ED; [|auto]. apply Nat.eqb_eq in ED. now subst x. }
      split; [|split; [exact G|]; split; [|split; [auto|]; split; [reflexivity|]; split; [apply CB|]]].
      * apply (inv_quiet s s1 V G); try reflexivity.
        -- intros x y. rewrite (proj1 (CB x)). auto.
        -- intros x y. rewrite (proj2 (CB x)). auto.
        -- intros x y z. rewrite (proj1 (CB x)), (proj2 (CB x)). apply (v_pair _ V).
      * destruct FI as [X|[X|X]]; [left; exact X|right; left|right; right].
        -- now rewrite <- (forall2_subject _ _ (G d)).
        -- eapply mine_grow; [exact G| |exact X]. auto.
      * intros x y. rewrite (proj1 (CB x)). eauto.
  - destruct (g_piv m) as [|v r] eqn:GP; [injection H as <- <- _; apply SAME; now left|]. rewrite <- GP in H. injection H as <- <- _.
    match goal with |- protected_ok _ _ _ ?x _ => set (s1 := x) end.
    assert (G : grow s s1) by (apply grow_upd; exact G1).
    assert (CB : forall x, d_cbs (devs s1 x) = d_cbs (devs s x) /\ d_trs (devs s1 x) = d_trs (devs s x)).
    { intros x. unfold s1. cbn [devs]. unfold upd. destruct (Nat.eqb x d) eqn:ED; [|auto]. apply Nat.eqb_eq in ED. now subst x. }
    set (e := Sent d (x_secret c) (x_send c) (g_mid m) (g_token m) (x_ssn c) (Some (g_piv m)) (g_ans m) (inner_obs (g_inner m))
                   (Ct (x_secret c, x_send c) (aead_nonce (x_send c) (store_piv (x_ssn c)) (civ (x_secret c))) (compose_aad (x_recv c) (g_piv m)) (inner_obs (g_inner m)))).
    split; [|split; [exact G|]; split; [|split; [auto|]; split; [reflexivity|]; split; [apply CB|]]].
    + apply (inv_protect s s1 d c e V I G); try reflexivity.
      * exists (set_ssn (x_ssn c + 1) c). split; [unfold s1; cbn [devs]; rewrite upd_same; exact C1|]. split; [reflexivity|cbn; lia].
      * repeat split.
      * intros rp E. injection E as <-. rewrite GP. discriminate.
      * intros x y. rewrite (proj1 (CB x)). auto.
      * intros x y. rewrite (proj2 (CB x)). auto.
      * intros x y z. rewrite (proj1 (CB x)), (proj2 (CB x)). apply (v_pair _ V).
    + right. right. cbn [g_peer g_token g_mid g_piv set_g_piv]. exists e, (set_ssn (x_ssn c + 1) c). split; [cbn; apply in_or_app; right; now left|]. split; [reflexivity|].
      split; [unfold s1; cbn [devs]; rewrite upd_same; exact C1|]. cbn. repeat split; auto.
    + intros x y. rewrite (proj1 (CB x)). eauto.
Qed.
End Inv.
