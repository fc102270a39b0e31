(** Messages protected with OSCORE: the invariant holds in every run. *)
From Verif Require Import Common Oscore_Model Oscore_Spec Oscore_Proofs Osx_Model Osx_Spec Osx_Proofs.
Local Open Scope N_scope.

Section Run.
Variable civ : list N -> list N.
Notation inv := (inv civ).

(** ** Reception *)
(** What a message was opened with. *)
Definition nonce_of (c : ctx) (p : pkt) (rp : list N) : list N :=
  match o_piv p with
  | _ :: _ => aead_nonce (x_recv c) (o_piv p) (civ (x_secret c))
  | [] => if o_code p <=? 5 then repeat 0 NONCE_LEN else aead_nonce (x_send c) rp (civ (x_secret c))
  end.
Definition opened_by (c : ctx) (p : pkt) (rp : list N) : list N :=
  if o_code p <=? 5
  then match o_piv p with _ :: _ => if 1 <=? o_code p then compose_aad (x_recv c) (o_piv p) else [] | [] => [] end
  else compose_aad (x_send c) rp.
Definition acc_of (d : nat) (c : ctx) (p : pkt) (mcast : bool) (rp : list N) (i : inner) : acc_ :=
  Acc d (x_subject c) (x_type c) (x_secret c) (x_send c) (x_recv c) mcast (if o_code p <=? 5 then None else Some rp)
      (match o_piv p with _ :: _ => o_piv p | [] => if o_code p <=? 5 then [] else rp end) (o_mid p) (o_token p)
      (match i_obs i with Some _ => Some (match o_obs p with Some v => v | None => 0 end) | None => None end) i.

Definition found_by (D : dev) (p : pkt) (c : ctx) (rp : list N) : Prop :=
  In c (d_ctxs D) /\
  (o_kid p <> [] /\ rp = [] /\ x_recv c = o_kid p \/
   o_kid p = [] /\ (o_code p <=? 5) = false /\ answered D (o_token p) (o_mid p) = Some (x_subject c, rp)).

Lemma accept_cases s d p mc dup : let s' := accept civ s d p mc dup in
  prot s' = prot s /\ grow s s' /\ (forall x, d_cbs (devs s' x) = d_cbs (devs s x) /\ d_trs (devs s' x) = d_trs (devs s x)) /\
  (acc s' = acc s \/ exists c rp i, found_by (devs s d) p c rp /\ (mc = false -> x_type c = Pair) /\
     open (x_secret c, x_recv c) (nonce_of c p rp) (opened_by c p rp) (o_ct p) = Some i /\ acc s' = acc s ++ [acc_of d c p mc rp i]).
Proof.
  intros s'. subst s'. unfold accept. cbv zeta.
  match goal with |- context [match ?f with None => s | Some _ => _ end] => set (found := f) end.
  assert (FO : forall c pred rp, found = Some (c, pred, rp) -> found_by (devs s d) p c rp /\ find pred (d_ctxs (devs s d)) = Some c).
  { intros c pred rp E. unfold found in E. destruct (o_kid p) as [|k r] eqn:K.
    - destruct (o_code p <=? 5) eqn:R; [discriminate|]. destruct (answered (devs s d) (o_token p) (o_mid p)) as [[u q]|] eqn:A; [|discriminate].
      destruct (find (has_subject u) (d_ctxs (devs s d))) as [x|] eqn:F; [|discriminate]. injection E as <- <- <-. split; [|exact F].
      apply find_in in F. destruct F as [I H]. unfold has_subject in H. apply N.eqb_eq in H. split; [exact I|]. right. rewrite H. auto.
    - destruct (find (has_kid (k :: r)) (d_ctxs (devs s d))) as [x|] eqn:F; [|discriminate]. injection E as <- <- <-. split; [|exact F].
      apply find_in in F. destruct F as [I H]. unfold has_kid in H. apply bytes_eqb_eq in H. split; [exact I|]. left. rewrite K. repeat split; auto. discriminate. }
  clearbody found.
  assert (ST : prot s = prot s /\ grow s s /\ (forall x, d_cbs (devs s x) = d_cbs (devs s x) /\ d_trs (devs s x) = d_trs (devs s x))) by auto using grow_refl.
  destruct ((o_code p <=? 5) && dup); [tauto|].
  destruct found as [[[c pred] rp]|] eqn:FD; [|tauto]. destruct (FO c pred rp eq_refl) as [FB FI]. clear FO.
  destruct (negb mc && match x_type c with Pair => false | _ => true end) eqn:TY; [tauto|].
  match goal with |- context [let '(_, _) := ?q in _] => set (rw := q) end.
  assert (RW : exists D1, snd rw = D1 /\ Forall2 le_ctx (d_ctxs (devs s d)) (d_ctxs D1) /\ d_cbs D1 = d_cbs (devs s d) /\ d_trs D1 = d_trs (devs s d)).
  { exists (snd rw). split; [reflexivity|]. unfold rw. destruct (o_piv p); [cbn; auto using forall2_refl|].
    destruct ((o_code p <=? 5) && (1 <=? o_code p)); [|cbn; auto using forall2_refl].
    destruct (check_replayed (x_win c) _) as [r w]. cbn [snd]. split; [|auto]. cbn. apply upd_first_le. intros k Fk. split; [reflexivity|cbn; lia]. }
  clearbody rw. destruct rw as [rep D1]. destruct RW as (D1' & E & G & C & T). cbn [snd] in E. subst D1'.
  assert (S1 : let s1 := St (upd (devs s) d D1) (prot s) (acc s) in prot s1 = prot s /\ grow s s1 /\ (forall x, d_cbs (devs s1 x) = d_cbs (devs s x) /\ d_trs (devs s1 x) = d_trs (devs s x))).
  { cbv zeta. split; [reflexivity|]. split; [apply grow_upd; exact G|]. intros x. cbn [devs]. unfold upd. destruct (Nat.eqb x d) eqn:ED; [|auto]. apply Nat.eqb_eq in ED. subst x. auto. }
  cbv zeta in S1. destruct rep; [tauto|].
  match goal with |- context [open ?k ?n ?a ?x] => destruct (open k n a x) as [i|] eqn:O end; [|tauto].
  destruct (match x_type c with McServer => negb (i_code i =? 2) | _ => false end); [tauto|].
  cbn [prot acc devs] in *. split; [apply S1|]. split; [exact (proj1 (proj2 S1))|]. split; [apply S1|]. right. exists c, rp, i. split; [exact FB|]. split.
  { intros ->. cbn in TY. destruct (x_type c); [reflexivity|discriminate|discriminate]. }
  split; [exact O|reflexivity].
Qed.

Lemma inv_acc s d c p mc rp i : inv s -> found_by (devs s d) p c rp ->
  inv (St (devs s) (prot s) (acc s ++ [acc_of d c p mc rp i])).
Proof.
  intros [W P T N A C R PR M] [I FB]. constructor; cbn [prot acc devs]; auto.
  - intros a J. apply in_app_or in J. destruct J as [J|[<-|[]]]; [auto|]. exists c. cbn. auto.
  - intros a q J E. apply in_app_or in J. destruct J as [J|[<-|[]]]; [exact (M a q J E)|]. cbn [a_to a_dev a_from a_token a_mid acc_of] in *.
    destruct (o_code p <=? 5); [discriminate|]. injection E as <-. destruct FB as [(_ & -> & _)|(_ & _ & FA)]; [now left|].
    unfold answered in FA. destruct (find (has_token (o_token p)) (d_cbs (devs s d))) as [b|] eqn:FBt.
    + injection FA as E1 E2. apply find_in in FBt. destruct FBt as [Ib Hb]. apply bytes_eqb_eq in Hb. destruct (C d b Ib) as [X|X]; [left; congruence|].
      right. rewrite <- E1, <- E2. eapply mine_weak; [|exact X]. cbv beta. intros; left; congruence.
    + assert (TT : exists t, In t (d_trs (devs s d)) /\ (o_token p = g_token t \/ g_mid t = o_mid p) /\ g_peer t = x_subject c /\ g_piv t = rp).
      { destruct (find (fun t => bytes_eqb (o_token p) (g_token t)) (d_trs (devs s d))) as [t|] eqn:FT.
        - injection FA as E1 E2. apply find_in in FT. destruct FT as [It Ht]. apply bytes_eqb_eq in Ht. exists t. auto.
        - destruct (find (fun t => g_mid t =? o_mid p) (d_trs (devs s d))) as [t|] eqn:FM; [|discriminate]. injection FA as E1 E2. apply find_in in FM.
          destruct FM as [It Ht]. apply N.eqb_eq in Ht. exists t. auto. }
      destruct TT as (t & It & TM & E1 & E2). destruct (R d t It) as [X|[X|X]]; [left; congruence| |].
      * exfalso. apply X. rewrite E1. now apply in_map.
      * right. rewrite <- E1, <- E2. eapply mine_weak; [|exact X]. cbv beta. intros a b [-> ->]. destruct TM; auto.
Qed.

Lemma accept_inv s d p mc dup : inv s -> inv (accept civ s d p mc dup).
Proof.
  intros V. destruct (accept_cases s d p mc dup) as (EP & G & CT & X).
  assert (V1 : inv (St (devs (accept civ s d p mc dup)) (prot s) (acc s))).
  { apply (inv_quiet civ s); try reflexivity; [exact V|exact G| | |].
    - intros x b. cbn [devs]. rewrite (proj1 (CT x)). auto.
    - intros x b. cbn [devs]. rewrite (proj2 (CT x)). auto.
    - intros x b m. cbn [devs]. rewrite (proj1 (CT x)), (proj2 (CT x)). apply (v_pair _ _ V). }
  destruct X as [X|(c & rp & i & FB & TY & O & X)].
  - destruct (accept civ s d p mc dup) as [D P A]. cbn in *. now subst.
  - assert (FB' : exists c', found_by (devs (accept civ s d p mc dup) d) p c' rp /\ stat c' = stat c).
    { destruct FB as [I FB]. destruct (forall2_in _ _ _ (G d) I) as (c' & I' & L & _). exists c'. split; [|now symmetry]. split; [exact I'|].
      unfold stat in L. injection L as L1 L2 L3 L4 L5. rewrite <- L1, <- L5. destruct FB as [FB|FB]; [now left|]. right. unfold answered in *.
      rewrite (proj1 (CT d)), (proj2 (CT d)). exact FB. }
    destruct FB' as (c' & FB' & S'). apply (inv_acc _ _ _ _ mc _ i V1) in FB'. cbn [devs prot acc] in FB'.
    assert (E : acc_of d c' p mc rp i = acc_of d c p mc rp i) by (unfold acc_of; unfold stat in S'; injection S' as L1 L2 L3 L4 L5; now rewrite L1, L2, L3, L4, L5).
    rewrite E in FB'. destruct (accept civ s d p mc dup) as [D P A]. cbn in *. now subst.
Qed.

(** ** The other events *)
Lemma inv_trs s d l m : inv s -> fits s d m -> (is_request (i_code (g_inner m)) = true -> paired s d m) ->
  (forall x, In x l -> In x (d_trs (devs s d)) \/ x = m) ->
  inv (St (upd (devs s) d (set_trs l (devs s d))) (prot s) (acc s)).
Proof.
  intros V F PA L. set (s' := St (upd (devs s) d (set_trs l (devs s d))) (prot s) (acc s)).
  assert (G : grow s s') by (apply grow_upd; apply forall2_refl).
  assert (X : forall x, d_ctxs (devs s' x) = d_ctxs (devs s x) /\ d_cbs (devs s' x) = d_cbs (devs s x) /\ (forall t, In t (d_trs (devs s' x)) -> In t (d_trs (devs s x)) \/ x = d /\ t = m)).
  { intros x. unfold s'. cbn [devs]. unfold upd. destruct (Nat.eqb x d) eqn:E; [|auto]. apply Nat.eqb_eq in E. subst x. cbn. repeat split. intros t T. destruct (L t T); auto. }
  destruct V as [W P T N A C R PR M]. constructor.
  - eapply wf_grow; eauto.
  - intros e I. rewrite (proj1 (X _)). auto.
  - exact T.
  - exact N.
  - intros a I. rewrite (proj1 (X _)). auto.
  - intros x b I. rewrite (proj1 (proj2 (X x))) in I. destruct (C x b I) as [E|E]; [auto|]. right. eapply mine_grow; [exact G| |exact E]. auto.
  - intros x t I. rewrite (proj1 (X x)). apply (proj2 (proj2 (X x))) in I. assert (Y : fits s x t) by (destruct I as [I|[-> ->]]; [now apply R|exact F]).
    destruct Y as [E|[E|E]]; [auto|auto|]. right. right. eapply mine_grow; [exact G| |exact E]. auto.
  - intros x b t I J RQ E. rewrite (proj1 (proj2 (X x))) in I. apply (proj2 (proj2 (X x))) in J. destruct J as [J|[-> ->]]; [exact (PR x b t I J RQ E)|]. now apply PA.
  - intros a rp I E. destruct (M a rp I E) as [Y|Y]; [auto|]. right. eapply mine_grow; [exact G| |exact Y]. auto.
Qed.

Lemma dispatch_inv s d m con : inv s -> (is_request (i_code (g_inner m)) = true -> fits s d m /\ paired s d m) -> inv (dispatch civ s d m con).
Proof.
  intros V FR. unfold dispatch. destruct (protect civ s d m) as [[s1 m1] o] eqn:P. destruct (protect_inv civ s d m s1 m1 o P V FR) as (V1 & G & F & (E1 & E2 & E3) & _ & TR & CB).
  destruct con; [|exact V1]. apply (inv_trs s1 d _ m1 V1 F).
  - rewrite E2. intros RQ b I E. destruct (CB d b I) as (b0 & I0 & T0 & P0). rewrite E1, <- P0. apply (FR RQ); [exact I0|congruence].
  - intros x I. apply in_app_or in I. destruct I as [I|[I|[]]]; auto.
Qed.

Lemma in_upd_nth {A} n (y : A) : forall l x, In x (upd_nth n y l) -> In x l \/ x = y.
Proof. induction n as [|n IH]; intros [|z l] x; cbn; try tauto. { intros [<-|]; auto. } intros [<-|I]; [auto|]. destruct (IH l x I); auto. Qed.
Lemma in_del_nth {A} n : forall (l : list A) x, In x (del_nth n l) -> In x l.
Proof. induction n as [|n IH]; intros [|z l] x; cbn; try tauto. intros [<-|I]; [auto|]. right. auto. Qed.

Lemma step_inv s o : inv s -> inv (step civ s o).
Proof.
  intros V. destruct o as [d peer ty mid tok i con|d n ty mid tok i con|d mid tok i|d k|d k|d tok|d p mc dup]; cbn [step].
  - destruct (is_request (i_code i) && negb (existsb (has_token tok) (d_cbs (devs s d))) && negb (existsb (fun t => bytes_eqb tok (g_token t)) (d_trs (devs s d)))) eqn:B; [|exact V].
    apply andb_true_iff in B. destruct B as [B NT]. apply andb_true_iff in B. destruct B as [RQ NC]. apply negb_true_iff in NC, NT.
    assert (C0 : forall b, In b (d_cbs (devs s d)) -> b_token b <> tok).
    { intros b I E. assert (Y : existsb (has_token tok) (d_cbs (devs s d)) = true) by (apply existsb_exists; exists b; split; [exact I|apply bytes_eqb_eq; now symmetry]). congruence. }
    assert (T0 : forall b, In b (d_trs (devs s d)) -> g_token b <> tok).
    { intros b I E. assert (Y : existsb (fun t => bytes_eqb tok (g_token t)) (d_trs (devs s d)) = true) by (apply existsb_exists; exists b; split; [exact I|apply bytes_eqb_eq; now symmetry]). congruence. }
    match goal with |- inv (dispatch _ ?x _ _ _) => set (s1 := x) end.
    assert (X : forall x b, In b (d_cbs (devs s1 x)) -> In b (d_cbs (devs s x)) \/ x = d /\ b = Cb tok peer []).
    { intros x b. unfold s1. cbn [devs]. unfold upd. destruct (Nat.eqb x d) eqn:E; [|auto]. apply Nat.eqb_eq in E. subst x. cbn. intros I. apply in_app_or in I. destruct I as [I|[I|[]]]; auto. }
    assert (TR : forall x, d_trs (devs s1 x) = d_trs (devs s x)).
    { intros x. unfold s1. cbn [devs]. unfold upd. destruct (Nat.eqb x d) eqn:E; [|auto]. apply Nat.eqb_eq in E. now subst x. }
    assert (V1 : inv s1).
    { apply (inv_quiet civ s); try reflexivity; [exact V|apply grow_upd; apply forall2_refl| | |].
      - intros x b I. destruct (X x b I) as [J|[_ ->]]; [auto|]. left. reflexivity.
      - intros x b. rewrite TR. auto.
      - intros x b m I J R E. rewrite TR in J. destruct (X x b I) as [K|[-> ->]]; [now apply (v_pair _ _ V x)|]. exfalso. apply (T0 m J). now symmetry. }
    apply dispatch_inv; [exact V1|]. intros _. split; [now left|]. intros b I E. destruct (X d b I) as [K|[_ ->]]; [|reflexivity]. exfalso. now apply (C0 b K).
  - destruct (nth_error (acc s) n) as [a|]; [|exact V]. destruct (Nat.eqb (a_dev a) d && negb (a_mcast a) && negb (is_request (i_code i))) eqn:B; [|exact V].
    apply andb_true_iff in B. destruct B as [_ B]. apply negb_true_iff in B. apply dispatch_inv; [exact V|]. cbn [g_inner]. congruence.
  - unfold protect_group. destruct (find is_group (d_ctxs (devs s d))) as [c|] eqn:F; [|exact V]. cbn [fst]. assert (FI := find_in _ _ _ F). destruct FI as [I HG].
    match goal with |- inv ?x => set (s1 := x) end.
    assert (G1 : Forall2 le_ctx (d_ctxs (devs s d)) (upd_first is_group (set_ssn (x_ssn c + 1)) (d_ctxs (devs s d)))).
    { apply upd_first_le. intros q Fq. rewrite F in Fq. injection Fq as <-. split; [reflexivity|cbn; lia]. }
    assert (CB : forall x, d_cbs (devs s1 x) = d_cbs (devs s x) /\ d_trs (devs s1 x) = d_trs (devs s x)).
    { intros x. unfold s1. cbn [devs]. unfold upd. destruct (Nat.eqb x d) eqn:ED; [|auto]. apply Nat.eqb_eq in ED. now subst x. }
    eapply (inv_protect civ s s1 d c).
    + exact V.
    + exact I.
    + apply grow_upd; exact G1.
    + exists (set_ssn (x_ssn c + 1) c). split; [unfold s1; cbn [devs]; rewrite upd_same; now apply upd_first_in|]. split; [reflexivity|cbn; lia].
    + reflexivity.
    + reflexivity.
    + reflexivity.
    + repeat split.
    + reflexivity.
    + discriminate.
    + intros x y. rewrite (proj1 (CB x)). auto.
    + intros x y. rewrite (proj2 (CB x)). auto.
    + intros x y z. rewrite (proj1 (CB x)), (proj2 (CB x)). apply (v_pair _ _ V).
  - destruct (nth_error (d_trs (devs s d)) k) as [m|] eqn:NK; [|exact V]. apply nth_error_In in NK. destruct (protect civ s d m) as [[s1 m1] o] eqn:P.
    assert (FR : is_request (i_code (g_inner m)) = true -> fits s d m /\ paired s d m).
    { intros RQ. split; [exact (v_tr _ _ V d m NK)|]. intros b I E. exact (v_pair _ _ V d b m I NK RQ E). }
    destruct (protect_inv civ s d m s1 m1 o P V FR) as (V1 & G & F & (E1 & E2 & E3) & _ & TR & CB).
    apply (inv_trs s1 d _ m1 V1 F).
    + rewrite E2. intros RQ b I E. destruct (CB d b I) as (b0 & I0 & T0 & P0). rewrite E1, <- P0. apply (FR RQ); [exact I0|congruence].
    + intros x. apply in_upd_nth.
  - match goal with |- inv ?x => set (s1 := x) end.
    assert (X : forall x, d_cbs (devs s1 x) = d_cbs (devs s x) /\ forall t, In t (d_trs (devs s1 x)) -> In t (d_trs (devs s x))).
    { intros x. unfold s1. cbn [devs]. unfold upd. destruct (Nat.eqb x d) eqn:E; [|auto]. apply Nat.eqb_eq in E. subst x. cbn. split; [reflexivity|]. intros t. apply in_del_nth. }
    apply (inv_quiet civ s); try reflexivity; [exact V|apply grow_upd; apply forall2_refl| | |].
    + intros x b. rewrite (proj1 (X x)). auto.
    + intros x b I. right. now apply (proj2 (X x)).
    + intros x b m I J. rewrite (proj1 (X x)) in I. apply (proj2 (X x)) in J. now apply (v_pair _ _ V x).
  - match goal with |- inv ?x => set (s1 := x) end.
    assert (X : forall x, d_trs (devs s1 x) = d_trs (devs s x) /\ forall t, In t (d_cbs (devs s1 x)) -> In t (d_cbs (devs s x))).
    { intros x. unfold s1. cbn [devs]. unfold upd. destruct (Nat.eqb x d) eqn:E; [|auto]. apply Nat.eqb_eq in E. subst x. cbn. split; [reflexivity|]. intros t I. apply filter_In in I. tauto. }
    apply (inv_quiet civ s); try reflexivity; [exact V|apply grow_upd; apply forall2_refl| | |].
    + intros x b I. right. now apply (proj2 (X x)).
    + intros x b. rewrite (proj1 (X x)). auto.
    + intros x b m I J. rewrite (proj1 (X x)) in J. apply (proj2 (X x)) in I. now apply (v_pair _ _ V x).
  - now apply accept_inv.
Qed.

Lemma init_inv s : initial s -> inv s.
Proof.
  intros (W & P & A & C). constructor; rewrite ?P, ?A; try contradiction; auto.
  - constructor.
  - intros d b. rewrite (proj1 (C d)). contradiction.
  - intros d b. rewrite (proj2 (C d)). contradiction.
  - intros d b m. rewrite (proj1 (C d)). contradiction.
Qed.
Lemma run_inv l : forall s, inv s -> inv (run civ s l).
Proof. induction l as [|o l IH]; intros s V; [exact V|]. cbn. apply IH, step_inv, V. Qed.
End Run.
