(** Collections: who is told about a change, and the list of links. *)
From Coq Require Import PeanoNat Lia.
From Verif Require Import Common Ntf_Model Ntf_Spec Ntf_Proofs Ntf2_Proofs.
Local Open Scope nat_scope.

(** ** What the notifications add to the messages sent *)
Definition note (ig : bool) (b : obs -> body) (o : obs) : msg :=
  mk_msg (o_id o) (o_cl o) (if (o_if o =? REVERT)%N && negb ig then BValid else b o).
Lemma send_small fin ig o (b : body) s : send [] fin ig o b s = emit o (if (o_if o =? REVERT)%N && negb ig then BValid else b) s.
Proof. unfold send. destruct (_ && _); reflexivity. Qed.
Lemma fold_out fin ig (f : obs -> bool) (b : obs -> body) l s :
  let t := fold_left (fun a o => if f o then send [] fin ig o (b o) a else a) l s in
  s_out t = s_out s ++ map (note ig b) (filter f l) /\ s_bw t = s_bw s /\ s_disp t = s_disp s.
Proof.
  revert s. induction l as [|o l IH]; intros s; cbn [fold_left filter].
  - cbn [map]. rewrite app_nil_r. auto.
  - specialize (IH (if f o then send [] fin ig o (b o) s else s)). cbv zeta in *. destruct IH as (A1 & A2 & A3).
    rewrite A1, A2, A3. destruct (f o); [|auto]. rewrite send_small. cbn. rewrite <- app_assoc. auto.
Qed.
Lemma send_some big fin ig o b s :
  exists ms, s_out (send big fin ig o b s) = s_out s ++ ms
  /\ (ms = [] \/ ms = [mk_msg (o_id o) (o_cl o) (if (o_if o =? REVERT)%N && negb ig then BValid else b)]).
Proof.
  unfold send. destruct (_ && _); [eexists; split; [reflexivity|now right]|].
  destruct (mem _ _); [|eexists; split; [reflexivity|now right]].
  destruct (existsb _ _); [exists []; rewrite app_nil_r; auto|]. cbv zeta.
  eexists; split; [|right; reflexivity]. cbn. unfold free_bw. destruct (existsb _ _); reflexivity.
Qed.
Lemma fold_some big fin ig (f : obs -> bool) (b : obs -> body) l s :
  exists ms, s_out (fold_left (fun a o => if f o then send big fin ig o (b o) a else a) l s) = s_out s ++ ms
  /\ incl ms (map (note ig b) (filter f l)).
Proof.
  revert s. induction l as [|o l IH]; intros s; cbn [fold_left filter].
  - exists []. rewrite app_nil_r. split; [reflexivity|intros x []].
  - destruct (IH (if f o then send big fin ig o (b o) s else s)) as (ms & E & H). rewrite E.
    destruct (f o); [|now exists ms]. destruct (send_some big fin ig o (b o) s) as (m1 & E1 & H1).
    rewrite E1, <- app_assoc. exists (m1 ++ ms). split; [reflexivity|]. intros x X. apply in_app_iff in X. cbn [map].
    destruct X as [X|X]; [|right; now apply H]. left. destruct H1 as [H1|H1]; subst m1; [destruct X|].
    destruct X as [X|[]]. exact X.
Qed.

Section Coll.
Variable may : nat -> nat -> bool.
Notation inv := (inv may).

Lemma iterate_out r s : s_out (iterate [] r s) = s_out s ++ map (note false (fun _ => BRep (r_id r) (if r_coll r then BASELINE else r_def r) (content_of r))) (filter (eligible r) (s_obs s)).
Proof. unfold iterate, foldo. apply (fold_out false false (eligible r) (fun _ => _)). Qed.
Lemma coll_out c f b s : s_out (notify_coll [] c f b s) = s_out s ++ map (note true (fun _ => b)) (filter (coll_match c f) (s_obs s)).
Proof. unfold notify_coll, foldo. apply (fold_out false true (coll_match c f) (fun _ => b)). Qed.

Lemma batch_msgs r c s : map (note true (fun _ => BBatch (r_id c) [(r_uri r, r_val r)])) (filter (coll_match c B) (s_obs s)) = via s r c.
Proof.
  unfold via, batch_of. assert (E : filter (coll_match c B) (s_obs s) = filter (fun o => match o_tgt o with TRes i => i =? r_id c | TDisc => false end
                   && ((o_if o =? 8)%N || (N.lor (o_if o) 8 =? r_def c)%N)) (s_obs s)).
  { apply filter_ext. intros o. unfold coll_match, is_tgt, B. destruct (o_tgt o); reflexivity. }
  rewrite E. apply map_ext. intros o. unfold note. now rewrite andb_false_r.
Qed.
Lemma direct_msgs r s : r_coll r = false ->
  map (note false (fun _ => BRep (r_id r) (if r_coll r then BASELINE else r_def r) (content_of r))) (filter (eligible r) (s_obs s)) = direct s r.
Proof.
  intros C. unfold direct.
  assert (E : filter (eligible r) (s_obs s) = filter (fun o => match o_tgt o with TRes i => i =? r_id r | TDisc => false end && negb (o_if o =? 1024)%N) (s_obs s)).
  { apply filter_ext. intros o. unfold eligible, is_tgt, STARTUP. rewrite C. cbn [negb orb]. rewrite !andb_true_r. reflexivity. }
  rewrite E. apply map_ext. intros o. unfold note. rewrite C, andb_true_r. reflexivity.
Qed.
Lemma via_ext s t r c : s_obs s = s_obs t -> via s r c = via t r c.
Proof. intros E. unfold via, batch_of. now rewrite E. Qed.
Lemma colls_out r cs s :
  s_out (fold_left (fun a c => notify_coll [] c B (BBatch (r_id c) [(r_uri r, r_val r)]) a) cs s) = s_out s ++ flat_map (via s r) cs.
Proof.
  revert s. induction cs as [|c cs IH]; intros s; cbn [fold_left flat_map]; [now rewrite app_nil_r|].
  rewrite IH, coll_out, batch_msgs, <- app_assoc. f_equal. f_equal.
  destruct (frame_coll [] c B (BBatch (r_id c) [(r_uri r, r_val r)]) s) as (_ & E & _).
  rewrite (flat_map_ext _ (via s r) (fun d => via_ext _ _ r d E)). reflexivity.
Qed.

Lemma take_split {A} (f : A -> bool) l : exists l2, l = take_while f l ++ l2 /\ forallb f (take_while f l) = true
  /\ (match l2 with [] => True | x :: _ => f x = false end).
Proof.
  induction l as [|a l IH]; cbn [take_while]; [exists []; auto|].
  destruct (f a) eqn:E; [|exists (a :: l); cbn; auto]. destruct IH as (l2 & E1 & E2 & E3). exists l2. cbn. rewrite E, E2. split; [|auto].
  now rewrite E1 at 1.
Qed.
Lemma observed_eq s c : observed s c = true <-> watched s c.
Proof.
  unfold observed, watched. rewrite existsb_exists. split; intros (o & O & H); exists o; rewrite is_tgt_eq in *; auto.
Qed.
Lemma no_direct s r : observed s r = false -> filter (eligible r) (s_obs s) = [].
Proof.
  intros H. destruct (filter (eligible r) (s_obs s)) as [|o l] eqn:E; [reflexivity|].
  assert (X : In o (filter (eligible r) (s_obs s))) by (rewrite E; now left). apply filter_In in X. destruct X as (O & X).
  unfold eligible in X. rewrite !andb_true_iff in X. rewrite <- not_true_iff_false in H. exfalso. apply H.
  apply existsb_exists. exists o. tauto.
Qed.
Lemma holders_eq s r : holders s r = filter (linking (r_id r)) (s_res s).
Proof. reflexivity. Qed.

(** One announcement. *)
Lemma notify_out i s t r :
  notify may [] i s = Some t -> find_res s i = Some r -> r_coll r = false -> r_obsv r = true -> s_nop s = true ->
  exists l1 l2, holders s r = l1 ++ l2 /\ (forall c, In c l1 -> watched s c)
    /\ match l2 with [] => True | c :: _ => ~ watched s c end
    /\ s_out t = s_out s ++ direct s r ++ flat_map (via s r) l1
    /\ s_obs t = s_obs s /\ s_res t = s_res s.
Proof.
  intros H E C OB NP. unfold notify in H. rewrite E in H. cbn [bind] in H. rewrite OB, NP in H. cbn [negb] in H. cbv zeta in H.
  destruct (add_ents_eq may r false true s) as (F & W1 & W2 & _).
  set (s1 := add_ents may r false true s) in *. clearbody s1. unfold frame in F. cbn in F. destruct F as (F1 & F2 & _).
  set (s2 := if observed s1 r then iterate [] r s1 else s1) in *.
  assert (X : s_out s2 = s_out s ++ direct s r /\ s_obs s2 = s_obs s /\ s_res s2 = s_res s).
  { unfold s2. destruct (observed s1 r) eqn:Q.
    - rewrite iterate_out, direct_msgs, W2 by exact C. destruct (frame_iterate [] r s1) as (G1 & G2 & _).
      split; [|split; congruence]. unfold direct. now rewrite F2.
    - rewrite W2. split; [|split; congruence]. rewrite <- (direct_msgs r s C). apply no_direct in Q. rewrite F2 in Q. now rewrite Q, app_nil_r. }
  clearbody s2. destruct X as (X1 & X2 & X3).
  assert (t = notify_collections [] r s2) by congruence. subst t. clear H.
  destruct (take_split (observed s2) (filter (linking (r_id r)) (s_res s2))) as (l2 & T1 & T2 & T3).
  destruct (frame_colls [] r s2) as (G1 & G2 & _).
  exists (take_while (observed s2) (filter (linking (r_id r)) (s_res s2))), l2.
  assert (OE : forall c, observed s2 c = observed s c) by (intros c; unfold observed; now rewrite X2).
  split; [rewrite holders_eq, <- X3; exact T1|]. split; [|split; [|split]].
  - intros c IC. rewrite forallb_forall in T2. specialize (T2 c IC). rewrite OE in T2. now apply observed_eq.
  - destruct l2 as [|c l2]; [exact T3|]. intros W. apply observed_eq in W. rewrite OE in T3. congruence.
  - unfold notify_collections. rewrite colls_out, X1, <- app_assoc. f_equal. f_equal. apply flat_map_ext. intros c. now apply via_ext.
  - rewrite G1, G2, X2, X3. auto.
Qed.

(** With notifications of any size nothing else is sent. *)
Lemma notify_only big i s t r :
  notify may big i s = Some t -> find_res s i = Some r -> r_coll r = false ->
  exists ms, s_out t = s_out s ++ ms /\ incl ms (direct s r ++ flat_map (via s r) (holders s r)).
Proof.
  intros H E C. unfold notify in H. rewrite E in H. cbn [bind] in H. cbv zeta in H.
  destruct (add_ents_eq may r false true s) as (F & W1 & W2 & _).
  set (s1 := add_ents may r false true s) in *. clearbody s1. unfold frame in F. cbn in F. destruct F as (F1 & F2 & _).
  assert (Z : exists ms, s_out s1 = s_out s ++ ms /\ incl ms (direct s r ++ flat_map (via s r) (holders s r))).
  { exists []. rewrite app_nil_r. split; [exact W2|intros x []]. }
  destruct (r_obsv r); cbn [negb] in H; [|inversion H; subst; exact Z].
  destruct (s_nop s); cbn [negb] in H; [|inversion H; subst; exact Z]. clear Z.
  set (s2 := if observed s1 r then iterate big r s1 else s1) in *.
  assert (X : (exists ms, s_out s2 = s_out s ++ ms /\ incl ms (direct s r)) /\ s_obs s2 = s_obs s /\ s_res s2 = s_res s).
  { unfold s2. destruct (observed s1 r) eqn:Q.
    - destruct (frame_iterate big r s1) as (G1 & G2 & _). split; [|split; congruence].
      destruct (fold_some big false false (eligible r) (fun _ => BRep (r_id r) (if r_coll r then BASELINE else r_def r) (content_of r)) (s_obs s1) s1) as (ms & M1 & M2).
      exists ms. unfold iterate, foldo. rewrite M1, W2. split; [reflexivity|]. rewrite (direct_msgs r s1 C) in M2. unfold direct in *. now rewrite F2 in M2.
    - rewrite W2. split; [|split; congruence]. exists []. rewrite app_nil_r. split; [reflexivity|intros x []]. }
  clearbody s2. destruct X as ((m1 & X1 & Y1) & X2 & X3).
  assert (t = notify_collections big r s2) by congruence. subst t. clear H.
  assert (Q : exists ms, s_out (notify_collections big r s2) = s_out s2 ++ ms /\ incl ms (flat_map (via s r) (holders s r))).
  { unfold notify_collections.
    assert (K : incl (take_while (observed s2) (filter (linking (r_id r)) (s_res s2))) (holders s r)).
    { destruct (take_split (observed s2) (filter (linking (r_id r)) (s_res s2))) as (l2 & T1 & _). intros x I.
      rewrite holders_eq, <- X3, T1. apply in_app_iff. now left. }
    revert K. generalize (take_while (observed s2) (filter (linking (r_id r)) (s_res s2))) as cs. clear X1 X3.
    intros cs. revert s2 X2. induction cs as [|c cs IH]; intros s2 X2 K; cbn [fold_left].
    - exists []. rewrite app_nil_r. split; [reflexivity|intros x []].
    - destruct (fold_some big false true (coll_match c B) (fun _ => BBatch (r_id c) [(r_uri r, r_val r)]) (s_obs s2) s2) as (m2 & M1 & M2).
      fold (foldo (fun o a => if coll_match c B o then send big false true o (BBatch (r_id c) [(r_uri r, r_val r)]) a else a) s2) in M1.
      destruct (IH (notify_coll big c B (BBatch (r_id c) [(r_uri r, r_val r)]) s2)) as (m3 & N1 & N2).
      + destruct (frame_coll big c B (BBatch (r_id c) [(r_uri r, r_val r)]) s2) as (_ & E2 & _). congruence.
      + intros x I. apply K. now right.
      + exists (m2 ++ m3). rewrite N1. unfold notify_coll at 1. rewrite M1, <- app_assoc. split; [reflexivity|].
        intros x I. apply in_app_iff in I. destruct I as [I|I]; [|now apply N2]. apply in_flat_map. exists c. split; [apply K; now left|].
        apply M2 in I. rewrite batch_msgs in I. now rewrite (via_ext s s2) by congruence. }
  destruct Q as (m2 & Q1 & Q2). exists (m1 ++ m2). rewrite Q1, X1, <- app_assoc. split; [reflexivity|].
  intros x I. apply in_app_iff in I. apply in_app_iff. destruct I as [I|I]; [left; now apply Y1|right; now apply Q2].
Qed.

(** Announcements of any kind. *)
Lemma announce_notify s big i p t : announces s big i p -> step may s p = Some t -> alive s i ->
  exists s0, notify may big i s0 = Some t /\ s_out s0 = s_out s /\ s_obs s0 = s_obs s /\ s_nop s0 = s_nop s
    /\ map r_id (s_res s0) = map r_id (s_res s)
    /\ ((exists v, p = OChange big i v /\ s_res s0 = s_res (upd_res i (with_val v) s)) \/ s_res s0 = s_res s).
Proof.
  intros [(v & ->)|[(-> & M)|(-> & M)]] H A.
  - cbn [step] in H. destruct (alive_find s i A) as (r & E). rewrite E in H. exists (upd_res i (with_val v) s). split; [exact H|].
    do 3 (split; [reflexivity|]). split; [now apply upd_ids|]. left. now exists v.
  - cbn [step fire] in H. apply mem_in in M. rewrite M in H. exists (set_chg (without i (s_chg s)) s). cbn. auto 10.
  - cbn [step fire] in H. apply mem_in in M. rewrite M in H. exists (set_ntf (without i (s_ntf s)) s). cbn. auto 10.
Qed.
End Coll.
