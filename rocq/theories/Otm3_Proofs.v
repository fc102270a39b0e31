(** Proofs about ownership transfer, part 3: every call is reported once, and
    enough answers end every transfer. *)

From Coq Require Import List Bool Arith Lia.
From Verif Require Obt_Proofs.
From Verif Require Import Otm_Model Otm_Spec Otm_Proofs Otm2_Proofs.
Import ListNotations.

Lemma reported_history : forall c l, reported c l = reported c (history c l).
Proof.
  intros c l. unfold reported, history. rewrite Obt_Proofs.filter_filter. f_equal.
  apply filter_ext. intros e. destruct e; cbn [about]; try reflexivity;
    rewrite ?andb_false_r; try reflexivity.
  destruct (c0 =? c); reflexivity.
Qed.

Lemma tried_history : forall c l, tried c l = tried c (history c l).
Proof.
  intros c l. unfold tried, history. rewrite Obt_Proofs.filter_filter. f_equal.
  apply filter_ext. intros e. destruct e; cbn [about]; try reflexivity;
    rewrite ?andb_false_r; try reflexivity; destruct (c0 =? c); reflexivity.
Qed.

Lemma reported_app : forall c a b, reported c (a ++ b) = reported c a + reported c b.
Proof. intros. unfold reported. rewrite filter_app, app_length. reflexivity. Qed.

Lemma tried_app : forall c a b, tried c (a ++ b) = tried c a + tried c b.
Proof. intros. unfold tried. rewrite filter_app, app_length. reflexivity. Qed.

Lemma reported_said : forall c d l, reported c (said d l) = 0.
Proof.
  intros c d. induction l as [|p l IH]; [reflexivity|].
  unfold said. cbn [flat_map]. rewrite reported_app. unfold said in IH. rewrite IH. reflexivity.
Qed.

Lemma tried_said : forall c d l, tried c (said d l) = 0.
Proof.
  intros c d. induction l as [|p l IH]; [reflexivity|].
  unfold said. cbn [flat_map]. rewrite tried_app. unfold said in IH. rewrite IH. reflexivity.
Qed.

Lemma reported_cons : forall c d h k l, reported c (ECall d h k :: l) = reported c l.
Proof. reflexivity. Qed.

Lemma tried_cons : forall c h k l, tried c (ECall c h k :: l) = S (tried c l).
Proof. intros. unfold tried. cbn [filter]. rewrite Nat.eqb_refl. reflexivity. Qed.

Lemma live_counts : forall x h, live x h -> tried (cid x) h = 1 /\ reported (cid x) h = 0 /\
  In (ECall (cid x) (hnd x) (kd x)) h.
Proof.
  intros x h [l [a [more [A [B E]]]]]. subst h. rewrite tried_cons, reported_cons.
  rewrite tried_app, reported_app, tried_said, reported_said.
  split; [reflexivity|]. split; [reflexivity|left; reflexivity].
Qed.

Lemma ended_counts : forall c h, ended c h -> tried c h = 1 /\ reported c h = 1.
Proof.
  intros c h E. destruct E as [h k|h k u l A B|h k u l m more A B N|h k u l a m more e A B C];
    try rewrite tried_cons, reported_cons, tried_app, reported_app, tried_said, reported_said.
  - unfold tried, reported. cbn [filter]. rewrite Nat.eqb_refl. split; reflexivity.
  - unfold tried, reported. cbn [filter]. rewrite Nat.eqb_refl. split; reflexivity.
  - unfold tried, reported. cbn [filter]. rewrite Nat.eqb_refl. split; reflexivity.
  - destruct C as [[r [-> _]] | ->]; unfold tried, reported; cbn [filter]; rewrite Nat.eqb_refl; split; reflexivity.
Qed.

Lemma in_history : forall c e l, about c e = true -> (In e l <-> In e (history c l)).
Proof. intros c e l H. unfold history. rewrite filter_In. intuition. Qed.

Lemma has_progress : forall s c h, inv s -> has c h s -> in_progress c h (tr s).
Proof.
  intros s c h V [x [A [B C]]]. subst c h.
  destruct (live_counts _ _ (i_live _ V x A)) as [_ [D E]]. split.
  - exists (kd x). unfold history in E. apply filter_In in E. apply E.
  - rewrite reported_history. exact D.
Qed.

Lemma pending_in : forall s c, NoDup (owners s) ->
  pending c s = if member c (owners s) then 1 else 0.
Proof.
  intros s c. unfold pending, owners. induction (reqs s) as [|r l IH]; intros N; [reflexivity|].
  cbn [map] in N. inversion N as [|? ? N1 N2]; subst. specialize (IH N2).
  cbn [filter map]. cbn [member existsb]. rewrite (Nat.eqb_sym c (rown r)).
  destruct (rown r =? c) eqn:E; cbn [orb length].
  - apply Nat.eqb_eq in E. subst c. rewrite IH. apply member_false in N1. rewrite N1. reflexivity.
  - exact IH.
Qed.

Lemma counts : forall s c, inv s ->
  tried c (tr s) = reported c (tr s) + pending c s /\ tried c (tr s) <= 1.
Proof.
  intros s c V. rewrite tried_history, reported_history.
  rewrite (pending_in s c) by apply V.
  destruct (in_dec' c (ids s)) as [H|H].
  - destruct (ctx_of _ _ H) as [x [X E]]. subst c.
    destruct (live_counts _ _ (i_live _ V x X)) as [A [B _]]. rewrite A, B.
    assert (K : member (cid x) (owners s) = true) by (apply member_in; apply V; exact H).
    rewrite K. split; [reflexivity|lia].
  - assert (K : member c (owners s) = false).
    { apply member_false. intros Q. apply H. apply V. exact Q. }
    rewrite K. destruct (i_closed _ V c H) as [[_ A]|[_ A]].
    + rewrite A. split; [reflexivity|cbn; lia].
    + destruct (ended_counts _ _ A) as [B C]. rewrite B, C. split; [reflexivity|lia].
Qed.

(** Progress: how many requests a transfer may still have answered. *)
Definition w (x : ctx) : nat := S (length (follows (kd x) 0 (stg x))).

Definition total (l : list ctx) : nat := fold_right (fun x n => w x + n) 0 l.

Lemma total_filter : forall p l, total (filter p l) <= total l.
Proof.
  induction l as [|x l IH]; [reflexivity|]. cbn [filter]. unfold total in *.
  destruct (p x); cbn [fold_right]; lia.
Qed.

Lemma total_drop : forall p l x, In x l -> p x = false -> total (filter p l) + w x <= total l.
Proof.
  induction l as [|y l IH]; intros x X P; [destruct X|]. destruct X as [<-|X].
  - cbn [filter]. rewrite P. pose proof (total_filter p l). unfold total in *. cbn [fold_right]. lia.
  - specialize (IH x X P). cbn [filter]. unfold total in *. destruct (p y); cbn [fold_right]; lia.
Qed.

Lemma total_put : forall c l, (forall y, In y l -> cid y = cid c -> w c < w y) ->
  In (cid c) (map cid l) ->
  total (map (fun y => if cid y =? cid c then c else y) l) < total l.
Proof.
  intros c. assert (LE : forall l, (forall y, In y l -> cid y = cid c -> w c < w y) ->
     total (map (fun y => if cid y =? cid c then c else y) l) <= total l).
  { induction l as [|y l IH]; intros H; [reflexivity|]. cbn [map]. unfold total in *. cbn [fold_right].
    assert (IHl := IH (fun z Z => H z (or_intror Z))).
    destruct (cid y =? cid c) eqn:E; [|lia]. apply Nat.eqb_eq in E.
    pose proof (H y (or_introl eq_refl) E). lia. }
  induction l as [|y l IH]; intros H I; [destruct I|]. cbn [map] in *.
  assert (LEl := LE l (fun z Z => H z (or_intror Z))).
  assert (IHl := IH (fun z Z => H z (or_intror Z))).
  unfold total in *. cbn [fold_right].
  destruct (cid y =? cid c) eqn:E.
  - apply Nat.eqb_eq in E. pose proof (H y (or_introl eq_refl) E). lia.
  - destruct I as [I|I]; [apply Nat.eqb_neq in E; destruct (E I)|]. specialize (IHl I). lia.
Qed.

Lemma unique : forall s x y, NoDup (ids s) -> In x (ctxs s) -> In y (ctxs s) -> cid x = cid y -> x = y.
Proof.
  intros s x y. unfold ids. induction (ctxs s) as [|z l IH]; intros N X Y E; [destruct X|].
  cbn [map] in N. inversion N as [|? ? N1 N2]; subst. destruct X as [<-|X], Y as [<-|Y].
  - reflexivity.
  - exfalso. apply N1. rewrite E. apply in_map. exact Y.
  - exfalso. apply N1. rewrite <- E. apply in_map. exact X.
  - apply IH; assumption.
Qed.

Lemma done_total : forall up c good s x, pre1 (cid c) s -> In x (ctxs s) -> cid x = cid c -> hnd x = hnd c ->
  total (ctxs (done up c good s)) < total (ctxs s).
Proof.
  intros up c good s x P X A B. unfold done.
  destruct (proj1 (frames (2 * length (reqs s) + 2)) up c good s) as [L F];
    [lia|exists x; auto|exact P|].
  rewrite (en_ctxs _ _ _ _ _ F).
  assert (K : keepc (cid c :: L) x = false).
  { unfold keepc. cbn [member existsb]. rewrite A, Nat.eqb_refl. reflexivity. }
  pose proof (total_drop _ _ _ X K). unfold w in H. lia.
Qed.

Lemma ctxs_touch : forall h s, ctxs (touch h s) = ctxs s.
Proof. intros. apply (still_touch h s). Qed.

Lemma pre1_still : forall c s s', pre1 c s -> still s s' -> pre1 c s'.
Proof. intros c s s' P [A [B _]]. unfold pre1, pre, ids, owners in *. rewrite A, B. exact P. Qed.

Lemma go_total : forall up sendok c m s x, pre1 (cid c) s -> In x (ctxs s) -> cid x = cid c -> hnd x = hnd c ->
  length (follows (kd c) 0 m) < length (follows (kd x) 0 (stg x)) ->
  total (ctxs (go up sendok c m s)) < total (ctxs s).
Proof.
  intros up sendok c m s x P X A B W. unfold go. destruct sendok.
  - unfold send, emit, set_reqs. cbn [ctxs]. rewrite ctxs_touch.
    unfold put_ctx, set_ctxs. cbn [ctxs]. apply total_put.
    + intros y Y E. cbn [cid] in E. assert (y = x).
      { apply (unique s); [apply P|exact Y|exact X|congruence]. }
      subst y. unfold w. cbn [kd stg]. lia.
    + cbn [cid]. rewrite <- A. apply in_map. exact X.
  - assert (Q := ctxs_touch (hnd c) s). rewrite <- Q. rewrite <- Q in X.
    apply (done_total _ _ _ _ x); try assumption.
    apply (pre1_still _ s); [exact P|apply still_touch].
Qed.

Lemma go_total_still : forall up sendok c m s s' x, still s s' -> pre1 (cid c) s -> In x (ctxs s) ->
  cid x = cid c -> hnd x = hnd c ->
  length (follows (kd c) 0 m) < length (follows (kd x) 0 (stg x)) ->
  total (ctxs (go up sendok c m s')) < total (ctxs s).
Proof.
  intros up sendok c m s s' x S P X A B W. assert (S' := S). destruct S' as [C _]. rewrite <- C.
  rewrite <- C in X. apply (go_total _ _ _ _ _ x); try assumption. apply (pre1_still _ s); assumption.
Qed.

Lemma done_total_still : forall up c good s s' x, still s s' -> pre1 (cid c) s -> In x (ctxs s) ->
  cid x = cid c -> hnd x = hnd c ->
  total (ctxs (done up c good s')) < total (ctxs s).
Proof.
  intros up c good s s' x S P X A B. assert (S' := S). destruct S' as [C _]. rewrite <- C.
  rewrite <- C in X. apply (done_total _ _ _ _ x); try assumption. apply (pre1_still _ s); assumption.
Qed.

Lemma advance_total : forall up x c s, others (cid c) s -> In c (ctxs s) ->
  total (ctxs (advance up x c s)) < total (ctxs s).
Proof.
  intros up x c s V I. assert (P := o_pre _ _ V).
  assert (R : still s s) by apply still_refl.
  unfold advance. destruct (stg c) eqn:G;
    try (apply (go_total_still _ _ _ _ s s c); try assumption; try reflexivity;
         rewrite G; cbn [follows skipn main_part length]; lia).
  - destruct (existsb _ _).
    + apply (go_total_still _ _ _ _ s s c); try assumption; try reflexivity.
      rewrite G. cbn [follows length]. lia.
    + apply (done_total _ _ _ _ c); try assumption; reflexivity.
  - destruct (kd c) eqn:K; try (apply (done_total _ _ _ _ c); try assumption; reflexivity).
    all: set (t := touch (hnd c) s); assert (T : still s t) by apply still_touch;
      assert (V2 := others_still _ _ _ V T); assert (C1 : ctxs t = ctxs s) by apply T; clearbody t;
      unfold hangup; destruct (proj2 (frames (2 * length (reqs t) + 1)) up (da (get (hnd c) t)) t) as [L F];
      [lia|apply V2|];
      destruct (others_frame _ _ _ _ V2 F) as [V3 [_ _]];
      set (t2 := close (2 * length (reqs t) + 1) up (da (get (hnd c) t)) t) in *; clearbody t2;
      assert (X2 : In c (ctxs t2));
      [ rewrite (fr_ctxs _ _ _ F); apply filter_In; split; [rewrite C1; exact I|];
        unfold keepc; apply negb_true_iff, member_false; intros Q;
        destruct (o_pre _ _ V2) as [_ [_ NC]]; apply NC; apply (fr_in _ _ _ F); exact Q
      | apply (Nat.lt_le_trans _ (total (ctxs t2)));
        [ apply (go_total _ _ _ _ _ c); [apply V3|exact X2|reflexivity|reflexivity|];
          rewrite G, K; cbn [follows skipn main_part length]; lia
        | rewrite (fr_ctxs _ _ _ F), C1; apply total_filter ] ].
  - eapply (go_total_still _ _ (mkctx (cid c) (hnd c) (kd c) MOwner (rnd x)) _ s _ c);
      [|exact P|exact I|reflexivity|reflexivity|rewrite G; cbn [follows skipn main_part length]; lia].
    eapply still_trans; [|apply still_heap].
    destruct (kd c); first [apply still_touch | eapply still_trans; [apply still_touch|apply still_creds]].
  - destruct (keyok x).
    + eapply (go_total_still _ _ _ _ s _ c); [|exact P|exact I|reflexivity|reflexivity|rewrite G; cbn [follows skipn main_part length]; lia].
      eapply still_trans; [apply still_touch|apply still_creds].
    + apply (done_total_still _ _ _ s _ c); try assumption; try reflexivity. apply still_touch.
  - apply (done_total _ _ _ _ c); try assumption; reflexivity.
Qed.

Lemma answer_total : forall i r x up s, inv s -> i < length (reqs s) ->
  total (ctxs (answer i r x up s)) < total (ctxs s).
Proof.
  intros i r x up s V I. unfold answer.
  destruct (nth_error (reqs s) i) as [q|] eqn:H; [|apply nth_error_None in H; lia].
  destruct (took_spec i r q s V H) as [O [c [A [B [C _]]]]].
  change (emit (EAns (rown q) r) (set_reqs (firstn i (reqs s) ++ skipn (S i) (reqs s)) s))
    with (took i r q s).
  rewrite A. rewrite <- C in O.
  change (ctxs s) with (ctxs (took i r q s)) in B.
  change (ctxs s) with (ctxs (took i r q s)).
  destruct (accepted (stg c) r).
  - apply advance_total; assumption.
  - apply (done_total _ _ _ _ c); try assumption; try reflexivity. apply O.
Qed.

Lemma inv_empty : forall s, inv s -> length (reqs s) = 0 -> ctxs s = [].
Proof.
  intros s V H. destruct (ctxs s) as [|x l] eqn:E; [reflexivity|]. exfalso.
  assert (K : In (cid x) (owners s)).
  { apply (i_wait _ V). apply ids_in. rewrite E. left. reflexivity. }
  unfold owners in K. destruct (reqs s); [exact K|discriminate H].
Qed.

Lemma all_answered_total : forall rs ops, total (ctxs (run (all_answered rs ops))) <= total (ctxs (run ops)) - length rs.
Proof.
  induction rs as [|r rs IH]; intros ops; cbn [all_answered length]; [lia|].
  specialize (IH (ops ++ [reply_op (run ops) r])). rewrite run_snoc in IH.
  unfold reply_op in *. cbn [step] in IH.
  set (i := which r mod length (reqs (run ops))) in *.
  destruct (length (reqs (run ops))) as [|n] eqn:L.
  - pose proof (inv_empty _ (run_inv ops) L) as Z. rewrite Z.
    unfold answer in IH. destruct (nth_error (reqs (run ops)) i) as [q|] eqn:Q.
    + apply nth_error_In in Q. destruct (reqs (run ops)); [destruct Q|discriminate L].
    + rewrite Z in IH. change (total []) with 0 in *. lia.
  - assert (I : i < length (reqs (run ops))).
    { unfold i. rewrite L. apply Nat.mod_upper_bound. discriminate. }
    pose proof (answer_total i (rep r) (rin r) (conns r) _ (run_inv ops) I).
    lia.
Qed.

Lemma total_fifteen : forall l, total l <= 15 * length l.
Proof.
  induction l as [|x l IH]; [reflexivity|]. unfold total in *. cbn [fold_right length].
  assert (w x <= 15) by (unfold w; destruct (kd x), (stg x); cbn; lia). lia.
Qed.

Lemma same_length : forall s, inv s -> length (ctxs s) = length (reqs s).
Proof.
  intros s V. destruct (i_pre _ V) as [A [B C]]. assert (D := i_wait _ V).
  rewrite <- (map_length cid (ctxs s)), <- (map_length rown (reqs s)).
  fold (ids s). fold (owners s). apply Nat.le_antisymm; apply NoDup_incl_length; assumption.
Qed.

Lemma all_end : forall ops rs c, 15 * length (reqs (run ops)) <= length rs ->
  reported c (tr (run (all_answered rs ops))) = tried c (tr (run (all_answered rs ops))).
Proof.
  intros ops rs c H. pose proof (all_answered_total rs ops) as T.
  pose proof (total_fifteen (ctxs (run ops))) as S6. rewrite (same_length _ (run_inv ops)) in S6.
  pose proof (run_inv (all_answered rs ops)) as V.
  assert (Z : ctxs (run (all_answered rs ops)) = []).
  { destruct (ctxs (run (all_answered rs ops))) as [|x l]; [reflexivity|].
    exfalso. unfold total in T at 1. cbn [fold_right] in T. unfold w in T at 1. lia. }
  destruct (counts _ c V) as [A _]. rewrite A.
  pose proof (same_length _ V) as L. rewrite Z in L. cbn in L.
  unfold pending. destruct (reqs (run (all_answered rs ops))); [cbn; lia|discriminate L].
Qed.

Lemma said_in : forall c l e, In e (said c l) ->
  (exists t, In t l /\ (e = ESent c (where_to t) (what t) \/ e = EAns c (how t))).
Proof.
  intros c. induction l as [|p l IH]; intros e H; [destruct H|].
  unfold said in H. cbn [flat_map app] in H. destruct H as [<-|[<-|H]].
  - exists p. split; [left; reflexivity|left; reflexivity].
  - exists p. split; [left; reflexivity|right; reflexivity].
  - destruct (IH e H) as [t [T E]]. exists t. split; [right; exact T|exact E].
Qed.

Ltac no_said H := apply said_in in H; destruct H as [? [_ [H|H]]]; discriminate H.

(** A reported success is a complete transfer. *)
Lemma success_complete : forall c h, story c h -> In (EReport c true) h ->
  exists d k u l, h = ECall c d k :: said c l ++ [EReport c true] /\ script k u = map what l /\ Forall welcome l.
Proof.
  intros c h S R. destruct S as [|h k|h k u l a m more A B|h k u l A B|h k u l m more A B N|h k u l a m more e A B C].
  - destruct R.
  - destruct R as [R|[R|[]]]; discriminate R.
  - destruct R as [R|R]; [discriminate R|]. apply in_app_or in R. destruct R as [R|[R|[]]]; [no_said R|discriminate R].
  - exists h, k, u, l. auto.
  - destruct R as [R|R]; [discriminate R|]. apply in_app_or in R. destruct R as [R|[R|[]]]; [no_said R|discriminate R].
  - destruct R as [R|R]; [discriminate R|]. apply in_app_or in R. destruct R as [R|[R|[R|[R|[]]]]]; [no_said R|discriminate R| |discriminate R].
    destruct C as [[r [-> _]] | ->]; discriminate R.
Qed.
