(** Proofs about the onboarding tool, part 4: the theorems. *)

From Coq Require Import List Bool Arith Lia.
From Verif Require Import Obt_Model Obt_Spec Obt_Proofs Obt2_Proofs Obt3_Proofs.
Import ListNotations.

Lemma pending_in : forall s c, NoDup (owners s) ->
  pending c s = if member c (owners s) then 1 else 0.
Proof.
  intros s c. unfold pending, owners. induction (reqs s) as [|r l IH]; intros N; [reflexivity|].
  cbn [map] in N. inversion N as [|? ? N1 N2]; subst. specialize (IH N2).
  cbn [filter map]. cbn [member existsb]. rewrite (Nat.eqb_sym c (rown r)).
  destruct (rown r =? c) eqn:E; cbn [orb length].
  - apply Nat.eqb_eq in E. subst c. rewrite IH. apply member_false in N1. rewrite N1. reflexivity.
  - exact IH.
Qed.

Lemma counts : forall s c, inv s ->
  accepted c (tr s) = reported c (tr s) + pending c s /\ accepted c (tr s) <= 1.
Proof.
  intros s c V. rewrite accepted_history, reported_history.
  rewrite (pending_in s c) by apply V.
  destruct (in_dec' c (ids s)) as [H|H].
  - destruct (ctx_of _ _ H) as [x [X E]]. subst c.
    destruct (live_counts _ _ (i_live _ V x X)) as [A [B _]]. rewrite A, B.
    assert (K : member (cid x) (owners s) = true) by (apply member_in; apply V; exact H).
    rewrite K. split; [reflexivity|lia].
  - assert (K : member c (owners s) = false).
    { apply member_false. intros Q. apply H. apply V. exact Q. }
    rewrite K. destruct (i_closed _ V c H) as [[_ A]|[_ A]].
    + rewrite A. split; [reflexivity|cbn; lia].
    + destruct (ended_counts _ _ A) as [B C]. rewrite B, C. split; [reflexivity|lia].
Qed.

Lemma same_length : forall s, inv s -> length (ctxs s) = length (reqs s).
Proof.
  intros s V. destruct (i_pre _ V) as [A [B C]].
  rewrite <- (map_length cid (ctxs s)), <- (map_length rown (reqs s)).
  fold (ids s). fold (owners s). apply Nat.le_antisymm; apply NoDup_incl_length; try assumption;
    intros x X; apply C; exact X.
Qed.

Lemma all_end : forall ops rs c, 6 * length (reqs (run ops)) <= length rs ->
  reported c (tr (run (all_answered rs ops))) = accepted c (tr (run (all_answered rs ops))).
Proof.
  intros ops rs c H. pose proof (all_answered_total rs ops) as T.
  pose proof (total_six (ctxs (run ops))) as S6. rewrite (same_length _ (run_inv ops)) in S6.
  pose proof (run_inv (all_answered rs ops)) as V.
  assert (Z : ctxs (run (all_answered rs ops)) = []) by (apply total_zero; [exact V|lia]).
  destruct (counts _ c V) as [A _]. rewrite A.
  pose proof (same_length _ V) as L. rewrite Z in L. cbn in L.
  unfold pending. destruct (reqs (run (all_answered rs ops))); [cbn; lia|discriminate L].
Qed.

Lemma ended_story : forall c h, ended c h -> story c h.
Proof.
  intros c h E. destruct E as [t k a b|t k a b n A B|t k a b n u m e A B].
  - apply succeeded.
  - apply unsent; assumption.
  - apply failed; assumption.
Qed.

Lemma stories : forall ops c, story c (history c (tr (run ops))).
Proof.
  intros ops c. pose proof (run_inv ops) as V.
  destruct (in_dec' c (ids (run ops))) as [H|H].
  - destruct (ctx_of _ _ H) as [x [X E]]. subst c.
    destruct (i_live _ V x X) as [n [u [m [A [B ->]]]]]. apply under_way. exact B.
  - destruct (i_closed _ V c H) as [[_ A]|[_ A]].
    + rewrite A. apply never.
    + apply ended_story. exact A.
Qed.

Lemma in_history : forall c e l, about c e = true -> (In e l <-> In e (history c l)).
Proof.
  intros c e l H. unfold history. rewrite filter_In. intuition.
Qed.

Lemma said_in : forall c l e, In e (said c l) -> (exists u m, e = ESent c u m) \/ e = EAns c true.
Proof.
  intros c. induction l as [|p l IH]; intros e H; [destruct H|].
  unfold said in H. cbn [flat_map app] in H. destruct H as [<-|[<-|H]]; [left; eauto|right; reflexivity|].
  apply IH. exact H.
Qed.

Ltac no_said H := apply said_in in H; destruct H as [[? [? H]]|H]; discriminate H.

(** A reported success is a complete story. *)
Lemma success_complete : forall c h, story c h -> In (EReport c true) h ->
  exists t k a b, h = ECall c t :: said c (script t k a b) ++ success c t.
Proof.
  intros c h S R. destruct S as [|t k a b n u m A|t k a b|t k a b n A B|t k a b n u m e A B].
  - destruct R.
  - destruct R as [R|R]; [discriminate R|]. apply in_app_or in R. destruct R as [R|[R|[]]]; [no_said R|discriminate R].
  - exists t, k, a, b. reflexivity.
  - destruct R as [R|R]; [discriminate R|]. apply in_app_or in R. destruct R as [R|[R|[]]]; [no_said R|discriminate R].
  - destruct R as [R|R]; [discriminate R|]. apply in_app_or in R. destruct R as [R|[R|[R|[R|[]]]]]; [no_said R|discriminate R| |discriminate R].
    destruct B as [-> | ->]; discriminate R.
Qed.

Lemma forget_only_reset : forall c u h, story c h -> In (EForget c u) h ->
  exists d, h = [ECall c (TReset (d, u)); ESent c u (MDos DosReset); EAns c true; EForget c u; EReport c true].
Proof.
  intros c v h S R. destruct S as [|t k a b n u m A|t k a b|t k a b n A B|t k a b n u m e A B].
  - destruct R.
  - destruct R as [R|R]; [discriminate R|]. apply in_app_or in R. destruct R as [R|[R|[]]]; [no_said R|discriminate R].
  - destruct R as [R|R]; [discriminate R|]. apply in_app_or in R. destruct R as [R|R]; [no_said R|].
    destruct t as [[d u]|g g'|g g'|g y|g y|g y]; cbn [success In] in R;
      try (destruct R as [R|[]]; discriminate R).
    destruct R as [R|[R|[]]]; [|discriminate R]. injection R as ->. exists d. reflexivity.
  - destruct R as [R|R]; [discriminate R|]. apply in_app_or in R. destruct R as [R|[R|[]]]; [no_said R|discriminate R].
  - destruct R as [R|R]; [discriminate R|]. apply in_app_or in R. destruct R as [R|[R|[R|[R|[]]]]]; [no_said R|discriminate R| |discriminate R].
    destruct B as [-> | ->]; discriminate R.
Qed.

(** A device stays known until a reset of it ends. *)
Definition kept (d : dref) (s s' : st) : Prop :=
  In d (devs s') \/
  exists x e, In x (ctxs s) /\ tsk x = TReset e /\ fst e = fst d /\ ~ In (cid x) (ids s').

Lemma kept_done : forall up c good s d, pre1 (cid c) s -> has (cid c) (tsk c) s ->
  In d (devs s) -> kept d s (done up c good s).
Proof.
  intros up c good s d P H D. unfold done.
  destruct (proj1 (frames (fuel s)) up c good s) as [L F]; [unfold fuel; lia|exact H|exact P|].
  destruct (en_devs _ _ _ _ _ F d D) as [K|[x [e [K1 [K2 [K3 K4]]]]]]; [left; exact K|right].
  exists x, e. split; [exact K1|]. split; [exact K3|]. split; [exact K4|].
  unfold ids. rewrite (en_ctxs _ _ _ _ _ F), ids_filter, in_keep. intros [_ Q]. exact (Q K2).
Qed.

Lemma kept_go : forall up sendok c e m s d, pre1 (cid c) s -> has (cid c) (tsk c) s ->
  In d (devs s) -> kept d s (go up sendok c e m s).
Proof.
  intros up sendok c e m s d P H D. unfold go. destruct sendok.
  - left. unfold send, emit, set_reqs. cbn [devs]. rewrite devs_touch. exact D.
  - destruct (kept_done up c false (touch e s) d) as [K|[x [g [K1 K2]]]].
    + apply pre1_touch. exact P.
    + unfold has. rewrite ctxs_touch. exact H.
    + rewrite devs_touch. exact D.
    + left. exact K.
    + right. exists x, g. rewrite ctxs_touch in K1. split; assumption.
Qed.

Lemma kept_touch : forall e d s s', kept d (touch e s) s' -> kept d s s'.
Proof.
  intros e d s s' [K|[x [g [K1 K2]]]]; [left; exact K|right].
  exists x, g. rewrite ctxs_touch in K1. split; assumption.
Qed.

Lemma kept_advance : forall up sendok k a b x s d, pre1 (cid x) s -> has (cid x) (tsk x) s ->
  In d (devs s) -> kept d s (advance up sendok k a b x s).
Proof.
  intros up sendok k a b x s d P H D.
  unfold advance. destruct x as [c t g kk aa bb]. cbn [cid tsk stg sec sid rid] in *.
  unfold at_stage, with_keys. cbn [cid tsk stg sec sid rid].
  destruct t as [h|h e|h e|h y|h y|h y]; destruct g;
    first [ apply kept_done; assumption
          | apply kept_go; assumption
          | match goal with |- kept d s (go _ _ _ _ _ (touch ?z s)) => apply (kept_touch z) end;
            apply kept_go; [apply pre1_touch; exact P|unfold has; rewrite ctxs_touch; exact H
                           |rewrite devs_touch; exact D] ].
Qed.

Lemma kept_step : forall o s d, inv s -> In d (devs s) -> kept d s (step s o).
Proof.
  intros o s d V D.
  assert (DI : forall u s, In d (devs s) -> In d (devs (discover u s))).
  { intros u t T. unfold discover. destruct (lookup u t); [exact T|]. destruct (owned u t); [|exact T].
    cbn [devs]. apply in_or_app. left. exact T. }
  destruct o as [u|u|k ok|i good so k a b up|u up]; cbn [step].
  - left. unfold own. apply DI. destruct (owned u s); exact D.
  - left. apply DI. exact D.
  - left. unfold docall. destruct (resolve k s) as [t|]; [|exact D]. destruct ok; [|exact D].
    destruct (start t) as [[g e] m]. unfold send, emit, set_reqs. cbn [devs]. rewrite devs_touch. exact D.
  - unfold answer. destruct (nth_error (reqs s) i) as [r|] eqn:H; [|left; exact D].
    destruct (took_spec i good r s V H) as [O [x [A [B [C _]]]]].
    change (emit (EAns (rown r) good) (set_reqs (firstn i (reqs s) ++ skipn (S i) (reqs s)) s))
      with (took i good r s).
    rewrite A. apply o_pre in O. rewrite <- C in O.
    assert (X : has (cid x) (tsk x) (took i good r s)) by (exists x; auto).
    assert (K : kept d (took i good r s)
       (if good then advance up so k a b x (took i good r s) else done up x false (took i good r s))).
    { destruct good; [apply kept_advance|apply kept_done]; assumption. }
    destruct K as [K|[y [e [K1 K2]]]]; [left; exact K|right; exists y, e; split; assumption].
  - destruct (proj2 (frames (2 * length (reqs s) + 1)) (u :: up) u s) as [L F]; [lia|apply V|].
    destruct (fr_devs _ _ _ F d D) as [K|[x [e [K1 [K2 [K3 K4]]]]]]; [left; exact K|right].
    exists x, e. split; [exact K1|]. split; [exact K3|]. split; [exact K4|].
    unfold ids. rewrite (fr_ctxs _ _ _ F), ids_filter, in_keep. intros [_ Q]. exact (Q K2).
Qed.

Lemma step_next : forall s o, inv s -> forall c, In c (ids s) -> c < next (step s o).
Proof.
  intros s o V c H.
  assert (L : next s <= next (step s o)).
  { assert (DN : forall up x good t, has (cid x) (tsk x) t -> pre1 (cid x) t -> next (done up x good t) = next t).
    { intros up x good t T P. unfold done.
      destruct (proj1 (frames (fuel t)) up x good t) as [M F]; [unfold fuel; lia|exact T|exact P|].
      apply (en_next _ _ _ _ _ F). }
    assert (GN : forall up so x d m t, has (cid x) (tsk x) t -> pre1 (cid x) t -> next (go up so x d m t) = next t).
    { intros up so x d m t T P. unfold go. destruct so.
      - unfold send, emit, set_reqs. cbn [next]. rewrite next_touch. reflexivity.
      - rewrite DN; [apply next_touch|unfold has; rewrite ctxs_touch; exact T|apply pre1_touch; exact P]. }
    destruct o as [u|u|k ok|i good so k a b up|u up]; cbn [step].
    - unfold own, discover. destruct (owned u s) eqn:OW; unfold set_creds;
        (match goal with |- context [lookup u ?t] => destruct (lookup u t) end);
        [reflexivity| |reflexivity|];
        (match goal with |- context [owned u ?t] => destruct (owned u t) end); reflexivity.
    - unfold discover. destruct (lookup u s); [reflexivity|]. destruct (owned u s); reflexivity.
    - unfold docall. destruct (resolve k s) as [t|]; [|reflexivity]. destruct ok; [|reflexivity].
      destruct (start t) as [[g e] m]. unfold send, emit, set_reqs. cbn [next]. rewrite next_touch.
      cbn [next]. lia.
    - unfold answer. destruct (nth_error (reqs s) i) as [r|] eqn:Q; [|reflexivity].
      destruct (took_spec i good r s V Q) as [O [x [A [B [C _]]]]].
      change (emit (EAns (rown r) good) (set_reqs (firstn i (reqs s) ++ skipn (S i) (reqs s)) s))
        with (took i good r s).
      rewrite A. apply o_pre in O. rewrite <- C in O.
      assert (X : has (cid x) (tsk x) (took i good r s)) by (exists x; auto).
      change (next s) with (next (took i good r s)).
      set (t := took i good r s) in *. clearbody t. apply Nat.eq_le_incl. symmetry.
      destruct good; [|apply DN; assumption].
      unfold advance. destruct x as [cc tt g kk aa bb]. cbn [cid tsk stg sec sid rid] in *.
      unfold at_stage, with_keys. cbn [cid tsk stg sec sid rid].
      destruct tt as [h|h e|h e|h y|h y|h y]; destruct g;
        first [ apply DN; assumption | apply GN; assumption
              | match goal with |- next (go _ _ _ _ _ (touch ?z t)) = _ => rewrite <- (next_touch z t) end;
                apply GN; [unfold has; rewrite ctxs_touch; exact X|apply pre1_touch; exact O] ].
    - destruct (proj2 (frames (2 * length (reqs s) + 1)) (u :: up) u s) as [M F]; [lia|apply V|].
      rewrite (fr_next _ _ _ F). reflexivity. }
  pose proof (i_next _ V c H). lia.
Qed.

Lemma known_until_reset : forall ops o d,
  In d (devs (run ops)) ->
  In d (devs (run (ops ++ [o]))) \/
  exists c e, in_progress c (TReset e) (tr (run ops)) /\ fst e = fst d /\
              reported c (tr (run (ops ++ [o]))) = 1.
Proof.
  intros ops o d D. rewrite run_snoc. pose proof (run_inv ops) as V.
  destruct (kept_step o _ d V D) as [K|[x [e [K1 [K2 [K3 K4]]]]]]; [left; exact K|right].
  exists (cid x), e. split; [apply (has_progress _ _ _ V); exists x; auto|]. split; [exact K3|].
  pose proof (step_inv o _ V) as V'. rewrite reported_history.
  destruct (i_closed _ V' (cid x) K4) as [[A _]|[_ A]].
  - pose proof (step_next _ o V (cid x) (ids_in _ _ K1)). lia.
  - apply (ended_counts _ _ A).
Qed.
