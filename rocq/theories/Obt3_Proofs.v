(** Proofs about the onboarding tool, part 3: memory, and progress. *)

From Coq Require Import List Bool Arith Lia.
From Verif Require Common.
From Verif Require Import Obt_Model Obt_Spec Obt_Proofs Obt2_Proofs.
Import ListNotations.

Definition refs (t : task) : list dref :=
  match t with
  | TReset d | TAce d _ | TDelKey d _ | TDelAce d _ => [d]
  | TPair a b | TOsc a b => [a; b]
  end.

Definition has (c : nat) (t : task) (s : st) : Prop :=
  exists x, In x (ctxs s) /\ cid x = c /\ tsk x = t.

Definition safe (s : st) : Prop :=
  (forall c t d, has c t s -> In d (refs t) -> In d (devs s)) /\
  (forall c t b d e, has c (TReset d) s -> has b t s -> In e (refs t) -> fst e = fst d -> c = b).

Definition nofault (s : st) : Prop := forall h, ~ In (EFault h) (tr s).

(** Nobody is about to free the device. *)
Definition held (d : dref) (s : st) : Prop :=
  In d (devs s) /\ forall c e, has c (TReset e) s -> fst e <> fst d.

Lemma alive_in : forall d s, In d (devs s) -> alive (fst d) s = true.
Proof.
  intros d s H. unfold alive. apply existsb_exists. exists d. split; [exact H|apply Nat.eqb_refl].
Qed.

Lemma touch_in : forall d s, In d (devs s) -> touch d s = s.
Proof. intros. unfold touch. rewrite alive_in by assumption. reflexivity. Qed.

Lemma has_filter : forall (p : ctx -> bool) c t s s', ctxs s' = filter p (ctxs s) ->
  has c t s' -> has c t s /\ exists x, In x (ctxs s) /\ cid x = c /\ p x = true.
Proof.
  intros p c t s s' E [x [A [B C]]]. rewrite E in A. apply filter_In in A. destruct A as [A K].
  split; [exists x; auto|exists x; auto].
Qed.

Lemma keepc_not : forall L x, keepc L x = true -> ~ In (cid x) L.
Proof. intros L x H. unfold keepc in H. apply negb_true_iff in H. apply member_false. exact H. Qed.

Lemma safe_ends : forall c w L s s', safe s -> ends c w L s s' -> safe s'.
Proof.
  intros c w L s s' [A B] F. split.
  - intros b t d H D. destruct (has_filter _ _ _ _ _ (en_ctxs _ _ _ _ _ F) H) as [H1 [x [X1 [X2 X3]]]].
    destruct (en_devs _ _ _ _ _ F d (A _ _ _ H1 D)) as [K|[y [e [K1 [K2 [K3 K4]]]]]]; [exact K|].
    exfalso. apply keepc_not in X3. apply X3. rewrite X2.
    rewrite <- (B (cid y) t b e d); [exact K2|exists y; auto|exact H1|exact D|auto].
  - intros b t k d e H1 H2. apply B.
    + apply (has_filter _ _ _ _ _ (en_ctxs _ _ _ _ _ F) H1).
    + apply (has_filter _ _ _ _ _ (en_ctxs _ _ _ _ _ F) H2).
Qed.

Lemma safe_frame : forall L s s', safe s -> frame L s s' -> safe s'.
Proof.
  intros L s s' [A B] F. split.
  - intros b t d H D. destruct (has_filter _ _ _ _ _ (fr_ctxs _ _ _ F) H) as [H1 [x [X1 [X2 X3]]]].
    destruct (fr_devs _ _ _ F d (A _ _ _ H1 D)) as [K|[y [e [K1 [K2 [K3 K4]]]]]]; [exact K|].
    exfalso. apply keepc_not in X3. apply X3. rewrite X2.
    rewrite <- (B (cid y) t b e d); [exact K2|exists y; auto|exact H1|exact D|auto].
  - intros b t k d e H1 H2. apply B.
    + apply (has_filter _ _ _ _ _ (fr_ctxs _ _ _ F) H1).
    + apply (has_filter _ _ _ _ _ (fr_ctxs _ _ _ F) H2).
Qed.

Lemma held_frame : forall d L s s', held d s -> frame L s s' -> held d s'.
Proof.
  intros d L s s' [A B] F. split.
  - destruct (fr_devs _ _ _ F d A) as [K|[y [e [K1 [K2 [K3 K4]]]]]]; [exact K|].
    destruct (B (cid y) e); [exists y; auto|exact K4].
  - intros c e H. apply (B c). apply (has_filter _ _ _ _ _ (fr_ctxs _ _ _ F) H).
Qed.

Lemma nofault_emit : forall e s, nofault s -> (forall h, e <> EFault h) -> nofault (emit e s).
Proof.
  intros e s A B h H. unfold emit in H. cbn [tr] in H. apply in_app_or in H.
  destruct H as [H|[H|[]]]; [exact (A h H)|exact (B h H)].
Qed.

Lemma faults :
  forall f,
   (forall up c good s, 2 * length (reqs s) + 2 <= f -> has (cid c) (tsk c) s ->
      pre1 (cid c) s -> safe s -> nofault s -> nofault (finish f up c good s)) /\
   (forall up u s, 2 * length (reqs s) + 1 <= f -> pre s -> safe s -> nofault s ->
      nofault (close f up u s)).
Proof.
  induction f as [|f [IH1 IH2]].
  - split; intros; exfalso; lia.
  - split.
    + intros up c good s Hf Z P S NF. cbn [finish].
      pose proof (ends_start (cid c) s) as E0.
      assert (P0 := ends_pre _ _ _ _ _ P E0).
      assert (S0 := safe_ends _ _ _ _ _ S E0).
      assert (R0 : 2 * length (reqs (drop_ctx (cid c) s)) + 1 <= f).
      { change (reqs (drop_ctx (cid c) s)) with (reqs s). lia. }
      assert (N0 : nofault (drop_ctx (cid c) s)) by exact NF.
      assert (H0 : forall d, In d (refs (tsk c)) -> held d (drop_ctx (cid c) s)).
      { intros d D. split; [apply (proj1 S _ _ _ Z D)|]. intros b e H Q.
        destruct (has_filter _ _ _ _ _ (en_ctxs _ _ _ _ _ E0) H) as [H1 [x [X1 [X2 X3]]]].
        apply keepc_not in X3. apply X3. left. rewrite X2. symmetry.
        apply (proj2 S b (tsk c) (cid c) e d H1 Z D). symmetry. exact Q. }
      set (s0 := drop_ctx (cid c) s) in *. clearbody s0.
      (* closing keeps everything *)
      assert (CL : forall s1 u, pre s1 -> safe s1 -> nofault s1 ->
         2 * length (reqs s1) + 1 <= f -> (forall d, In d (refs (tsk c)) -> held d s1) ->
         pre (close f up u s1) /\ safe (close f up u s1) /\ nofault (close f up u s1) /\
         2 * length (reqs (close f up u s1)) + 1 <= f /\
         (forall d, In d (refs (tsk c)) -> held d (close f up u s1))).
      { intros s1 u A1 A2 A3 A4 A5. destruct (proj2 (frames f) up u s1 A4 A1) as [L F].
        split; [apply (frame_pre _ _ _ A1 F)|]. split; [apply (safe_frame _ _ _ A2 F)|].
        split; [apply IH2; assumption|]. split.
        - rewrite (fr_reqs _ _ _ F). pose proof (filter_shorter _ (keepr L) (reqs s1)). lia.
        - intros d D. apply (held_frame _ _ _ _ (A5 d D) F). }
      destruct (tsk c) as [d|a b|a b|d x|d x|d x] eqn:T; cbn [refs] in *.
      * rewrite (touch_in d s0) by (apply (H0 d); left; reflexivity).
        destruct (CL s0 (snd d) P0 S0 N0 R0 H0) as [_ [_ [C3 [_ C5]]]].
        set (s1 := close f up (snd d) s0) in *. clearbody s1.
        destruct (C5 d (or_introl eq_refl)) as [D1 _].
        assert (D2 : forall s2, devs s2 = devs s1 -> nofault s2 ->
           nofault (free_device d (emit (EReport (cid c) good) (touch d s2)))).
        { intros s2 E N. assert (D3 : In d (devs s2)) by (rewrite E; exact D1).
          rewrite (touch_in d s2 D3). unfold free_device.
          rewrite (alive_in d (emit (EReport (cid c) good) s2) D3).
          apply nofault_emit; [|discriminate].
          intros h H. apply (nofault_emit (EReport (cid c) good) s2 N) with (h := h); [discriminate|exact H]. }
        destruct good.
        -- apply D2; [reflexivity|]. apply nofault_emit; [|discriminate]. exact C3.
        -- apply D2; [reflexivity|exact C3].
      * rewrite (touch_in a s0) by (apply (H0 a); left; reflexivity).
        destruct (CL s0 (snd a) P0 S0 N0 R0 H0) as [C1 [C2 [C3 [C4 C5]]]].
        set (s1 := close f up (snd a) s0) in *. clearbody s1.
        rewrite (touch_in b s1) by (apply (C5 b); right; left; reflexivity).
        destruct (CL s1 (snd b) C1 C2 C3 C4 C5) as [_ [_ [Q _]]].
        apply nofault_emit; [exact Q|discriminate].
      * rewrite (touch_in a s0) by (apply (H0 a); left; reflexivity).
        destruct (CL s0 (snd a) P0 S0 N0 R0 H0) as [C1 [C2 [C3 [C4 C5]]]].
        set (s1 := close f up (snd a) s0) in *. clearbody s1.
        rewrite (touch_in b s1) by (apply (C5 b); right; left; reflexivity).
        destruct (CL s1 (snd b) C1 C2 C3 C4 C5) as [_ [_ [Q _]]].
        apply nofault_emit; [exact Q|discriminate].
      * rewrite (touch_in d s0) by (apply (H0 d); left; reflexivity).
        destruct (CL s0 (snd d) P0 S0 N0 R0 H0) as [_ [_ [C3 [_ C5]]]].
        rewrite touch_in by (apply (C5 d); left; reflexivity).
        apply nofault_emit; [exact C3|discriminate].
      * rewrite (touch_in d s0) by (apply (H0 d); left; reflexivity).
        destruct (CL s0 (snd d) P0 S0 N0 R0 H0) as [_ [_ [C3 [_ C5]]]].
        apply nofault_emit; [exact C3|discriminate].
      * rewrite (touch_in d s0) by (apply (H0 d); left; reflexivity).
        destruct (CL s0 (snd d) P0 S0 N0 R0 H0) as [_ [_ [C3 [_ C5]]]].
        apply nofault_emit; [exact C3|discriminate].
    + intros up u s Hf P S NF. cbn [close].
      destruct (member u up); [|exact NF].
      destruct (pop u (reqs s)) as [[r l]|] eqn:Q; [|exact NF].
      assert (P' := P). destruct P' as [P1 [P2 P3]].
      destruct (pop_spec _ _ _ _ Q P2) as [R1 [R2 R3]].
      assert (Rn : In (rown r) (owners s)) by (apply in_map; exact R1).
      assert (Rl : length l < length (reqs s)).
      { rewrite R2. apply (filter_less _ _ _ r R1). unfold keepr. cbn [member existsb].
        rewrite Nat.eqb_refl. reflexivity. }
      set (s1 := emit (ELost (rown r)) (set_reqs l s)).
      assert (Rs : reqs s1 = l) by reflexivity.
      assert (S1 : safe s1) by exact S.
      assert (N1 : nofault s1) by (apply nofault_emit; [exact NF|discriminate]).
      assert (W1 : pre1 (rown r) s1).
      { unfold pre1. change (ids s1) with (ids s).
        assert (O1 : owners s1 = filter (fun x => negb (member x [rown r])) (owners s)).
        { unfold owners. rewrite Rs, R2. apply owners_filter. }
        rewrite O1. split; [exact P1|]. split; [apply nodup_filter; exact P2|].
        split; [apply P3; exact Rn|]. intros x. rewrite in_keep. cbn [In]. rewrite (P3 x). intuition. }
      destruct (find_ctx_in (rown r) s1) as [c [Fc [Ic Ec]]].
      { destruct W1 as [_ [_ [W _]]]. exact W. }
      rewrite Fc. rewrite <- Ec in W1.
      assert (HC : has (cid c) (tsk c) s1) by (exists c; auto).
      destruct (proj1 (frames f) up c false s1) as [L E]; [rewrite Rs; lia|exact HC|exact W1|].
      apply IH2.
      * rewrite (en_reqs _ _ _ _ _ E), Rs. pose proof (filter_shorter _ (keepr L) l). lia.
      * apply (ends_pre _ _ _ _ _ W1 E).
      * apply (safe_ends _ _ _ _ _ S1 E).
      * apply IH1; [rewrite Rs; lia|exact HC|exact W1|exact S1|exact N1].
Qed.

Definition good_state (s : st) : Prop := safe s /\ nofault s.

Lemma done_good : forall up c good s,
  pre1 (cid c) s -> has (cid c) (tsk c) s -> good_state s -> good_state (done up c good s).
Proof.
  intros up c good s P H [S N]. unfold done.
  assert (F : 2 * length (reqs s) + 2 <= fuel s) by (unfold fuel; lia).
  destruct (proj1 (frames (fuel s)) up c good s F H P) as [L E]. split.
  - apply (safe_ends _ _ _ _ _ S E).
  - apply (proj1 (faults (fuel s))); assumption.
Qed.

Lemma has_same : forall s s', (forall c t, has c t s' -> has c t s) ->
  devs s' = devs s -> safe s -> safe s'.
Proof.
  intros s s' H D [A B]. split.
  - intros c t d X Y. rewrite D. apply (A c t); [apply H; exact X|exact Y].
  - intros c t b d e X Y. apply B; apply H; assumption.
Qed.

Lemma has_put : forall c t x s, has (cid x) (tsk x) s -> has c t (put_ctx x s) -> has c t s.
Proof.
  intros c t x s H [y [A [B C]]]. unfold put_ctx in A. cbn [ctxs set_ctxs] in A.
  apply in_map_iff in A. destruct A as [z [E Z]]. destruct (cid z =? cid x).
  - subst y. rewrite <- B, <- C. exact H.
  - subst y. exists z. auto.
Qed.

Lemma go_good : forall up sendok c d m s,
  pre1 (cid c) s -> has (cid c) (tsk c) s -> In d (refs (tsk c)) -> good_state s ->
  good_state (go up sendok c d m s).
Proof.
  intros up sendok c d m s P H D [S N]. unfold go.
  assert (I : In d (devs s)) by (apply (proj1 S _ _ _ H D)).
  destruct sendok.
  - unfold send. rewrite touch_in by exact I. split.
    + apply (has_same s); [|reflexivity|exact S]. intros b t X. apply (has_put b t c s H). exact X.
    + apply nofault_emit; [exact N|discriminate].
  - rewrite touch_in by exact I. apply done_good; [exact P|exact H|split; assumption].
Qed.

Lemma advance_good : forall up sendok k a b x s,
  pre1 (cid x) s -> has (cid x) (tsk x) s -> good_state s ->
  good_state (advance up sendok k a b x s).
Proof.
  intros up sendok k a b x s P H G.
  assert (T : forall d, In d (refs (tsk x)) -> touch d s = s).
  { intros d D. apply touch_in. apply (proj1 (proj1 G) _ _ _ H D). }
  unfold advance. destruct x as [c t g kk aa bb]. cbn [cid tsk stg sec sid rid] in *.
  unfold at_stage, with_keys. cbn [cid tsk stg sec sid rid].
  destruct t as [d|d e|d e|d y|d y|d y]; destruct g; cbn [refs In] in T;
    rewrite ?T by auto;
    first [ apply done_good; assumption
          | apply go_good; [assumption|assumption|cbn [tsk refs In]; auto|assumption] ].
Qed.

Lemma answer_good : forall i good sendok k a b up s,
  inv s -> good_state s -> good_state (answer i good sendok k a b up s).
Proof.
  intros i good sendok k a b up s V G. unfold answer.
  destruct (nth_error (reqs s) i) as [r|] eqn:H; [|exact G].
  destruct (took_spec i good r s V H) as [O [x [A [B [C _]]]]].
  change (emit (EAns (rown r) good) (set_reqs (firstn i (reqs s) ++ skipn (S i) (reqs s)) s))
    with (took i good r s).
  rewrite A. apply o_pre in O. rewrite <- C in O.
  assert (X : has (cid x) (tsk x) (took i good r s)) by (exists x; auto).
  assert (G1 : good_state (took i good r s)).
  { destruct G as [S N]. split; [exact S|]. unfold took. apply nofault_emit; [exact N|discriminate]. }
  destruct good; [apply advance_good|apply done_good]; assumption.
Qed.

Lemma reported_history : forall c l, reported c l = reported c (history c l).
Proof.
  intros c l. unfold reported, history. rewrite filter_filter. f_equal.
  apply filter_ext. intros e. destruct e; cbn [about]; try reflexivity;
    rewrite ?andb_false_r; try reflexivity.
  destruct (c0 =? c); reflexivity.
Qed.

Lemma accepted_history : forall c l, accepted c l = accepted c (history c l).
Proof.
  intros c l. unfold accepted, history. rewrite filter_filter. f_equal.
  apply filter_ext. intros e. destruct e; cbn [about]; try reflexivity;
    rewrite ?andb_false_r; try reflexivity.
  destruct (c0 =? c); reflexivity.
Qed.

Lemma reported_app : forall c a b, reported c (a ++ b) = reported c a + reported c b.
Proof. intros. unfold reported. rewrite filter_app, app_length. reflexivity. Qed.

Lemma accepted_app : forall c a b, accepted c (a ++ b) = accepted c a + accepted c b.
Proof. intros. unfold accepted. rewrite filter_app, app_length. reflexivity. Qed.

Lemma reported_said : forall c d l, reported c (said d l) = 0.
Proof.
  intros c d. induction l as [|p l IH]; [reflexivity|].
  unfold said. cbn [flat_map]. rewrite reported_app. unfold said in IH. rewrite IH. reflexivity.
Qed.

Lemma accepted_said : forall c d l, accepted c (said d l) = 0.
Proof.
  intros c d. induction l as [|p l IH]; [reflexivity|].
  unfold said. cbn [flat_map]. rewrite accepted_app. unfold said in IH. rewrite IH. reflexivity.
Qed.

Lemma reported_cons : forall c d t l, reported c (ECall d t :: l) = reported c l.
Proof. reflexivity. Qed.

Lemma accepted_cons : forall c t l, accepted c (ECall c t :: l) = S (accepted c l).
Proof. intros. unfold accepted. cbn [filter]. rewrite Nat.eqb_refl. reflexivity. Qed.

Lemma live_counts : forall x h, live x h -> accepted (cid x) h = 1 /\ reported (cid x) h = 0 /\
  In (ECall (cid x) (tsk x)) h.
Proof.
  intros x h [n [u [m [A [B E]]]]]. subst h. rewrite accepted_cons, reported_cons.
  rewrite accepted_app, reported_app, accepted_said, reported_said.
  split; [reflexivity|]. split; [reflexivity|left; reflexivity].
Qed.

Lemma ended_counts : forall c h, ended c h -> accepted c h = 1 /\ reported c h = 1.
Proof.
  intros c h E. destruct E as [t k a b|t k a b n A B|t k a b n u m e A B];
    rewrite accepted_cons, reported_cons, accepted_app, reported_app, accepted_said, reported_said.
  - destruct t as [[g u]|g g'|g g'|g y|g y|g y]; unfold success, accepted, reported; cbn [filter length];
      rewrite ?Nat.eqb_refl; cbn [length]; split; reflexivity.
  - unfold accepted, reported. cbn [filter]. rewrite Nat.eqb_refl. split; reflexivity.
  - destruct B as [-> | ->]; unfold accepted, reported; cbn [filter]; rewrite Nat.eqb_refl; split; reflexivity.
Qed.

Lemma has_progress : forall s c t, inv s -> has c t s -> in_progress c t (tr s).
Proof.
  intros s c t V [x [A [B C]]]. subst c t.
  destruct (live_counts _ _ (i_live _ V x A)) as [_ [D E]]. split.
  - unfold history in E. apply filter_In in E. apply E.
  - rewrite reported_history. exact D.
Qed.

Lemma lookup_some : forall u s d, lookup u s = Some d -> In d (devs s) /\ snd d = u.
Proof.
  intros u s d H. unfold lookup in H. destruct (owned u s); [|discriminate].
  unfold handle in H. apply find_some in H. destruct H as [A B]. apply Nat.eqb_eq in B. auto.
Qed.

Lemma resolve_spec : forall k s t, resolve k s = Some t ->
  (forall d, In d (refs t) -> In d (devs s) /\ In (snd d) (named k)) /\
  (forall d, t = TReset d -> k = CReset (snd d)).
Proof.
  intros k s t H.
  destruct k as [u|u v|u v|u y|u y|u y]; cbn [resolve] in H;
    destruct (lookup u s) as [d|] eqn:L; try discriminate H;
    try (destruct (lookup v s) as [e|] eqn:M; [|discriminate H]);
    injection H as <-; apply lookup_some in L; destruct L as [L1 L2];
    try (apply lookup_some in M; destruct M as [M1 M2]);
    (split; [intros g G; cbn [refs In] in G; cbn [named In];
             repeat (destruct G as [<-|G]; [split; [assumption|rewrite ?L2, ?M2; auto]|]);
             destruct G
            |intros g G; try discriminate G; injection G as <-; rewrite L2; reflexivity]).
Qed.

Lemma docall_good : forall k ok s, inv s -> apart k (tr s) -> good_state s -> good_state (docall k ok s).
Proof.
  intros k ok s V A G. unfold docall.
  assert (R : good_state (emit ERefused s)).
  { destruct G as [S N]. split; [exact S|]. apply nofault_emit; [exact N|discriminate]. }
  destruct (resolve k s) as [t|] eqn:RS; [|exact R]. destruct ok; [|exact R]. clear R.
  destruct (start t) as [[w d] m] eqn:ST. destruct (resolve_spec _ _ _ RS) as [T1 T2].
  destruct G as [[S1 S2] N].
  assert (DI : In d (refs t)).
  { destruct t; cbn [start] in ST; injection ST as <- <- <-; left; reflexivity. }
  unfold send.
  set (s1 := mkst (devs s) (creds s) (ctxs s ++ [mkctx (next s) t w 0 0 0]) (reqs s) (S (next s))
               (nexth s) (tr s ++ [ECall (next s) t])).
  assert (TI : touch d s1 = s1) by (apply touch_in; apply (T1 d DI)). rewrite TI.
  assert (HS : forall c t', has c t' s1 -> has c t' s \/ (c = next s /\ t' = t)).
  { intros c t' [x [X1 [X2 X3]]]. unfold s1 in X1. cbn [ctxs] in X1. apply in_app_or in X1.
    destruct X1 as [X1|[<-|[]]]; [left; exists x; auto|right; auto]. }
  (* the same handle is the same device *)
  assert (SAME : forall e g : dref, In e (devs s) -> In g (devs s) -> fst e = fst g -> e = g).
  { intros e g E1 E2 E3. pose proof (i_hs _ V) as ND. clear - E1 E2 E3 ND.
    induction (devs s) as [|q l IH]; [destruct E1|]. cbn [map] in ND.
    inversion ND as [|? ? N1 N2]; subst. destruct E1 as [->|E1], E2 as [->|E2].
    - reflexivity.
    - exfalso. apply N1. rewrite E3. apply in_map. exact E2.
    - exfalso. apply N1. rewrite <- E3. apply in_map. exact E1.
    - apply IH; assumption. }
  assert (U : forall d t', In d (refs t') -> In (snd d) (uuids t')).
  { intros g t' G. destruct t'; cbn [refs uuids In] in *;
      repeat (destruct G as [<-|G]; [auto|]); destruct G. }
  split; [split|].
  - intros c t' e H E. unfold emit, set_reqs. cbn [devs]. change (devs s1) with (devs s).
    destruct (HS c t' H) as [K|[-> ->]]; [apply (S1 c t' e K E)|apply T1; exact E].
  - intros c t' b e g H1 H2 E Q.
    destruct (HS _ _ H1) as [K1|[-> K1]], (HS _ _ H2) as [K2|[-> K2]].
    + apply (S2 c t' b e g); assumption.
    + exfalso. subst t'. destruct (T1 g E) as [G1 G2].
      assert (e = g) by (apply SAME; [apply (S1 c (TReset e) e K1); left; reflexivity|exact G1|auto]).
      subst e. destruct (A c (TReset g) (has_progress _ _ _ V K1)) as [_ A2].
      apply (A2 g eq_refl). exact G2.
    + exfalso. subst t. rewrite (T2 e eq_refl) in *.
      assert (e = g) by (apply SAME; [apply (T1 e); left; reflexivity|apply (S1 b t' g K2 E)|auto]).
      subst e. destruct (A b t' (has_progress _ _ _ V K2)) as [A1 _].
      apply (A1 (snd g) eq_refl). apply U. exact E.
    + reflexivity.
  - apply nofault_emit; [|discriminate]. intros h H. unfold set_reqs, s1 in H. cbn [tr] in H.
    apply in_app_or in H. destruct H as [H|[H|[]]]; [exact (N h H)|discriminate H].
Qed.

Lemma discover_good : forall u s, good_state s -> good_state (discover u s).
Proof.
  intros u s G. unfold discover. destruct (lookup u s); [exact G|]. destruct (owned u s); [|exact G].
  destruct G as [[S1 S2] N]. split; [split|exact N].
  - intros c t d H D. cbn [devs]. apply in_or_app. left. apply (S1 c t d H D).
  - exact S2.
Qed.

Lemma careful_good : forall ops, careful ops -> good_state (run ops).
Proof.
  induction ops as [|o ops IH] using rev_ind; intros C.
  - split; [split|intros h []].
    + intros c t d [x [[] _]].
    + intros c t b d e [x [[] _]].
  - assert (C' : careful ops).
    { intros before k ok after E. apply (C before k ok (after ++ [o])). rewrite E, <- app_assoc. reflexivity. }
    specialize (IH C'). pose proof (run_inv ops) as V. rewrite run_snoc.
    destruct o as [u|u|k ok|i good so k a b up|u up]; cbn [step].
    + unfold own. apply discover_good. destruct (owned u (run ops)); exact IH.
    + apply discover_good. exact IH.
    + apply docall_good; [exact V| |exact IH]. apply (C ops k ok []). reflexivity.
    + apply answer_good; assumption.
    + assert (F : 2 * length (reqs (run ops)) + 1 <= 2 * length (reqs (run ops)) + 1) by lia.
      destruct (proj2 (frames _) (u :: up) u (run ops) F (i_pre _ V)) as [L FR].
      destruct IH as [S N]. split; [apply (safe_frame _ _ _ S FR)|].
      apply (proj2 (faults _)); [exact F|apply V|exact S|exact N].
Qed.

(** Progress. *)
Definition w (x : ctx) : nat :=
  match pos (tsk x) (stg x) with Some n => 6 - n | None => 0 end.

Definition total (l : list ctx) : nat := fold_right (fun x n => w x + n) 0 l.

Lemma total_filter : forall p l, total (filter p l) <= total l.
Proof.
  induction l as [|x l IH]; [reflexivity|]. cbn [filter]. unfold total in *.
  destruct (p x); cbn [fold_right]; lia.
Qed.

Lemma total_drop : forall p l x, In x l -> p x = false -> total (filter p l) + w x <= total l.
Proof.
  induction l as [|y l IH]; intros x X P; [destruct X|]. destruct X as [<-|X].
  - cbn [filter]. rewrite P. pose proof (total_filter p l). unfold total in *. cbn [fold_right]. lia.
  - specialize (IH x X P). cbn [filter]. unfold total in *. destruct (p y); cbn [fold_right]; lia.
Qed.

Lemma total_put : forall c l, (forall y, In y l -> cid y = cid c -> w c < w y) ->
  In (cid c) (map cid l) ->
  total (map (fun y => if cid y =? cid c then c else y) l) < total l.
Proof.
  intros c. assert (LE : forall l, (forall y, In y l -> cid y = cid c -> w c < w y) ->
     total (map (fun y => if cid y =? cid c then c else y) l) <= total l).
  { induction l as [|y l IH]; intros H; [reflexivity|]. cbn [map]. unfold total in *. cbn [fold_right].
    assert (IHl := IH (fun z Z => H z (or_intror Z))).
    destruct (cid y =? cid c) eqn:E; [|lia]. apply Nat.eqb_eq in E.
    pose proof (H y (or_introl eq_refl) E). lia. }
  induction l as [|y l IH]; intros H I; [destruct I|]. cbn [map] in *.
  assert (LEl := LE l (fun z Z => H z (or_intror Z))).
  assert (IHl := IH (fun z Z => H z (or_intror Z))).
  unfold total in *. cbn [fold_right].
  destruct (cid y =? cid c) eqn:E.
  - apply Nat.eqb_eq in E. pose proof (H y (or_introl eq_refl) E). lia.
  - destruct I as [I|I]; [apply Nat.eqb_neq in E; destruct (E I)|]. specialize (IHl I). lia.
Qed.

Lemma w_pos : forall x n u m, pos (tsk x) (stg x) = Some n -> nth_error (plan x) n = Some (u, m) -> 0 < w x.
Proof.
  intros x n u m P N. unfold w. rewrite P.
  destruct x as [c t g k a b]. cbn [tsk stg] in P.
  destruct t as [d|d e|d e|d y|d y|d y]; destruct g; cbn [pos] in P; try discriminate P; injection P as <-; lia.
Qed.

Lemma done_total : forall up c good s x, pre1 (cid c) s -> In x (ctxs s) -> cid x = cid c -> tsk x = tsk c ->
  0 < w x -> total (ctxs (done up c good s)) < total (ctxs s).
Proof.
  intros up c good s x P X E T W. unfold done.
  destruct (proj1 (frames (fuel s)) up c good s) as [L F]; [unfold fuel; lia|exists x; auto|exact P|].
  rewrite (en_ctxs _ _ _ _ _ F).
  assert (K : keepc (cid c :: L) x = false).
  { unfold keepc. cbn [member existsb]. rewrite E, Nat.eqb_refl. reflexivity. }
  pose proof (total_drop (keepc (cid c :: L)) (ctxs s) x X K). lia.
Qed.

Lemma unique : forall s x y, NoDup (ids s) -> In x (ctxs s) -> In y (ctxs s) -> cid x = cid y -> x = y.
Proof.
  intros s x y N X Y E. unfold ids in N. induction (ctxs s) as [|q l IH]; [destruct X|].
  cbn [map] in N. inversion N as [|? ? N1 N2]; subst. destruct X as [->|X], Y as [->|Y].
  - reflexivity.
  - exfalso. apply N1. rewrite E. apply in_map. exact Y.
  - exfalso. apply N1. rewrite <- E. apply in_map. exact X.
  - apply IH; assumption.
Qed.

Lemma go_total : forall up sendok c d m s x, pre1 (cid c) s -> In x (ctxs s) -> cid x = cid c -> tsk x = tsk c ->
  0 < w x -> w c < w x -> total (ctxs (go up sendok c d m s)) < total (ctxs s).
Proof.
  intros up sendok c d m s x P X E T W1 W2. unfold go. destruct sendok.
  - unfold send, emit, set_reqs. cbn [ctxs]. rewrite ctxs_touch. unfold put_ctx. cbn [ctxs set_ctxs].
    apply total_put.
    + intros y Y Q. rewrite (unique s y x); [exact W2|apply P|exact Y|exact X|congruence].
    + destruct P as [_ [_ [P _]]]. exact P.
  - rewrite <- (ctxs_touch d s). apply (done_total _ _ _ _ x); rewrite ?ctxs_touch; try assumption.
    unfold pre1, ids, owners. rewrite ctxs_touch, reqs_touch. exact P.
Qed.

Lemma pre1_touch : forall c d s, pre1 c s -> pre1 c (touch d s).
Proof. intros c d s P. unfold pre1, ids, owners. rewrite ctxs_touch, reqs_touch. exact P. Qed.

Lemma advance_total : forall up sendok k a b x s n u m,
  pre1 (cid x) s -> In x (ctxs s) -> pos (tsk x) (stg x) = Some n -> nth_error (plan x) n = Some (u, m) ->
  total (ctxs (advance up sendok k a b x s)) < total (ctxs s).
Proof.
  intros up sendok k a b x s n u m P X Q N. assert (W := w_pos _ _ _ _ Q N).
  unfold advance. destruct x as [c t g kk aa bb]. cbn [cid tsk stg sec sid rid] in *.
  unfold at_stage, with_keys. cbn [cid tsk stg sec sid rid].
  destruct t as [d|d e|d e|d y|d y|d y]; destruct g; cbn [pos] in Q; try discriminate Q;
    first [ eapply done_total; [exact P|exact X|reflexivity|reflexivity|exact W]
          | rewrite <- ?(ctxs_touch d s), <- ?(ctxs_touch e s) in X;
            match goal with
            | |- total (ctxs (go _ _ _ _ _ (touch ?z s))) < _ => rewrite <- (ctxs_touch z s)
            | _ => idtac
            end;
            eapply go_total; [try apply pre1_touch; exact P| rewrite ?ctxs_touch in *; exact X|reflexivity|reflexivity|exact W|unfold w; cbn [tsk stg pos]; lia] ].
Qed.

Lemma answer_total : forall i good sendok k a b up s, inv s -> i < length (reqs s) ->
  total (ctxs (answer i good sendok k a b up s)) < total (ctxs s).
Proof.
  intros i good sendok k a b up s V I. unfold answer.
  destruct (nth_error (reqs s) i) as [r|] eqn:H; [|apply nth_error_None in H; lia].
  destruct (took_spec i good r s V H) as [O [x [A [B [C [n [u [m [D [E F]]]]]]]]]].
  change (emit (EAns (rown r) good) (set_reqs (firstn i (reqs s) ++ skipn (S i) (reqs s)) s))
    with (took i good r s).
  rewrite A. apply o_pre in O. rewrite <- C in O.
  change (ctxs s) with (ctxs (took i good r s)) in B.
  change (ctxs s) with (ctxs (took i good r s)).
  destruct good.
  - apply (advance_total _ _ _ _ _ _ _ n u m); assumption.
  - apply (done_total _ _ _ _ x); try assumption; try reflexivity. apply (w_pos _ _ _ _ D E).
Qed.

Lemma inv_empty : forall s, inv s -> length (reqs s) = 0 -> ctxs s = [].
Proof.
  intros s V H. destruct (ctxs s) as [|x l] eqn:E; [reflexivity|]. exfalso.
  assert (K : In (cid x) (owners s)).
  { apply (i_pre _ V). apply ids_in. rewrite E. left. reflexivity. }
  unfold owners in K. destruct (reqs s); [exact K|discriminate H].
Qed.

Lemma all_answered_total : forall rs ops, total (ctxs (run (all_answered rs ops))) <= total (ctxs (run ops)) - length rs.
Proof.
  induction rs as [|r rs IH]; intros ops; cbn [all_answered length]; [lia|].
  specialize (IH (ops ++ [reply_op (run ops) r])). rewrite run_snoc in IH.
  unfold reply_op in *. cbn [step] in IH.
  set (i := which r mod length (reqs (run ops))) in *.
  destruct (length (reqs (run ops))) as [|n] eqn:L.
  - pose proof (inv_empty _ (run_inv ops) L) as Z. rewrite Z.
    unfold answer in IH. destruct (nth_error (reqs (run ops)) i) as [q|] eqn:Q.
    + apply nth_error_In in Q. destruct (reqs (run ops)); [destruct Q|discriminate L].
    + rewrite Z in IH. change (total []) with 0 in *. lia.
  - assert (I : i < length (reqs (run ops))).
    { unfold i. rewrite L. apply Nat.mod_upper_bound. discriminate. }
    pose proof (answer_total i (fine r) (sendok r) (rk r) (ra r) (rb r) (conns r) _ (run_inv ops) I).
    lia.
Qed.

Lemma total_six : forall l, total l <= 6 * length l.
Proof.
  induction l as [|x l IH]; [reflexivity|]. unfold total in *. cbn [fold_right length].
  assert (w x <= 6) by (unfold w; destruct (pos (tsk x) (stg x)); lia). lia.
Qed.

Lemma total_zero : forall s, inv s -> total (ctxs s) = 0 -> ctxs s = [].
Proof.
  intros s V H. destruct (ctxs s) as [|x l] eqn:E; [reflexivity|]. exfalso.
  destruct (i_live _ V x) as [n [u [m [A [B _]]]]]; [rewrite E; left; reflexivity|].
  apply (w_pos _ _ _ _ A) in B. unfold total in H. cbn [fold_right] in H. lia.
Qed.
