(** Proofs for Ses_Model: events of connections. *)
From Coq Require Import PeanoNat Lia Bool.
From Verif Require Import Common Ses_Model Ses_Spec.
Local Open Scope nat_scope.

Lemma upd_same {A} d (v : A) f : upd d v f d = v.
Proof. unfold upd. now rewrite Nat.eqb_refl. Qed.
Lemma upd_other {A} d e (v : A) f : e <> d -> upd d v f e = f e.
Proof. intros H. unfold upd. apply Nat.eqb_neq in H. now rewrite H. Qed.

Lemma of_kind_app k a b : of_kind k (a ++ b) = of_kind k a ++ of_kind k b.
Proof. unfold of_kind. now rewrite filter_app, map_app. Qed.
Lemma of_thread_app d a b : of_thread d (a ++ b) = of_thread d a ++ of_thread d b.
Proof. apply filter_app. Qed.

(** Unfold one step. *)
Ltac brk H :=
  repeat match type of H with
  | match ?x with _ => _ end = Some _ => let E := fresh "E" in destruct x eqn:E; try discriminate H
  | (let _ := _ in _) = Some _ => cbv zeta in H
  end.
Ltac fields := cbn [starts ends poll need running ref thr cons timers asked skipped added out set_thr set_cons set_flags set_ref set_timers ask skip add handle] in *.
Ltac cases_ H := destruct H as [H|H].

(** * Exactly once and in order *)
Definition ord (s : st) : Prop := of_kind Conn (added s) = of_kind Conn (out s) ++ starts s /\ of_kind Disc (added s) = of_kind Disc (out s) ++ ends s.
Lemma ord_start : ord start.
Proof. split; reflexivity. Qed.
Lemma some_inj {A} (x y : A) : Some x = Some y -> x = y.
Proof. congruence. Qed.
Lemma ord_step s o t : ord s -> step s o = Some t -> ord t.
Proof.
  intros (A & B) H. destruct o; cbn [step] in H; brk H; apply some_inj in H; subst t; unfold ord; fields; try (split; congruence).
  - destruct (ref s); fields; split; assumption.
  - destruct (running s); fields; split; assumption.
  - rewrite !of_kind_app, A, B. destruct k; cbn; rewrite ?app_nil_r, <- ?app_assoc; split; reflexivity.
  - destruct (need s && running s); fields; split; assumption.
  - rewrite !of_kind_app, A, B. cbn. rewrite ?app_nil_r, <- ?app_assoc. split; reflexivity.
  - destruct (ends s) eqn:X; fields; rewrite ?X; split; assumption.
  - rewrite !of_kind_app, A, B. cbn. rewrite ?app_nil_r, <- ?app_assoc. split; reflexivity.
Qed.

(** * No lost wake-up *)
Definition pend (s : st) : Prop :=
  (exists d, thr s d = TAdded \/ thr s d = TState) \/ (need s = true /\ (poll s = true \/ cons s = CPoll \/ exists d, thr s d = TNeed)).
Definition wakes (s : st) : Prop :=
  running s = true ->
  (starts s <> [] -> pend s \/ cons s = CStart) /\ (ends s <> [] -> pend s \/ cons s = CStart \/ cons s = CCount \/ cons s = CEnd \/ timers s > 0).
Lemma wakes_start : wakes start.
Proof. intros _. split; intros H; now contradiction H. Qed.
(** A thread moves on without being one of those that matter. *)
Lemma pend_move s t d : pend s -> need t = need s -> poll t = poll s -> cons t = cons s -> (forall e, e <> d -> thr t e = thr s e) ->
  thr s d <> TAdded -> thr s d <> TState -> thr s d <> TNeed -> pend t.
Proof.
  intros P E1 E2 E3 F N1 N2 N3. destruct P as [(e & P)|(P & Q)].
  - left. exists e. assert (e <> d) by (intros ->; tauto). rewrite F by assumption. exact P.
  - right. rewrite E1, E2, E3. split; [exact P|]. destruct Q as [Q|[Q|(e & Q)]]; auto. right. right. exists e. assert (e <> d) by (intros ->; tauto). now rewrite F by assumption.
Qed.
Lemma wakes_move s t d : wakes s -> running t = running s -> starts t = starts s -> ends t = ends s -> timers t = timers s ->
  need t = need s -> poll t = poll s -> cons t = cons s -> (forall e, e <> d -> thr t e = thr s e) ->
  thr s d <> TAdded -> thr s d <> TState -> thr s d <> TNeed -> wakes t.
Proof.
  intros W R S1 S2 S3 E1 E2 E3 F N1 N2 N3 RT. rewrite S1, S2, S3, E3. destruct (W ltac:(congruence)) as (A & B).
  assert (P : pend s -> pend t) by (intros P; exact (pend_move s t d P E1 E2 E3 F N1 N2 N3)). split; intros H; [apply A in H|apply B in H]; intuition auto.
Qed.
Lemma wakes_step s o t : wakes s -> step s o = Some t -> wakes t.
Proof.
  intros W H. destruct o; cbn [step] in H.
  - destruct (thr s d) eqn:E; try discriminate H. apply some_inj in H. subst t. apply (wakes_move s _ d W); try reflexivity; try congruence. intros e X. fields. now apply upd_other.
  - destruct (thr s d) eqn:E; try discriminate H. cbv zeta in H. apply some_inj in H. subst t.
    destruct (ref s); (apply (wakes_move s _ d W); try reflexivity; try congruence); intros e X; fields; now apply upd_other.
  - destruct (thr s d) eqn:E; try discriminate H. apply some_inj in H. subst t.
    destruct (running s) eqn:R; (apply (wakes_move s _ d W); try reflexivity; try congruence); intros e X; fields; now apply upd_other.
  - destruct (thr s d) eqn:E; try discriminate H. apply some_inj in H. subst t. intros R.
    assert (P : pend (add k (mk_ev d x) (set_thr d TAdded s))) by (left; exists d; left; fields; apply upd_same). split; intros _; now left.
  - destruct (thr s d) eqn:E; try discriminate H. apply some_inj in H. subst t. intros R. fields. rewrite R.
    assert (P : pend (set_thr d TState s)) by (left; exists d; right; fields; apply upd_same). split; intros _; now left.
  - destruct (thr s d) eqn:E; try discriminate H. apply some_inj in H. subst t. intros R. fields.
    assert (P : pend (set_flags (poll s) true (set_thr d TNeed s))) by (right; split; [reflexivity|right; right; exists d; fields; apply upd_same]). split; intros _; now left.
  - destruct (thr s d) eqn:E; try discriminate H. apply some_inj in H. subst t. intros R. fields. destruct (W R) as (A & B).
    assert (P : pend s -> pend (set_flags true (need s) (set_thr d TIdle s))).
    { intros [(e & P)|(P & Q)].
      - left. exists e. fields. assert (e <> d) by (intros ->; destruct P; congruence). now rewrite upd_other.
      - right. fields. auto. }
    split; intros X; [apply A in X|apply B in X]; intuition auto.
  - apply some_inj in H. subst t. intros R. fields. destruct (W R) as (A & B).
    assert (P : pend s -> pend (set_flags true (need s) s)) by (intros [P|(P & Q)]; [left; exact P|right; fields; auto]).
    split; intros X; [apply A in X|apply B in X]; intuition auto.
  - destruct (cons s) eqn:C; try discriminate H. destruct (poll s) eqn:Q; try discriminate H. apply some_inj in H. subst t. intros R. fields. destruct (W R) as (A & B).
    assert (P : pend s -> pend (set_flags false (need s) (set_cons CPoll s))) by (intros [P|(P & _)]; [left; exact P|right; fields; auto]).
    rewrite C in A, B. split; intros X; [apply A in X|apply B in X]; intuition (auto; discriminate).
  - destruct (cons s) eqn:C; try discriminate H. apply some_inj in H. subst t. intros R.
    assert (RS : running s = true) by (destruct (need s && running s); exact R). rewrite RS, andb_true_r in *. destruct (W RS) as (A & B). rewrite C in A, B.
    destruct (need s) eqn:N; fields; [split; intros _; auto|].
    assert (P : pend s -> pend (set_cons CIdle s)) by (intros [P|(P & _)]; [left; exact P|congruence]).
    split; intros X; [apply A in X|apply B in X]; intuition (auto; discriminate).
  - destruct (cons s) eqn:C; try discriminate H. destruct (starts s) as [|e r] eqn:S; apply some_inj in H; subst t; intros R; fields.
    + split; [congruence|intros _; auto].
    + rewrite C. split; intros _; auto.
  - destruct (cons s) eqn:C; try discriminate H. apply some_inj in H. subst t. intros R.
    assert (RS : running s = true) by (destruct (ends s); exact R). destruct (W RS) as (A & B). rewrite C in A, B.
    assert (P : pend s -> forall n, pend (set_cons CIdle (set_timers n s)) /\ pend (set_cons CIdle s)).
    { intros [P|(P & Q)] n; [split; left; exact P|]. split; right; fields; (split; [exact P|]); destruct Q as [Q|[Q|Q]]; auto; congruence. }
    destruct (ends s) as [|e r] eqn:SE; fields; split; intros X; try congruence.
    + apply A in X. destruct X as [X|X]; [left; now apply (P X 0)|discriminate X].
    + apply A in X. destruct X as [X|X]; [left; now apply (P X (S (timers s)))|discriminate X].
    + right. right. right. right. lia.
  - destruct (cons s) eqn:C; try discriminate H. destruct (timers s) as [|n] eqn:T; try discriminate H. apply some_inj in H. subst t. intros R. fields. destruct (W R) as (A & B). rewrite C in A, B.
    assert (P : pend s -> pend (set_ref true (set_cons CEnd (set_timers n s)))).
    { intros [P|(P & Q)]; [left; exact P|right; fields; split; [exact P|]; destruct Q as [Q|[Q|Q]]; auto; congruence]. }
    split; intros X; [apply A in X; destruct X as [X|X]; [auto|discriminate X]|auto].
  - destruct (cons s) eqn:C; try discriminate H. destruct (ends s) as [|e r] eqn:SE; apply some_inj in H; subst t; intros R; fields; destruct (W R) as (A & B); rewrite C in A.
    + assert (P : pend s -> pend (set_cons CClear s)) by (intros [P|(P & Q)]; [left; exact P|right; fields; split; [exact P|]; destruct Q as [Q|[Q|Q]]; auto; congruence]).
      split; [|congruence]. intros X. apply A in X. destruct X as [X|X]; [auto|discriminate X].
    + assert (P : pend s -> pend (handle Disc e r s)) by (intros [P|(P & Q)]; [left; exact P|right; fields; auto]).
      rewrite C. split; [|auto]. intros X. apply A in X. destruct X as [X|X]; [auto|discriminate X].
  - destruct (cons s) eqn:C; try discriminate H. apply some_inj in H. subst t. intros R. fields. destruct (W R) as (A & B). rewrite C in A, B.
    assert (P : pend s -> pend (set_ref false (set_cons CIdle s))) by (intros [P|(P & Q)]; [left; exact P|right; fields; split; [exact P|]; destruct Q as [Q|[Q|Q]]; auto; congruence]).
    split; intros X; [apply A in X|apply B in X]; intuition (auto; discriminate).
  - destruct (cons s) eqn:C; try discriminate H. destruct (running s) eqn:RS; try discriminate H. apply some_inj in H. subst t. intros R. fields. discriminate R.
Qed.

(** * What each thread reports *)
Definition in_hand (p : tpc) : list (kind * nat) := match p with TAsk k x | TSaw k x => [(k, x)] | _ => [] end.
Definition each (s : st) : Prop :=
  forall d, skipped s = [] -> of_thread d (asked s) = of_thread d (added s) ++ map (fun p => (fst p, mk_ev d (snd p))) (in_hand (thr s d)).
Lemma each_start : each start.
Proof. intros d _. reflexivity. Qed.
Lemma nil_app_end {A} (l : list A) x : l ++ [x] = [] -> False.
Proof. destruct l; discriminate. Qed.
Lemma of_thread_one d k e : of_thread d [(k, e)] = if e_thr e =? d then [(k, e)] else [].
Proof. reflexivity. Qed.
Lemma each_step s o t : each s -> step s o = Some t -> each t.
Proof.
  intros W H d0. destruct o; cbn [step] in H.
  - destruct (thr s d) eqn:E; try discriminate H. apply some_inj in H. subst t. fields. intros K. specialize (W d0 K). rewrite of_thread_app, W, of_thread_one. cbn [e_thr].
    destruct (Nat.eqb_spec d d0) as [->|N]; [rewrite E, upd_same; cbn; now rewrite app_nil_r|]. rewrite upd_other by congruence. now rewrite app_nil_r.
  - destruct (thr s d) eqn:E; try discriminate H. cbv zeta in H. apply some_inj in H. subst t. destruct (ref s); fields; intros K; [now apply nil_app_end in K|].
    specialize (W d0 K). rewrite of_thread_app, W, of_thread_one. cbn [e_thr].
    destruct (Nat.eqb_spec d d0) as [->|N]; [rewrite E, upd_same; cbn; now rewrite app_nil_r|]. rewrite upd_other by congruence. now rewrite app_nil_r.
  - destruct (thr s d) eqn:E; try discriminate H. apply some_inj in H. subst t. destruct (running s); fields; intros K; [|now apply nil_app_end in K]. specialize (W d0 K). rewrite W.
    destruct (Nat.eqb_spec d d0) as [->|N]; [now rewrite E, upd_same|]. now rewrite upd_other by congruence.
  - destruct (thr s d) eqn:E; try discriminate H. apply some_inj in H. subst t. fields. intros K. specialize (W d0 K). rewrite of_thread_app, W, of_thread_one. cbn [e_thr].
    destruct (Nat.eqb_spec d d0) as [->|N]; [rewrite E, upd_same; cbn; now rewrite app_nil_r|]. rewrite upd_other by congruence. now rewrite app_nil_r.
  - destruct (thr s d) eqn:E; try discriminate H. apply some_inj in H. subst t. fields. intros K. specialize (W d0 K). rewrite W.
    destruct (Nat.eqb_spec d d0) as [->|N]; [rewrite E, upd_same; now destruct (running s)|]. now rewrite upd_other by congruence.
  - destruct (thr s d) eqn:E; try discriminate H. apply some_inj in H. subst t. fields. intros K. specialize (W d0 K). rewrite W.
    destruct (Nat.eqb_spec d d0) as [->|N]; [now rewrite E, upd_same|]. now rewrite upd_other by congruence.
  - destruct (thr s d) eqn:E; try discriminate H. apply some_inj in H. subst t. fields. intros K. specialize (W d0 K). rewrite W.
    destruct (Nat.eqb_spec d d0) as [->|N]; [now rewrite E, upd_same|]. now rewrite upd_other by congruence.
  - apply some_inj in H. subst t. exact (W d0).
  - brk H. apply some_inj in H. subst t. exact (W d0).
  - brk H. apply some_inj in H. subst t. destruct (need s && running s); exact (W d0).
  - brk H; apply some_inj in H; subst t; exact (W d0).
  - brk H; apply some_inj in H; subst t. destruct (ends s); exact (W d0).
  - brk H; apply some_inj in H; subst t; exact (W d0).
  - brk H; apply some_inj in H; subst t; exact (W d0).
  - brk H; apply some_inj in H; subst t; exact (W d0).
  - brk H; apply some_inj in H; subst t; exact (W d0).
Qed.

(** * The marker of the loop over the end events *)
Definition marked (s : st) : Prop := ref s = true <-> telling s.
Lemma marked_start : marked start.
Proof. unfold marked, telling. cbn. split; [discriminate|]. intros [H|H]; discriminate. Qed.
Lemma marked_step s o t : marked s -> step s o = Some t -> marked t.
Proof.
  unfold marked, telling. intros W H.
  assert (K : ref t = ref s /\ cons t = cons s \/ ref t = true /\ cons t = CEnd \/ ref t = ref s /\ cons s = CEnd /\ cons t = CClear \/ ref t = false /\ cons t = CIdle
    \/ ref t = ref s /\ cons s <> CEnd /\ cons s <> CClear /\ cons t <> CEnd /\ cons t <> CClear).
  { destruct o; cbn [step] in H; brk H; apply some_inj in H; subst t;
    repeat match goal with |- context [if ?b then _ else _] => let X := fresh "X" in destruct b eqn:X end; try (destruct (ends s) eqn:?); fields; rewrite ?E; auto 10; try (left; split; congruence);
    try (right; right; right; right; repeat split; congruence). }
  destruct K as [(-> & ->)|[(-> & ->)|[(-> & K & ->)|[(-> & ->)|(-> & K1 & K2 & K3 & K4)]]]].
  - exact W.
  - tauto.
  - rewrite K in W. destruct W as (W1 & W2). split; auto.
  - split; [discriminate|intros [X|X]; discriminate X].
  - tauto.
Qed.
(** Without such closings everything is reported. *)
Lemma polite_skip l : forall s t, marked s -> running s = true -> skipped s = [] -> polite s l -> run s l = Some t -> skipped t = [] /\ running t = true.
Proof.
  induction l as [|o l IH]; intros s t M R K P H; cbn [run polite] in *; [injection H as <-; auto|]. destruct (step s o) as [s1|] eqn:E; [|discriminate H]. destruct P as (P1 & P2).
  apply (IH s1 t); [exact (marked_step s o s1 M E)| | |exact (P2 s1 eq_refl)|exact H].
  - destruct o; cbn [step] in E; try contradiction; brk E; apply some_inj in E; subst s1; fields; try exact R.
    + destruct (ref s); exact R.
    + destruct (running s) eqn:Z; [exact Z|discriminate R].
    + destruct (need s && running s); exact R.
    + destruct (ends s); exact R.
  - destruct o; cbn [step] in E; try contradiction; brk E; apply some_inj in E; subst s1; fields; try exact K.
    + destruct (ref s) eqn:RF; fields; [exfalso; apply P1; now apply M|exact K].
    + rewrite R. exact K.
    + destruct (need s && running s); exact K.
    + destruct (ends s); exact K.
Qed.

(** * The event loop alone gets everything done *)
Definition cost (c : cpc) : nat := match c with CIdle => 0 | CPoll => 9 | CStart => 8 | CCount => 6 | CEnd => 3 | CClear => 2 end.
Definition work (s : st) : nat := 2 * (List.length (starts s) + List.length (ends s)) + (if poll s then 10 else 0) + 4 * timers s + cost (cons s).
Lemma loop_step s o : loop_op s = Some o -> exists t, step s o = Some t /\ work t < work s /\ thr t = thr s /\ running t = running s /\ asked t = asked s /\ added t = added s /\ skipped t = skipped s.
Proof.
  unfold loop_op, work. intros H. destruct (cons s) eqn:C.
  - destruct (poll s) eqn:P; [injection H as <-; cbn [step]; rewrite C, P; eexists; split; [reflexivity|]; fields; cbn [cost]; split; [lia|auto 10]|].
    destruct (timers s) as [|n] eqn:T; [discriminate H|injection H as <-; cbn [step]; rewrite C, T; eexists; split; [reflexivity|]; fields; rewrite P; cbn [cost]; split; [lia|auto 10]].
  - injection H as <-. cbn [step]. rewrite C. eexists. split; [reflexivity|]. destruct (need s && running s); fields; cbn [cost]; (split; [lia|auto 10]).
  - injection H as <-. cbn [step]. rewrite C. destruct (starts s) eqn:S; (eexists; split; [reflexivity|]); fields; rewrite ?C, ?S; cbn [cost List.length]; (split; [lia|auto 10]).
  - injection H as <-. cbn [step]. rewrite C. eexists. split; [reflexivity|]. destruct (ends s) eqn:S; fields; rewrite ?S; cbn [cost List.length]; (split; [lia|auto 10]).
  - injection H as <-. cbn [step]. rewrite C. destruct (ends s) eqn:S; (eexists; split; [reflexivity|]); fields; rewrite ?C, ?S; cbn [cost List.length]; (split; [lia|auto 10]).
  - injection H as <-. cbn [step]. rewrite C. eexists. split; [reflexivity|]. fields. cbn [cost]. split; [lia|auto 10].
Qed.
Lemma loop_rest n : forall s, work s <= n -> exists t l, loop n s = Some t /\ run s l = Some t /\ at_rest t /\ thr t = thr s /\ running t = running s /\ asked t = asked s /\ added t = added s /\ skipped t = skipped s.
Proof.
  induction n as [|n IH]; intros s W.
  - exists s, []. split; [reflexivity|]. split; [reflexivity|]. split; [|auto 10]. unfold work in W. split; [destruct (cons s); cbn [cost] in W; auto; lia|]. split; [destruct (poll s); [lia|reflexivity]|lia].
  - cbn [loop]. destruct (loop_op s) as [o|] eqn:L.
    + destruct (loop_step s o L) as (s1 & E & D & E1 & E2 & E3 & E4 & E5). rewrite E. destruct (IH s1 ltac:(lia)) as (t & l & A & B & R & F1 & F2 & F3 & F4 & F5).
      exists t, (o :: l). cbn [run]. rewrite E. split; [exact A|]. split; [exact B|]. split; [exact R|]. split; [congruence|]. split; [congruence|]. split; [congruence|]. split; congruence.
    + exists s, []. split; [reflexivity|]. split; [reflexivity|]. split; [|auto 10]. unfold loop_op in L. unfold at_rest. destruct (cons s); try discriminate L. destruct (poll s); [discriminate L|].
      destruct (timers s); [auto|discriminate L].
Qed.

Definition good (s : st) : Prop := ord s /\ wakes s /\ each s /\ marked s.
Lemma good_run l : forall s t, good s -> run s l = Some t -> good t.
Proof.
  induction l as [|o l IH]; intros s t (A & B & C & D) H; cbn [run] in H; [injection H as <-; exact (conj A (conj B (conj C D)))|].
  destruct (step s o) as [s1|] eqn:E; [|discriminate H]. apply (IH s1 t); [|exact H].
  exact (conj (ord_step s o s1 A E) (conj (wakes_step s o s1 B E) (conj (each_step s o s1 C E) (marked_step s o s1 D E)))).
Qed.
Lemma good_start : good start.
Proof. exact (conj ord_start (conj wakes_start (conj each_start marked_start))). Qed.
(** Once it rests and no thread is reporting, nothing waits. *)
Lemma rest_empty s : good s -> running s = true -> quiet s -> at_rest s -> starts s = [] /\ ends s = [].
Proof.
  intros (_ & W & _) R Q (C & P & T). destruct (W R) as (A & B).
  assert (NP : ~ pend s) by (intros [(d & [X|X])|(_ & [X|[X|(d & X)]])]; try (rewrite Q in X; discriminate X); congruence).
  split.
  - destruct (starts s) eqn:S; [reflexivity|]. exfalso. destruct (A ltac:(discriminate)) as [X|X]; [auto|congruence].
  - destruct (ends s) eqn:S; [reflexivity|]. exfalso. destruct (B ltac:(discriminate)) as [X|[X|[X|[X|X]]]]; [auto|congruence|congruence|congruence|lia].
Qed.

(** * Callbacks *)
Lemma sorted_app a b : sorted (a ++ b) <-> sorted a /\ sorted b /\ (forall x y, In x a -> In y b -> x < y).
Proof.
  induction a as [|x a IH]; cbn [app sorted].
  - split; [intros H; repeat split; [exact H|intros x y []]|tauto].
  - rewrite IH. split.
    + intros (H1 & H2 & H3 & H4). split; [split; [intros y Y; apply H1; apply in_app_iff; now left|exact H2]|]. split; [exact H3|].
      intros u v [<-|U] V; [apply H1; apply in_app_iff; now right|now apply H4].
    + intros ((H1 & H2) & H3 & H4). split; [intros y Y; apply in_app_iff in Y; destruct Y as [Y|Y]; [now apply H1|apply H4; [now left|exact Y]]|].
      split; [exact H2|]. split; [exact H3|]. intros u v U V. apply H4; [now right|exact V].
Qed.
Lemma remove_first_split p l : (forallb (fun c => negb (p c)) l = true /\ remove_first p l = l)
  \/ exists a c b, l = a ++ c :: b /\ p c = true /\ forallb (fun c => negb (p c)) a = true /\ remove_first p l = a ++ b.
Proof.
  induction l as [|c l IH]; cbn [remove_first forallb]; [now left|]. destruct (p c) eqn:P.
  - right. exists [], c, l. cbn. auto.
  - destruct IH as [(A & B)|(a & x & b & E & X & A & B)]; [left; cbn; rewrite A; split; [reflexivity|now f_equal]|].
    right. exists (c :: a), x, b. cbn [forallb app]. rewrite P. cbn [negb andb]. split; [now rewrite E|]. split; [exact X|]. split; [exact A|]. now rewrite B.
Qed.
Lemma sane_act s a : sane s -> sane (act1 s a).
Proof.
  intros (S & F). destruct s as (l, n). cbn [fst snd] in *. destruct a as [v f d|v f d i|]; cbn [act1 fst snd].
  - split; cbn [fst snd].
    + rewrite map_app, sorted_app. split; [exact S|]. split; [cbn; split; [intros y []|exact Coq.Init.Logic.I]|]. intros x y X [<-|[]]. apply in_map_iff in X. destruct X as (c & <- & X). cbn. now apply F.
    + intros c C. apply in_app_iff in C. destruct C as [C|[<-|[]]]; [apply F in C; lia|cbn; lia].
  - destruct (remove_first_split (matches v f d i) l) as [(_ & E)|(a & c & b & E & _ & _ & E2)]; unfold sane; cbn [fst snd]; [rewrite E; auto|]. rewrite E2. subst l. split.
    + rewrite map_app in *. cbn [map] in S. apply sorted_app in S. destruct S as (S1 & S2 & S3). apply sorted_app. split; [exact S1|]. split; [exact (proj2 S2)|]. intros x y X Y. apply S3; [exact X|now right].
    + intros x X. apply F. apply in_app_iff in X. apply in_app_iff. destruct X; [now left|right; now right].
  - split; [exact Coq.Init.Logic.I|intros c []].
Qed.
Lemma sane_acts l : forall s, sane s -> sane (fold_left act1 l s).
Proof. induction l as [|a l IH]; intros s S; [exact S|]. cbn. apply IH. now apply sane_act. Qed.
(** The order and identity of callbacks: what remains of a list is a sublist, followed by new ones. *)
Lemma sorted_nodup_id l c x : sorted (map c_id l) -> In c l -> In x l -> c_id x = c_id c -> x = c.
Proof.
  induction l as [|y l IH]; intros S C X E; [contradiction|]. cbn in S. destruct S as (S1 & S2). destruct C as [<-|C]; destruct X as [<-|X]; try reflexivity.
  - apply (in_map c_id) in X. apply S1 in X. lia.
  - apply (in_map c_id) in C. apply S1 in C. lia.
  - now apply IH.
Qed.
Lemma after_split l c : sorted (map c_id l) -> In c l -> exists a, l = a ++ c :: after (c_id c) l /\ (forall x, In x a -> c_id x < c_id c) /\ (forall x, In x (after (c_id c) l) -> c_id c < c_id x).
Proof.
  induction l as [|y l IH]; intros S C; [contradiction|]. cbn [map sorted] in S. destruct S as (S1 & S2). cbn [after]. destruct (Nat.eqb_spec (c_id y) (c_id c)) as [E|E].
  - assert (y = c) by (destruct C as [C|C]; [exact C|apply (in_map c_id) in C; apply S1 in C; lia]). subst y. exists []. split; [reflexivity|]. split; [intros x []|]. intros x X. apply S1. now apply in_map.
  - destruct C as [C|C]; [congruence|]. destruct (IH S2 C) as (a & A & B & D). exists (y :: a). split; [cbn; congruence|]. split; [|exact D].
    intros x [<-|X]; [apply S1; now apply in_map|now apply B].
Qed.

Lemma act_old s a x : sane s -> In x (fst (act1 s a)) -> c_id x < snd s -> In x (fst s).
Proof.
  intros (S & F) X L. destruct s as (l, n). cbn [fst snd] in *. destruct a as [v f d|v f d i|]; cbn [act1 fst snd] in X.
  - apply in_app_iff in X. destruct X as [X|[<-|[]]]; [exact X|cbn in L; lia].
  - destruct (remove_first_split (matches v f d i) l) as [(_ & E)|(a & c & b & E & _ & _ & E2)]; [now rewrite E in X|]. rewrite E2 in X. rewrite E. apply in_app_iff in X. apply in_app_iff. destruct X; [now left|right; now right].
  - contradiction.
Qed.
Lemma act_next s a : snd s <= snd (act1 s a).
Proof. destruct a; cbn; lia. Qed.
Lemma acts_old l : forall s x, sane s -> In x (fst (fold_left act1 l s)) -> c_id x < snd s -> In x (fst s).
Proof.
  induction l as [|a l IH]; intros s x S X L; [exact X|]. cbn in X. apply (act_old s a x S); [|exact L]. apply IH; [now apply sane_act|exact X|]. pose proof (act_next s a). lia.
Qed.
Lemma acts_next l : forall s, snd s <= snd (fold_left act1 l s).
Proof. induction l as [|a l IH]; intros s; [apply Nat.le_refl|]. cbn. pose proof (act_next s a). pose proof (IH (act1 s a)). lia. Qed.

(** The loop: [lo] bounds the callbacks that were called. *)
Lemma dispatch_spec acts n : forall cur s l s2, sane s -> stays acts ->
  (match cur with Some c => In c (fst s) | None => True end) -> dispatch n acts cur s = Some (l, s2) ->
  sane s2 /\ sorted (map c_id l) /\ snd s <= snd s2
  /\ match cur with
     | Some c => In c l /\ (forall x, In x l -> c_id c <= c_id x) /\ (forall x, In x (fst s2) -> c_id c <= c_id x -> In x l)
                 /\ (forall x, In x (fst s2) -> c_id x < c_id c -> In x (fst s)) /\ (forall x, In x l -> c_id x < snd s -> In x (fst s))
     | None => l = [] /\ s2 = s
     end.
Proof.
  induction n as [|n IH]; intros cur s l s2 SA ST CU H; destruct cur as [c|]; cbn [dispatch] in H; try discriminate H.
  1, 3: injection H as <- <-; repeat split; auto; apply SA.
  cbv zeta in H. set (s1 := fold_left act1 (acts c) s) in *. assert (S1 : sane s1) by now apply sane_acts. pose proof (ST c s SA CU) as IN. fold s1 in IN.
  assert (EX : existsb (fun x => c_id x =? c_id c) (fst s1) = true) by (apply existsb_exists; exists c; split; [exact IN|apply Nat.eqb_refl]). rewrite EX in H.
  destruct (dispatch n acts (hd_error (after (c_id c) (fst s1))) s1) as [(l', s')|] eqn:D; [|discriminate H]. injection H as <- <-.
  destruct (after_split (fst s1) c (proj1 S1) IN) as (a & E & A1 & A2).
  assert (OLD : forall x, In x (fst s1) -> c_id x <= c_id c -> In x (fst s)).
  { intros x X L. apply (acts_old (acts c) s x SA X). pose proof (proj2 SA c CU). lia. }
  assert (NX : snd s <= snd s1) by apply acts_next.
  assert (CU1 : match hd_error (after (c_id c) (fst s1)) with Some y => In y (fst s1) | None => True end).
  { destruct (after (c_id c) (fst s1)) as [|y r] eqn:AF; cbn; [exact Coq.Init.Logic.I|]. rewrite E. apply in_app_iff. right. right. now left. }
  destruct (IH _ s1 l' s' S1 ST CU1 D) as (Q1 & Q2 & Q0 & Q3).
  destruct (after (c_id c) (fst s1)) as [|y r] eqn:AF; cbn [hd_error] in Q3.
  - destruct Q3 as (-> & ->). split; [exact Q1|]. split; [cbn; split; [intros z []|exact Coq.Init.Logic.I]|]. split; [exact NX|]. split; [now left|]. split; [intros x [<-|[]]; lia|]. split; [|split].
    + intros x X L. rewrite E in X. apply in_app_iff in X. destruct X as [X|X]; [apply A1 in X; lia|exact X].
    + intros x X L. apply OLD; [exact X|lia].
    + intros x [<-|[]] _. exact CU.
  - destruct Q3 as (Y & Q4 & Q5 & Q6 & Q7). assert (CY : c_id c < c_id y) by (apply A2; now left).
    split; [exact Q1|]. split; [cbn [map sorted]; split; [|exact Q2]; intros z Z; apply in_map_iff in Z; destruct Z as (x & <- & X); apply Q4 in X; lia|]. split; [lia|]. split; [now left|]. split; [intros x [<-|X]; [lia|apply Q4 in X; lia]|]. split; [|split].
    + intros x X L. destruct (Nat.le_gt_cases (c_id y) (c_id x)) as [G|G]; [right; now apply Q5|]. left. pose proof (Q6 x X G) as X1. rewrite E in X1. apply in_app_iff in X1.
      destruct X1 as [X1|[X1|[X1|X1]]]; [apply A1 in X1; lia|exact X1|subst x; lia|].
      assert (SR : sorted (map c_id (y :: r))) by (pose proof (proj1 S1) as W; rewrite E, map_app in W; apply sorted_app in W; destruct W as (_ & W & _); exact (proj2 W)).
      destruct SR as (SR & _). apply (in_map c_id) in X1. apply SR in X1. lia.
    + intros x X L. apply OLD; [|lia]. apply Q6; [exact X|lia].
    + intros x [<-|X] L; [exact CU|]. apply (acts_old (acts c) s x SA); [|exact L]. apply Q7; [exact X|lia].
Qed.
(** Callbacks that add none: as much fuel as there are callbacks is enough. *)
Definition no_add (a : act) : bool := match a with Add _ _ _ => false | _ => true end.
Lemma act_fewer s a p : no_add a = true -> List.length (filter p (fst (act1 s a))) <= List.length (filter p (fst s)).
Proof.
  intros N. destruct s as (l, n). destruct a as [v f d|v f d i|]; cbn [no_add act1 fst] in *; [discriminate N| |cbn; lia].
  destruct (remove_first_split (matches v f d i) l) as [(_ & E)|(a & c & b & E & _ & _ & E2)]; [now rewrite E|]. rewrite E2, E, !filter_app, !app_length. cbn [filter]. destruct (p c); cbn [List.length]; lia.
Qed.
Lemma acts_fewer l p : forallb no_add l = true -> forall s, List.length (filter p (fst (fold_left act1 l s))) <= List.length (filter p (fst s)).
Proof.
  induction l as [|a l IH]; intros N s; [apply Nat.le_refl|]. cbn [forallb] in N. apply andb_true_iff in N. destruct N as (N1 & N2). cbn [fold_left].
  pose proof (IH N2 (act1 s a)). pose proof (act_fewer s a p N1). lia.
Qed.
Lemma filter_le {A} (p q : A -> bool) l : (forall x, p x = true -> q x = true) -> List.length (filter p l) <= List.length (filter q l).
Proof. intros H. induction l as [|x l IH]; [apply Nat.le_refl|]. cbn [filter]. destruct (p x) eqn:P; [rewrite (H x P); cbn [List.length]; lia|]. destruct (q x); cbn [List.length]; lia. Qed.
Lemma filter_lt {A} (p q : A -> bool) l y : (forall x, p x = true -> q x = true) -> In y l -> p y = false -> q y = true -> List.length (filter p l) < List.length (filter q l).
Proof.
  intros H Y P Q. induction l as [|x l IH]; [contradiction|]. cbn [filter]. destruct Y as [->|Y].
  - rewrite P, Q. cbn [List.length]. pose proof (filter_le p q l H). lia.
  - pose proof (IH Y). destruct (p x) eqn:PX; [rewrite (H x PX); cbn [List.length]; lia|]. destruct (q x); cbn [List.length]; lia.
Qed.
Lemma dispatch_ends acts : (forall c, forallb no_add (acts c) = true) -> stays acts -> forall n cur s, sane s ->
  match cur with Some c => In c (fst s) /\ List.length (filter (fun x => c_id c <=? c_id x) (fst s)) <= n | None => True end ->
  exists l s2, dispatch n acts cur s = Some (l, s2).
Proof.
  intros NA ST. induction n as [|n IH]; intros cur s SA CU; destruct cur as [c|]; try (exists [], s; reflexivity).
  - exfalso. destruct CU as (C & L). assert (X : In c (filter (fun x => c_id c <=? c_id x) (fst s))) by (apply filter_In; split; [exact C|apply Nat.leb_refl]).
    destruct (filter (fun x => c_id c <=? c_id x) (fst s)); [exact X|cbn in L; lia].
  - destruct CU as (C & L). cbn [dispatch]. cbv zeta. set (s1 := fold_left act1 (acts c) s). assert (S1 : sane s1) by now apply sane_acts. pose proof (ST c s SA C) as IN. fold s1 in IN.
    assert (EX : existsb (fun x => c_id x =? c_id c) (fst s1) = true) by (apply existsb_exists; exists c; split; [exact IN|apply Nat.eqb_refl]). rewrite EX.
    destruct (after_split (fst s1) c (proj1 S1) IN) as (a & E & A1 & A2).
    assert (CU1 : match hd_error (after (c_id c) (fst s1)) with Some y => In y (fst s1) /\ List.length (filter (fun x => c_id y <=? c_id x) (fst s1)) <= n | None => True end).
    { destruct (after (c_id c) (fst s1)) as [|y r] eqn:AF; cbn; [exact Coq.Init.Logic.I|]. split; [rewrite E; apply in_app_iff; right; right; now left|].
      assert (CY : c_id c < c_id y) by (apply A2; now left).
      pose proof (acts_fewer (acts c) (fun x => c_id c <=? c_id x) (NA c) s) as Q. fold s1 in Q.
      assert (List.length (filter (fun x => c_id y <=? c_id x) (fst s1)) < List.length (filter (fun x => c_id c <=? c_id x) (fst s1))).
      { apply (filter_lt _ _ _ c); [|exact IN|now apply Nat.leb_gt|apply Nat.leb_refl]. intros x X. apply Nat.leb_le in X. apply Nat.leb_le. lia. }
      lia. }
    destruct (IH _ s1 S1 CU1) as (l & s2 & D). exists (c :: l), s2. now rewrite D.
Qed.
