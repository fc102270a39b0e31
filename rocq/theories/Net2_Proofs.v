From Verif Require Import Common Net_Model Net_Spec Net_Proofs.
Local Open Scope nat_scope.

Lemma run_app : forall a b t, run t (a ++ b) = match run t a with Some u => run u b | None => None end.
Proof. induction a as [|o a IH]; intros b t; [reflexivity|]. cbn [app run]. destruct (step t o); [apply IH|reflexivity]. Qed.

(** Steps of the event loop leave the threads, the process and what arrived alone. *)
Lemma loop_step : forall t o t', of_loop o -> step t o = Some t' -> thr t' = thr t /\ running t' = running t /\ arr t' = arr t /\ gone t' = gone t /\ pend t' = pend t.
Proof.
  intros t o t' L H. destruct o; try destruct L; cbn [step] in H; brk H; injection H as <-; fields; tauto.
Qed.
Lemma loop_run : forall l t t', Forall of_loop l -> run t l = Some t' -> thr t' = thr t /\ running t' = running t /\ arr t' = arr t /\ gone t' = gone t /\ pend t' = pend t.
Proof.
  induction l as [|o l IH]; intros t t' F R; cbn [run] in R; [injection R as <-; tauto|]. inversion F as [|? ? F1 F2]; subst.
  destruct (step t o) as [u|] eqn:E; [|discriminate R]. destruct (loop_step t o u F1 E) as (A & B & C & D & P). destruct (IH u t' F2 R) as (A' & B' & C' & D' & P').
  rewrite A', B', C', D', P'. tauto.
Qed.

(** When the event loop has nothing to do. *)
Lemma stopped : forall t, (forall o, of_loop o -> step t o = None) -> cons t = CIdle /\ poll t = false.
Proof.
  intros t S. destruct (cons t) as [| | |[|d r]|] eqn:C.
  - split; [reflexivity|]. pose proof (S Run Logic.I) as H. cbn [step] in H. rewrite C in H. destruct (poll t); [discriminate H|reflexivity].
  - pose proof (S Take Logic.I) as H. cbn [step] in H. rewrite C in H. discriminate H.
  - pose proof (S Copy Logic.I) as H. cbn [step] in H. rewrite C in H. destruct (wake_exact (q t)) as (w & W & _). rewrite W in H. discriminate H.
  - pose proof (S Signal Logic.I) as H. cbn [step] in H. rewrite C in H. discriminate H.
  - pose proof (S Signal Logic.I) as H. cbn [step] in H. rewrite C in H. discriminate H.
  - pose proof (S Post Logic.I) as H. cbn [step] in H. rewrite C in H. destruct (loc t); discriminate H.
Qed.

Lemma quiet_flags : forall ops t, reachable ops t -> running t = true -> quiet t -> q t <> [] -> need t = true /\ poll t = true.
Proof.
  intros ops t R G [C Q] N. destruct (reach_wakes ops t R G) as [A B].
  assert (H : need t = true).
  { destruct (A N) as [X|[(d & k & X)|X]]; [exact X| |congruence]. specialize (Q d). destruct X as [X|X]; rewrite X in Q; destruct Q. }
  split; [exact H|]. destruct (B H) as [X|[(d & k & X)|X]]; [exact X| |congruence]. specialize (Q d). rewrite X in Q; destruct Q.
Qed.

Lemma all_delivered : forall ops t l t', reachable ops t -> running t = true -> (forall d, between (thr t d)) -> Forall of_loop l -> run t l = Some t' ->
  (forall o, of_loop o -> step t' o = None) -> q t' = [] /\ loc t' = [] /\ del t' = kept t'.
Proof.
  intros ops t l t' R G Q F L S. destruct (loop_run l t t' F L) as (T & RN & _).
  assert (R' : reachable (ops ++ l) t') by (unfold reachable in *; rewrite run_app, R; exact L).
  destruct (stopped t' S) as [C P].
  assert (E : q t' = []).
  { destruct (q t') as [|m r] eqn:X; [reflexivity|]. destruct (quiet_flags (ops ++ l) t' R') as [_ H]; [congruence| |congruence|congruence].
    split; [exact C|]. intros d. rewrite T. apply Q. }
  destruct (reach_order _ _ R') as (_ & _ & _ & _ & _ & K & _ & LC). rewrite C in LC. split; [exact E|]. split; [exact LC|]. rewrite K, LC, E. now rewrite !app_nil_r.
Qed.

(** The event loop does not go on for ever. *)
Definition wl (l : list msg) : nat := match wake l with Some w => List.length w | None => 0 end.
Definition work (l : list msg) : nat := 4 + wl l + List.length l.
Definition phase (t : st) : nat :=
  match cons t with
  | CIdle => 0 | CPoll => S (work (q t)) | CNeed => work (q t) | CSig w => List.length w + 2 + List.length (loc t) | CPost => S (List.length (loc t))
  end.
Definition measure (t : st) : nat := phase t + if poll t then 2 + work (q t) else 0.
Lemma wl_nil : wl [] = 0. Proof. reflexivity. Qed.
Lemma loop_measure : forall t o t', of_loop o -> step t o = Some t' -> measure t' < measure t.
Proof.
  intros t o t' L H. unfold measure, phase. destruct o; try destruct L; cbn [step] in H.
  - destruct (cons t) eqn:C; try discriminate H. destruct (poll t); [|discriminate H]. injection H as <-. fields. lia.
  - destruct (cons t) eqn:C; try discriminate H. injection H as <-. destruct (need t && running t); fields; lia.
  - destruct (cons t) eqn:C; try discriminate H. destruct (wake (q t)) as [w|] eqn:W; [|discriminate H]. injection H as <-. fields.
    unfold work, wl at 2. rewrite W. unfold wl. rewrite W. change (wake []) with (Some (@nil nat)). cbn [List.length]. destruct (poll t); lia.
  - destruct (cons t) as [| | |[|d r]|] eqn:C; try discriminate H; injection H as <-; fields; cbn [List.length]; lia.
  - destruct (cons t) eqn:C; try discriminate H. destruct (loc t) as [|m r] eqn:E; injection H as <-; fields; try rewrite E; cbn [List.length]; lia.
Qed.
Lemma loop_bound : forall l t t', Forall of_loop l -> run t l = Some t' -> List.length l <= measure t.
Proof.
  induction l as [|o l IH]; intros t t' F R; [cbn; lia|]. inversion F as [|? ? F1 F2]; subst. cbn [run] in R.
  destruct (step t o) as [u|] eqn:E; [|discriminate R]. pose proof (loop_measure t o u F1 E). pose proof (IH u t' F2 R). cbn [List.length]. lia.
Qed.

(** * Stalls *)
Lemma no_stall : forall ops t d, reachable ops t -> running t = true -> (forall e, between (thr t e)) -> (forall o, of_loop o -> step t o = None) -> pend t = [] ->
  ~ stalled t d.
Proof.
  intros ops t d R G Q S P [T F]. destruct (stopped t S) as [C PO]. destruct (reach_flow ops t R) as (_ & _ & W).
  destruct (W d T) as [A|[A|[A|(w & X & _)]]]; [|lia|rewrite P in A; destruct A|congruence].
  assert (E : q t = []).
  { destruct (q t) as [|m r] eqn:X; [reflexivity|]. destruct (quiet_flags ops t R G) as [_ H]; [now split|congruence|congruence]. }
  rewrite E in A. pose proof max_pos. cbn in A. lia.
Qed.

(** * After the process ended *)
Lemma dead_step : forall t o t' m, running t = false /\ cons t <> CNeed /\ (In m (q t) \/ In m (gone t)) -> step t o = Some t' ->
  running t' = false /\ cons t' <> CNeed /\ (In m (q t') \/ In m (gone t')).
Proof.
  intros t o t' m (R & C & I) H.
  destruct o; cbn [step] in H; rewrite ?R, ?andb_false_r in H; brk H; injection H as <-; fields; rewrite ?R;
    try (split; [reflexivity|]; split; [congruence|exact I]); try congruence.
  - split; [reflexivity|]. split; [exact C|]. destruct I as [I|I]; [left; apply in_or_app; now left|now right].
  - split; [reflexivity|]. split; [exact C|]. destruct I as [I|I]; [|right; apply in_or_app; now left].
    destruct (same_ep d ep m) eqn:ES; [right; apply in_or_app; right; apply filter_In; tauto|left; apply filter_In; now rewrite ES].
  - split; [reflexivity|]. split; [exact C|]. destruct I as [I|I]; [|right; apply in_or_app; now left].
    destruct (same_ep d ep m) eqn:ES; [right; apply in_or_app; right; apply filter_In; tauto|left; apply filter_In; now rewrite ES].
Qed.
Lemma dead_run : forall l t t' m, running t = false -> cons t <> CNeed -> In m (q t) -> run t l = Some t' -> In m (q t') \/ In m (gone t').
Proof.
  intros l t t' m A B C R.
  exact (proj2 (proj2 (run_inv (fun t => running t = false /\ cons t <> CNeed /\ (In m (q t) \/ In m (gone t))) (fun x o y => fun P => dead_step x o y m P) l t t'
    (conj A (conj B (or_introl C))) R))).
Qed.

Local Opaque MAX.
(** * What arrives *)
Definition has (t : st) (m : msg) : Prop := In m (arr t) \/ in_hand t m.
Lemma has_same : forall t t' m, arr t' = arr t -> (forall d k, thr t' d = TGot m k <-> thr t d = TGot m k) -> (has t' m <-> has t m).
Proof.
  intros t t' m A T. unfold has, in_hand. rewrite A. split; (intros [H|(d & k & H)]; [now left|right; exists d, k; now apply T]).
Qed.
Lemma has_step : forall t o t', step t o = Some t' ->
  next t' = next t + (match o with Receive _ _ _ => 1 | _ => 0 end) /\ running t' = (match o with Exit => false | _ => running t end) /\
  forall m, has t' m <-> has t m \/ In m (reads (next t) (running t) [o]).
Proof.
  intros t o t' H.
  assert (K : forall t2 d, thr t2 = upd d (thr t2 d) (thr t) -> arr t2 = arr t -> (forall m k, thr t d <> TGot m k) -> (forall m k, thr t2 d <> TGot m k) -> forall m, has t2 m <-> has t m \/ False).
  { intros t2 d T A B C m. transitivity (has t m); [|tauto]. apply has_same; [exact A|]. intros x k. rewrite T. destruct (Nat.eq_dec x d) as [->|N].
    - rewrite upd_same. split; intros E; [elim (C m k E)|elim (B m k E)].
    - now rewrite upd_other. }
  assert (K0 : forall t2, thr t2 = thr t -> arr t2 = arr t -> forall m, has t2 m <-> has t m \/ False).
  { intros t2 T A m. transitivity (has t m); [|tauto]. apply has_same; [exact A|]. intros x k. now rewrite T. }
  destruct o as [d|d|d|d k s|d|d ep v|d|d|d|d| | | | | | | |d ep|]; cbn [step] in H; cbn [reads In].
  - destruct (thr t d) eqn:T; try discriminate H. injection H as <-. fields. split; [lia|]. split; [reflexivity|]. apply (K _ d); fields; [now rewrite upd_same|reflexivity|congruence|].
    intros m k. rewrite upd_same. destruct (_ <=? _); discriminate.
  - destruct (thr t d) eqn:T; try discriminate H. destruct (sig t d); [discriminate H|]. injection H as <-. fields. split; [lia|]. split; [reflexivity|]. apply (K _ d); fields; [now rewrite upd_same|reflexivity|congruence|].
    intros m k. rewrite upd_same. discriminate.
  - destruct (thr t d) eqn:T; try discriminate H. injection H as <-. fields. split; [lia|]. split; [reflexivity|]. apply (K _ d); fields; [now rewrite upd_same|reflexivity|congruence|].
    intros m k. rewrite upd_same. discriminate.
  - destruct (thr t d) eqn:T; try discriminate H. destruct (k <=? _); [|discriminate H].
    destruct s; [destruct (sig t d); [discriminate H|]|]; injection H as <-; fields; (split; [lia|]; split; [reflexivity|]; apply (K _ d); fields; [now rewrite upd_same|reflexivity|congruence|];
    intros m k0; rewrite upd_same; discriminate).
  - destruct (thr t d) eqn:T; try discriminate H. injection H as <-. fields. split; [lia|]. split; [reflexivity|]. apply (K _ d); fields; [now rewrite upd_same|reflexivity|congruence|].
    intros m k0. rewrite upd_same. discriminate.
  - destruct (thr t d) as [| | |[|k]| | | |] eqn:T; try discriminate H. injection H as <-. fields. split; [lia|]. split; [reflexivity|]. intros m.
    destruct (running t && v) eqn:RV.
    + cbn [In]. unfold has, in_hand. fields. split.
      * intros [A|(x & j & E)]; [now left; left|]. destruct (Nat.eq_dec x d) as [->|N].
        -- rewrite upd_same in E. right. left. congruence.
        -- rewrite upd_other in E by exact N. left. right. now exists x, j.
      * intros [[A|(x & j & E)]|[A|[]]]; [now left| |].
        -- right. exists x, j. rewrite upd_other; [exact E|]. intros ->. congruence.
        -- right. exists d, k. rewrite upd_same. congruence.
    + apply (K _ d); fields; [now rewrite upd_same|reflexivity|congruence|]. intros m0 k0. rewrite upd_same. discriminate.
  - destruct (thr t d) as [| | | |m k| | |] eqn:T; try discriminate H. injection H as <-. fields. split; [lia|]. split; [reflexivity|]. intros y. unfold has, in_hand. fields.
    split.
    + intros [A|(x & j & E)].
      * apply in_app_or in A. destruct A as [A|[<-|[]]]; [now left; left|]. left. right. now exists d, k.
      * left. right. exists x, j. destruct (Nat.eq_dec x d) as [->|N]; [rewrite upd_same in E; discriminate E|now rewrite upd_other in E].
    + intros [[A|(x & j & E)]|[]]; [left; apply in_or_app; now left|]. destruct (Nat.eq_dec x d) as [->|N].
      * left. apply in_or_app. right. left. congruence.
      * right. exists x, j. now rewrite upd_other.
  - destruct (thr t d) eqn:T; try discriminate H. injection H as <-. fields. split; [lia|]. split; [reflexivity|]. apply (K _ d); fields; [now rewrite upd_same|reflexivity|congruence|].
    intros m k0. rewrite upd_same. destruct (running t); discriminate.
  - destruct (thr t d) eqn:T; try discriminate H. injection H as <-. fields. split; [lia|]. split; [reflexivity|]. apply (K _ d); fields; [now rewrite upd_same|reflexivity|congruence|].
    intros m k0. rewrite upd_same. discriminate.
  - destruct (thr t d) eqn:T; try discriminate H. injection H as <-. fields. split; [lia|]. split; [reflexivity|]. apply (K _ d); fields; [now rewrite upd_same|reflexivity|congruence|].
    intros m k0. rewrite upd_same. discriminate.
  - injection H as <-. fields. split; [lia|]. split; [reflexivity|]. apply K0; reflexivity.
  - destruct (cons t) eqn:C; try discriminate H. destruct (poll t); [|discriminate H]. injection H as <-. fields. split; [lia|]. split; [reflexivity|]. apply K0; reflexivity.
  - destruct (cons t) eqn:C; try discriminate H. injection H as <-. destruct (need t && running t); fields; (split; [lia|]; split; [reflexivity|]; apply K0; reflexivity).
  - destruct (cons t) eqn:C; try discriminate H. destruct (wake (q t)); [|discriminate H]. injection H as <-. fields. split; [lia|]. split; [reflexivity|]. apply K0; reflexivity.
  - destruct (cons t) as [| | |[|d r]|] eqn:C; try discriminate H; injection H as <-; fields; (split; [lia|]; split; [reflexivity|]; apply K0; reflexivity).
  - destruct (cons t) eqn:C; try discriminate H. destruct (loc t); injection H as <-; fields; (split; [lia|]; split; [reflexivity|]; apply K0; reflexivity).
  - destruct (cons t) eqn:C; try discriminate H. injection H as <-. fields. split; [lia|]. split; [reflexivity|]. apply K0; reflexivity.
  - injection H as <-. fields. split; [lia|]. split; [reflexivity|]. apply K0; reflexivity.
  - destruct (pend t) as [|d r]; [discriminate H|]. injection H as <-. fields. split; [lia|]. split; [reflexivity|]. apply K0; reflexivity.
Qed.
Lemma reads_cons : forall n up o l m, In m (reads n up (o :: l)) <->
  In m (reads n up [o]) \/ In m (reads (n + match o with Receive _ _ _ => 1 | _ => 0 end) (match o with Exit => false | _ => up end) l).
Proof.
  intros n up o l m. destruct o; cbn [reads In]; rewrite ?Nat.add_0_r; try tauto. rewrite Nat.add_1_r. destruct (up && valid); cbn [In]; tauto.
Qed.
Lemma has_run : forall l t t', run t l = Some t' -> forall m, has t' m <-> has t m \/ In m (reads (next t) (running t) l).
Proof.
  induction l as [|o l IH]; intros t t' R m; cbn [run] in R; [injection R as <-; cbn [reads In]; tauto|].
  destruct (step t o) as [u|] eqn:E; [|discriminate R]. destruct (has_step t o u E) as (N & RN & S). rewrite (IH u t' R m), (S m), (reads_cons (next t) (running t) o l m), N, RN. tauto.
Qed.

Lemma poll_stays l t t' : poll t = true -> run t l = Some t' -> ~ In Run l -> poll t' = true.
Proof.
  revert t. induction l as [|o l IH]; intros t P R N; cbn [run] in R; [injection R as <-; exact P|].
  destruct (step t o) as [t1|] eqn:E; [|discriminate]. refine (IH t1 _ R _); [|intros J; apply N; now right]. clear IH R t'.
  destruct o; cbn [step] in E; try (exfalso; apply N; now left); clear N;
    repeat match type of E with
    | context [match ?x with _ => _ end] => destruct x eqn:?; try discriminate E
    end; injection E as <-; cbn [poll set_thr set_sig set_flags set_cons]; solve [exact P|reflexivity].
Qed.
