From Coq Require Import Sorting.Sorted.
From Verif Require Import Common Net_Model Net_Spec.
Local Open Scope nat_scope.

(** * The devices that are woken *)

Definition above (dev : nat) (l : list msg) : list msg := filter (fun m => dev <=? m_dev m) l.
Lemma above_count : forall d l, List.length (above d l) = count d l + List.length (above (S d) l).
Proof.
  intros d l. unfold count, above. induction l as [|m l IH]; [reflexivity|]. cbn [filter].
  destruct (Nat.eqb_spec (m_dev m) d) as [E|E]; destruct (Nat.leb_spec d (m_dev m)) as [L|L]; destruct (Nat.leb_spec (S d) (m_dev m)) as [M|M]; cbn [List.length]; lia.
Qed.
Lemma above_mono : forall d e l, d <= e -> List.length (above e l) <= List.length (above d l).
Proof.
  intros d e l H. unfold above. induction l as [|m l IH]; [apply Nat.le_refl|]. cbn [filter].
  destruct (Nat.leb_spec e (m_dev m)) as [L|L]; destruct (Nat.leb_spec d (m_dev m)) as [M|M]; cbn [List.length]; lia.
Qed.
Lemma above_none : forall d l, list_max (map m_dev l) < d -> above d l = [].
Proof.
  intros d l. unfold above. induction l as [|m l IH]; [reflexivity|]. intros H. cbn [map list_max fold_right] in H. cbn [filter].
  change (fold_right Nat.max 0 (map m_dev l)) with (list_max (map m_dev l)) in H.
  destruct (Nat.leb_spec d (m_dev m)) as [L|L]; [lia|]. apply IH. lia.
Qed.
Lemma above_all : forall l, above 0 l = l.
Proof. induction l as [|m l IH]; [reflexivity|]. unfold above in *. cbn [filter]. change (0 <=? m_dev m) with true. cbv iota. now rewrite IH. Qed.

Lemma wake_spec : forall fuel dev l, list_max (map m_dev l) < fuel + dev ->
  exists w, wake_from fuel (List.length (above dev l)) dev l = Some w /\ NoDup w /\ forall d, In d w <-> dev <= d /\ MAX <= count d l.
Proof.
  induction fuel as [|f IH]; intros dev l H.
  - rewrite above_none by lia. exists []. split; [reflexivity|]. split; [constructor|]. intros d. split; [intros []|]. intros [A B].
    pose proof (above_count d l) as C. rewrite above_none in C by lia. cbn [List.length] in C. unfold MAX in B. lia.
  - cbn [wake_from]. destruct (Nat.ltb_spec (List.length (above dev l)) MAX) as [L|L].
    + exists []. split; [reflexivity|]. split; [constructor|]. intros d. split; [intros []|]. intros [A B].
      pose proof (above_count d l) as C. pose proof (above_mono dev d l A). lia.
    + destruct (IH (S dev) l ltac:(lia)) as (w & W & ND & I).
      replace (List.length (above dev l) - count dev l) with (List.length (above (S dev) l)) by (rewrite (above_count dev l); lia).
      rewrite W. destruct (Nat.leb_spec MAX (count dev l)) as [M|M].
      * exists (dev :: w). split; [reflexivity|]. split; [constructor; [rewrite I; lia|assumption]|]. intros d. cbn [In]. rewrite I. split; [intros [<-|[A B]]; lia|].
        intros [A B]. destruct (Nat.eq_dec dev d) as [->|N]; [now left|right; lia].
      * exists w. split; [reflexivity|]. split; [assumption|]. intros d. rewrite I. split; [lia|]. intros [A B]. split; [|assumption].
        destruct (Nat.eq_dec dev d) as [->|N]; lia.
Qed.
Lemma wake_exact : forall l, exists w, wake l = Some w /\ NoDup w /\ forall d, In d w <-> MAX <= count d l.
Proof.
  intros l. destruct (wake_spec (S (list_max (map m_dev l))) 0 l ltac:(lia)) as (w & W & ND & I). rewrite above_all in W. exists w. split; [exact W|].
  split; [exact ND|]. intros d. rewrite I. lia.
Qed.

Lemma max_pos : 0 < MAX. Proof. unfold MAX. lia. Qed.
Local Opaque MAX.

(** * The invariant *)

Lemma upd_same : forall {A} d (v : A) f, upd d v f d = v. Proof. intros. unfold upd. now rewrite Nat.eqb_refl. Qed.
Lemma upd_other : forall {A} d x (v : A) f, x <> d -> upd d v f x = f x.
Proof. intros. unfold upd. destruct (Nat.eqb_spec x d); [contradiction|reflexivity]. Qed.
Lemma count_app : forall d a b, count d (a ++ b) = count d a + count d b.
Proof. intros. unfold count. now rewrite filter_app, app_length. Qed.

(** The room of the queue that a thread may still fill. *)
Definition room (p : tpc) : nat := match p with TRecv k | TAdded k | TState k | TNeed k => k | TGot _ k => S k | _ => 0 end.
Definition flow (t : st) : Prop :=
  (forall d, count d (q t) + room (thr t d) <= MAX) /\
  (forall d m k, thr t d = TGot m k -> m_dev m = d) /\
  (forall d, thr t d = TFull -> MAX <= count d (q t) \/ 0 < sig t d \/ In d (pend t) \/ exists w, cons t = CSig w /\ In d w).

Ltac cases_ d x := destruct (Nat.eq_dec x d) as [->|]; [repeat rewrite upd_same in *|repeat rewrite upd_other in * by assumption].
Ltac fields := cbn [q loc poll need running thr sig cons pend next arr del gone set_thr set_cons set_sig set_flags] in *.

Lemma count_one : forall d m, count d [m] = if m_dev m =? d then 1 else 0.
Proof. intros d m. unfold count. cbn [filter]. now destruct (m_dev m =? d). Qed.
Lemma count_drop_other : forall d e ep l, d <> e -> count d (filter (fun m => negb (same_ep e ep m)) l) = count d l.
Proof.
  intros d e ep l N. unfold count, same_ep. induction l as [|m l IH]; [reflexivity|]. cbn [filter].
  destruct (Nat.eqb_spec (m_dev m) e) as [E|E]; cbn [andb negb].
  - destruct (m_ep m =? ep); cbn [negb filter]; (destruct (Nat.eqb_spec (m_dev m) d); [exfalso; lia|exact IH]).
  - cbn [filter]. destruct (m_dev m =? d); cbn [List.length]; lia.
Qed.
Lemma count_drop_same : forall d ep l, count d (filter (fun m => negb (same_ep d ep m)) l) + List.length (filter (same_ep d ep) l) = count d l.
Proof.
  intros d ep l. unfold count, same_ep. induction l as [|m l IH]; [reflexivity|]. cbn [filter].
  destruct (Nat.eqb_spec (m_dev m) d) as [E|E]; cbn [andb negb].
  - destruct (m_ep m =? ep); cbn [negb filter]; (destruct (Nat.eqb_spec (m_dev m) d); [cbn [List.length]; lia|contradiction]).
  - cbn [filter]. destruct (Nat.eqb_spec (m_dev m) d); [contradiction|exact IH].
Qed.
Lemma count_drop : forall d e ep l, count d (filter (fun m => negb (same_ep e ep m)) l) <= count d l.
Proof.
  intros d e ep l. destruct (Nat.eq_dec d e) as [->|N]; [pose proof (count_drop_same e ep l); lia|now rewrite count_drop_other].
Qed.

Lemma flow_start : flow start.
Proof.
  split; [intros d; pose proof max_pos; cbn; lia|]. split; [intros d m k H; discriminate H|intros d H; discriminate H].
Qed.

Ltac brk H := repeat match type of H with
  | context [match ?x with _ => _ end] => let E := fresh "E" in destruct x eqn:E; try discriminate H
  end.

Lemma flow_step : forall t o t', flow t -> step t o = Some t' -> flow t'.
Proof.
  intros t o t' (B & G & S) H.
  destruct o as [d|d|d|d k s|d|d ep v|d|d|d|d| | | | | | | |d ep|]; cbn [step] in H.
  - destruct (thr t d) eqn:T; try discriminate H. injection H as <-. unfold flow. fields.
    split; [|split].
    + intros x. cases_ d x; [|apply B]. specialize (B d). rewrite T in B. cbn [room] in B. destruct (MAX <=? count d (q t)); cbn [room]; exact B.
    + intros x m k E. cases_ d x; [destruct (MAX <=? count d (q t)); discriminate E|exact (G x m k E)].
    + intros x E. cases_ d x; [|exact (S x E)]. destruct (Nat.leb_spec MAX (count d (q t))); [now left|discriminate E].
  - destruct (thr t d) eqn:T; try discriminate H. destruct (sig t d) as [|n] eqn:F; [discriminate H|]. injection H as <-. unfold flow. fields.
    split; [|split].
    + intros x. cases_ d x; [|apply B]. specialize (B d). rewrite T in B. exact B.
    + intros x m k E. cases_ d x; [discriminate E|exact (G x m k E)].
    + intros x E. cases_ d x; [discriminate E|]. exact (S x E).
  - destruct (thr t d) eqn:T; try discriminate H. injection H as <-. unfold flow. fields.
    split; [|split].
    + intros x. cases_ d x; [|apply B]. specialize (B d). rewrite T in B. exact B.
    + intros x m k E. cases_ d x; [discriminate E|exact (G x m k E)].
    + intros x E. cases_ d x; [discriminate E|]. exact (S x E).
  - destruct (thr t d) eqn:T; try discriminate H. destruct (Nat.leb_spec k (MAX - count d (q t))) as [L|L]; [|discriminate H].
    assert (C : count d (q t) <= MAX) by (specialize (B d); lia).
    destruct s; [destruct (sig t d) as [|n] eqn:F; [discriminate H|]|]; injection H as <-; unfold flow; fields.
    + split; [|split].
      * intros x. cases_ d x; [|apply B]. cbn [room]. lia.
      * intros x m k0 E. cases_ d x; [discriminate E|exact (G x m k0 E)].
      * intros x E. cases_ d x; [discriminate E|]. exact (S x E).
    + split; [|split].
      * intros x. cases_ d x; [|apply B]. cbn [room]. lia.
      * intros x m k0 E. cases_ d x; [discriminate E|exact (G x m k0 E)].
      * intros x E. cases_ d x; [discriminate E|]. exact (S x E).
  - destruct (thr t d) eqn:T; try discriminate H. injection H as <-. unfold flow. fields.
    split; [|split].
    + intros x. cases_ d x; [|apply B]. specialize (B d). cbn [room]. lia.
    + intros x m k0 E. cases_ d x; [discriminate E|exact (G x m k0 E)].
    + intros x E. cases_ d x; [discriminate E|]. exact (S x E).
  - destruct (thr t d) as [| | |[|k]| | | |] eqn:T; try discriminate H. injection H as <-. unfold flow. fields.
    split; [|split].
    + intros x. cases_ d x; [|apply B]. specialize (B d). rewrite T in B. cbn [room] in B. destruct (running t && v); cbn [room]; lia.
    + intros x m k0 E. cases_ d x; [destruct (running t && v); inversion E; reflexivity|exact (G x m k0 E)].
    + intros x E. cases_ d x; [destruct (running t && v); discriminate E|]. exact (S x E).
  - destruct (thr t d) as [| | | |m k| | |] eqn:T; try discriminate H. injection H as <-. unfold flow. fields. pose proof (G d m k T) as D.
    split; [|split].
    + intros x. rewrite count_app, count_one. pose proof (B x) as Bx. cases_ d x.
      * rewrite T in Bx. cbn [room] in *. rewrite D, Nat.eqb_refl. lia.
      * destruct (Nat.eqb_spec (m_dev m) x); [congruence|]. lia.
    + intros x m0 k0 E. cases_ d x; [discriminate E|exact (G x m0 k0 E)].
    + intros x E. cases_ d x; [discriminate E|]. rewrite count_app. destruct (S x E) as [A|A]; [left; lia|now right].
  - destruct (thr t d) eqn:T; try discriminate H. injection H as <-. unfold flow. fields.
    split; [|split].
    + intros x. cases_ d x; [|apply B]. specialize (B d). rewrite T in B. cbn [room] in B. destruct (running t); cbn [room]; lia.
    + intros x m k0 E. cases_ d x; [destruct (running t); discriminate E|exact (G x m k0 E)].
    + intros x E. cases_ d x; [destruct (running t); discriminate E|]. exact (S x E).
  - destruct (thr t d) eqn:T; try discriminate H. injection H as <-. unfold flow. fields.
    split; [|split].
    + intros x. cases_ d x; [|apply B]. specialize (B d). rewrite T in B. exact B.
    + intros x m k0 E. cases_ d x; [discriminate E|exact (G x m k0 E)].
    + intros x E. cases_ d x; [discriminate E|]. exact (S x E).
  - destruct (thr t d) eqn:T; try discriminate H. injection H as <-. unfold flow. fields.
    split; [|split].
    + intros x. cases_ d x; [|apply B]. specialize (B d). rewrite T in B. exact B.
    + intros x m k0 E. cases_ d x; [discriminate E|exact (G x m k0 E)].
    + intros x E. cases_ d x; [discriminate E|]. exact (S x E).
  - injection H as <-. exact (conj B (conj G S)).
  - destruct (cons t) eqn:C; try discriminate H. destruct (poll t); [|discriminate H]. injection H as <-. unfold flow. fields. split; [exact B|]. split; [exact G|].
    intros x E. destruct (S x E) as [A|[A|[A|(w & W & _)]]]; [now left|now right; left|now right; right; left|congruence].
  - destruct (cons t) eqn:C; try discriminate H. injection H as <-. destruct (need t && running t); unfold flow; fields; (split; [exact B|]; split; [exact G|]);
      intros x E; destruct (S x E) as [A|[A|[A|(w & W & _)]]]; [now left|now right; left|now right; right; left|congruence|now left|now right; left|now right; right; left|congruence].
  - destruct (cons t) eqn:C; try discriminate H. destruct (wake_exact (q t)) as (w & W & _ & I). rewrite W in H. injection H as <-. unfold flow. fields.
    split; [intros x; specialize (B x); cbn; lia|]. split; [exact G|].
    intros x E. right. destruct (S x E) as [A|[A|[A|(w0 & W0 & _)]]]; [right; right; exists w; split; [reflexivity|now apply I]|now left|now right; left|congruence].
  - destruct (cons t) as [| | |[|d r]|] eqn:C; try discriminate H; injection H as <-; unfold flow; fields; (split; [exact B|]; split; [exact G|]); intros x E.
    + destruct (S x E) as [A|[A|[A|(w & W & I)]]]; [now left|now right; left|now right; right; left|]. assert (w = []) by congruence. subst w. destruct I.
    + destruct (S x E) as [A|[A|[A|(w & W & I)]]]; [now left| |now right; right; left|].
      * right. left. cases_ d x; lia.
      * assert (w = d :: r) by congruence. subst w. right. destruct I as [->|I]; [left; rewrite upd_same; lia|]. right. right. exists r. split; [reflexivity|exact I].
  - destruct (cons t) eqn:C; try discriminate H. destruct (loc t) as [|m r]; injection H as <-; unfold flow; fields; (split; [exact B|]; split; [exact G|]); intros x E;
      destruct (S x E) as [A|[A|[A|(w & W & _)]]]; [now left|now right; left|now right; right; left|congruence|now left|now right; left|now right; right; left|congruence].
  - destruct (cons t) eqn:C; try discriminate H. injection H as <-. unfold flow. fields. split; [exact B|]. split; [exact G|]. intros x E.
    destruct (S x E) as [A|[A|[A|(w & W & _)]]]; [now left|now right; left|now right; right; left|congruence].
  - injection H as <-. unfold flow. fields. split; [|split].
    + intros x. pose proof (count_drop x d ep (q t)). specialize (B x). lia.
    + exact G.
    + intros x E. destruct (S x E) as [A|[A|[A|A]]].
      * destruct (Nat.eq_dec x d) as [->|N].
        -- right. right. left. rewrite count_drop_same. apply Nat.leb_le in A. rewrite A. apply in_or_app. right. now left.
        -- left. now rewrite count_drop_other.
      * now right; left.
      * right. right. left. destruct (MAX <=? _); [apply in_or_app; now left|assumption].
      * now right; right; right.
  - destruct (pend t) as [|d r] eqn:P; [discriminate H|]. injection H as <-. unfold flow. fields. split; [exact B|]. split; [exact G|]. intros x E.
    destruct (S x E) as [A|[A|[A|A]]]; [now left| | |now right; right; right].
    + right. left. cases_ d x; lia.
    + destruct A as [->|A]; [right; left; rewrite upd_same; lia|now right; right; left].
Qed.

Lemma run_inv : forall (P : st -> Prop), (forall t o t', P t -> step t o = Some t' -> P t') -> forall l t t', P t -> run t l = Some t' -> P t'.
Proof.
  intros P H. induction l as [|o l IH]; intros t t' A R; cbn [run] in R; [injection R as <-; exact A|].
  destruct (step t o) as [u|] eqn:E; [|discriminate R]. exact (IH u t' (H t o u A E) R).
Qed.
Lemma reach_flow : forall ops t, reachable ops t -> flow t.
Proof. intros ops t R. exact (run_inv flow flow_step ops start t flow_start R). Qed.

(** * Nobody misses a message *)

Definition wakes (t : st) : Prop :=
  running t = true ->
  (q t <> [] -> need t = true \/ (exists d k, thr t d = TAdded k \/ thr t d = TState k) \/ cons t = CNeed) /\
  (need t = true -> poll t = true \/ (exists d k, thr t d = TNeed k) \/ cons t = CPoll).

Lemma wakes_step : forall t o t', wakes t -> step t o = Some t' -> wakes t'.
Proof.
  intros t o t' W H. unfold wakes in *.
  assert (K : forall (t2 : st) d (Q : running t2 = running t) (Q1 : q t2 = q t) (Q2 : need t2 = need t) (Q3 : poll t2 = poll t) (Q4 : cons t2 = cons t)
    (Q5 : forall x, x <> d -> thr t2 x = thr t x) (Q6 : between (thr t d)),
    running t2 = true -> (q t2 <> [] -> need t2 = true \/ (exists d k, thr t2 d = TAdded k \/ thr t2 d = TState k) \/ cons t2 = CNeed) /\
    (need t2 = true -> poll t2 = true \/ (exists d k, thr t2 d = TNeed k) \/ cons t2 = CPoll)).
  { intros t2 d Q Q1 Q2 Q3 Q4 Q5 Q6 R. rewrite Q1, Q2, Q3, Q4. destruct (W ltac:(congruence)) as [A B]. split.
    - intros N. destruct (A N) as [C|[(x & k & C)|C]]; [now left| |now right; right]. right. left. exists x, k. rewrite Q5; [exact C|]. intros ->.
      destruct C as [C|C]; rewrite C in Q6; exact Q6.
    - intros N. destruct (B N) as [C|[(x & k & C)|C]]; [now left| |now right; right]. right. left. exists x, k. rewrite Q5; [exact C|]. intros ->.
      rewrite C in Q6; exact Q6. }
  destruct o as [d|d|d|d k s|d|d ep v|d|d|d|d| | | | | | | |d ep|]; cbn [step] in H.
  - destruct (thr t d) eqn:T; try discriminate H. injection H as <-. apply (K _ d); fields; try reflexivity; [intros; now rewrite upd_other|now rewrite T].
  - destruct (thr t d) eqn:T; try discriminate H. destruct (sig t d); [discriminate H|]. injection H as <-. apply (K _ d); fields; try reflexivity; [intros; now rewrite upd_other|now rewrite T].
  - destruct (thr t d) eqn:T; try discriminate H. injection H as <-. apply (K _ d); fields; try reflexivity; [intros; now rewrite upd_other|now rewrite T].
  - destruct (thr t d) eqn:T; try discriminate H. destruct (k <=? _); [|discriminate H].
    destruct s; [destruct (sig t d); [discriminate H|]|]; injection H as <-; (apply (K _ d); fields; try reflexivity; [intros; now rewrite upd_other|now rewrite T]).
  - destruct (thr t d) eqn:T; try discriminate H. injection H as <-. apply (K _ d); fields; try reflexivity; [intros; now rewrite upd_other|now rewrite T].
  - destruct (thr t d) as [| | |[|k]| | | |] eqn:T; try discriminate H. injection H as <-. apply (K _ d); fields; try reflexivity; [intros; now rewrite upd_other|now rewrite T].
  - destruct (thr t d) as [| | | |m k| | |] eqn:T; try discriminate H. injection H as <-. fields. intros R. destruct (W R) as [A B]. split.
    + intros _. right. left. exists d, k. left. now rewrite upd_same.
    + intros N. destruct (B N) as [C|[(x & k0 & C)|C]]; [now left| |now right; right]. right. left. exists x, k0. rewrite upd_other; [exact C|]. intros ->. congruence.
  - destruct (thr t d) eqn:T; try discriminate H. injection H as <-. fields. intros R. rewrite R in *. destruct (W eq_refl) as [A B]. split.
    + intros N. right. left. exists d, k. right. now rewrite upd_same.
    + intros N. destruct (B N) as [C|[(x & k0 & C)|C]]; [now left| |now right; right]. right. left. exists x, k0. rewrite upd_other; [exact C|]. intros ->. congruence.
  - destruct (thr t d) eqn:T; try discriminate H. injection H as <-. fields. intros R. split; [now left|]. intros _. right. left. exists d, k. now rewrite upd_same.
  - destruct (thr t d) eqn:T; try discriminate H. injection H as <-. fields. intros R. destruct (W R) as [A B]. split; [|now left].
    intros N. destruct (A N) as [C|[(x & k0 & C)|C]]; [now left| |now right; right]. right. left. exists x, k0. rewrite upd_other; [exact C|]. intros ->. destruct C; congruence.
  - injection H as <-. fields. intros R. destruct (W R) as [A B]. split; [exact A|now left].
  - destruct (cons t) eqn:C; try discriminate H. destruct (poll t); [|discriminate H]. injection H as <-. fields. intros R. destruct (W R) as [A B]. split; [|now right; right].
    intros N. destruct (A N) as [X|[X|X]]; [now left|now right; left|discriminate X].
  - destruct (cons t) eqn:C; try discriminate H. injection H as <-. destruct (need t && running t) eqn:E; fields; intros R; destruct (W R) as [A B].
    + split; [now right; right|discriminate].
    + rewrite R, andb_true_r in E. rewrite E in *. split; [|discriminate]. intros N. destruct (A N) as [X|[X|X]]; [discriminate X|now right; left|discriminate X].
  - destruct (cons t) eqn:C; try discriminate H. destruct (wake (q t)); [|discriminate H]. injection H as <-. fields. intros R. destruct (W R) as [A B].
    split; [intros N; now elim N|]. intros N. destruct (B N) as [X|[X|X]]; [now left|now right; left|discriminate X].
  - destruct (cons t) as [| | |[|d r]|] eqn:C; try discriminate H; injection H as <-; fields; intros R; destruct (W R) as [A B]; (split; intros N;
      [destruct (A N) as [X|[X|X]]|destruct (B N) as [X|[X|X]]]; [now left|now right; left|discriminate X|now left|now right; left|discriminate X]).
  - destruct (cons t) eqn:C; try discriminate H. destruct (loc t); injection H as <-; fields; intros R; destruct (W R) as [A B]; (split; intros N;
      [destruct (A N) as [X|[X|X]]|destruct (B N) as [X|[X|X]]]; [now left|now right; left|discriminate X|now left|now right; left|discriminate X]).
  - destruct (cons t) eqn:C; try discriminate H. injection H as <-. fields. discriminate.
  - injection H as <-. fields. intros R. destruct (W R) as [A B]. split; [|exact B]. intros N. apply A. intros E. rewrite E in N. now apply N.
  - destruct (pend t) as [|d r]; [discriminate H|]. injection H as <-. fields. exact W.
Qed.
Lemma wakes_start : wakes start.
Proof. intros _. split; [intros N; now elim N|discriminate]. Qed.
Lemma reach_wakes : forall ops t, reachable ops t -> wakes t.
Proof. intros ops t R. exact (run_inv wakes wakes_step ops start t wakes_start R). Qed.

(** * Every message once, in order *)

Definition below (n : nat) (l : list msg) : Prop := Forall (fun m => m_name m < n) l.
Definition order (t : st) : Prop :=
  (forall d m k, thr t d = TGot m k -> m_dev m = d /\ m_name m < next t /\ m_valid m = true /\ ~ In (m_name m) (map m_name (arr t)) /\
     (forall x, In x (arr t) -> m_dev x = d -> m_name x < m_name m) /\ (forall e n j, thr t e = TGot n j -> m_name n = m_name m -> e = d)) /\
  below (next t) (arr t) /\ NoDup (map m_name (arr t)) /\ (forall m, In m (arr t) -> m_valid m = true) /\
  (forall d, StronglySorted lt (map m_name (filter (fun m => m_dev m =? d) (arr t)))) /\
  kept t = del t ++ loc t ++ q t /\ (forall m, In m (gone t) -> In m (arr t)) /\
  (match cons t with CIdle | CPoll | CNeed => loc t = [] | _ => True end).

Lemma sorted_snoc : forall l x, StronglySorted lt l -> Forall (fun y => y < x) l -> StronglySorted lt (l ++ [x]).
Proof.
  induction l as [|a l IH]; intros x S F; cbn [app]; [repeat constructor|]. inversion S; subst. inversion F; subst. constructor; [now apply IH|].
  apply Forall_app. split; [assumption|now repeat constructor].
Qed.
Lemma nodup_snoc : forall (l : list nat) x, NoDup l -> ~ In x l -> NoDup (l ++ [x]).
Proof.
  induction l as [|a l IH]; intros x N I; cbn [app]; [repeat constructor; intros []|]. inversion N; subst. constructor.
  - intros C. apply in_app_or in C. destruct C as [C|[C|[]]]; [contradiction|]. subst. apply I. now left.
  - apply IH; [assumption|]. intros C. apply I. now right.
Qed.
Lemma filter_ext_in : forall (A : Type) (f g : A -> bool) l, (forall x, In x l -> f x = g x) -> filter f l = filter g l.
Proof.
  intros A f g. induction l as [|a l IH]; intros H; [reflexivity|]. cbn [filter]. rewrite (H a) by now left. rewrite IH by (intros; apply H; now right). reflexivity.
Qed.
Lemma filter_filter_ : forall (A : Type) (f g : A -> bool) l, filter f (filter g l) = filter (fun x => g x && f x) l.
Proof.
  intros A f g. induction l as [|a l IH]; [reflexivity|]. cbn [filter]. destruct (g a); cbn [filter andb]; now rewrite IH.
Qed.
Lemma filter_all : forall (A : Type) (f : A -> bool) l, (forall x, In x l -> f x = true) -> filter f l = l.
Proof.
  intros A f. induction l as [|a l IH]; intros H; [reflexivity|]. cbn [filter]. rewrite H by now left. f_equal. apply IH. intros. apply H. now right.
Qed.
Lemma name_inj : forall l a b, NoDup (map m_name l) -> In a l -> In b l -> m_name a = m_name b -> a = b.
Proof.
  induction l as [|x l IH]; intros a b N A B E; [destruct A|]. cbn [map] in N. inversion N as [|? ? X Y]; subst.
  destruct A as [->|A], B as [->|B]; [reflexivity| | |now apply IH].
  - elim X. rewrite E. now apply in_map.
  - elim X. rewrite <- E. now apply in_map.
Qed.
Lemma nodup_app_disj : forall (a b : list nat) x, NoDup (a ++ b) -> In x a -> In x b -> False.
Proof.
  induction a as [|y a IH]; intros b x N A B; [destruct A|]. inversion N as [|? ? X Y]; subst. destruct A as [->|A]; [|exact (IH b x Y A B)].
  apply X. apply in_or_app. now right.
Qed.
Lemma nodup_map_filter : forall (f : msg -> bool) l, NoDup (map m_name l) -> NoDup (map m_name (filter f l)).
Proof.
  intros f. induction l as [|x l IH]; intros N; [constructor|]. cbn [map] in N. inversion N as [|? ? X Y]; subst. cbn [filter].
  destruct (f x); [|now apply IH]. cbn [map]. constructor; [|now apply IH]. intros C. apply X. apply in_map_iff in C. destruct C as (y & E & I).
  apply filter_In in I. rewrite <- E. apply in_map. tauto.
Qed.

Lemma order_start : order start.
Proof.
  split; [intros d m k H; discriminate H|]. split; [constructor|]. split; [constructor|]. split; [intros m []|]. split; [intros d; constructor|].
  split; [reflexivity|]. split; [intros m []|reflexivity].
Qed.
(** Steps that leave the messages alone. *)
Lemma order_same : forall t t', order t -> next t' = next t -> arr t' = arr t -> gone t' = gone t -> del t' = del t -> loc t' = loc t -> q t' = q t ->
  (forall d m k, thr t' d = TGot m k -> thr t d = TGot m k) -> (match cons t' with CIdle | CPoll | CNeed => loc t = [] | _ => True end) -> order t'.
Proof.
  intros t t' (G & B & N & V & SS & K & I & L) E1 E2 E3 E4 E5 E6 T C. unfold order, kept in *. rewrite E1, E2, E3, E4, E5, E6.
  split; [|tauto]. intros d m k H. destruct (G d m k (T d m k H)) as (A1 & A2 & A3 & A4 & A5 & A6).
  split; [exact A1|]. split; [exact A2|]. split; [exact A3|]. split; [exact A4|]. split; [exact A5|].
  intros e n j F M. exact (A6 e n j (T e n j F) M).
Qed.

Lemma order_step : forall t o t', order t -> step t o = Some t' -> order t'.
Proof.
  intros t o t' O H. pose proof O as (G & B & N & V & SS & K & I & L).
  destruct o as [d|d|d|d k s|d|d ep v|d|d|d|d| | | | | | | |d ep|]; cbn [step] in H.
  - destruct (thr t d) eqn:T; try discriminate H. injection H as <-. apply (order_same t); fields; try reflexivity; [exact O| |exact L].
    intros x m k E. cases_ d x; [destruct (MAX <=? count d (q t)); discriminate E|exact E].
  - destruct (thr t d) eqn:T; try discriminate H. destruct (sig t d); [discriminate H|]. injection H as <-. apply (order_same t); fields; try reflexivity; [exact O| |exact L].
    intros x m k E. cases_ d x; [discriminate E|exact E].
  - destruct (thr t d) eqn:T; try discriminate H. injection H as <-. apply (order_same t); fields; try reflexivity; [exact O| |exact L].
    intros x m k E. cases_ d x; [discriminate E|exact E].
  - destruct (thr t d) eqn:T; try discriminate H. destruct (k <=? _); [|discriminate H].
    destruct s; [destruct (sig t d); [discriminate H|]|]; injection H as <-; (apply (order_same t); fields; try reflexivity; [exact O| |exact L];
    intros x m k0 E; cases_ d x; [discriminate E|exact E]).
  - destruct (thr t d) eqn:T; try discriminate H. injection H as <-. apply (order_same t); fields; try reflexivity; [exact O| |exact L].
    intros x m k0 E. cases_ d x; [discriminate E|exact E].
  - destruct (thr t d) as [| | |[|k]| | | |] eqn:T; try discriminate H. injection H as <-. unfold order, kept. fields.
    assert (BB : below (S (next t)) (arr t)) by (unfold below in *; rewrite Forall_forall in *; intros x X; specialize (B x X); lia).
    split; [|split; [exact BB|]; split; [exact N|]; split; [exact V|]; split; [exact SS|]; split; [exact K|]; split; [exact I|exact L]].
    assert (P : forall y, In y (arr t) -> m_name y < next t) by (unfold below in B; rewrite Forall_forall in B; exact B).
    intros x m k0 E. cases_ d x.
    + destruct (running t && v) eqn:RV; [|discriminate E]. assert (M : m = mk_msg (next t) d ep v) by congruence. subst m. cbn [m_name m_dev m_valid].
      apply andb_prop in RV. destruct RV as [_ RV]. split; [reflexivity|]. split; [lia|]. split; [exact RV|].
      split; [intros C; apply in_map_iff in C; destruct C as (y & Y & Z); specialize (P y Z); lia|]. split; [intros y Y _; exact (P y Y)|].
      intros e n j F M. destruct (Nat.eq_dec e d) as [->|NE]; [reflexivity|]. rewrite upd_other in F by exact NE. destruct (G e n j F) as (_ & X & _). lia.
    + destruct (G x m k0 E) as (A1 & A2 & A3 & A4 & A5 & A6). split; [exact A1|]. split; [lia|]. split; [exact A3|]. split; [exact A4|]. split; [exact A5|].
      intros e y j F M. destruct (Nat.eq_dec e d) as [->|NE].
      * rewrite upd_same in F. destruct (running t && v); [|discriminate F]. assert (Y : y = mk_msg (next t) d ep v) by congruence. subst y. cbn [m_name] in M. lia.
      * rewrite upd_other in F by exact NE. exact (A6 e y j F M).
  - destruct (thr t d) as [| | | |m k| | |] eqn:T; try discriminate H. injection H as <-. destruct (G d m k T) as (A1 & A2 & A3 & A4 & A5 & A6).
    unfold order, kept. fields.
    split; [|split; [|split; [|split; [|split; [|split; [|split]]]]]].
    + intros x y k0 E. cases_ d x; [discriminate E|]. destruct (G x y k0 E) as (B1 & B2 & B3 & B4 & B5 & B6).
      split; [exact B1|]. split; [exact B2|]. split; [exact B3|]. split; [|split].
      * rewrite map_app. intros C. apply in_app_or in C. destruct C as [C|[C|[]]]; [contradiction|]. elim n. exact (eq_sym (B6 d m k T C)).
      * intros z Z D. apply in_app_or in Z. destruct Z as [Z|[<-|[]]]; [exact (B5 z Z D)|congruence].
      * intros e z j F M. destruct (Nat.eq_dec e d) as [->|NE]; [rewrite upd_same in F; discriminate F|]. rewrite upd_other in F by exact NE. exact (B6 e z j F M).
    + unfold below in *. apply Forall_app. split; [exact B|repeat constructor; exact A2].
    + rewrite map_app. cbn [map]. now apply nodup_snoc.
    + intros y Y. apply in_app_or in Y. destruct Y as [Y|[<-|[]]]; [exact (V y Y)|exact A3].
    + intros x. rewrite filter_app, map_app. cbn [filter]. destruct (Nat.eqb_spec (m_dev m) x) as [E|E]; cbn [map]; [|rewrite app_nil_r; apply SS].
      apply sorted_snoc; [apply SS|]. apply Forall_forall. intros y Y. apply in_map_iff in Y. destruct Y as (z & <- & Z). apply filter_In in Z. destruct Z as [Z1 Z2].
      apply Nat.eqb_eq in Z2. apply A5; [exact Z1|congruence].
    + rewrite filter_app. unfold kept in K. rewrite K. cbn [filter].
      destruct (existsb (fun x => m_name x =? m_name m) (gone t)) eqn:X; cbn [negb]; [|now rewrite <- !app_assoc].
      apply existsb_exists in X. destruct X as (y & Y & Z). apply Nat.eqb_eq in Z. elim A4. rewrite <- Z. apply in_map. now apply I.
    + intros y Y. apply in_or_app. left. now apply I.
    + exact L.
  - destruct (thr t d) eqn:T; try discriminate H. injection H as <-. apply (order_same t); fields; try reflexivity; [exact O| |exact L].
    intros x m k0 E. cases_ d x; [destruct (running t); discriminate E|exact E].
  - destruct (thr t d) eqn:T; try discriminate H. injection H as <-. apply (order_same t); fields; try reflexivity; [exact O| |exact L].
    intros x m k0 E. cases_ d x; [discriminate E|exact E].
  - destruct (thr t d) eqn:T; try discriminate H. injection H as <-. apply (order_same t); fields; try reflexivity; [exact O| |exact L].
    intros x m k0 E. cases_ d x; [discriminate E|exact E].
  - injection H as <-. apply (order_same t); fields; try reflexivity; [exact O|tauto|exact L].
  - destruct (cons t) eqn:C; try discriminate H. destruct (poll t); [|discriminate H]. injection H as <-. apply (order_same t); fields; try reflexivity; [exact O|tauto|exact L].
  - destruct (cons t) eqn:C; try discriminate H. injection H as <-. destruct (need t && running t); (apply (order_same t); fields; try reflexivity; [exact O|tauto|exact L]).
  - destruct (cons t) eqn:C; try discriminate H. destruct (wake (q t)); [|discriminate H]. injection H as <-. unfold order. fields.
    split; [exact G|]. split; [exact B|]. split; [exact N|]. split; [exact V|]. split; [exact SS|]. split; [|split; [exact I|exact Logic.I]].
    unfold kept in *. fields. rewrite K, L. cbn [app]. now rewrite app_nil_r.
  - destruct (cons t) as [| | |[|d r]|] eqn:C; try discriminate H; injection H as <-; (apply (order_same t); fields; try reflexivity; [exact O|tauto]).
  - destruct (cons t) eqn:C; try discriminate H. destruct (loc t) as [|m r] eqn:LL; injection H as <-.
    + apply (order_same t); fields; try reflexivity; [exact O|tauto|exact LL].
    + unfold order. fields. split; [exact G|]. split; [exact B|]. split; [exact N|]. split; [exact V|]. split; [exact SS|]. split; [|split; [exact I|exact Logic.I]].
      unfold kept in *. fields. rewrite K. now rewrite <- !app_assoc.
  - destruct (cons t) eqn:C; try discriminate H. injection H as <-. apply (order_same t); fields; try reflexivity; [exact O|tauto|exact L].
  - injection H as <-. unfold order. fields. split; [exact G|]. split; [exact B|]. split; [exact N|]. split; [exact V|]. split; [exact SS|].
    assert (IQ : forall m, In m (q t) -> In m (arr t)).
    { intros m M. assert (In m (kept t)) by (rewrite K; apply in_or_app; right; apply in_or_app; now right). apply filter_In in H. tauto. }
    split; [|split; [|exact L]].
    + unfold kept in *. fields.
      assert (ND : NoDup (map m_name (del t ++ loc t ++ q t))) by (rewrite <- K; now apply nodup_map_filter).
      transitivity (filter (fun m => negb (existsb (fun x => m_name x =? m_name m) (filter (same_ep d ep) (q t)))) (del t ++ loc t ++ q t)).
      { rewrite <- K, filter_filter_. apply filter_ext_in. intros m _. rewrite existsb_app, negb_orb. reflexivity. }
      rewrite !filter_app. assert (FA : forall l, (forall x, In x l -> In (m_name x) (map m_name (q t)) -> False) ->
        filter (fun m => negb (existsb (fun x => m_name x =? m_name m) (filter (same_ep d ep) (q t)))) l = l).
      { intros l D. apply filter_all. intros x X. destruct (existsb _ _) eqn:E; [|reflexivity]. apply existsb_exists in E. destruct E as (y & Y & Z).
        apply Nat.eqb_eq in Z. apply filter_In in Y. elim (D x X). rewrite <- Z. apply in_map. tauto. }
      rewrite app_assoc, map_app in ND.
      rewrite (FA (del t)), (FA (loc t)).
      * f_equal. f_equal. apply filter_ext_in. intros m M. f_equal. destruct (same_ep d ep m) eqn:E.
        -- apply existsb_exists. exists m. split; [apply filter_In; tauto|apply Nat.eqb_refl].
        -- destruct (existsb _ _) eqn:X; [|reflexivity]. apply existsb_exists in X. destruct X as (y & Y & Z). apply Nat.eqb_eq in Z. apply filter_In in Y.
           assert (y = m). { apply (name_inj (arr t)); [exact N|apply IQ; tauto|now apply IQ|exact Z]. } subst y. destruct Y. congruence.
      * intros x X Y. apply (nodup_app_disj _ _ (m_name x) ND); [|exact Y]. rewrite map_app. apply in_or_app. right. now apply in_map.
      * intros x X Y. apply (nodup_app_disj _ _ (m_name x) ND); [|exact Y]. rewrite map_app. apply in_or_app. left. now apply in_map.
    + intros m M. apply in_app_or in M. destruct M as [M|M]; [now apply I|]. apply filter_In in M. apply IQ. tauto.
  - destruct (pend t) as [|d r] eqn:P; [discriminate H|]. injection H as <-. apply (order_same t); fields; try reflexivity; [exact O|tauto|exact L].
Qed.
Lemma reach_order : forall ops t, reachable ops t -> order t.
Proof. intros ops t R. exact (run_inv order order_step ops start t order_start R). Qed.
