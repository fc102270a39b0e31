From Verif Require Import Common Ref_Model.
Local Open Scope nat_scope.

Lemma upd_same : forall t p f, upd t p f t = p. Proof. intros. unfold upd. now rewrite Nat.eqb_refl. Qed.
Lemma upd_other : forall t x p f, x <> t -> upd t p f x = f x.
Proof. intros. unfold upd. destruct (Nat.eqb_spec x t); [contradiction|reflexivity]. Qed.
Lemma has_in : forall t s, has t s = true -> In t (refs s).
Proof. intros t s H. apply existsb_exists in H. destruct H as (x & X & E). apply Nat.eqb_eq in E. now subst x. Qed.
Lemma drop_cons : forall t x r, drop t (x :: r) = if x =? t then r else x :: drop t r. Proof. reflexivity. Qed.
Lemma drop_len : forall t l, In t l -> S (List.length (drop t l)) = List.length l.
Proof.
  intros t. induction l as [|x l IH]; intros I; [destruct I|]. rewrite drop_cons. destruct (Nat.eqb_spec x t) as [E|E]; [reflexivity|]. destruct I as [I|I]; [contradiction|].
  cbn [List.length]. now rewrite IH.
Qed.
Lemma drop_in : forall t x l, x <> t -> In x l -> In x (drop t l).
Proof.
  intros t x. induction l as [|y l IH]; intros N I; [destruct I|]. rewrite drop_cons. destruct (Nat.eqb_spec y t) as [E|E]; destruct I as [I|I]; try (now apply IH); try assumption; [congruence|now left|right; now apply IH].
Qed.

Lemma drop_le : forall t l, List.length (drop t l) <= List.length l.
Proof.
  intros t. induction l as [|x l IH]; [apply Nat.le_refl|]. rewrite drop_cons. destruct (x =? t); cbn [List.length]; lia.
Qed.

Definition busy (p : rpc) : Prop := match p with RAdd _ | RUnref _ => True | _ => False end.
Definition inv (s : rst) : Prop :=
  List.length (refs s) <= peak s /\
  (peak s <= 255 ->
   cnt s = List.length (refs s) /\
   (forall t, busy (pc s t) -> In t (refs s)) /\
   (forall t c, pc s t = RUnref c -> 0 < c) /\
   (refs s <> [] -> freed s = 0 /\ forall t, pc s t <> RFree) /\
   (refs s = [] -> (freed s = 0 /\ exists t, pc s t = RFree /\ forall u, pc s u = RFree -> u = t) \/ (freed s = 1 /\ forall t, pc s t <> RFree))).

Lemma inv_fresh : forall t, inv (fresh t).
Proof.
  intros t. split; [reflexivity|]. intros _. split; [reflexivity|]. split; [intros x []|]. split; [discriminate|]. split; [split; [reflexivity|discriminate]|discriminate].
Qed.
(** A thread with a reference finds the message alive. *)
Lemma inv_alive : forall s t, inv s -> peak s <= 255 -> In t (refs s) -> freed s = 0.
Proof.
  intros s t (_ & I) P H. destruct (I P) as (_ & _ & _ & A & _). apply A. intros E. rewrite E in H. destruct H.
Qed.
Lemma peak_step : forall s o s', rstep s o = Next s' -> peak s <= peak s'.
Proof.
  intros s o s' H. destruct o; cbn [rstep] in H; unfold alive in H;
    repeat match type of H with context [match ?x with _ => _ end] => destruct x; try discriminate H end; injection H as <-; cbn [peak]; lia.
Qed.
Ltac rf := cbn [cnt refs pc freed peak] in *.

Lemma nonnil_in : forall (l : list nat), l <> [] -> exists x, In x l.
Proof. intros [|x l] N; [now elim N|]. exists x. now left. Qed.

Lemma inv_step : forall s o s', inv s -> rstep s o = Next s' -> inv s'.
Proof.
  intros s o s' J H. pose proof J as (PK & I). pose proof (peak_step s o s' H) as PS.
  assert (PK' : List.length (refs s') <= peak s').
  { destruct o; cbn [rstep] in H; unfold alive in H;
    repeat match type of H with context [match ?x with _ => _ end] => let E := fresh "E" in destruct x eqn:E; try discriminate H end; injection H as <-; rf; try exact PK;
      try (cbn [List.length]; lia); try (pose proof (drop_le t (refs s)); lia).
    apply andb_prop in E. destruct E as [_ E]. pose proof (drop_len t (refs s) (has_in _ _ E)). cbn [List.length]. lia. }
  split; [exact PK'|]. intros P. assert (P0 : peak s <= 255) by lia. destruct (I P0) as (C & B & U & A & D).
  destruct o as [t|t|t|t|t|t u|t]; cbn [rstep] in H.
  - destruct (idle t s && has t s) eqn:G; [|discriminate H]. apply andb_prop in G. destruct G as [G1 G2]. apply has_in in G2.
    assert (N : refs s <> []) by (intros E; rewrite E in G2; destruct G2). destruct (A N) as [F NF]. unfold alive in H. rewrite F in H. injection H as <-. rf.
    split; [exact C|]. split; [|split; [|split]].
    + intros x X. destruct (Nat.eq_dec x t) as [->|NE]; [exact G2|]. rewrite upd_other in X by exact NE. exact (B x X).
    + intros x c X. destruct (Nat.eq_dec x t) as [->|NE]; [rewrite upd_same in X; discriminate X|]. rewrite upd_other in X by exact NE. exact (U x c X).
    + intros _. split; [reflexivity|]. intros x. destruct (Nat.eq_dec x t) as [->|NE]; [rewrite upd_same; discriminate|]. rewrite upd_other by exact NE. apply NF.
    + intros E. contradiction.
  - destruct (pc s t) as [|c| |] eqn:T; try discriminate H. assert (G2 : In t (refs s)) by (apply B; now rewrite T).
    assert (N : refs s <> []) by (intros E; rewrite E in G2; destruct G2). destruct (A N) as [F NF]. unfold alive in H. rewrite F in H.
    destruct (Nat.eqb_spec c (cnt s)) as [E|E]; injection H as <-; rf.
    + split; [rewrite Nat.mod_small by lia; cbn [List.length]; lia|]. split; [|split; [|split]].
      * intros x X. destruct (Nat.eq_dec x t) as [->|NE]; [now left|]. rewrite upd_other in X by exact NE. right. exact (B x X).
      * intros x c0 X. destruct (Nat.eq_dec x t) as [->|NE]; [rewrite upd_same in X; discriminate X|]. rewrite upd_other in X by exact NE. exact (U x c0 X).
      * intros _. split; [reflexivity|]. intros x. destruct (Nat.eq_dec x t) as [->|NE]; [rewrite upd_same; discriminate|]. rewrite upd_other by exact NE. apply NF.
      * discriminate.
    + split; [exact C|]. split; [|split; [|split]].
      * intros x X. destruct (Nat.eq_dec x t) as [->|NE]; [exact G2|]. rewrite upd_other in X by exact NE. exact (B x X).
      * intros x c0 X. destruct (Nat.eq_dec x t) as [->|NE]; [rewrite upd_same in X; discriminate X|]. rewrite upd_other in X by exact NE. exact (U x c0 X).
      * intros _. split; [reflexivity|]. intros x. destruct (Nat.eq_dec x t) as [->|NE]; [rewrite upd_same; discriminate|]. rewrite upd_other by exact NE. apply NF.
      * intros X. contradiction.
  - destruct (idle t s && has t s) eqn:G; [|discriminate H]. apply andb_prop in G. destruct G as [G1 G2]. apply has_in in G2.
    assert (N : refs s <> []) by (intros E; rewrite E in G2; destruct G2). destruct (A N) as [F NF]. unfold alive in H. rewrite F in H.
    destruct (Nat.eqb_spec (cnt s) 0) as [Z|Z]; [destruct (refs s); [now elim N|discriminate C || (cbn [List.length] in C; lia)]|]. injection H as <-. rf.
    split; [exact C|]. split; [|split; [|split]].
    + intros x X. destruct (Nat.eq_dec x t) as [->|NE]; [exact G2|]. rewrite upd_other in X by exact NE. exact (B x X).
    + intros x c X. destruct (Nat.eq_dec x t) as [->|NE]; [rewrite upd_same in X; assert (c = cnt s) by congruence; lia|]. rewrite upd_other in X by exact NE. exact (U x c X).
    + intros _. split; [reflexivity|]. intros x. destruct (Nat.eq_dec x t) as [->|NE]; [rewrite upd_same; discriminate|]. rewrite upd_other by exact NE. apply NF.
    + intros X. contradiction.
  - destruct (pc s t) as [| |c|] eqn:T; try discriminate H. assert (G2 : In t (refs s)) by (apply B; now rewrite T).
    assert (N : refs s <> []) by (intros E; rewrite E in G2; destruct G2). destruct (A N) as [F NF]. unfold alive in H. rewrite F in H. pose proof (U t c T) as UC.
    destruct (Nat.eqb_spec c (cnt s)) as [E|E].
    + injection H as <-. rf. pose proof (drop_len t (refs s) G2) as DL.
      assert (BO : forall x, x <> t -> busy (pc s x) -> In x (drop t (refs s))) by (intros x NE X; apply drop_in; [exact NE|exact (B x X)]).
      split; [lia|]. split; [|split; [|split]].
      * intros x X. destruct (Nat.eq_dec x t) as [->|NE]; [rewrite upd_same in X; destruct (c - 1 =? 0); destruct X|]. rewrite upd_other in X by exact NE. exact (BO x NE X).
      * intros x c0 X. destruct (Nat.eq_dec x t) as [->|NE]; [rewrite upd_same in X; destruct (c - 1 =? 0); discriminate X|]. rewrite upd_other in X by exact NE. exact (U x c0 X).
      * intros X. split; [reflexivity|]. intros x. destruct (Nat.eq_dec x t) as [->|NE]; [|rewrite upd_other by exact NE; apply NF]. rewrite upd_same.
        destruct (Nat.eqb_spec (c - 1) 0) as [Z|Z]; [|discriminate]. destruct (drop t (refs s)); [now elim X|cbn [List.length] in DL; lia].
      * intros X. left. split; [reflexivity|]. exists t. rewrite upd_same. rewrite X in DL. cbn [List.length] in DL. replace (c - 1) with 0 by lia. split; [reflexivity|].
        intros u V. destruct (Nat.eq_dec u t) as [->|NE]; [reflexivity|]. rewrite upd_other in V by exact NE. elim (NF u V).
    + destruct (Nat.eqb_spec (cnt s) 0) as [Z|Z]; [destruct (refs s); [now elim N|cbn [List.length] in C; lia]|]. injection H as <-. rf.
      split; [exact C|]. split; [|split; [|split]].
      * intros x X. destruct (Nat.eq_dec x t) as [->|NE]; [exact G2|]. rewrite upd_other in X by exact NE. exact (B x X).
      * intros x c0 X. destruct (Nat.eq_dec x t) as [->|NE]; [rewrite upd_same in X; assert (c0 = cnt s) by congruence; lia|]. rewrite upd_other in X by exact NE. exact (U x c0 X).
      * intros _. split; [reflexivity|]. intros x. destruct (Nat.eq_dec x t) as [->|NE]; [rewrite upd_same; discriminate|]. rewrite upd_other by exact NE. apply NF.
      * intros X. contradiction.
  - destruct (pc s t) eqn:T; try discriminate H. destruct (refs s) as [|r0 r] eqn:RR; [|destruct (A ltac:(discriminate)) as [_ NF]; elim (NF t T)].
    destruct (D eq_refl) as [[F (x & X & Y)]|[_ NF]]; [|elim (NF t T)]. unfold alive in H. rewrite F in H. injection H as <-. rf.
    pose proof (Y t T) as TX. subst x. rewrite ?RR in *.
    split; [exact C|]. split; [|split; [|split]].
    + intros x Z. destruct (Nat.eq_dec x t) as [->|NE]; [rewrite upd_same in Z; destruct Z|]. rewrite upd_other in Z by exact NE. exact (B x Z).
    + intros x c Z. destruct (Nat.eq_dec x t) as [->|NE]; [rewrite upd_same in Z; discriminate Z|]. rewrite upd_other in Z by exact NE. exact (U x c Z).
    + intros Z. now elim Z.
    + intros _. right. split; [reflexivity|]. intros x. destruct (Nat.eq_dec x t) as [->|NE]; [rewrite upd_same; discriminate|]. rewrite upd_other by exact NE.
      intros Z. exact (NE (Y x Z)).
  - destruct (idle t s && has t s) eqn:G; [|discriminate H]. apply andb_prop in G. destruct G as [G1 G2]. apply has_in in G2. unfold idle in G1.
    destruct (pc s t) eqn:T; try discriminate G1.
    assert (N : refs s <> []) by (intros E; rewrite E in G2; destruct G2). destruct (A N) as [F NF]. injection H as <-. rf. pose proof (drop_len t (refs s) G2) as DL.
    split; [cbn [List.length]; lia|]. split; [|split; [|split]].
    + intros x X. right. apply drop_in; [intros ->; rewrite T in X; destruct X|exact (B x X)].
    + exact U.
    + intros _. split; [exact F|exact NF].
    + discriminate.
  - destruct (has t s) eqn:G; [|discriminate H]. unfold alive in H. destruct (freed s) eqn:F; [|discriminate H]. injection H as <-. rewrite F in *. split; [exact C|]. split; [exact B|].
    split; [exact U|]. split; [exact A|exact D].
Qed.

Lemma inv_run : forall l s s', inv s -> rrun s l = Next s' -> inv s'.
Proof.
  induction l as [|o l IH]; intros s s' I R; cbn [rrun] in R; [injection R as <-; exact I|]. destruct (rstep s o) as [u| |] eqn:E; try discriminate R.
  exact (IH u s' (inv_step s o u I E) R).
Qed.
Lemma safe : forall s o, inv s -> peak s <= 255 -> rstep s o <> UB.
Proof.
  intros s o J P H. destruct J as (PK & I). destruct (I P) as (C & B & U & A & D).
  assert (AL : forall t x, In t (refs s) -> alive s x = UB -> x = UB).
  { intros t x T. unfold alive. rewrite (inv_alive s t (conj PK I) P T). tauto. }
  destruct o as [t|t|t|t|t|t u|t]; cbn [rstep] in H.
  - destruct (idle t s && has t s) eqn:G; [|discriminate H]. apply andb_prop in G. destruct G as [_ G]. apply (AL t) in H; [discriminate H|now apply has_in].
  - destruct (pc s t) eqn:T; try discriminate H. apply (AL t) in H; [|apply B; now rewrite T]. destruct (c =? cnt s); discriminate H.
  - destruct (idle t s && has t s) eqn:G; [|discriminate H]. apply andb_prop in G. destruct G as [_ G]. apply (AL t) in H; [discriminate H|now apply has_in].
  - destruct (pc s t) eqn:T; try discriminate H. apply (AL t) in H; [|apply B; now rewrite T]. destruct (c =? cnt s); [discriminate H|]. destruct (cnt s =? 0); discriminate H.
  - destruct (pc s t) eqn:T; try discriminate H. unfold alive in H. destruct (refs s) as [|r0 r] eqn:RR; [|destruct (A ltac:(discriminate)) as [F _]; rewrite F in H; discriminate H].
    destruct (D eq_refl) as [[F _]|[_ NF]]; [rewrite F in H; discriminate H|exact (NF t T)].
  - destruct (idle t s && has t s); discriminate H.
  - destruct (has t s) eqn:G; [|discriminate H]. apply (AL t) in H; [discriminate H|now apply has_in].
Qed.
