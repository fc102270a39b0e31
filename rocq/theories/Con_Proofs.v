(** Proofs about the configuration resource. *)

From Coq Require Import List Bool Arith String Lia.
From Verif Require Import Con_Model Con_Spec.
Import ListNotations.
Open Scope string_scope.
Open Scope list_scope.
Open Scope nat_scope.

Lemma from_loop_some : forall l t i n, from_loop t i l = Some n ->
  exists j, n = i + j + 1 /\ nth_error l j = Some t.
Proof.
  induction l as [|s r IH]; intros t i n H; cbn [from_loop] in H; [discriminate H|].
  destruct (String.eqb_spec s t) as [E|E].
  - injection H as H. exists 0. split; [lia|]. rewrite E. reflexivity.
  - destruct (IH _ _ _ H) as [j [A B]]. exists (S j). split; [lia|exact B].
Qed.

Lemma from_loop_none : forall l t i, from_loop t i l = None -> ~ In t l.
Proof.
  induction l as [|s r IH]; intros t i H; cbn [from_loop] in H; [intros []|].
  destruct (String.eqb_spec s t) as [E|E]; [discriminate H|].
  intros [F|F]; [exact (E F)|exact (IH _ _ H F)].
Qed.

Lemma locns_nodup : NoDup locns.
Proof.
  assert (D : nodup string_dec locns = locns) by (vm_compute; reflexivity).
  rewrite <- D. apply NoDup_nodup.
Qed.

Lemma to_str_place : forall i t, to_str i = Some t <-> place i t.
Proof.
  intros [|i] t; unfold place; cbn [to_str].
  - split; [intros H; discriminate H|intros [H _]; lia].
  - replace (S i - 1) with i by lia. split; [intros H; split; [lia|exact H]|intros [_ H]; exact H].
Qed.

Lemma from_str_some : forall t i, from_str t = Some i -> place i t.
Proof.
  intros t i H. destruct (from_loop_some _ _ _ _ H) as [j [A B]]. split; [lia|].
  replace (i - 1) with j by lia. exact B.
Qed.

Lemma from_str_none : forall t, from_str t = None -> ~ In t locns.
Proof. intros t H. exact (from_loop_none _ _ _ H). Qed.

Lemma place_in : forall i t, place i t -> In t locns.
Proof. intros i t [_ H]. exact (nth_error_In _ _ H). Qed.

Lemma place_inj : forall i j t, place i t -> place j t -> i = j.
Proof.
  intros i j t [A B] [C D].
  assert (E : i - 1 = j - 1).
  { apply (proj1 (NoDup_nth_error locns) locns_nodup).
    - apply nth_error_Some. rewrite B. discriminate.
    - rewrite B, D. reflexivity. }
  lia.
Qed.

Lemma from_str_place : forall i t, from_str t = Some i <-> place i t.
Proof.
  intros i t. split; [apply from_str_some|].
  intros H. destruct (from_str t) as [j|] eqn:E.
  - rewrite (place_inj _ _ _ (from_str_some _ _ E) H). reflexivity.
  - destruct (from_str_none _ E (place_in _ _ H)).
Qed.

(** The scan. *)

Lemma asked_cons_other : forall k t k' x p, k <> k' -> asked k t ((k', x) :: p) <-> asked k t p.
Proof.
  intros k t k' x p N. split.
  - intros [a [b [E F]]]. destruct a as [|y a]; injection E as E1 E2.
    + destruct (N (eq_sym E1)).
    + exists a, b. split; assumption.
  - intros [a [b [E F]]]. exists ((k', x) :: a), b. rewrite E. split; [reflexivity|exact F].
Qed.

Lemma asked_cons : forall k t y p, asked k t p -> asked k t (y :: p).
Proof. intros k t y p [a [b [E F]]]. exists (y :: a), b. rewrite E. split; [reflexivity|exact F]. Qed.

Lemma asked_unasked : forall k t p, asked k t p -> ~ unasked k p.
Proof.
  intros k t p [a [b [E _]]] U. apply (U (Text t)). rewrite E. apply in_or_app. right. left. reflexivity.
Qed.

Lemma asked_fun : forall k t u p, asked k t p -> asked k u p -> t = u.
Proof.
  intros k t u p [a [b [E F]]] [a' [b' [E' F']]]. revert a' p E E'.
  induction a as [|y a IH]; intros a' p E E'; destruct a' as [|y' a']; rewrite E in E'; cbn [app] in E'.
  - injection E' as A _. exact A.
  - injection E' as A B. destruct (F (Text u)). rewrite B. apply in_or_app. right. left. reflexivity.
  - injection E' as A B. destruct (F' (Text t)). rewrite <- B. apply in_or_app. right. left. reflexivity.
  - injection E' as A B. exact (IH a' _ eq_refl B).
Qed.

Definition got (k : string) (o r : option string) (p : payload) : Prop :=
  (exists t, asked k t p /\ r = Some t) \/ (unasked k p /\ r = o).

Lemma got_other : forall k k' o r x p, k <> k' -> got k o r p -> got k o r ((k', x) :: p).
Proof.
  intros k k' o r x p N [[t [A B]]|[A B]]; [left|right].
  - exists t. split; [apply asked_cons; exact A|exact B].
  - split; [|exact B]. intros y [E|E]; [injection E as E _; exact (N (eq_sym E))|exact (A y E)].
Qed.

Lemma got_same : forall k t o r p, got k (Some t) r p -> got k o r ((k, Text t) :: p).
Proof.
  intros k t o r p [[u [A B]]|[A B]]; left.
  - exists u. split; [apply asked_cons; exact A|exact B].
  - exists t. split; [|exact B]. exists [], p. split; [reflexivity|exact A].
Qed.

Lemma length_0 : forall t, (String.length t =? 0) = true <-> t = "".
Proof. intros [|c t]; cbn; split; intros H; try reflexivity; discriminate H. Qed.

Lemma scan_some : forall p n l n' l', scan n l p = Some (n', l') ->
  readable p /\ got "n" n n' p /\ got "locn" l l' p.
Proof.
  induction p as [|[k x] p IH]; intros n l n' l' H; cbn [scan] in H.
  - injection H as H1 H2. split; [intros k x []|].
    split; right; (split; [intros y []|symmetry; assumption]).
  - destruct x as [t|]; [|discriminate H].
    destruct (String.length t =? 0) eqn:L; [discriminate H|].
    assert (T : t <> "") by (intros E; apply length_0 in E; rewrite E in L; discriminate L).
    destruct (String.eqb_spec k "n") as [E|E].
    + destruct (IH _ _ _ _ H) as [A [B C]]. rewrite E. split; [|split].
      * intros k' x' [F|F]; [|exact (A _ _ F)]. injection F as F1 F2.
        rewrite <- F1, <- F2. split; [left; reflexivity|]. exists t. split; [reflexivity|exact T].
      * apply got_same. exact B.
      * apply got_other; [discriminate|exact C].
    + destruct (String.eqb_spec k "locn") as [E'|E']; [|discriminate H].
      destruct (IH _ _ _ _ H) as [A [B C]]. rewrite E'. split; [|split].
      * intros k' x' [F|F]; [|exact (A _ _ F)]. injection F as F1 F2.
        rewrite <- F1, <- F2. split; [right; reflexivity|]. exists t. split; [reflexivity|exact T].
      * apply got_other; [discriminate|exact B].
      * apply got_same. exact C.
Qed.

Lemma scan_none : forall p n l, scan n l p = None -> ~ readable p.
Proof.
  induction p as [|[k x] p IH]; intros n l H R; cbn [scan] in H; [discriminate H|].
  assert (R' : readable p) by (intros k' x' F; apply R; right; exact F).
  destruct (R k x (or_introl eq_refl)) as [K [t [X T]]]. rewrite X in H.
  destruct (String.length t =? 0) eqn:L; [apply length_0 in L; exact (T L)|].
  destruct (String.eqb_spec k "n") as [E|E]; [exact (IH _ _ H R')|].
  destruct (String.eqb_spec k "locn") as [E'|E']; [exact (IH _ _ H R')|].
  destruct K; contradiction.
Qed.

(** One request. *)

Definition outcome (d : nat) (p : payload) (v w : dev) (es : list event) : Prop :=
  (acceptable (tag v) p ->
     carried_out p v w /\
     calls es = match cb v with Some f => [Called f d p] | None => [] end /\
     exists b, answers es = [Answer d Changed b] /\
       (forall t, asked "n" t p -> b = Some t) /\ (unasked "n" p -> b = None)) /\
  (~ acceptable (tag v) p ->
     tag w = tag v /\ cb w = cb v /\ calls es = [] /\
     (exists b, answers es = [Answer d BadRequest b]) /\
     (nm w = nm v \/ readable p /\ asked "n" (nm w) p) /\
     (readable p -> forall t, asked "n" t p -> nm w = t) /\
     (~ readable p -> w = v)) /\
  (readable p -> forall t, asked "n" t p -> notes es = [Notified d]) /\
  (~ readable p \/ unasked "n" p -> notes es = [] /\ nm w = nm v).

Lemma got_none_eq : forall k r p t, got k None r p -> asked k t p -> r = Some t.
Proof.
  intros k r p t [[u [A B]]|[A B]] H.
  - rewrite (asked_fun _ _ _ _ H A). exact B.
  - destruct (asked_unasked _ _ _ H A).
Qed.

Lemma got_none_un : forall k r p, got k None r p -> unasked k p -> r = None.
Proof.
  intros k r p [[u [A B]]|[A B]] H; [|exact B]. destruct (asked_unasked _ _ _ A H).
Qed.

Lemma got_some : forall k t p, got k None (Some t) p -> asked k t p.
Proof.
  intros k t p [[u [A B]]|[A B]]; [|discriminate B]. injection B as B. rewrite B. exact A.
Qed.

Lemma got_nothing : forall k p, got k None None p -> unasked k p.
Proof. intros k p [[u [A B]]|[A B]]; [discriminate B|exact A]. Qed.

Lemma post_outcome : forall d p v, outcome d p v (fst (post d p v)) (snd (post d p v)).
Proof.
  intros d p v. unfold post.
  destruct (scan None None p) as [[n l]|] eqn:Sc.
  - destruct (scan_some _ _ _ _ _ Sc) as [R [GN GL]]. clear Sc.
    destruct n as [tn|]; destruct l as [tl|];
    try (assert (AN := got_some _ _ _ GN)); try (assert (AL := got_some _ _ _ GL));
    try (assert (UN := got_nothing _ _ GN)); try (assert (UL := got_nothing _ _ GL));
    idtac.
    + cbn [set_name tag nm cb].
      assert (Sd : settable (tag v) p <-> tag v <> 0 /\ In tl locns).
      { split; [intros H; exact (H _ AL)|]. intros H t At. rewrite (asked_fun _ _ _ _ At AL). exact H. }
      assert (Ac : acceptable (tag v) p <-> tag v <> 0 /\ In tl locns).
      { split; [intros [_ [_ H]]; exact (proj1 Sd H)|]. intros H. split; [|split; [exact R|exact (proj2 Sd H)]].
        intros E. rewrite E in AL. destruct AL as [[|? ?] [? [E' _]]]; discriminate E'. }
      assert (N1 : forall t, asked "n" t p -> t = tn) by (intros t H; exact (asked_fun _ _ _ _ H AN)).
      destruct (Nat.eqb_spec (tag v) 0) as [Z|Z]; [|destruct (from_str tl) as [i|] eqn:Fr].
      * cbn [fst snd set_name tag nm cb app]. split; [intros H; apply (proj1 Ac) in H; destruct H; contradiction|].
        split; [|split].
        -- intros _. repeat split.
           ++ exists (Some tn). reflexivity.
           ++ right. split; [exact R|exact AN].
           ++ intros _ t H. symmetry. exact (N1 t H).
           ++ intros H. contradiction.
        -- intros _ t _. reflexivity.
        -- intros [H|H]; [contradiction|destruct (asked_unasked _ _ _ AN H)].
      * assert (P := from_str_some _ _ Fr). assert (In tl locns) by exact (place_in _ _ P).
        unfold tag_locn, done, set_name; cbn [fst snd tag nm cb app].
        split; [intros _|split; [intros H'; destruct H'; apply (proj2 Ac); split; assumption|split]].
        -- split; [|split].
           ++ unfold carried_out; cbn [tag nm cb]. split; [intros t Ht; symmetry; exact (N1 t Ht)|].
              split; [intros H'; destruct (asked_unasked _ _ _ AN H')|].
              split; [intros t Ht; rewrite (asked_fun _ _ _ _ Ht AL); exact P|].
              split; [intros H'; destruct (asked_unasked _ _ _ AL H')|reflexivity].
           ++ destruct (cb v); reflexivity.
           ++ exists (Some tn). split; [destruct (cb v); reflexivity|].
              split; [intros t Ht; rewrite (N1 t Ht); reflexivity|intros H'; destruct (asked_unasked _ _ _ AN H')].
        -- intros _ t _. destruct (cb v); reflexivity.
        -- intros [H'|H']; [contradiction|destruct (asked_unasked _ _ _ AN H')].
      * assert (P := from_str_none _ Fr).
        cbn [fst snd set_name tag nm cb app]. split; [intros H; apply (proj1 Ac) in H; destruct H; contradiction|].
        split; [|split].
        -- intros _. repeat split.
           ++ exists (Some tn). reflexivity.
           ++ right. split; [exact R|exact AN].
           ++ intros _ t H. symmetry. exact (N1 t H).
           ++ intros H. contradiction.
        -- intros _ t _. reflexivity.
        -- intros [H|H]; [contradiction|destruct (asked_unasked _ _ _ AN H)].
    + assert (Ac : acceptable (tag v) p).
      { split; [|split; [exact R|intros t At; destruct (asked_unasked _ _ _ At UL)]].
        intros E. rewrite E in AN. destruct AN as [[|? ?] [? [E' _]]]; discriminate E'. }
      assert (N1 : forall t, asked "n" t p -> t = tn) by (intros t H; exact (asked_fun _ _ _ _ H AN)).
      unfold done, set_name; cbn [fst snd tag nm cb app].
      split; [intros _|split; [intros H'; contradiction|split]].
      * split; [|split].
        -- unfold carried_out; cbn [tag nm cb]. split; [intros t Ht; symmetry; exact (N1 t Ht)|].
           split; [intros H'; destruct (asked_unasked _ _ _ AN H')|].
           split; [intros t Ht; destruct (asked_unasked _ _ _ Ht UL)|].
           split; reflexivity.
        -- destruct (cb v); reflexivity.
        -- exists (Some tn). split; [destruct (cb v); reflexivity|].
           split; [intros t Ht; rewrite (N1 t Ht); reflexivity|intros H'; destruct (asked_unasked _ _ _ AN H')].
      * intros _ t _. destruct (cb v); reflexivity.
      * intros [H'|H']; [contradiction|destruct (asked_unasked _ _ _ AN H')].
    + assert (Sd : settable (tag v) p <-> tag v <> 0 /\ In tl locns).
      { split; [intros H; exact (H _ AL)|]. intros H t At. rewrite (asked_fun _ _ _ _ At AL). exact H. }
      assert (Ac : acceptable (tag v) p <-> tag v <> 0 /\ In tl locns).
      { split; [intros [_ [_ H]]; exact (proj1 Sd H)|]. intros H. split; [|split; [exact R|exact (proj2 Sd H)]].
        intros E. rewrite E in AL. destruct AL as [[|? ?] [? [E' _]]]; discriminate E'. }
      assert (N1 : forall t, asked "n" t p -> False) by (intros t H; exact (asked_unasked _ _ _ H UN)).
      destruct (Nat.eqb_spec (tag v) 0) as [Z|Z]; [|destruct (from_str tl) as [i|] eqn:Fr].
      * cbn [fst snd app]. split; [intros H; apply (proj1 Ac) in H; destruct H; contradiction|].
        split; [|split].
        -- intros _. repeat split.
           ++ exists None. reflexivity.
           ++ left. reflexivity.
           ++ intros _ t H. destruct (N1 t H).
        -- intros _ t H. destruct (N1 t H).
        -- intros _. split; reflexivity.
      * assert (P := from_str_some _ _ Fr). assert (In tl locns) by exact (place_in _ _ P).
        unfold tag_locn, done; cbn [fst snd tag nm cb app].
        split; [intros _|split; [intros H'; destruct H'; apply (proj2 Ac); split; assumption|split]].
        -- split; [|split].
           ++ unfold carried_out; cbn [tag nm cb]. split; [intros t Ht; destruct (N1 t Ht)|].
              split; [reflexivity|].
              split; [intros t Ht; rewrite (asked_fun _ _ _ _ Ht AL); exact P|].
              split; [intros H'; destruct (asked_unasked _ _ _ AL H')|reflexivity].
           ++ destruct (cb v); reflexivity.
           ++ exists None. split; [destruct (cb v); reflexivity|].
              split; [intros t Ht; destruct (N1 t Ht)|reflexivity].
        -- intros _ t Ht. destruct (N1 t Ht).
        -- intros _. destruct (cb v); split; reflexivity.
      * assert (P := from_str_none _ Fr).
        cbn [fst snd app]. split; [intros H; apply (proj1 Ac) in H; destruct H; contradiction|].
        split; [|split].
        -- intros _. repeat split.
           ++ exists None. reflexivity.
           ++ left. reflexivity.
           ++ intros _ t H. destruct (N1 t H).
        -- intros _ t H. destruct (N1 t H).
        -- intros _. split; reflexivity.
    + assert (N1 : forall t, asked "n" t p -> False) by (intros t H; exact (asked_unasked _ _ _ H UN)).
      assert (E : p = []).
      { destruct p as [|[k x] p]; [reflexivity|].
        destruct (R k x (or_introl eq_refl)) as [[K|K] _]; rewrite K in UN, UL.
        - destruct (UN x (or_introl eq_refl)).
        - destruct (UL x (or_introl eq_refl)). }
      cbn [fst snd app]. split; [intros [H _]; contradiction|].
      split; [|split].
      * intros _. repeat split.
        -- exists None. reflexivity.
        -- left. reflexivity.
        -- intros _ t H. destruct (N1 t H).
      * intros _ t H. destruct (N1 t H).
      * intros _. split; reflexivity.
  - assert (R := scan_none _ _ _ Sc). cbn [fst snd].
    split; [intros [_ [H _]]; contradiction|]. split; [|split].
    + intros _. repeat split.
      * exists None. reflexivity.
      * left. reflexivity.
      * intros H. contradiction.
    + intros H. contradiction.
    + intros _. split; reflexivity.
Qed.

(** Devices in the list. *)

Lemma put_same : forall s d v w, nth_error s d = Some v -> nth_error (put d w s) d = Some w.
Proof.
  induction s as [|x r IH]; intros [|d] v w H; cbn in *; try discriminate H; [reflexivity|].
  exact (IH _ _ _ H).
Qed.

Lemma put_other : forall s d e w, e <> d -> nth_error (put d w s) e = nth_error s e.
Proof.
  induction s as [|x r IH]; intros [|d] [|e] w H; cbn; try reflexivity.
  - contradiction.
  - apply IH. intros E. apply H. rewrite E. reflexivity.
Qed.

Lemma on_step : forall d s f v, nth_error s d = Some v ->
  on d s f = (put d (fst (f v)) s, snd (f v)).
Proof. intros d s f v H. unfold on. rewrite H. destruct (f v). reflexivity. Qed.

Lemma on_other : forall d s f e, e <> d -> nth_error (fst (on d s f)) e = nth_error s e.
Proof.
  intros d s f e H. unfold on. destruct (nth_error s d) as [v|]; [|reflexivity].
  destruct (f v) as [w es]. cbn [fst]. apply put_other. exact H.
Qed.

(** A device over steps that leave it alone. *)
Lemma aside_step : forall o s d v, aside d o -> nth_error s d = Some v ->
  exists w, nth_error (fst (step s o)) d = Some w /\ nm w = nm v /\ tag w = tag v /\
    ((forall f, o <> SetCb f) -> cb w = cb v).
Proof.
  intros o s d v A H.
  assert (K : forall e f, e <> d -> exists w, nth_error (fst (on e s f)) d = Some w /\
            nm w = nm v /\ tag w = tag v /\ ((forall f, o <> SetCb f) -> cb w = cb v)).
  { intros e f N. exists v. rewrite on_other; [|intros E; exact (N (eq_sym E))].
    repeat split. exact H. }
  destruct o as [n|f|e t|e n|e|e p|e a w]; cbn [step aside] in *; try (apply K; exact A).
  - exists v. cbn [fst]. rewrite nth_error_app1; [repeat split; exact H|].
    apply nth_error_Some. rewrite H. discriminate.
  - exists (mkdev (nm v) (tag v) f). cbn [fst]. rewrite nth_error_map, H. repeat split.
    intros N. destruct (N f eq_refl).
  - destruct (Nat.eq_dec e d) as [E|E]; [|apply K; exact E]. rewrite E.
    rewrite (on_step _ _ _ _ H). exists v. cbn [fst]. repeat split. exact (put_same _ _ _ _ H).
Qed.

Lemma run_cons : forall s o r, fst (run s (o :: r)) = fst (run (fst (step s o)) r).
Proof.
  intros s o r. cbn [run]. destruct (step s o) as [s1 e1]. cbn [fst].
  destruct (run s1 r) as [s2 e2]. reflexivity.
Qed.

Lemma aside_run : forall os s d v, Forall (aside d) os -> nth_error s d = Some v ->
  exists w, nth_error (fst (run s os)) d = Some w /\ nm w = nm v /\ tag w = tag v.
Proof.
  induction os as [|o r IH]; intros s d v A H.
  - exists v. repeat split. exact H.
  - inversion A as [|? ? A1 A2]; subst.
    destruct (aside_step _ _ _ _ A1 H) as [w [B [C [D _]]]].
    destruct (IH _ _ _ A2 B) as [x [E [F G]]]. exists x. rewrite run_cons.
    split; [exact E|]. split; congruence.
Qed.

(** The callback over every step but SetCb. *)
Lemma cb_step : forall o s d v, (forall f, o <> SetCb f) -> nth_error s d = Some v ->
  exists w, nth_error (fst (step s o)) d = Some w /\ cb w = cb v.
Proof.
  intros o s d v N H.
  assert (K : forall e f, (forall x, cb (fst (f x)) = cb x) ->
            exists w, nth_error (fst (on e s f)) d = Some w /\ cb w = cb v).
  { intros e f F. destruct (Nat.eq_dec d e) as [E|E].
    - rewrite <- E. rewrite (on_step _ _ _ _ H). exists (fst (f v)).
      split; [exact (put_same _ _ _ _ H)|apply F].
    - exists v. rewrite on_other; [|exact E]. split; [exact H|reflexivity]. }
  destruct o as [n|f|e t|e n|e|e p|e a w]; cbn [step]; try (apply K; intros x; reflexivity).
  - exists v. cbn [fst]. rewrite nth_error_app1; [split; [exact H|reflexivity]|].
    apply nth_error_Some. rewrite H. discriminate.
  - destruct (N f eq_refl).
  - apply K. intros x. unfold post. destruct (scan None None p) as [[n l]|]; [|reflexivity].
    destruct n, l as [t|]; cbn [set_name tag]; try reflexivity;
      destruct (tag x =? 0); try reflexivity; destruct (from_str t); reflexivity.
  - apply K. intros x. unfold reset, set_name, tag_locn.
    destruct a, w; cbn; try reflexivity; destruct (tag x); reflexivity.
Qed.

Lemma cb_run : forall os s d v, (forall f, ~ In (SetCb f) os) -> nth_error s d = Some v ->
  exists w, nth_error (fst (run s os)) d = Some w /\ cb w = cb v.
Proof.
  induction os as [|o r IH]; intros s d v N H.
  - exists v. split; [exact H|reflexivity].
  - destruct (cb_step o _ _ _ (fun f E => N f (or_introl E)) H) as [w [B C]].
    destruct (IH _ _ _ (fun f F => N f (or_intror F)) B) as [x [D E]].
    exists x. rewrite run_cons. split; [exact D|congruence].
Qed.

(** Without a tag from the application there is no location. *)
Definition plain (d : nat) (s : st) : Prop := forall v, nth_error s d = Some v -> tag v = 0.

Lemma post_tag0 : forall d p v, tag v = 0 -> tag (fst (post d p v)) = 0.
Proof.
  intros d p v H. unfold post. destruct (scan None None p) as [[n l]|]; [|exact H].
  destruct n, l as [t|]; cbn [set_name tag]; rewrite ?H; cbn; exact H.
Qed.

Lemma plain_step : forall o s d, (forall n, o <> Tagged d n) -> plain d s -> plain d (fst (step s o)).
Proof.
  intros o s d N H.
  assert (K : forall e f, (forall x, tag x = 0 -> tag (fst (f x)) = 0) \/ e <> d -> plain d (fst (on e s f))).
  { intros e f F v. destruct (Nat.eq_dec d e) as [E|E].
    - rewrite <- E in *. destruct F as [F|F]; [|destruct (F eq_refl)].
      unfold on. destruct (nth_error s d) as [x|] eqn:X.
      + destruct (f x) as [y es] eqn:Y. cbn [fst]. rewrite (put_same _ _ _ _ X). intros Q. injection Q as Q.
        rewrite <- Q. assert (Z := F x (H _ X)). rewrite Y in Z. exact Z.
      + cbn [fst]. rewrite X. intros Q. discriminate Q.
    - rewrite on_other; [|exact E]. apply H. }
  destruct o as [n|f|e t|e n|e|e p|e a w]; cbn [step].
  - intros v. cbn [fst]. destruct (Nat.lt_ge_cases d (List.length s)) as [L|L].
    + rewrite nth_error_app1; [apply H|exact L].
    + rewrite nth_error_app2; [|exact L]. destruct (d - List.length s) as [|k]; cbn.
      * intros Q. injection Q as Q. rewrite <- Q. reflexivity.
      * destruct k; intros Q; discriminate Q.
  - intros v. cbn [fst]. rewrite nth_error_map. destruct (nth_error s d) as [x|] eqn:X; cbn.
    + intros Q. injection Q as Q. rewrite <- Q. exact (H _ X).
    + intros Q. discriminate Q.
  - apply K. left. intros x Hx. exact Hx.
  - apply K. right. intros E. apply (N n). rewrite E. reflexivity.
  - apply K. left. intros x Hx. exact Hx.
  - apply K. left. intros x. apply post_tag0.
  - apply K. left. intros x Hx. unfold reset. destruct a, w; cbn; rewrite ?Hx; cbn; (exact Hx || reflexivity).
Qed.

Lemma plain_run : forall os s d, (forall n, ~ In (Tagged d n) os) -> plain d s -> plain d (fst (run s os)).
Proof.
  induction os as [|o r IH]; intros s d N H; [exact H|].
  rewrite run_cons. apply IH; [intros n F; exact (N n (or_intror F))|].
  apply plain_step; [|exact H]. intros n E. exact (N n (or_introl E)).
Qed.
