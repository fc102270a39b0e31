(** Proofs for delayed callbacks. *)
From Verif Require Import Common Delay_Model Delay_Spec.
Local Open Scope N_scope.

Definition ids (l : list ev) : list N := map e_id l.

Lemma is_cur_running cur e : is_cur cur e = running cur e.
Proof. reflexivity. Qed.

Lemma filter_all_true {A} (f : A -> bool) l : (forall x, In x l -> f x = true) -> filter f l = l.
Proof. induction l as [|x r IH]; intros H; cbn [filter]; [reflexivity|]. rewrite (H x (or_introl eq_refl)). f_equal. apply IH. intros y K. apply H. right; exact K. Qed.

Lemma among_In l e : among l e = true <-> In (e_id e) (ids l).
Proof.
  unfold among, ids. rewrite existsb_exists, in_map_iff. split; intros (x & K1 & K2); exists x.
  - split; [apply N.eqb_eq; exact K2|exact K1].
  - split; [exact K2|apply N.eqb_eq; exact K1].
Qed.

Lemma In_ids l e : In e l -> In (e_id e) (ids l).
Proof. intros H. apply in_map; exact H. Qed.

Lemma ids_filter_In g l i : In i (ids (filter g l)) -> In i (ids l).
Proof. intros H. apply in_map_iff in H. destruct H as (x & <- & K). apply filter_In in K. apply In_ids; tauto. Qed.

Lemma NoDup_ids_filter g l : NoDup (ids l) -> NoDup (ids (filter g l)).
Proof.
  induction l as [|x r IH]; intros H; cbn [filter]; [exact H|]. destruct (proj1 (NoDup_cons_iff _ _) H) as [H1 H2].
  destruct (g x); [|apply IH; exact H2]. constructor; [intros K; apply H1; eapply ids_filter_In; exact K|apply IH; exact H2].
Qed.

(** * The removal loop against its specification *)
Definition rm_left (l gone : list ev) : list ev := filter (fun e => negb (among gone e)) l.

Lemma rm_left_nil l : rm_left l [] = l.
Proof. apply filter_all_true. reflexivity. Qed.

Lemma rm_none l cur cb f all want : filter (matches cb f) l = [] -> rm l cur cb f all want = (l, [], want).
Proof.
  induction l as [|e r IH]; cbn [filter rm]; [reflexivity|]. unfold matches at 1. intros H.
  destruct (e_cb e =? cb); destruct (f (e_data e)); cbn [andb negb orb] in *; try discriminate; rewrite (IH H); reflexivity.
Qed.

Lemma rm_left_cons e r gone : ~ In (e_id e) (ids gone) -> rm_left (e :: r) gone = e :: rm_left r gone.
Proof. intros H. unfold rm_left. cbn [filter]. destruct (among gone e) eqn:E; [apply among_In in E; contradiction|reflexivity]. Qed.

Lemma rm_left_skip e r gone : ~ In (e_id e) (ids r) -> rm_left r (e :: gone) = rm_left r gone.
Proof.
  intros H. unfold rm_left. apply filter_ext_in. intros x K. unfold among. cbn [existsb].
  destruct (e_id e =? e_id x) eqn:E; [|reflexivity]. exfalso. apply H. apply N.eqb_eq in E. rewrite E. apply In_ids; exact K.
Qed.

Lemma rm_left_drop e r gone : ~ In (e_id e) (ids r) -> rm_left (e :: r) (e :: gone) = rm_left r gone.
Proof.
  intros H. rewrite <- (rm_left_skip e r gone H). unfold rm_left at 1. cbn [filter]. unfold among at 1. cbn [existsb]. rewrite N.eqb_refl. reflexivity.
Qed.

Lemma rm_first l cur cb f want : NoDup (ids l) ->
  let vs := victims l cb f false in
  let gone := filter (fun e => negb (running cur e)) vs in
  rm l cur cb f false want = (rm_left l gone, map e_data gone, match vs with [] => want | _ => existsb (running cur) vs end).
Proof.
  cbn zeta. induction l as [|e r IH]; intros Nd; [reflexivity|]. destruct (proj1 (NoDup_cons_iff _ _) Nd) as [N1 N2].
  unfold victims in *. cbn [rm filter].
  assert (Hn : negb (e_cb e =? cb) || negb (f (e_data e)) = negb (matches cb f e)) by (unfold matches; destruct (e_cb e =? cb); destruct (f (e_data e)); reflexivity).
  rewrite Hn. destruct (matches cb f e) eqn:Em.
  - cbn [negb firstn filter existsb]. rewrite is_cur_running.
    destruct (running cur e) eqn:Ec; cbn [negb orb map].
    + rewrite rm_left_nil. reflexivity.
    + rewrite rm_left_drop by exact N1. rewrite rm_left_nil. reflexivity.
  - cbn [negb]. rewrite (IH N2). rewrite rm_left_cons; [reflexivity|]. intros K. apply N1. apply ids_filter_In in K.
    destruct (filter (matches cb f) r) as [|y t] eqn:Ef; [destruct K|].
    cbn [firstn ids map] in K. destruct K as [K|[]]. rewrite <- K. apply In_ids.
    assert (Hy : In y (y :: t)) by (left; reflexivity). rewrite <- Ef in Hy. apply filter_In in Hy. tauto.
Qed.

Lemma rm_all l cur cb f want : NoDup (ids l) -> (forall e, In e l -> running cur e = true -> matches cb f e = false) ->
  let vs := filter (matches cb f) l in
  rm l cur cb f true want = (rm_left l vs, map e_data vs, match vs with [] => want | _ => false end).
Proof.
  cbn zeta. revert want. induction l as [|e r IH]; intros want Nd H; [reflexivity|]. destruct (proj1 (NoDup_cons_iff _ _) Nd) as [N1 N2].
  assert (Hr : forall x, In x r -> running cur x = true -> matches cb f x = false) by (intros x K; apply H; right; exact K).
  cbn [rm filter]. pose proof (H e (or_introl eq_refl)) as He.
  assert (Hn : negb (e_cb e =? cb) || negb (f (e_data e)) = negb (matches cb f e)) by (unfold matches; destruct (e_cb e =? cb); destruct (f (e_data e)); reflexivity).
  rewrite Hn. destruct (matches cb f e) eqn:Em.
  - cbn [negb]. rewrite is_cur_running.
    destruct (running cur e); [discriminate (He eq_refl)|]. rewrite (IH false N2 Hr).
    rewrite rm_left_drop by exact N1. cbn [map]. destruct (filter (matches cb f) r); reflexivity.
  - cbn [negb]. rewrite (IH want N2 Hr). rewrite rm_left_cons; [reflexivity|]. intros K. apply N1. apply ids_filter_In in K. exact K.
Qed.

(** * What every removal does, whatever the filter *)
Definition count (g : ev -> bool) (l : list ev) : nat := List.length (filter g l).

Lemma rm_sub cur cb f all l : forall want l' ds w, rm l cur cb f all want = (l', ds, w) ->
  (forall x, In x l' -> In x l) /\ (NoDup (ids l) -> NoDup (ids l')) /\ (forall g, (count g l' <= count g l)%nat) /\
  (forall x, In x l -> is_cur cur x = true -> In x l').
Proof.
  unfold count. induction l as [|e r IH]; intros want l' ds w E; cbn [rm] in E.
  - injection E as <- <- <-. auto.
  - assert (Keep : forall l2, (forall x, In x l2 -> In x r) /\ (NoDup (ids r) -> NoDup (ids l2)) /\ (forall g, (List.length (filter g l2) <= List.length (filter g r))%nat) /\ (forall x, In x r -> is_cur cur x = true -> In x l2) ->
        (forall x, In x (e :: l2) -> In x (e :: r)) /\ (NoDup (ids (e :: r)) -> NoDup (ids (e :: l2))) /\ (forall g, (List.length (filter g (e :: l2)) <= List.length (filter g (e :: r)))%nat) /\ (forall x, In x (e :: r) -> is_cur cur x = true -> In x (e :: l2))).
    { intros l2 (K1 & K2 & K3 & K4). split; [|split; [|split]].
      - intros x [K|K]; [left; exact K|right; apply K1; exact K].
      - intros N. destruct (proj1 (NoDup_cons_iff _ _) N) as [N1 N2]. constructor; [|apply K2; exact N2].
        intros K. apply N1. apply in_map_iff in K. destruct K as (x & <- & K). apply In_ids, K1, K.
      - intros g. cbn [filter]. specialize (K3 g). destruct (g e); cbn [List.length]; lia.
      - intros x [K|K] C; [left; exact K|right; apply K4; assumption]. }
    assert (Drop : is_cur cur e = false -> forall l2, (forall x, In x l2 -> In x r) /\ (NoDup (ids r) -> NoDup (ids l2)) /\ (forall g, (List.length (filter g l2) <= List.length (filter g r))%nat) /\ (forall x, In x r -> is_cur cur x = true -> In x l2) ->
        (forall x, In x l2 -> In x (e :: r)) /\ (NoDup (ids (e :: r)) -> NoDup (ids l2)) /\ (forall g, (List.length (filter g l2) <= List.length (filter g (e :: r)))%nat) /\ (forall x, In x (e :: r) -> is_cur cur x = true -> In x l2)).
    { intros Hc l2 (K1 & K2 & K3 & K4). split; [|split; [|split]].
      - intros x K. right; apply K1; exact K.
      - intros N. destruct (proj1 (NoDup_cons_iff _ _) N) as [_ N2]. auto.
      - intros g. cbn [filter]. specialize (K3 g). destruct (g e); cbn [List.length]; lia.
      - intros x [<-|K] C; [congruence|apply K4; assumption]. }
    destruct (negb (e_cb e =? cb) || negb (f (e_data e))).
    + destruct (rm r cur cb f all want) as [[l2 d2] w2] eqn:E2. injection E as <- <- <-. apply Keep. eapply IH; exact E2.
    + destruct (is_cur cur e) eqn:Ec; destruct all.
      * destruct (rm r cur cb f true true) as [[l2 d2] w2] eqn:E2. injection E as <- <- <-. apply Keep. eapply IH; exact E2.
      * injection E as <- <- <-. apply Keep. auto.
      * destruct (rm r cur cb f true false) as [[l2 d2] w2] eqn:E2. injection E as <- <- <-. apply (Drop eq_refl). eapply IH; exact E2.
      * injection E as <- <- <-. apply (Drop eq_refl). auto.
Qed.

(** * Invariant of the model, for arbitrary handlers *)
Record inv (s : st) : Prop := {
  i_nodup : NoDup (ids (s_evs s));
  i_next : forall e, In e (s_evs s) -> e_id e < s_next s;
  i_due : forall e, In e (s_evs s) -> e_fired e = true -> due (s_now s) e = true }.

Definition log_ok (lg : list item) : Prop := forall e t, In (LCall e t) lg -> e_start e + e_int e <= t.
Definition quiet (i : N) (new : list item) : Prop := forall e t, In (LCall e t) new -> e_id e <> i.

(** What any piece of execution does: time and names only grow, the log is extended, never called early,
    and a name that is no longer registered is not called. *)
Record ext (s s' : st) : Prop := {
  x_inv : inv s -> inv s';
  x_now : s_now s <= s_now s';
  x_next : s_next s <= s_next s';
  x_log : exists new, s_log s' = new ++ s_log s /\ (inv s -> log_ok new) /\
            (forall i, i < s_next s -> ~ In i (ids (s_evs s)) -> quiet i new);
  x_gone : forall i, i < s_next s -> ~ In i (ids (s_evs s)) -> ~ In i (ids (s_evs s')) }.

Lemma ext_refl s : ext s s.
Proof. constructor; auto; try lia. exists []. repeat split; [intros _ ? ? []|intros i _ _ ? ? []]. Qed.

Lemma ext_trans a b c : ext a b -> ext b c -> ext a c.
Proof.
  intros X Y. constructor.
  - intros I. apply (x_inv _ _ Y), (x_inv _ _ X), I.
  - pose proof (x_now _ _ X); pose proof (x_now _ _ Y); lia.
  - pose proof (x_next _ _ X); pose proof (x_next _ _ Y); lia.
  - destruct (x_log _ _ X) as (n1 & E1 & O1 & Q1). destruct (x_log _ _ Y) as (n2 & E2 & O2 & Q2). exists (n2 ++ n1). split; [rewrite E2, E1; apply app_assoc|]. split.
    + intros I e t K. apply in_app_or in K. destruct K as [K|K]; [exact (O2 (x_inv _ _ X I) e t K)|exact (O1 I e t K)].
    + intros i H1 H2 e t K. apply in_app_or in K. destruct K as [K|K]; [|exact (Q1 i H1 H2 e t K)].
      refine (Q2 i _ (x_gone _ _ X i H1 H2) e t K). pose proof (x_next _ _ X); lia.
  - intros i H1 H2. apply (x_gone _ _ Y); [pose proof (x_next _ _ X); lia|apply (x_gone _ _ X); assumption].
Qed.

Lemma no_calls_deletes od ds lg : exists new, log_deletes od ds lg = new ++ lg /\ forall e t, ~ In (LCall e t) new.
Proof.
  unfold log_deletes. destruct (od =? 0); [exists []; split; [reflexivity|intros e t []]|].
  exists (rev (map (LDelete od) ds)). split; [reflexivity|]. intros e t K. apply in_rev in K. apply in_map_iff in K. destruct K as (? & K & _). discriminate.
Qed.

Lemma due_later now now' e : now <= now' -> due now e = true -> due now' e = true.
Proof. unfold due. lia. Qed.

Lemma act_ext s a : ext s (act s a).
Proof.
  destruct a as [cb data ticks slot|cb f all od|cb data ign|d]; cbn [act].
  - unfold add. destruct slot; [|apply ext_refl]. constructor; cbn [s_now s_next s_evs s_log]; try lia.
    + intros I. constructor; cbn [s_now s_next s_evs].
      * unfold ids. rewrite map_app. apply NoDup_app_snoc; [apply I|]. intros K. apply in_map_iff in K. destruct K as (x & E & K). apply (i_next _ I) in K. cbn [e_id] in E. lia.
      * intros e K. apply in_app_or in K. destruct K as [K|[<-|[]]]; [apply (i_next _ I) in K; lia|cbn [e_id]; lia].
      * intros e K F. apply in_app_or in K. destruct K as [K|[<-|[]]]; [exact (i_due _ I e K F)|discriminate].
    + exists []. repeat split; [intros _ ? ? []|intros i _ _ ? ? []].
    + intros i H1 H2 K. unfold ids in K. rewrite map_app in K. apply in_app_or in K. destruct K as [K|[K|[]]]; [contradiction|cbn [e_id] in K; lia].
  - unfold remove_by_filter. destruct (rm (s_evs s) (s_cur s) cb f all false) as [[l ds] w] eqn:E.
    destruct (rm_sub _ _ _ _ _ _ _ _ _ E) as (K1 & K2 & _ & _). constructor; cbn [s_now s_next s_evs s_log]; try lia.
    + intros I. constructor; cbn [s_now s_next s_evs]; [apply K2, I|intros e K; apply (i_next _ I), K1, K|intros e K; apply (i_due _ I), K1, K].
    + destruct (no_calls_deletes od ds (s_log s)) as (new & En & Hn). exists new. split; [exact En|]. split; [intros _ e t K; destruct (Hn e t K)|intros i _ _ e t K; destruct (Hn e t K)].
    + intros i _ H2 K. apply H2. apply in_map_iff in K. destruct K as (x & <- & K). apply In_ids, K1, K.
  - constructor; cbn [s_now s_next s_evs s_log]; auto; try lia; [intros I; constructor; apply I|].
    exists [LHas (has (s_evs s) cb data ign)]. split; [reflexivity|]. split; [intros _ e t [K|[]]; discriminate|intros i _ _ e t [K|[]]; discriminate].
  - constructor; cbn [s_now s_next s_evs s_log]; auto; try lia.
    + intros I. constructor; cbn [s_now s_next s_evs]; [apply I|apply I|]. intros e K F. eapply due_later; [|exact (i_due _ I e K F)]. lia.
    + exists []. repeat split; [intros _ ? ? []|intros i _ _ ? ? []].
Qed.

Lemma acts_ext l : forall s, ext s (acts s l).
Proof. induction l as [|a r IH]; intros s; cbn [acts]; [apply ext_refl|]. eapply ext_trans; [apply act_ext|apply IH]. Qed.

Lemma count_app g a b : count g (a ++ b) = (count g a + count g b)%nat.
Proof. unfold count. rewrite filter_app, app_length. reflexivity. Qed.

(** Handlers never add registrations whose timer has fired. *)
Definition fired_not (i : N) (e : ev) : bool := e_fired e && negb (e_id e =? i).

Lemma acts_count l : forall s g, (forall e, g e = true -> e_fired e = true) -> (count g (s_evs (acts s l)) <= count g (s_evs s))%nat.
Proof.
  induction l as [|a r IH]; intros s g Hg; cbn [acts]; [lia|]. etransitivity; [apply IH; exact Hg|].
  destruct a as [cb data ticks slot|cb f all od|cb data ign|d]; cbn [act]; try (cbn [s_evs]; lia).
  - unfold add. destruct slot; [|lia]. cbn [s_evs]. rewrite count_app.
    assert (E : count g [mkEv (s_next s) cb data (s_now s) ticks false] = 0%nat); [|lia].
    unfold count. cbn [filter]. destruct (g _) eqn:Eg; [specialize (Hg _ Eg); discriminate|reflexivity].
  - unfold remove_by_filter. destruct (rm (s_evs s) (s_cur s) cb f all false) as [[l ds] w] eqn:E. cbn [s_evs].
    destruct (rm_sub _ _ _ _ _ _ _ _ _ E) as (_ & _ & K3 & _). apply K3.
Qed.

Lemma count_le_filter g h l : (forall x, g x = true -> h x = true) -> (count g l <= count h l)%nat.
Proof. unfold count. intros H. induction l as [|x r IH]; cbn [filter]; [lia|]. destruct (g x) eqn:E; [rewrite (H x E); cbn [List.length]; lia|]. destruct (h x); cbn [List.length]; lia. Qed.

Lemma count_filter_eq g p l : count g (filter p l) = count (fun x => p x && g x) l.
Proof. unfold count. induction l as [|x r IH]; cbn [filter]; [reflexivity|]. destruct (p x); cbn [andb filter]; [destruct (g x); cbn [List.length]; lia|exact IH]. Qed.

Lemma count_map_eq g h l : count g (map h l) = count (fun x => g (h x)) l.
Proof. unfold count. induction l as [|x r IH]; cbn [filter map]; [reflexivity|]. destruct (g (h x)); cbn [List.length]; lia. Qed.

Lemma count_strict e l : In e l -> e_fired e = true -> (count (fired_not (e_id e)) l < count e_fired l)%nat.
Proof.
  unfold count, fired_not. induction l as [|x r IH]; intros H F; [destruct H|]. cbn [filter].
  assert (Hle : (List.length (filter (fun y => e_fired y && negb (e_id y =? e_id e)%N) r) <= List.length (filter e_fired r))%nat).
  { apply count_le_filter. intros y K. apply andb_true_iff in K. tauto. }
  destruct H as [<-|H].
  - rewrite F, N.eqb_refl. cbn [negb andb List.length]. lia.
  - specialize (IH H F). destruct (e_fired x); cbn [andb]; [destruct (negb (e_id x =? e_id e)); cbn [List.length]; lia|exact IH].
Qed.

Lemma call_count beh s e : In e (s_evs s) -> e_fired e = true -> (count e_fired (s_evs (call beh s e)) < count e_fired (s_evs s))%nat.
Proof.
  intros H F. eapply Nat.le_lt_trans; [|exact (count_strict e _ H F)]. unfold call. destruct (beh (s_log s) e) as [script done].
  set (s0 := mkSt _ _ _ _ _ _ _). pose proof (acts_count script s0 (fired_not (e_id e))) as Ha.
  assert (Hg : forall x, fired_not (e_id e) x = true -> e_fired x = true) by (intros x K; apply andb_true_iff in K; tauto).
  specialize (Ha Hg). change (s_evs s0) with (s_evs s) in Ha.
  destruct (done || s_del (acts s0 script)); cbn [s_evs].
  - rewrite count_filter_eq. etransitivity; [|exact Ha]. apply count_le_filter. intros x K. unfold fired_not. destruct (e_fired x); destruct (e_id x =? e_id e); cbn in *; congruence.
  - rewrite count_map_eq. etransitivity; [|exact Ha]. apply count_le_filter. intros x K. unfold fired_not. destruct (e_id x =? e_id e); cbn [e_fired] in K; [discriminate|rewrite K; reflexivity].
Qed.

Lemma call_ext beh s e : In e (s_evs s) -> e_fired e = true -> ext s (call beh s e).
Proof.
  intros H F. unfold call. destruct (beh (s_log s) e) as [script done]. set (s0 := mkSt _ _ _ _ _ _ _).
  assert (X0 : ext s s0).
  { constructor; cbn [s0 s_now s_next s_evs s_log]; auto; try lia; [intros I; constructor; apply I|].
    exists [LCall e (s_now s)]. split; [reflexivity|]. split.
    - intros I x t [K|[]]. injection K as <- <-. pose proof (i_due _ I e H F) as D. unfold due in D. lia.
    - intros i _ Hn x t [K|[]]. injection K as <- <-. intros <-. apply Hn, In_ids, H. }
  eapply ext_trans; [exact X0|]. eapply ext_trans; [apply (acts_ext script)|].
  set (s1 := acts s0 script). destruct (done || s_del s1).
  - constructor; cbn [s_now s_next s_evs s_log]; try lia.
    + intros I. constructor; cbn [s_now s_next s_evs]; [apply NoDup_ids_filter, I|intros x K; apply filter_In in K; apply (i_next _ I); tauto|intros x K; apply filter_In in K; apply (i_due _ I); tauto].
    + destruct (no_calls_deletes (s_od s1) [e_data e] (s_log s1)) as (new & En & Hn). exists new. split; [exact En|]. split; [intros _ x t K; destruct (Hn x t K)|intros i _ _ x t K; destruct (Hn x t K)].
    + intros i _ Hn K. apply Hn. eapply ids_filter_In; exact K.
  - assert (Eids : ids (map (fun x => if e_id x =? e_id e then mkEv (e_id x) (e_cb x) (e_data x) (s_now s1) (e_int x) false else x) (s_evs s1)) = ids (s_evs s1)).
    { unfold ids. rewrite map_map. apply map_ext. intros x. destruct (e_id x =? e_id e); reflexivity. }
    constructor; cbn [s_now s_next s_evs s_log]; try lia.
    + intros I. constructor; cbn [s_now s_next s_evs].
      * rewrite Eids. apply I.
      * intros x K. apply in_map_iff in K. destruct K as (y & <- & K). apply (i_next _ I) in K. destruct (e_id y =? e_id e); exact K.
      * intros x K Fx. apply in_map_iff in K. destruct K as (y & <- & K). revert Fx. destruct (e_id y =? e_id e); [intros Fx; discriminate|]. apply (i_due _ I); exact K.
    + exists []. repeat split; [intros _ ? ? []|intros i _ _ ? ? []].
    + intros i _ Hn. rewrite Eids. exact Hn.
Qed.

Lemma first_fired_In l e : first_fired l = Some e -> In e l /\ e_fired e = true.
Proof. induction l as [|x r IH]; cbn [first_fired]; [discriminate|]. destruct (e_fired x) eqn:F; [intros [= <-]; split; [left; reflexivity|exact F]|]. intros E. destruct (IH E). split; [right; assumption|assumption]. Qed.

Lemma poll_ext beh : forall fuel s, (count e_fired (s_evs s) < fuel)%nat -> exists s', poll fuel beh s = Some s' /\ ext s s' /\ s_cur s' = None /\ s_del s' = false /\ s_od s' = 0.
Proof.
  induction fuel as [|f IH]; intros s Hf; [lia|]. cbn [poll]. destruct (first_fired (s_evs s)) as [e|] eqn:E.
  - destruct (first_fired_In _ _ E) as [H F]. pose proof (call_count beh s e H F).
    destruct (IH (call beh s e)) as (s' & E' & X & Hc); [lia|]. exists s'. split; [exact E'|]. split; [|exact Hc]. eapply ext_trans; [apply (call_ext beh s e H F)|exact X].
  - eexists. split; [reflexivity|]. split; [|auto]. constructor; cbn [s_now s_next s_evs s_log]; auto; try lia; [intros I; constructor; apply I|].
    exists []. repeat split; [intros _ ? ? []|intros i _ _ ? ? []].
Qed.

Lemma count_len g l : (count g l <= List.length l)%nat.
Proof. unfold count. induction l as [|x r IH]; cbn [filter List.length]; [lia|]. destruct (g x); cbn [List.length]; lia. Qed.

Lemma fire_id now sel e : e_id (fire now sel e) = e_id e.
Proof. unfold fire. destruct (sel (e_id e) && due now e); reflexivity. Qed.

Lemma exec_ext beh s o : exists s', exec beh s o = Some s' /\ ext s s'.
Proof.
  destruct o as [a|sel|]; cbn [exec].
  - exists (act s a). split; [reflexivity|apply act_ext].
  - eexists. split; [reflexivity|].
    assert (Eids : ids (map (fire (s_now s) sel) (s_evs s)) = ids (s_evs s)) by (unfold ids; rewrite map_map; apply map_ext; intros x; apply fire_id).
    constructor; cbn [s_now s_next s_evs s_log]; try lia.
    + intros I. constructor; cbn [s_now s_next s_evs]; [rewrite Eids; apply I| |].
      * intros x K. apply in_map_iff in K. destruct K as (y & <- & K). rewrite fire_id. apply (i_next _ I); exact K.
      * intros x K F. apply in_map_iff in K. destruct K as (y & <- & K). unfold fire in *. destruct (sel (e_id y) && due (s_now s) y) eqn:Ef; [|exact (i_due _ I y K F)].
        apply andb_true_iff in Ef. destruct Ef as [_ Ef]. exact Ef.
    + exists []. repeat split; [intros _ ? ? []|intros i _ _ ? ? []].
    + intros i _ Hn. rewrite Eids. exact Hn.
  - destruct (poll_ext beh (S (List.length (s_evs s))) s) as (s' & E & X & _); [pose proof (count_len e_fired (s_evs s)); lia|]. exists s'. split; assumption.
Qed.

Lemma run_ext beh os : forall s, exists s', run beh s os = Some s' /\ ext s s'.
Proof.
  induction os as [|o r IH]; intros s; cbn [run]; [exists s; split; [reflexivity|apply ext_refl]|].
  destruct (exec_ext beh s o) as (s1 & E1 & X1). rewrite E1. destruct (IH s1) as (s2 & E2 & X2). exists s2. split; [exact E2|eapply ext_trans; eassumption].
Qed.

Lemma inv_init now : inv (init now).
Proof. constructor; cbn [init s_evs ids map]; [constructor|intros e []|intros e []]. Qed.

(** * Refinement for handlers that remove themselves plainly *)
Record rel (s : st) (x : sp) : Prop := { r_now : s_now s = p_now x; r_next : s_next s = p_next x; r_evs : s_evs s = p_evs x; r_log : s_log s = p_log x }.

Definition flag (s : st) (d : option N) : Prop := s_od s = 0 /\ match d with None => s_del s = false | Some od => od = 0 /\ s_del s = true end.

Definition act_plain (cur : option N) (l : list ev) (a : action) : Prop :=
  forall e, In e l -> running cur e = true -> plain_self e a = true.

Lemma rev_map_log od ds lg : log_deletes od ds lg = if od =? 0 then lg else rev (map (LDelete od) ds) ++ lg.
Proof. reflexivity. Qed.

Lemma has_existsb l cb data ign : has l cb data ign = existsb (fun e => (e_cb e =? cb) && (ign || (e_data e =? data))) l.
Proof. induction l as [|e r IH]; cbn [has existsb]; [reflexivity|]. destruct ((e_cb e =? cb) && (ign || (e_data e =? data))); [reflexivity|exact IH]. Qed.

Lemma act_sim s x d a : rel s x -> NoDup (ids (s_evs s)) -> flag s d -> act_plain (s_cur s) (s_evs s) a ->
  rel (act s a) (fst (sp_act (s_cur s) (x, d) a)) /\ flag (act s a) (snd (sp_act (s_cur s) (x, d) a)) /\ s_cur (act s a) = s_cur s.
Proof.
  intros R Nd F Hp. destruct R as [R1 R2 R3 R4]. destruct a as [cb data ticks slot|cb f all od|cb data ign|n]; cbn [act sp_act].
  - unfold add. destruct slot; cbn [fst snd].
    + split; [constructor; cbn [s_now s_next s_evs s_log p_now p_next p_evs p_log]; congruence|]. split; [exact F|reflexivity].
    + split; [constructor; assumption|]. split; [exact F|reflexivity].
  - cbn [fst snd]. rewrite <- R3. unfold remove_by_filter.
    set (vs := victims (s_evs s) cb f all). set (gone := filter (fun e => negb (running (s_cur s) e)) vs).
    assert (Hod : existsb (running (s_cur s)) vs = true -> od = 0).
    { intros K. apply existsb_exists in K. destruct K as (e & K1 & K2).
      assert (Hm : In e (filter (matches cb f) (s_evs s))).
      { unfold vs, victims in K1. destruct all; [exact K1|]. destruct (filter (matches cb f) (s_evs s)) as [|y t]; [destruct K1|]. cbn [firstn] in K1. destruct K1 as [<-|[]]. left; reflexivity. }
      apply filter_In in Hm. destruct Hm as [Hi Hm]. specialize (Hp e Hi K2). cbn [plain_self] in Hp. rewrite Hm in Hp. cbn [negb orb] in Hp. apply andb_true_iff in Hp. lia. }
    assert (Erm : rm (s_evs s) (s_cur s) cb f all false = (rm_left (s_evs s) gone, map e_data gone, existsb (running (s_cur s)) vs)).
    { destruct all.
      - assert (Hnc : forall e, In e (s_evs s) -> running (s_cur s) e = true -> matches cb f e = false).
        { intros e K1 K2. specialize (Hp e K1 K2). cbn [plain_self] in Hp. destruct (matches cb f e); [discriminate|reflexivity]. }
        rewrite (rm_all _ _ _ _ _ Nd Hnc). fold vs.
        assert (Hv : forall e, In e vs -> running (s_cur s) e = false).
        { intros e K. unfold vs, victims in K. apply filter_In in K. destruct K as [K1 K2]. destruct (running (s_cur s) e) eqn:Er; [rewrite (Hnc e K1 Er) in K2; discriminate|reflexivity]. }
        assert (Hg : gone = vs) by (apply filter_all_true; intros e K; rewrite (Hv e K); reflexivity). rewrite Hg.
        change (filter (matches cb f) (s_evs s)) with vs.
        replace (existsb (running (s_cur s)) vs) with false; [destruct vs; reflexivity|].
        symmetry. destruct (existsb (running (s_cur s)) vs) eqn:Ex; [|reflexivity]. apply existsb_exists in Ex. destruct Ex as (e & K1 & K2). rewrite (Hv e K1) in K2. discriminate.
      - rewrite (rm_first _ _ _ _ _ Nd). fold vs. fold gone. destruct vs; reflexivity. }
    rewrite Erm. split; [|split; [|reflexivity]].
    + constructor; cbn [s_now s_next s_evs s_log p_now p_next p_evs p_log]; [assumption|assumption|reflexivity|].
      rewrite rev_map_log, R4, map_map. reflexivity.
    + unfold flag in *. cbn [s_od s_del]. destruct (existsb (running (s_cur s)) vs); [|exact F]. specialize (Hod eq_refl). subst od. auto.
  - cbn [fst snd]. split; [|split; [exact F|reflexivity]]. constructor; cbn [s_now s_next s_evs s_log p_now p_next p_evs p_log]; try assumption.
    rewrite <- R3, R4, has_existsb. reflexivity.
  - cbn [fst snd]. split; [|split; [exact F|reflexivity]]. constructor; cbn [s_now s_next s_evs s_log p_now p_next p_evs p_log]; congruence.
Qed.

(** The running registration keeps its handler and data while its handler runs. *)
Definition cur_is (e : ev) (l : list ev) : Prop := forall x, In x l -> e_id x = e_id e -> e_cb x = e_cb e /\ e_data x = e_data e /\ e_int x = e_int e.

Lemma act_cur_is e s a : inv s -> e_id e < s_next s -> cur_is e (s_evs s) -> cur_is e (s_evs (act s a)).
Proof.
  intros I Hn H. destruct a as [cb data ticks slot|cb f all od|cb data ign|n]; cbn [act]; try exact H.
  - unfold add. destruct slot; [|exact H]. cbn [s_evs]. intros x K E. apply in_app_or in K. destruct K as [K|[<-|[]]]; [exact (H x K E)|cbn [e_id] in E; lia].
  - unfold remove_by_filter. destruct (rm (s_evs s) (s_cur s) cb f all false) as [[l ds] w] eqn:E. cbn [s_evs].
    destruct (rm_sub _ _ _ _ _ _ _ _ _ E) as (K1 & _). intros x K. apply H, K1, K.
Qed.

Lemma acts_sim e script : forall s x d, rel s x -> inv s -> flag s d -> s_cur s = Some (e_id e) -> e_id e < s_next s -> cur_is e (s_evs s) ->
  forallb (plain_self e) script = true ->
  rel (acts s script) (fst (fold_left (sp_act (Some (e_id e))) script (x, d))) /\ flag (acts s script) (snd (fold_left (sp_act (Some (e_id e))) script (x, d))) /\
  inv (acts s script) /\ cur_is e (s_evs (acts s script)) /\ s_cur (acts s script) = Some (e_id e).
Proof.
  induction script as [|a r IH]; intros s x d R I F Hc Hn Hi Hp; cbn [acts fold_left]; [auto|].
  cbn [forallb] in Hp. apply andb_true_iff in Hp. destruct Hp as [Hp1 Hp2].
  assert (Hpl : act_plain (s_cur s) (s_evs s) a).
  { intros y K1 K2. rewrite Hc in K2. cbn [running] in K2. apply N.eqb_eq in K2. destruct (Hi y K1 K2) as (C1 & C2 & _).
    destruct a; cbn [plain_self matches] in *; try reflexivity. unfold matches in *. rewrite C1, C2. exact Hp1. }
  destruct (act_sim s x d a R (i_nodup _ I) F Hpl) as (R1 & F1 & C1). rewrite Hc in R1, F1, C1.
  destruct (sp_act (Some (e_id e)) (x, d) a) as [x1 d1] eqn:Ea. cbn [fst snd] in R1, F1.
  apply IH; try assumption; [apply (act_ext s a), I|pose proof (x_next _ _ (act_ext s a)); lia|apply act_cur_is; assumption].
Qed.

Lemma nodup_cur_is e l : NoDup (ids l) -> In e l -> cur_is e l.
Proof.
  intros Nd H x K E. assert (x = e); [|subst; auto].
  clear -Nd H K E. induction l as [|y r IH]; [destruct H|]. destruct (proj1 (NoDup_cons_iff _ _) Nd) as [N1 N2].
  destruct H as [<-|H]; destruct K as [<-|K]; auto.
  - exfalso. apply N1. rewrite <- E. apply In_ids, K.
  - exfalso. apply N1. rewrite E. apply In_ids, H.
Qed.

Lemma call_sim beh s x e : plain beh -> rel s x -> inv s -> s_od s = 0 -> In e (s_evs s) ->
  rel (call beh s e) (sp_call beh x e) /\ s_od (call beh s e) = 0.
Proof.
  intros Hp R I Ho H. unfold call, sp_call. rewrite <- (r_log _ _ R). specialize (Hp (s_log s) e). destruct (beh (s_log s) e) as [script done]. cbn [fst] in Hp.
  rewrite <- (r_now _ _ R), <- (r_next _ _ R), <- (r_evs _ _ R).
  destruct (acts_sim e script (mkSt (s_now s) (s_next s) (s_evs s) (Some (e_id e)) false (s_od s) (LCall e (s_now s) :: s_log s))
              (mkSp (s_now s) (s_next s) (s_evs s) (LCall e (s_now s) :: s_log s)) None) as (R1 & F1 & I1 & C1 & _).
  - constructor; reflexivity.
  - constructor; apply I.
  - split; [exact Ho|reflexivity].
  - reflexivity.
  - cbn [s_next]. apply (i_next _ I), H.
  - cbn [s_evs]. apply nodup_cur_is; [apply I|exact H].
  - exact Hp.
  - set (s1 := acts _ script) in *. destruct (fold_left (sp_act (Some (e_id e))) script _) as [x1 d1]. cbn [fst snd] in R1, F1.
    destruct F1 as [F1 F2]. destruct R1 as [R1 R2 R3 R4]. rewrite F1. destruct d1 as [od|].
    + destruct F2 as [-> F2]. rewrite F2, orb_true_r. cbn [log_deletes]. unfold log_deletes. change (0 =? 0) with true. cbv iota. split; [|reflexivity].
      constructor; cbn [s_now s_next s_evs s_log p_now p_next p_evs p_log]; congruence.
    + rewrite F2, orb_false_r. destruct done.
      * unfold log_deletes. change (0 =? 0) with true. cbv iota. split; [|reflexivity]. constructor; cbn [s_now s_next s_evs s_log p_now p_next p_evs p_log]; congruence.
      * split; [|reflexivity]. constructor; cbn [s_now s_next s_evs s_log p_now p_next p_evs p_log]; rewrite ?R1, ?R3; congruence.
Qed.

(** ** The rescanning loop visits the registrations that had fired, in order *)
Definition present (l : list ev) (i : N) : bool := existsb (fun e => e_id e =? i) l.
Definition fired_ids (l : list ev) : list N := ids (filter e_fired l).

Lemma present_In l i : present l i = true <-> In i (ids l).
Proof. unfold present, ids. rewrite existsb_exists, in_map_iff. split; intros (x & K1 & K2); exists x; (split; [|assumption]) || idtac; [apply N.eqb_eq; exact K2|split; [exact K2|apply N.eqb_eq; exact K1]]. Qed.

Lemma rm_shape cur cb f all l : forall want l' ds w, NoDup (ids l) -> rm l cur cb f all want = (l', ds, w) -> l' = filter (fun e => present l' (e_id e)) l.
Proof.
  intros want l' ds w Nd E. assert (G : exists vs, l' = rm_left l vs).
  { revert want l' ds w Nd E. induction l as [|e r IH]; intros want l' ds w Nd E; cbn [rm] in E; [injection E as <- <- <-; exists []; reflexivity|].
    destruct (proj1 (NoDup_cons_iff _ _) Nd) as [N1 N2].
    assert (Keep : forall l2, (exists vs, l2 = rm_left r vs) -> exists vs, e :: l2 = rm_left (e :: r) vs).
    { intros l2 [vs ->]. exists (filter (fun v => negb (e_id v =? e_id e)) vs). rewrite rm_left_cons.
      - f_equal. unfold rm_left. apply filter_ext_in. intros x K. f_equal. unfold among. induction vs as [|v t IHv]; cbn [existsb filter]; [reflexivity|].
        destruct (e_id v =? e_id e) eqn:Ev; cbn [negb existsb]; rewrite IHv; [|reflexivity]. destruct (e_id v =? e_id x) eqn:Ex; [|reflexivity].
        exfalso. apply N1. replace (e_id e) with (e_id x) by lia. apply In_ids, K.
      - intros K. apply in_map_iff in K. destruct K as (v & K1 & K2). apply filter_In in K2. lia. }
    assert (Dropp : forall l2, (exists vs, l2 = rm_left r vs) -> exists vs, l2 = rm_left (e :: r) vs).
    { intros l2 [vs ->]. exists (e :: vs). symmetry. apply rm_left_drop, N1. }
    assert (Same : exists vs, r = rm_left r vs) by (exists []; symmetry; apply rm_left_nil).
    destruct (negb (e_cb e =? cb) || negb (f (e_data e))).
    + destruct (rm r cur cb f all want) as [[l2 d2] w2] eqn:E2. injection E as <- <- <-. apply Keep. eapply IH; eassumption.
    + destruct (is_cur cur e); destruct all.
      * destruct (rm r cur cb f true true) as [[l2 d2] w2] eqn:E2. injection E as <- <- <-. apply Keep. eapply IH; eassumption.
      * injection E as <- <- <-. apply Keep, Same.
      * destruct (rm r cur cb f true false) as [[l2 d2] w2] eqn:E2. injection E as <- <- <-. apply Dropp. eapply IH; eassumption.
      * injection E as <- <- <-. apply Dropp, Same. }
  destruct G as [vs ->]. unfold rm_left at 1. apply filter_ext_in. intros x K. destruct (negb (among vs x)) eqn:Ea; symmetry.
  - apply present_In, In_ids. unfold rm_left. apply filter_In. split; assumption.
  - destruct (present (rm_left l vs) (e_id x)) eqn:Ep; [|reflexivity]. apply present_In in Ep. apply in_map_iff in Ep. destruct Ep as (y & E1 & E2).
    unfold rm_left in E2. apply filter_In in E2. destruct E2 as [_ E2]. apply negb_true_iff in E2. apply negb_false_iff in Ea. apply among_In in Ea. rewrite <- E1 in Ea. apply among_In in Ea. congruence.
Qed.

Lemma filter_ids (g : N -> bool) l : ids (filter (fun e => g (e_id e)) l) = filter g (ids l).
Proof. unfold ids. induction l as [|x r IH]; cbn [filter map]; [reflexivity|]. destruct (g (e_id x)); cbn [map]; rewrite IH; reflexivity. Qed.

Lemma filter_filter_comm {A} (f g : A -> bool) l : filter f (filter g l) = filter g (filter f l).
Proof. induction l as [|x r IH]; cbn [filter]; [reflexivity|]. destruct (g x) eqn:Eg; destruct (f x) eqn:Ef; cbn [filter]; rewrite ?Eg, ?Ef, IH; reflexivity. Qed.

Lemma fired_ids_filter (g : N -> bool) l : fired_ids (filter (fun e => g (e_id e)) l) = filter g (fired_ids l).
Proof. unfold fired_ids. rewrite filter_filter_comm. apply filter_ids. Qed.

(** A handler only takes names out of the fired ones. *)
Definition sh (s s' : st) : Prop := fired_ids (s_evs s') = filter (present (s_evs s')) (fired_ids (s_evs s)).

Lemma fired_ids_In l i : In i (fired_ids l) -> In i (ids l).
Proof. apply ids_filter_In. Qed.

Lemma inv_ids_next s i : inv s -> In i (ids (s_evs s)) -> i < s_next s.
Proof. intros I K. apply in_map_iff in K. destruct K as (x & <- & K). apply (i_next _ I), K. Qed.

Lemma present_back s s' i : ext s s' -> i < s_next s -> present (s_evs s') i = true -> present (s_evs s) i = true.
Proof.
  intros X Hi H. destruct (present (s_evs s) i) eqn:E; [reflexivity|]. exfalso. apply (x_gone _ _ X i Hi).
  - intros K. apply present_In in K. congruence.
  - apply present_In, H.
Qed.

Lemma sh_refl s : sh s s.
Proof. unfold sh. symmetry. apply filter_all_true. intros i K. apply present_In, fired_ids_In, K. Qed.

Lemma sh_trans a b c : inv a -> ext a b -> ext b c -> sh a b -> sh b c -> sh a c.
Proof.
  unfold sh. intros I X Y H1 H2. rewrite H2, H1.
  assert (G : forall i, In i (fired_ids (s_evs a)) -> i < s_next a) by (intros i K; apply inv_ids_next; [exact I|apply fired_ids_In, K]).
  revert G. generalize (fired_ids (s_evs a)). intros l G. induction l as [|i r IH]; cbn [filter]; [reflexivity|].
  assert (Gr : forall j, In j r -> j < s_next a) by (intros j K; apply G; right; exact K).
  assert (Gi : i < s_next a) by (apply G; left; reflexivity).
  destruct (present (s_evs b) i) eqn:Eb; cbn [filter]; rewrite (IH Gr); [reflexivity|].
  destruct (present (s_evs c) i) eqn:Ec; [|reflexivity].
  rewrite (present_back b c i Y) in Eb; [discriminate|pose proof (x_next _ _ X); lia|exact Ec].
Qed.

Lemma act_sh s a : inv s -> sh s (act s a).
Proof.
  intros I. destruct a as [cb data ticks slot|cb f all od|cb data ign|n]; cbn [act]; try exact (sh_refl s).
  - unfold add. destruct slot; [|exact (sh_refl s)]. unfold sh. cbn [s_evs]. unfold fired_ids at 1. rewrite filter_app. cbn [filter e_fired]. rewrite app_nil_r. fold (fired_ids (s_evs s)).
    symmetry. apply filter_all_true. intros i K. apply present_In. unfold ids. rewrite map_app. apply in_or_app. left. apply fired_ids_In, K.
  - unfold remove_by_filter. destruct (rm (s_evs s) (s_cur s) cb f all false) as [[l ds] w] eqn:E. unfold sh. cbn [s_evs].
    pose proof (rm_shape _ _ _ _ _ _ _ _ _ (i_nodup _ I) E) as Hl. rewrite <- fired_ids_filter. rewrite <- Hl. reflexivity.
Qed.

Lemma acts_sh l : forall s, inv s -> sh s (acts s l).
Proof.
  induction l as [|a r IH]; intros s I; cbn [acts]; [apply sh_refl|].
  pose proof (act_ext s a) as X. eapply sh_trans; [exact I|exact X|apply acts_ext|apply act_sh; exact I|apply IH, X, I].
Qed.

Lemma call_fired beh s e : inv s -> In e (s_evs s) -> e_fired e = true ->
  fired_ids (s_evs (call beh s e)) = filter (fun i => present (s_evs (call beh s e)) i && negb (i =? e_id e)) (fired_ids (s_evs s)).
Proof.
  intros I H F. unfold call. destruct (beh (s_log s) e) as [script done]. set (s0 := mkSt _ _ _ _ _ _ _).
  assert (I0 : inv s0) by (constructor; apply I). pose proof (acts_sh script s0 I0) as Hs. unfold sh in Hs. change (s_evs s0) with (s_evs s) in Hs.
  set (s1 := acts s0 script) in *. destruct (done || s_del s1); cbn [s_evs].
  - rewrite (fired_ids_filter (fun i => negb (i =? e_id e))), Hs.
    generalize (fired_ids (s_evs s)). intros l. induction l as [|i r IH]; cbn [filter]; [reflexivity|].
    assert (Ep : present (filter (fun x => negb (e_id x =? e_id e)) (s_evs s1)) i && negb (i =? e_id e) = present (s_evs s1) i && negb (i =? e_id e)).
    { destruct (i =? e_id e) eqn:Ei; cbn [negb]; [rewrite !andb_false_r; reflexivity|]. rewrite !andb_true_r. unfold present.
      clear -Ei. generalize (s_evs s1). intros l. induction l as [|x t IHt]; cbn [filter existsb]; [reflexivity|]. destruct (e_id x =? e_id e) eqn:Ex; cbn [negb existsb]; rewrite IHt; [|reflexivity].
      destruct (e_id x =? i) eqn:Exi; [lia|reflexivity]. }
    rewrite Ep. destruct (present (s_evs s1) i); cbn [filter andb]; [destruct (negb (i =? e_id e)); rewrite IH; reflexivity|exact IH].
  - set (h := fun x => if e_id x =? e_id e then mkEv (e_id x) (e_cb x) (e_data x) (s_now s1) (e_int x) false else x).
    assert (Ep : forall l i, present (map h l) i = present l i).
    { intros l i. unfold present. induction l as [|x t IHt]; cbn [map existsb]; [reflexivity|]. rewrite IHt. unfold h. destruct (e_id x =? e_id e); reflexivity. }
    assert (Ef : forall l, fired_ids (map h l) = filter (fun i => negb (i =? e_id e)) (fired_ids l)).
    { intros l. unfold fired_ids, ids. induction l as [|x t IHt]; cbn [map filter]; [reflexivity|]. unfold h at 1.
      destruct (e_id x =? e_id e) eqn:Ex; cbn [e_fired].
      - rewrite IHt. destruct (e_fired x); cbn [map filter]; [rewrite Ex; reflexivity|reflexivity].
      - destruct (e_fired x) eqn:Fx; cbn [map filter]; [|exact IHt]. rewrite Ex. cbn [negb]. unfold h at 1. rewrite Ex. f_equal. exact IHt. }
    rewrite Ef, Hs. generalize (fired_ids (s_evs s)). intros l. induction l as [|i r IH]; cbn [filter]; [reflexivity|]. rewrite Ep.
    destruct (present (s_evs s1) i); cbn [filter andb]; [destruct (negb (i =? e_id e)); rewrite IH; reflexivity|exact IH].
Qed.

Lemma first_fired_cons l i t : fired_ids l = i :: t -> exists e, first_fired l = Some e /\ e_id e = i.
Proof.
  unfold fired_ids. induction l as [|x r IH]; cbn [filter first_fired ids map]; [discriminate|]. destruct (e_fired x); [|exact IH].
  cbn [ids map]. intros [= <- _]. exists x. auto.
Qed.
Lemma first_fired_nil l : fired_ids l = [] -> first_fired l = None.
Proof. unfold fired_ids. induction l as [|x r IH]; cbn [filter first_fired ids map]; [reflexivity|]. destruct (e_fired x); [discriminate|exact IH]. Qed.

Lemma find_id l e : NoDup (ids l) -> In e l -> find (fun x => e_id x =? e_id e) l = Some e.
Proof.
  induction l as [|x r IH]; intros Nd H; [destruct H|]. destruct (proj1 (NoDup_cons_iff _ _) Nd) as [N1 N2]. cbn [find].
  destruct H as [<-|H]; [rewrite N.eqb_refl; reflexivity|]. destruct (e_id x =? e_id e) eqn:E; [|apply IH; assumption].
  exfalso. apply N1. apply N.eqb_eq in E. rewrite E. apply In_ids, H.
Qed.

Lemma find_none l i : present l i = false -> find (fun x => e_id x =? i) l = None.
Proof. unfold present. induction l as [|x r IH]; cbn [existsb find]; [reflexivity|]. destruct (e_id x =? i); [discriminate|exact IH]. Qed.

Lemma poll_sim beh : plain beh -> forall todo fuel s x, rel s x -> inv s -> s_od s = 0 -> NoDup todo -> (forall i, In i todo -> i < s_next s) ->
  fired_ids (s_evs s) = filter (present (s_evs s)) todo -> (List.length todo < fuel)%nat ->
  exists s', poll fuel beh s = Some s' /\ rel s' (fold_left (sp_visit beh) todo x) /\ s_cur s' = None /\ s_del s' = false /\ s_od s' = 0 /\ inv s'.
Proof.
  intros Hp. induction todo as [|i t IH]; intros fuel s x R I Ho Nd Hn Hf Hfu.
  - destruct fuel as [|f]; [lia|]. cbn [poll fold_left]. cbn [filter] in Hf. rewrite (first_fired_nil _ Hf). eexists. split; [reflexivity|].
    split; [destruct R; constructor; assumption|]. repeat split; apply I.
  - destruct (proj1 (NoDup_cons_iff _ _) Nd) as [N1 N2]. cbn [fold_left filter] in *. destruct fuel as [|f]; [lia|]. cbn [List.length] in Hfu.
    assert (Hnt : forall j, In j t -> j < s_next s) by (intros j K; apply Hn; right; exact K).
    destruct (present (s_evs s) i) eqn:Ep.
    + destruct (first_fired_cons _ _ _ Hf) as (e & Ee & Ei). destruct (first_fired_In _ _ Ee) as [H F]. cbn [poll]. rewrite Ee.
      destruct (call_sim beh s x e Hp R I Ho H) as [R' Ho']. pose proof (call_ext beh s e H F) as X.
      unfold sp_visit at 2. rewrite <- Ei, <- (r_evs _ _ R), (find_id _ _ (i_nodup _ I) H).
      apply IH; try assumption; [apply X, I|intros j K; pose proof (Hnt j K); pose proof (x_next _ _ X); lia| |lia].
      rewrite (call_fired beh s e I H F), Hf. cbn [filter]. rewrite Ei, N.eqb_refl. cbn [negb]. rewrite andb_false_r.
      clear -X N1 Hnt. induction t as [|j t IHt]; cbn [filter]; [reflexivity|].
      assert (K1 : ~ In i t) by (intros K; apply N1; right; exact K). assert (K2 : forall k, In k t -> k < s_next s) by (intros k K; apply Hnt; right; exact K).
      specialize (IHt K1 K2). assert (Eji : (j =? i) = false) by (destruct (j =? i) eqn:E; [exfalso; apply N1; left; lia|reflexivity]).
      destruct (present (s_evs s) j) eqn:Es; cbn [filter]; rewrite IHt; [rewrite Eji; cbn [negb]; rewrite andb_true_r; reflexivity|].
      destruct (present (s_evs (call beh s e)) j) eqn:Ec; [|reflexivity]. rewrite (present_back _ _ j X) in Es; [discriminate|apply Hnt; left; reflexivity|exact Ec].
    + unfold sp_visit at 2. rewrite <- (r_evs _ _ R), (find_none _ _ Ep). apply IH; try assumption; lia.
Qed.

Lemma exec_sim beh s x o : plain beh -> rel s x -> inv s -> s_cur s = None -> s_del s = false -> s_od s = 0 ->
  exists s', exec beh s o = Some s' /\ rel s' (sp_exec beh x o) /\ inv s' /\ s_cur s' = None /\ s_del s' = false /\ s_od s' = 0.
Proof.
  intros Hp R I Hc Hd Ho. destruct o as [a|sel|]; cbn [exec sp_exec].
  - destruct (act_sim s x None a R (i_nodup _ I)) as (R1 & F1 & C1); [split; assumption|intros e _ K; rewrite Hc in K; discriminate|].
    rewrite Hc in R1, F1, C1. eexists. split; [reflexivity|]. split; [exact R1|]. split; [apply act_ext, I|]. split; [exact C1|].
    assert (Hnone : snd (sp_act None (x, None) a) = None).
    { destruct a as [cb data ticks [|]|cb f all od|cb data ign|n]; cbn [sp_act snd]; try reflexivity.
      assert (E : forall l, existsb (running None) l = false) by (induction l; [reflexivity|assumption]). rewrite E. reflexivity. }
    rewrite Hnone in F1. destruct F1; auto.
  - eexists. split; [reflexivity|]. destruct (exec_ext beh s (OFire sel)) as (s2 & E2 & X2). cbn [exec] in E2. injection E2 as <-. split; [|split; [apply X2, I|cbn [s_cur s_del s_od]; auto]].
    destruct R as [R1 R2 R3 R4]. constructor; cbn [s_now s_next s_evs s_log p_now p_next p_evs p_log]; try assumption. rewrite R1, R3. reflexivity.
  - unfold sp_check. destruct (poll_sim beh Hp (map e_id (filter e_fired (p_evs x))) (S (List.length (s_evs s))) s x R I Ho) as (s' & E & R' & C' & D' & O' & I').
    + rewrite <- (r_evs _ _ R). apply NoDup_ids_filter, I.
    + rewrite <- (r_evs _ _ R). intros i K. apply inv_ids_next; [exact I|]. eapply ids_filter_In, K.
    + rewrite <- (r_evs _ _ R). symmetry. apply filter_all_true. intros i K. apply present_In. eapply ids_filter_In, K.
    + rewrite <- (r_evs _ _ R), map_length. pose proof (count_len e_fired (s_evs s)). unfold count in *. lia.
    + exists s'. auto 7.
Qed.

Lemma run_sim beh os : plain beh -> forall s x, rel s x -> inv s -> s_cur s = None -> s_del s = false -> s_od s = 0 ->
  exists s', run beh s os = Some s' /\ rel s' (sp_run beh x os).
Proof.
  intros Hp. induction os as [|o r IH]; intros s x R I Hc Hd Ho; cbn [run sp_run fold_left]; [exists s; auto|].
  destruct (exec_sim beh s x o Hp R I Hc Hd Ho) as (s1 & E1 & R1 & I1 & C1 & D1 & O1). rewrite E1. apply IH; assumption.
Qed.
