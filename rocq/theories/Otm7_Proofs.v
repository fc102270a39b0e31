(** Proofs about ownership transfer, part 7: corollaries, and decision
    procedures for the examples. *)

From Coq Require Import List Bool Arith Lia.
From Verif Require Import Otm_Model Otm_Spec Otm_Proofs Otm2_Proofs Otm3_Proofs Otm4_Proofs Otm5_Proofs Otm6_Proofs.
Import ListNotations.

(** The report is the last event. *)
Lemma report_last : forall c h g, story c h -> In (EReport c g) h ->
  exists l, h = l ++ [EReport c g] /\ reported c l = 0.
Proof.
  intros c h g S R. destruct S as [|h k|h k u l a m more A B|h k u l A B|h k u l m more A B N|h k u l a m more e A B C].
  - destruct R.
  - destruct R as [R|[R|[]]]; [discriminate R|]. injection R as <-. exists [ERefused c h k]. split; reflexivity.
  - destruct R as [R|R]; [discriminate R|]. apply in_app_or in R. destruct R as [R|[R|[]]]; [no_said R|discriminate R].
  - destruct R as [R|R]; [discriminate R|]. apply in_app_or in R. destruct R as [R|[R|[]]]; [no_said R|].
    injection R as <-. exists (ECall c h k :: said c l). split; [reflexivity|].
    rewrite reported_cons. apply reported_said.
  - destruct R as [R|R]; [discriminate R|]. apply in_app_or in R. destruct R as [R|[R|[]]]; [no_said R|].
    injection R as <-. exists (ECall c h k :: said c l). split; [reflexivity|].
    rewrite reported_cons. apply reported_said.
  - assert (E : forall x, e <> EReport c x) by (intros x Q; destruct C as [[r [-> _]]| ->]; discriminate Q).
    assert (Z : reported c [ESent c a m; e] = 0) by (destruct C as [[r [-> _]]| ->]; reflexivity).
    destruct R as [R|R]; [discriminate R|]. apply in_app_or in R.
    destruct R as [R|[R|[R|[R|[]]]]]; [no_said R|discriminate R|destruct (E g R)|].
    injection R as <-. exists (ECall c h k :: said c l ++ [ESent c a m; e]). split.
    + cbn [app]. rewrite <- app_assoc. reflexivity.
    + rewrite reported_cons, reported_app, reported_said, Z. reflexivity.
Qed.

Lemma prefix_before : forall (l : list turn) k u m rest,
  script k u = map what l ++ m :: rest -> m = MOwned ->
  exists t, In t l /\ what t = MCred.
Proof.
  intros l k u m rest E ->.
  destruct k; cbn [script main_part] in E;
  repeat (destruct l as [|? l]; cbn [map app] in E;
    [first [discriminate E | idtac] | first [discriminate E | let Q := fresh in injection E as Q E]]);
  match goal with H : MCred = what ?t |- _ => exists t; split; [cbn [In]; tauto|symmetry; exact H] end.
Qed.

(** The device is told that it is owned only after it took the credential. *)
Lemma owned_after : forall c h a, story c h -> In (ESent c a MOwned) h ->
  exists b, In (ESent c b MCred) h /\ In (EAns c Fine) h /\
    exists p q, h = p ++ [ESent c b MCred; EAns c Fine] ++ q /\ In (ESent c a MOwned) q.
Proof.
  assert (K : forall c l k u w, script k u = map what l ++ w -> Forall welcome l ->
     forall t, In t l -> what t = MOwned -> forall tail,
     exists b p q, said c l ++ tail = p ++ [ESent c b MCred; EAns c Fine] ++ q /\ In (ESent c (where_to t) MOwned) q).
  { intros c l k u w E W t T Q tail. apply in_split in T. destruct T as [l1 [l2 ->]].
    rewrite map_app, <- app_assoc in E. cbn [map app] in E.
    destruct (prefix_before _ _ _ _ _ E Q) as [t' [T' Q']].
    apply in_split in T'. destruct T' as [l3 [l4 ->]].
    assert (H : how t' = Fine).
    { rewrite !Forall_app in W. destruct W as [[_ W] _]. inversion W as [|? ? W1 W2]; subst.
      destruct W1 as [W1|[W1 _]]; [exact W1|congruence]. }
    exists (where_to t'), (said c l3), (said c (l4 ++ t :: l2) ++ tail). split.
    - replace ((l3 ++ t' :: l4) ++ t :: l2) with (l3 ++ [t'] ++ (l4 ++ t :: l2)) by (cbn [app]; rewrite <- app_assoc; reflexivity).
      rewrite !said_app, <- !app_assoc. unfold said at 2. cbn [flat_map app]. rewrite Q', H. reflexivity.
    - apply in_or_app. left. rewrite said_app. apply in_or_app. right. unfold said. cbn [flat_map app].
      left. rewrite Q. reflexivity. }
  assert (K2 : forall c l k u m more, script k u = map what l ++ m :: more -> Forall welcome l -> m = MOwned ->
     forall a rest, exists b p q, said c l ++ ESent c a m :: rest = p ++ [ESent c b MCred; EAns c Fine] ++ q /\ In (ESent c a MOwned) q).
  { intros c l k u m more E W Q a rest. destruct (prefix_before _ _ _ _ _ E Q) as [t' [T' Q']].
    apply in_split in T'. destruct T' as [l3 [l4 ->]].
    assert (H : how t' = Fine).
    { rewrite Forall_app in W. destruct W as [_ W]. inversion W as [|? ? W1 W2]; subst.
      destruct W1 as [W1|[W1 _]]; [exact W1|congruence]. }
    exists (where_to t'), (said c l3), (said c l4 ++ ESent c a m :: rest). split.
    - replace (l3 ++ t' :: l4) with (l3 ++ [t'] ++ l4) by reflexivity.
      rewrite !said_app, <- !app_assoc. unfold said at 2. cbn [flat_map app]. rewrite Q', H. reflexivity.
    - apply in_or_app. right. left. rewrite Q. reflexivity. }
  assert (FIN : forall c a e (h : list ev), (exists b p q, h = p ++ [ESent c b MCred; EAns c Fine] ++ q /\ In (ESent c a MOwned) q) ->
     exists b, In (ESent c b MCred) (e :: h) /\ In (EAns c Fine) (e :: h) /\
      exists p q, e :: h = p ++ [ESent c b MCred; EAns c Fine] ++ q /\ In (ESent c a MOwned) q).
  { intros c a e h [b [p [q [-> I]]]]. exists b. split; [|split].
    - right. apply in_or_app. right. left. reflexivity.
    - right. apply in_or_app. right. right. left. reflexivity.
    - exists (e :: p), q. split; [reflexivity|exact I]. }
  intros c h0 a S R.
  destruct S as [|h k|h k u l b m more A B|h k u l A B|h k u l m more A B N|h k u l b m more e A B C].
  - destruct R.
  - destruct R as [R|[R|[]]]; discriminate R.
  - apply FIN. destruct R as [R|R]; [discriminate R|]. apply in_app_or in R. destruct R as [R|[R|[]]].
    + apply said_in in R. destruct R as [t [T [R|R]]]; [|discriminate R]. injection R as -> R.
      apply (K c l k u (m :: more) A B t T (eq_sym R)).
    + injection R as -> R. apply (K2 c l k u m more A B R).
  - apply FIN. destruct R as [R|R]; [discriminate R|]. apply in_app_or in R. destruct R as [R|[R|[]]]; [|discriminate R].
    apply said_in in R. destruct R as [t [T [R|R]]]; [|discriminate R]. injection R as -> R.
    apply (K c l k u []); [rewrite app_nil_r; exact A|exact B|exact T|symmetry; exact R].
  - apply FIN. destruct R as [R|R]; [discriminate R|]. apply in_app_or in R. destruct R as [R|[R|[]]]; [|discriminate R].
    apply said_in in R. destruct R as [t [T [R|R]]]; [|discriminate R]. injection R as -> R.
    apply (K c l k u (m :: more) A B t T (eq_sym R)).
  - apply FIN. destruct R as [R|R]; [discriminate R|]. apply in_app_or in R.
    destruct R as [R|[R|[R|[R|[]]]]].
    + apply said_in in R. destruct R as [t [T [R|R]]]; [|discriminate R]. injection R as -> R.
      apply (K c l k u (m :: more) A B t T (eq_sym R)).
    + injection R as -> R. apply (K2 c l k u m more A B R).
    + destruct C as [[r [-> _]]| ->]; discriminate R.
    + discriminate R.
Qed.

(** Deciding the hypotheses. *)
Fixpoint walk (P : st -> op -> bool) (s : st) (rest : list op) : bool :=
  match rest with
  | [] => true
  | o :: r => P s o && walk P (step s o) r
  end.

Lemma walk_sound : forall P rest before, walk P (run before) rest = true ->
  forall b o a, rest = b ++ o :: a -> P (run (before ++ b)) o = true.
Proof.
  intros P. induction rest as [|x r IH]; intros before H b o a E; [destruct b; discriminate E|].
  cbn [walk] in H. apply andb_true_iff in H. destruct H as [H1 H2]. destruct b as [|y b].
  - cbn [app] in E. injection E as -> ->. rewrite app_nil_r. exact H1.
  - cbn [app] in E. injection E as -> E. rewrite <- run_snoc in H2.
    specialize (IH _ H2 b o a E). rewrite <- app_assoc in IH. exact IH.
Qed.

Definition idleb (u : nat) (s : st) : bool :=
  forallb (fun e => match e with
                    | ECall c h _ => negb (reported c (tr s) =? 0) || negb (uuid_of h s =? u)
                    | _ => true
                    end) (tr s).

Lemma idleb_sound : forall u s, idleb u s = true -> forall c h, in_progress c h (tr s) -> uuid_of h s <> u.
Proof.
  intros u s H c h [[k A] B]. unfold idleb in H. rewrite forallb_forall in H. specialize (H _ A).
  cbn beta iota in H. rewrite B in H. cbn [Nat.eqb negb orb] in H.
  apply negb_true_iff in H. apply Nat.eqb_neq. exact H.
Qed.

Definition solob (s : st) (o : op) : bool :=
  match o with OCall _ u _ _ => idleb u s | _ => true end.

Definition freshb (s : st) (o : op) : bool :=
  match o with
  | OAnswer i _ x _ =>
      match nth_error (reqs s) i with
      | Some (mkreq _ MOwner _) => forallb (fun d => negb (is_cached (dl d)) || negb (du d =? rnd x)) (heap s)
      | _ => true
      end
  | _ => true
  end.

Definition apartb (s : st) (o : op) : bool :=
  match o with
  | OCall _ u _ _ => forallb (fun h => negb (uuid_of h s =? u)) (gets s)
  | ODiscover u _ => idleb u s
  | _ => true
  end.

Lemma solob_sound : forall ops, walk solob init ops = true -> solo ops.
Proof.
  intros ops H before k u l up after c h E. apply (idleb_sound u).
  exact (walk_sound solob ops [] H before _ after E).
Qed.

Lemma freshb_sound : forall ops, walk freshb init ops = true -> fresh ops.
Proof.
  intros ops H before i r x up after q h E NE M K.
  assert (Q := walk_sound freshb ops [] H before _ after E). cbn [freshb app] in Q.
  rewrite NE in Q. destruct q as [qa qm qo]. cbn [rmsg] in M. subst qm.
  unfold kept in K. unfold uuid_of. destruct (nth_error (heap (run before)) h) as [d|] eqn:N; [|discriminate K].
  rewrite forallb_forall in Q. specialize (Q d (nth_error_In _ _ N)). rewrite K in Q.
  cbn [is_cached negb orb] in Q. apply negb_true_iff in Q. apply Nat.eqb_neq. exact Q.
Qed.

Lemma apartb_sound : forall ops, walk apartb init ops = true -> apart ops.
Proof.
  intros ops H. split.
  - intros before k u l up after h E I.
    assert (Q := walk_sound apartb ops [] H before _ after E). cbn [apartb app] in Q.
    rewrite forallb_forall in Q. specialize (Q h I). apply negb_true_iff in Q. apply Nat.eqb_neq. exact Q.
  - intros before u a after c h E. apply (idleb_sound u).
    exact (walk_sound apartb ops [] H before _ after E).
Qed.
