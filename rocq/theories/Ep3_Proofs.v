From Verif Require Import Common Ep_Model Ep_Spec Ep_Proofs Ep2_Proofs.
From Coq Require Import String.
Local Open Scope string_scope.
Local Open Scope list_scope.
Local Open Scope N_scope.

(** * Reading an IPv6 address *)
Lemma bytes_of_zeros k : bytes_of (repeat 0 k) = repeat 0 (2 * k).
Proof. induction k as [|k IH]; [reflexivity|]. cbn [repeat]. change (bytes_of (0 :: repeat 0 k)) with ([0; 0] ++ bytes_of (repeat 0 k)). rewrite IH. replace (2 * S k)%nat with (S (S (2 * k))) by lia. reflexivity. Qed.
Lemma parse6_reads a t : v6_text a t -> parse6 t = Some a.
Proof.
  intros [ws ts L F|l k r lt rt L K Fl Fr]; unfold parse6.
  - destruct (loop_join ws ts F 1 [] [] None (bytes_of ws, None) I) as (f & Lf & H); [cbn; lia|reflexivity|].
    rewrite app_nil_r in H. apply loop_more_le with (f' := S (List.length (join ts))) in H; [|lia]. rewrite H.
    unfold pad. rewrite bytes_of_len, L. cbn [repeat]. replace (16 - 2 * 8)%nat with 0%nat by lia. cbn [repeat]. rewrite app_nil_r. reflexivity.
  - destruct (loop_gap r rt Fr (bytes_of l)) as (f & Lf & H); [rewrite bytes_of_len; lia|].
    destruct (loop_join l lt Fl f (58 :: 58 :: join rt) [] None (bytes_of l ++ bytes_of r, Some (List.length (bytes_of l))) eq_refl) as (f' & Lf' & H'); [cbn [List.length]; lia|exact H|].
    apply loop_more_le with (f' := S (List.length (join lt ++ [58; 58] ++ join rt))) in H'; [|rewrite !app_length; cbn [List.length]; lia].
    change (join lt ++ 58 :: 58 :: join rt) with (join lt ++ [58; 58] ++ join rt) in H'. rewrite H'. f_equal.
    replace (List.length (bytes_of l ++ bytes_of r) - List.length (bytes_of l))%nat with (List.length (bytes_of r)) by (rewrite app_length; lia).
    rewrite shift_spec by (rewrite !bytes_of_len; lia). rewrite !bytes_of_app, bytes_of_zeros, !bytes_of_len.
    do 3 f_equal. lia.
Qed.

(** * Printing an IPv6 address *)
Ltac eight ws H := do 8 (destruct ws as [|? ws]; [discriminate H|]); destruct ws as [|? ?]; [|discriminate H].
Definition run_ok (zs : list bool) : bool :=
  match best_run zs with
  | Some (b, l) => (b + l <=? 8)%nat && (1 <=? l)%nat && forallb (fun x => x) (firstn l (skipn b zs)) &&
                   (negb ((b =? 0)%nat && (l =? 6)%nat) || negb (nth 6 zs false))
  | None => true
  end.
Lemma run_ok_all zs : List.length zs = 8%nat -> run_ok zs = true.
Proof.
  intros L. eight zs L. repeat match goal with b : bool |- _ => destruct b end; vm_compute; reflexivity.
Qed.

Lemma ntop_none ws : List.length ws = 8%nat -> ntop_words 0 ws None None = join (map hex ws).
Proof. intros L. eight ws L. unfold ntop_words, join, map. cbn [Nat.eqb app]. repeat rewrite <- app_assoc. cbn [app]. rewrite ?app_nil_r. reflexivity. Qed.
Lemma ntop_some ws b l : List.length ws = 8%nat -> (b + l <= 8)%nat -> (1 <= l)%nat ->
  ntop_words 0 ws (Some (b, l)) None = join (map hex (firstn b ws)) ++ [58; 58] ++ join (map hex (skipn (b + l) ws)).
Proof.
  intros L B P. eight ws L.
  do 9 (destruct b as [|b];
    [destruct l as [|l]; [lia|]; do 8 (destruct l as [|l];
       [unfold ntop_words; cbn [Nat.eqb Nat.leb Nat.ltb Nat.add andb join map firstn skipn app]; repeat (rewrite <- app_assoc; cbn [app]); rewrite ?app_nil_r; try reflexivity; exfalso; lia|]); exfalso; lia|]).
  exfalso; lia.
Qed.

Lemma words_len a : List.length a = 16%nat -> List.length (words a) = 8%nat.
Proof. intros L. do 16 (destruct a as [|? a]; [discriminate L|]). destruct a; [reflexivity|discriminate L]. Qed.
Lemma words_two n : forall a, (List.length a <= n)%nat -> forall k, List.length a = (2 * k)%nat -> bytes_ok a -> bytes_of (words a) = a /\ Forall (fun w => w < 65536) (words a).
Proof.
  induction n as [|n IH]; intros a L k E B.
  - destruct a; [|cbn in L; lia]. split; [reflexivity|constructor].
  - destruct a as [|x [|y a]]; [split; [reflexivity|constructor]|cbn in E; lia|].
    inversion B as [|? ? Bx B']; subst. inversion B' as [|? ? By B'']; subst. cbn [List.length] in L, E.
    destruct (IH a ltac:(lia) (k - 1)%nat ltac:(lia) B'') as [H1 H2]. unfold is_byte in *. split.
    + cbn [words]. change (bytes_of (256 * x + y :: words a)) with ([(256 * x + y) / 256; (256 * x + y) mod 256] ++ bytes_of (words a)).
      rewrite H1, hi, lo by assumption. reflexivity.
    + cbn [words]. constructor; [lia|assumption].
Qed.
Lemma hex_groups ws : Forall (fun w => w < 65536) ws -> Forall2 group ws (map hex ws).
Proof. induction 1; [constructor|]. cbn [map]. constructor; [apply hex_group; assumption|assumption]. Qed.

Definition is0 (w : N) : bool := w =? 0.
Lemma all_zero ws : forallb (fun x => x) (map is0 ws) = true -> ws = repeat 0 (List.length ws).
Proof.
  induction ws as [|w ws IH]; intros H; [reflexivity|]. cbn [map forallb] in H. apply andb_true_iff in H. destruct H as [H1 H2].
  unfold is0 in H1. apply N.eqb_eq in H1. subst w. cbn [List.length repeat]. f_equal. auto.
Qed.
Lemma ntop6_text a : List.length a = 16%nat -> bytes_ok a ->
  embedded (words a) (best_run (map is0 (words a))) = false -> v6_text a (ntop6 a).
Proof.
  intros L B E. destruct (words_two 16 a ltac:(lia) 8 ltac:(lia) B) as [W1 W2]. pose proof (words_len a L) as WL.
  unfold ntop6. fold is0. rewrite E. rewrite <- W1 at 1.
  pose proof (run_ok_all (map is0 (words a)) ltac:(rewrite map_length; exact WL)) as R. unfold run_ok in R.
  destruct (best_run (map is0 (words a))) as [[b l]|].
  - apply andb_true_iff in R. destruct R as [R _]. apply andb_true_iff in R. destruct R as [R Z]. apply andb_true_iff in R. destruct R as [R1 R2].
    apply Nat.leb_le in R1, R2. rewrite skipn_map, firstn_map in Z. apply all_zero in Z.
    assert (ZL : List.length (firstn l (skipn b (words a))) = l) by (rewrite firstn_length, skipn_length; lia). rewrite ZL in Z.
    rewrite ntop_some by assumption.
    assert (D : words a = firstn b (words a) ++ repeat 0 l ++ skipn (b + l) (words a)).
    { rewrite <- Z. rewrite <- skipn_skipn. rewrite firstn_skipn. rewrite firstn_skipn. reflexivity. }
    assert (Fw : Forall (fun w => w < 65536) (firstn b (words a)) /\ Forall (fun w => w < 65536) (skipn (b + l) (words a))).
    { rewrite D in W2. apply Forall_app in W2. destruct W2 as [X W2]. apply Forall_app in W2. tauto. }
    rewrite D at 1. apply V6_gap; [rewrite firstn_length, skipn_length; lia|assumption|apply hex_groups; tauto|apply hex_groups; tauto].
  - rewrite ntop_none by assumption. apply V6_full; [assumption|apply hex_groups; assumption].
Qed.
Lemma embedded_dotted a : List.length a = 16%nat -> bytes_ok a ->
  embedded (words a) (best_run (map is0 (words a))) = true -> dotted a.
Proof.
  intros L B E. destruct (words_two 16 a ltac:(lia) 8 ltac:(lia) B) as [_ W2]. pose proof (words_len a L) as WL.
  pose proof (run_ok_all (map is0 (words a)) ltac:(rewrite map_length; exact WL)) as R. unfold run_ok in R. unfold embedded in E.
  destruct (best_run (map is0 (words a))) as [[[|b] l]|]; [|discriminate|discriminate].
  apply andb_true_iff in R. destruct R as [R S6]. apply andb_true_iff in R. destruct R as [R Z].
  do 16 (destruct a as [|? a]; [discriminate L|]). destruct a; [|discriminate L]. clear L.
  cbn [words map] in *. apply orb_true_iff in E. destruct E as [E|E].
  - apply Nat.eqb_eq in E. subst l. cbn [skipn firstn forallb] in Z. cbn [Nat.eqb andb negb orb nth] in S6.
    repeat (apply andb_true_iff in Z; destruct Z as [? Z]). unfold is0 in *. left. split.
    + intros i Li. repeat match goal with H : (_ =? 0) = true |- _ => apply N.eqb_eq in H end.
      do 12 (destruct i as [|i]; [cbn [nth]; lia|]). lia.
    + cbn [nth]. intros [-> ->]. rewrite N.eqb_refl in S6 || (vm_compute in S6); discriminate.
  - apply andb_true_iff in E. destruct E as [E F]. apply Nat.eqb_eq in E. subst l. cbn [nth] in F. apply N.eqb_eq in F. cbn [skipn firstn forallb] in Z.
    repeat (apply andb_true_iff in Z; destruct Z as [? Z]). unfold is0 in *. right.
    unfold bytes_ok in *. repeat match goal with H : Forall _ (_ :: _) |- _ => inversion H; clear H; subst end. unfold is_byte in *. split.
    + intros i Li. repeat match goal with H : (_ =? 0) = true |- _ => apply N.eqb_eq in H end.
      do 10 (destruct i as [|i]; [cbn [nth]; lia|]). lia.
    + cbn [nth]. lia.
Qed.

(** * The whole text *)
Lemma index_app c l r : ~ In c l -> index_of c (l ++ r) = option_map (fun i => (List.length l + i)%nat) (index_of c r).
Proof.
  induction l as [|x l IH]; intros H.
  - cbn [app List.length]. destruct (index_of c r); reflexivity.
  - cbn [app index_of List.length]. replace (x =? c) with false by (symmetry; apply N.eqb_neq; intros ->; apply H; left; reflexivity).
    rewrite IH by (intros X; apply H; right; exact X). destruct (index_of c r); reflexivity.
Qed.
Lemma index_none c l : ~ In c l -> index_of c l = None.
Proof. intros H. rewrite <- (app_nil_r l), index_app by assumption. reflexivity. Qed.
Lemma index_here c r : index_of c (c :: r) = Some O.
Proof. cbn [index_of]. rewrite N.eqb_refl. reflexivity. Qed.

Lemma reads_out b t n c : reads b t n -> c = 58 \/ c = 47 \/ c = 93 \/ c = 46 -> ~ In c t.
Proof. intros R H I. apply reads_chars in R. rewrite Forall_forall in R. specialize (R c I). destruct R as (A & B & C & D). intuition congruence. Qed.

Lemma parse_uri_tail fl h tl p uri : ~ In 47 h -> tail_text (N.testbit fl 1) tl p uri ->
  colon_of (h ++ tl) = Some (option_map (fun i => (List.length h + i)%nat) (index_of 58 tl)) ->
  parse_uri fl (h ++ tl) = Some (List.length h, p, uri).
Proof.
  intros H T C. unfold parse_uri. rewrite C, (index_app 47) by assumption. rewrite has_sec.
  destruct T as [|t p R L|u NC|t p u R L].
  - cbn [index_of option_map]. rewrite app_nil_r. reflexivity.
  - change ([58] ++ t) with (58 :: t). rewrite index_here. cbn [option_map].
    rewrite (index_none 47) by (intros [X|X]; [discriminate|exact (reads_out _ _ _ 47 R ltac:(auto) X)]). cbn [option_map].
    rewrite Nat.add_0_r. replace (skipn (List.length h + 1) (h ++ 58 :: t)) with t.
    2:{ rewrite skipn_app, skipn_all2, Nat.add_comm, Nat.add_sub by lia. reflexivity. }
    destruct (reads_digits _ _ R) as [D _]. rewrite D. rewrite <- (app_nil_r t), (strtoul_reads t p [] R L I). cbn [fst].
    rewrite N.mod_small by assumption. reflexivity.
  - rewrite (index_none 58) by (intros [X|X]; [discriminate|exact (NC X)]). cbn [option_map app]. rewrite index_here. cbn [option_map]. rewrite Nat.add_0_r.
    rewrite skipn_app, Nat.sub_diag, skipn_all. cbn [app skipn]. reflexivity.
  - change ([58] ++ t ++ [47] ++ u) with (58 :: (t ++ 47 :: u)). rewrite index_here. cbn [option_map].
    change (58 :: (t ++ 47 :: u)) with (([58] ++ t) ++ (47 :: u)).
    rewrite (index_app 47 ([58] ++ t)) by (intros [X|X]; [discriminate|exact (reads_out _ _ _ 47 R ltac:(auto) X)]).
    rewrite index_here. cbn [option_map]. rewrite !Nat.add_0_r.
    replace (skipn (List.length h + 1) (h ++ ([58] ++ t) ++ 47 :: u)) with (t ++ 47 :: u).
    2:{ rewrite (skipn_app _ h), skipn_all2, Nat.add_comm, Nat.add_sub by lia. reflexivity. }
    replace (List.length h + 1 <=? List.length h + List.length ([58%N] ++ t))%nat with true by (symmetry; apply Nat.leb_le; cbn [List.length app]; lia).
    replace (List.length h + List.length ([58%N] ++ t) - (List.length h + 1))%nat with (List.length t + 0)%nat by (cbn [List.length app]; lia).
    rewrite firstn_app_2. cbn [firstn]. rewrite app_nil_r. destruct (reads_digits _ _ R) as [D _]. rewrite D. cbn [andb].
    rewrite (strtoul_reads t p (47 :: u) R L eq_refl). cbn [fst].
    rewrite N.mod_small by assumption. do 2 f_equal.
    rewrite app_assoc. replace (List.length h + List.length ([58%N] ++ t))%nat with (List.length (h ++ [58%N] ++ t) + 0)%nat by (rewrite app_length; lia).
    rewrite skipn_app, skipn_all2 by lia. replace (List.length (h ++ [58%N] ++ t) + 0 - List.length (h ++ [58%N] ++ t))%nat with 0%nat by lia. reflexivity.
Qed.

Lemma colon_v4 h tl : ~ In 58 h -> hd 0 (h ++ tl) <> 91 -> colon_of (h ++ tl) = Some (option_map (fun i => (List.length h + i)%nat) (index_of 58 tl)).
Proof.
  intros H NB. unfold colon_of.
  assert (X : match h ++ tl with 91 :: _ => match index_of 93 (h ++ tl) with None => None | Some k => Some (option_map (fun i => (k + i)%nat) (index_of 58 (firstn (List.length (h ++ tl) - (k + 1)) (skipn k (h ++ tl))))) end | _ => Some (index_of 58 (h ++ tl)) end = Some (index_of 58 (h ++ tl))).
  { destruct (h ++ tl) as [|c s]; [reflexivity|]. cbn [hd] in NB. destruct c as [|p]; [reflexivity|]. do 7 (destruct p as [p|p|]; try reflexivity). contradiction. }
  rewrite X. rewrite index_app by assumption. reflexivity.
Qed.
Lemma colon_v6 t tl s p u : ~ In 93 t -> tail_text s tl p u ->
  colon_of ((91 :: t ++ [93]) ++ tl) = Some (option_map (fun i => (List.length (91%N :: t ++ [93%N]) + i)%nat) (index_of 58 tl)).
Proof.
  intros H T. unfold colon_of.
  change ((91 :: t ++ [93]) ++ tl) with (91 :: ((t ++ [93]) ++ tl)). cbn iota.
  assert (K : index_of 93 (91 :: ((t ++ [93]) ++ tl)) = Some (S (List.length t))).
  { rewrite <- app_assoc. change (91 :: t ++ [93] ++ tl) with ((91 :: t) ++ [93] ++ tl). rewrite index_app.
    - cbn [app]. rewrite index_here. cbn [option_map List.length]. f_equal. lia.
    - intros [X|X]; [discriminate|exact (H X)]. }
  rewrite K. f_equal.
  replace (skipn (S (List.length t)) (91 :: ((t ++ [93]) ++ tl))) with (93 :: tl).
  2:{ cbn [skipn]. rewrite <- app_assoc. rewrite skipn_app, Nat.sub_diag, skipn_all. reflexivity. }
  replace (List.length (91%N :: ((t ++ [93%N]) ++ tl)) - (S (List.length t) + 1))%nat with (List.length tl) by (cbn [List.length]; rewrite !app_length; cbn [List.length]; lia).
  cbn [List.length]. rewrite app_length. cbn [List.length].
  destruct T as [|x q R L|v NC|x q v R L].
  - reflexivity.
  - pose proof (reads_nonempty _ _ _ R). destruct x as [|c x]; [contradiction|]. cbn. change (93 =? 58) with false. change (58 =? 58) with true. cbn [option_map]. f_equal. lia.
  - rewrite (index_none 58 ([47] ++ v)) by (intros [X|X]; [discriminate|exact (NC X)]).
    rewrite index_none; [reflexivity|]. intros X.
    assert (Y : In 58 (93 :: [47] ++ v)) by (rewrite <- (firstn_skipn (List.length ([47] ++ v)) (93 :: [47] ++ v)); apply in_or_app; left; exact X).
    destruct Y as [Y|[Y|Y]]; [discriminate|discriminate|exact (NC Y)].
  - pose proof (reads_nonempty _ _ _ R). destruct x as [|c x]; [contradiction|]. cbn. change (93 =? 58) with false. change (58 =? 58) with true. cbn [option_map]. f_equal. lia.
Qed.

Lemma prefix_true p s : prefix_of p s = true -> exists r, s = p ++ r.
Proof. unfold prefix_of. intros H. apply andb_true_iff in H. destruct H as [_ H]. apply list_eqb_spec in H. exists (skipn (List.length p) s). rewrite <- H at 1. symmetry. apply firstn_skipn. Qed.
Lemma prefix_ok p r : r <> [] -> prefix_of p (p ++ r) = true.
Proof.
  intros H. unfold prefix_of. rewrite app_length, firstn_app, Nat.sub_diag, firstn_all. cbn [firstn]. rewrite app_nil_r, list_eqb_refl, andb_true_r.
  apply Nat.ltb_lt. destruct r; [contradiction|]. cbn [List.length]. lia.
Qed.
Lemma scheme_text tcp sec sc : scheme tcp sec sc -> forall r, r <> [] -> parse_scheme (sc ++ r) = Some (flags_of tcp sec, r).
Proof.
  intros Sc r NE. unfold parse_scheme. cbv zeta.
  assert (NP : forall fl k, (forall r', sc ++ r <> scheme_of fl ++ r') ->
     (if prefix_of (scheme_of fl) (sc ++ r) then Some (fl, skipn (List.length (scheme_of fl)) (sc ++ r)) else k) = k).
  { intros fl k H. destruct (prefix_of (scheme_of fl) (sc ++ r)) eqn:E; [|reflexivity]. apply prefix_true in E. destruct E as [r' E]. exfalso. exact (H r' E). }
  assert (YP : forall fl k, scheme_of fl = sc ->
     (if prefix_of (scheme_of fl) (sc ++ r) then Some (fl, skipn (List.length (scheme_of fl)) (sc ++ r)) else k) = Some (fl, r)).
  { intros fl k E. rewrite E. rewrite prefix_ok by assumption. rewrite skipn_app, Nat.sub_diag, skipn_all. reflexivity. }
  destruct Sc.
  - rewrite !NP by (intros r'; vm_compute; discriminate). rewrite YP by reflexivity. reflexivity.
  - rewrite 2 NP by (intros r'; vm_compute; discriminate). rewrite YP by reflexivity. reflexivity.
  - rewrite NP by (intros r'; vm_compute; discriminate). rewrite YP by reflexivity. reflexivity.
  - rewrite YP by reflexivity. reflexivity.
Qed.
