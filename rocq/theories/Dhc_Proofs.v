(* The text form of lease options: what is read and what is written. *)
From Coq Require Import List NArith Bool Lia.
Import ListNotations.
From Verif Require Import Common Dhc_Model Dhc_Spec.
Local Open Scope N_scope.

Definition nums (n : nat) : list N := map N.of_nat (seq 0 n).
Lemma in_nums x n : x < N.of_nat n -> In x (nums n).
Proof.
  intros H. unfold nums. apply in_map_iff. exists (N.to_nat x). split; [lia|].
  apply in_seq. lia.
Qed.

Definition onb (a b : option N) : bool :=
  match a, b with Some x, Some y => x =? y | None, None => true | _, _ => false end.
Lemma onb_eq a b : onb a b = true -> a = b.
Proof.
  destruct a, b; cbn; intros H; try discriminate H; [apply N.eqb_eq in H; subst|]; reflexivity.
Qed.

Lemma digit_lt c v : digit c v -> v < 16 /\ c < 128.
Proof.
  intros [H|H].
  - assert (L : (N.to_nat v < length lower)%nat)
      by (apply nth_error_Some; rewrite H; discriminate).
    split; [cbn in L; lia|]. apply nth_error_In in H. cbn in H.
    repeat (destruct H as [H|H]; [subst; reflexivity|]). destruct H.
  - assert (L : (N.to_nat v < length upper)%nat)
      by (apply nth_error_Some; rewrite H; discriminate).
    split; [cbn in L; lia|]. apply nth_error_In in H. cbn in H.
    repeat (destruct H as [H|H]; [subst; reflexivity|]). destruct H.
Qed.

Lemma hexchar_lt c v : hexchar c = Some v -> v < 16 /\ c < 128.
Proof.
  unfold hexchar. intros H.
  destruct ((48 <=? c) && (c <=? 57)) eqn:A.
  { apply andb_true_iff in A. rewrite !N.leb_le in A. injection H as H. lia. }
  destruct ((65 <=? c) && (c <=? 70)) eqn:B.
  { apply andb_true_iff in B. rewrite !N.leb_le in B. injection H as H. lia. }
  destruct ((97 <=? c) && (c <=? 102)) eqn:C; [|discriminate H].
  apply andb_true_iff in C. rewrite !N.leb_le in C. injection H as H. lia.
Qed.

Definition digb (c v : N) : bool :=
  onb (nth_error lower (N.to_nat v)) (Some c) || onb (nth_error upper (N.to_nat v)) (Some c).
Lemma digit_sweep :
  forallb (fun c => forallb (fun v => Bool.eqb (digb c v) (onb (hexchar c) (Some v))
                                      && implb (digb c v) (negb (c =? 58)))
                      (nums 16)) (nums 128) = true.
Proof. vm_compute. reflexivity. Qed.

Lemma sweep c v : c < 128 -> v < 16 ->
  digb c v = onb (hexchar c) (Some v) /\ (digb c v = true -> c <> 58).
Proof.
  intros Hc Hv. pose proof digit_sweep as W. rewrite forallb_forall in W.
  specialize (W c (in_nums c 128 Hc)). rewrite forallb_forall in W.
  specialize (W v (in_nums v 16 Hv)). apply andb_true_iff in W. destruct W as [A B].
  apply eqb_prop in A. split; [exact A|]. intros D. rewrite D in B. cbn [implb] in B.
  apply negb_true_iff in B. apply N.eqb_neq. exact B.
Qed.

Lemma digit_digb c v : digit c v <-> digb c v = true.
Proof.
  unfold digit, digb. rewrite orb_true_iff. split; intros [H|H].
  - left. rewrite H. cbn. apply N.eqb_refl.
  - right. rewrite H. cbn. apply N.eqb_refl.
  - left. apply onb_eq. exact H.
  - right. apply onb_eq. exact H.
Qed.

Lemma digit_hex c v : digit c v <-> hexchar c = Some v.
Proof.
  split; intros H.
  - destruct (digit_lt c v H) as [A B]. apply onb_eq.
    rewrite <- (proj1 (sweep c v B A)). apply digit_digb. exact H.
  - destruct (hexchar_lt c v H) as [A B]. apply digit_digb.
    rewrite (proj1 (sweep c v B A)), H. cbn. apply N.eqb_refl.
Qed.

Lemma digit_colon c v : digit c v -> c =? colon = false.
Proof.
  intros H. destruct (digit_lt c v H) as [A B]. apply N.eqb_neq.
  apply (proj2 (sweep c v B A)). apply digit_digb. exact H.
Qed.

Lemma two_sweep :
  forallb (fun v => forallb (fun w => N.lor (N.shiftl (N.lor 0 v) 4 mod 256) w =? 16 * v + w)
                      (nums 16)) (nums 16) = true.
Proof. vm_compute. reflexivity. Qed.
Lemma two v w : v < 16 -> w < 16 -> N.lor (N.shiftl (N.lor 0 v) 4 mod 256) w = 16 * v + w.
Proof.
  intros A B. pose proof two_sweep as W. rewrite forallb_forall in W.
  specialize (W v (in_nums v 16 A)). rewrite forallb_forall in W.
  specialize (W w (in_nums w 16 B)). apply N.eqb_eq. exact W.
Qed.

Lemma legal_hex c : (c =? colon) = false -> hexchar c = None -> ~ legal c.
Proof.
  intros A B [H|[v H]].
  - rewrite H, N.eqb_refl in A. discriminate A.
  - apply digit_hex in H. rewrite H in B. discriminate B.
Qed.

(* Steps of the reader. *)
Lemma htv_colon r : hex_to_value (colon :: r) = Some (1%nat, 0).
Proof. unfold hex_to_value. cbn [hex_loop]. rewrite N.eqb_refl. reflexivity. Qed.

Lemma htv_digit c v r : digit c v ->
  hex_to_value (c :: r) = hex_loop r 1 1 v.
Proof.
  intros H. unfold hex_to_value. cbn [hex_loop]. rewrite (digit_colon c v H).
  apply digit_hex in H. rewrite H. cbn [Nat.eqb]. rewrite N.lor_0_l. reflexivity.
Qed.

Lemma loop1_digit v d w r : v < 16 -> digit d w ->
  hex_loop (d :: r) 1 1 v = hex_loop r 2 2 (16 * v + w).
Proof.
  intros V H. cbn [hex_loop]. rewrite (digit_colon d w H).
  pose proof (digit_lt d w H) as [L _]. apply digit_hex in H. rewrite H. cbn [Nat.eqb].
  pose proof (two v w V L) as T. rewrite N.lor_0_l in T. rewrite T. reflexivity.
Qed.

Lemma loop_colon i u v r : hex_loop (colon :: r) i u v = Some (S u, v).
Proof. cbn [hex_loop]. rewrite N.eqb_refl. reflexivity. Qed.

Lemma loop2_digit u v e x r : digit e x -> hex_loop (e :: r) 2 u v = Some (u, v).
Proof.
  intros H. cbn [hex_loop]. rewrite (digit_colon e x H). apply digit_hex in H.
  rewrite H. reflexivity.
Qed.

Lemma loop_illegal i u v c r : (c =? colon) = false -> hexchar c = None ->
  hex_loop (c :: r) i u v = None.
Proof. intros A B. cbn [hex_loop]. rewrite A, B. reflexivity. Qed.

Lemma means_nil bs : means [] bs -> bs = [].
Proof.
  intros H. inversion H as [| | t v W | t v s b W M E1 E2|]; subst; [reflexivity| |].
  - inversion W.
  - destruct t; discriminate E1.
Qed.

Lemma kind c : c = colon \/ (exists v, digit c v) \/ ((c =? colon) = false /\ hexchar c = None).
Proof.
  destruct (c =? colon) eqn:A; [left; apply N.eqb_eq; exact A|]. right.
  destruct (hexchar c) as [v|] eqn:B; [left; exists v; apply digit_hex; exact B|].
  right. auto.
Qed.

(* Either a character is illegal or the reader consumes the first byte. *)
Lemma htv_cases r : r <> [] ->
  (hex_to_value r = None /\ exists c, In c r /\ ~ legal c)
  \/ exists u v, hex_to_value r = Some (u, v) /\ (1 <= u <= length r)%nat
       /\ forall bs, means (skipn u r) bs -> means r (v :: bs).
Proof.
  intros NE. destruct r as [|c r]; [destruct (NE eq_refl)|].
  destruct (kind c) as [E|[[v D]|[A B]]].
  - subst c. right. exists 1%nat, 0. split; [apply htv_colon|]. split; [cbn; lia|].
    intros bs M. cbn [skipn] in M. apply m_empty. exact M.
  - rewrite (htv_digit c v r D). pose proof (digit_lt c v D) as [V _].
    destruct r as [|d r].
    { right. exists 1%nat, v. split; [reflexivity|]. split; [cbn; lia|].
      intros bs M. cbn [skipn] in M. apply means_nil in M. subst bs.
      apply m_last. constructor. exact D. }
    destruct (kind d) as [E|[[w G]|[A B]]].
    { subst d. rewrite loop_colon. right. exists 2%nat, v. split; [reflexivity|].
      split; [cbn; lia|]. intros bs M. cbn [skipn] in M.
      apply (m_sep [c] v r bs); [constructor; exact D|exact M]. }
    2:{ left. split; [apply loop_illegal; assumption|]. exists d.
        split; [right; left; reflexivity|]. apply legal_hex; assumption. }
    rewrite (loop1_digit v d w r V G). destruct r as [|e r].
    { right. exists 2%nat, (16 * v + w). split; [reflexivity|]. split; [cbn; lia|].
      intros bs M. cbn [skipn] in M. apply means_nil in M. subst bs.
      apply m_last. constructor; assumption. }
    destruct (kind e) as [E|[[x F]|[A B]]].
    { subst e. rewrite loop_colon. right. exists 3%nat, (16 * v + w).
      split; [reflexivity|]. split; [cbn; lia|]. intros bs M. cbn [skipn] in M.
      apply (m_sep [c; d] (16 * v + w) r bs); [constructor; assumption|exact M]. }
    { rewrite (loop2_digit 2 (16 * v + w) e x r F). right.
      exists 2%nat, (16 * v + w). split; [reflexivity|]. split; [cbn; lia|].
      intros bs M. cbn [skipn] in M. apply (m_next c d v w e x r bs); assumption. }
    left. split; [apply loop_illegal; assumption|]. exists e.
    split; [right; right; left; reflexivity|]. apply legal_hex; assumption.
  - left. split; [apply loop_illegal; assumption|]. exists c.
    split; [left; reflexivity|]. apply legal_hex; assumption.
Qed.

(* The meaning of a text begins with the byte that the reader finds. *)
Lemma htv_means r bs : means r bs -> r <> [] ->
  exists u v b, hex_to_value r = Some (u, v) /\ (1 <= u <= length r)%nat
    /\ bs = v :: b /\ means (skipn u r) b.
Proof.
  intros M NE. destruct M as [| t bs M | t v W | t v s bs W M | c d v w e x s bs D G F M].
  - destruct (NE eq_refl).
  - exists 1%nat, 0, bs. split; [apply htv_colon|]. split; [cbn; lia|]. split; [reflexivity|exact M].
  - destruct W as [c v D|c d v w D G]; rewrite (htv_digit c v _ D).
    + exists 1%nat, v, []. split; [reflexivity|]. split; [cbn; lia|].
      split; [reflexivity|constructor].
    + rewrite (loop1_digit v d w _ (proj1 (digit_lt c v D)) G).
      exists 2%nat, (16 * v + w), []. split; [reflexivity|]. split; [cbn; lia|].
      split; [reflexivity|constructor].
  - destruct W as [c v D|c d v w D G]; cbn [app]; rewrite (htv_digit c v _ D).
    + rewrite loop_colon. exists 2%nat, v, bs. split; [reflexivity|].
      split; [cbn; lia|]. split; [reflexivity|exact M].
    + rewrite (loop1_digit v d w _ (proj1 (digit_lt c v D)) G), loop_colon.
      exists 3%nat, (16 * v + w), bs. split; [reflexivity|].
      split; [cbn; lia|]. split; [reflexivity|exact M].
  - rewrite (htv_digit c v _ D), (loop1_digit v d w _ (proj1 (digit_lt c v D)) G),
      (loop2_digit _ _ e x _ F).
    exists 2%nat, (16 * v + w), bs. split; [reflexivity|].
    split; [cbn; lia|]. split; [reflexivity|exact M].
Qed.

Fixpoint puts (b : option (list N)) (n : nat) (bs : list N) : option (list N) :=
  match bs with [] => b | v :: r => puts (put b n v) (S n) r end.

Lemma skipn_plus {A} (l : list A) a b : skipn b (skipn a l) = skipn (a + b) l.
Proof.
  revert l. induction a as [|a IH]; intros l; [reflexivity|].
  destruct l as [|x l]; [destruct b; reflexivity|]. cbn [skipn Nat.add]. apply IH.
Qed.

Lemma bytes_cases f : forall s i n b, (length s - i < f)%nat ->
  (hex_bytes f s i n b = HErr /\ exists c, In c (skipn i s) /\ ~ legal c)
  \/ exists bs, means (skipn i s) bs
       /\ hex_bytes f s i n b = HOk (n + length bs) (puts b n bs).
Proof.
  induction f as [|f IH]; intros s i n b F; [lia|]. cbn [hex_bytes].
  destruct (Nat.ltb_spec i (length s)) as [L|L].
  2:{ right. exists []. rewrite skipn_all2 by lia. split; [constructor|].
      cbn [length puts]. f_equal. lia. }
  assert (NE : skipn i s <> []).
  { intros E. apply (f_equal (@length N)) in E. rewrite skipn_length in E. cbn in E. lia. }
  destruct (htv_cases _ NE) as [[E [c [I C]]]|[u [v [E [U M]]]]]; rewrite E.
  { left. split; [reflexivity|]. exists c. auto. }
  rewrite skipn_length in U.
  destruct (IH s (i + u)%nat (S n) (put b n v) ltac:(lia)) as [[R [c [I C]]]|[bs [R Q]]].
  - left. split; [exact R|]. exists c. split; [|exact C].
    rewrite <- skipn_plus in I. rewrite <- (firstn_skipn u (skipn i s)).
    apply in_or_app. right. exact I.
  - right. exists (v :: bs). split.
    + apply M. rewrite skipn_plus. exact R.
    + rewrite Q. cbn [length puts]. f_equal. lia.
Qed.

Lemma bytes_means f : forall s i n b bs, (length s - i < f)%nat ->
  means (skipn i s) bs -> hex_bytes f s i n b = HOk (n + length bs) (puts b n bs).
Proof.
  induction f as [|f IH]; intros s i n b bs F M; [lia|]. cbn [hex_bytes].
  destruct (Nat.ltb_spec i (length s)) as [L|L].
  2:{ rewrite skipn_all2 in M by lia. apply means_nil in M. subst bs.
      cbn [length puts]. f_equal. lia. }
  assert (NE : skipn i s <> []).
  { intros E. apply (f_equal (@length N)) in E. rewrite skipn_length in E. cbn in E. lia. }
  destruct (htv_means _ _ M NE) as [u [v [r [E [U [-> R]]]]]]. rewrite E.
  rewrite skipn_length in U. rewrite skipn_plus in R.
  rewrite (IH s (i + u)%nat (S n) (put b n v) r ltac:(lia) R).
  cbn [length puts]. f_equal. lia.
Qed.

Lemma firstn_S_app (n : nat) (l1 l2 : list N) v : length l1 = n ->
  firstn (S n) (l1 ++ v :: l2) = l1 ++ [v].
Proof.
  revert l1. induction n as [|n IH]; intros [|x l1] L; try discriminate L; [reflexivity|].
  cbn [app]. change (firstn (S (S n)) (x :: l1 ++ v :: l2)) with (x :: firstn (S n) (l1 ++ v :: l2)).
  rewrite IH; [reflexivity|]. injection L as L. exact L.
Qed.

Lemma skipn_S_app (n : nat) (l1 l2 : list N) v : length l1 = n ->
  skipn (S n) (l1 ++ v :: l2) = l2.
Proof.
  revert l1. induction n as [|n IH]; intros [|x l1] L; try discriminate L; [reflexivity|].
  cbn [app]. change (skipn (S (S n)) (x :: l1 ++ v :: l2)) with (skipn (S n) (l1 ++ v :: l2)).
  apply IH. injection L as L. exact L.
Qed.

Lemma puts_spec bs : forall l n,
  puts (Some l) n bs
  = Some (firstn n l ++ firstn (length l - n) bs ++ skipn (n + length bs) l).
Proof.
  induction bs as [|v bs IH]; intros l n; cbn [puts].
  - rewrite firstn_nil. cbn [length app]. rewrite Nat.add_0_r, firstn_skipn. reflexivity.
  - unfold put. destruct (Nat.ltb_spec n (length l)) as [L|L].
    + assert (LN : length (firstn n l) = n) by (rewrite firstn_length; lia).
      assert (LL : length (firstn n l ++ v :: skipn (S n) l) = length l).
      { rewrite app_length, firstn_length.
        change (length (v :: skipn (S n) l)) with (S (length (skipn (S n) l))).
        rewrite skipn_length. lia. }
      rewrite IH, LL. apply f_equal.
      rewrite (firstn_S_app n (firstn n l) (skipn (S n) l) v LN).
      replace (length l - n)%nat with (S (length l - S n)) by lia.
      change (firstn (S (length l - S n)) (v :: bs)) with (v :: firstn (length l - S n) bs).
      change (length (v :: bs)) with (S (length bs)).
      rewrite <- app_assoc. apply f_equal. cbn [app]. apply f_equal. apply f_equal.
      replace (n + S (length bs))%nat with (S n + length bs)%nat by lia.
      rewrite <- (skipn_plus (firstn n l ++ v :: skipn (S n) l) (S n)).
      rewrite (skipn_S_app n (firstn n l) (skipn (S n) l) v LN).
      apply skipn_plus.
    + rewrite IH. apply f_equal.
      rewrite (firstn_all2 (n := n)), (firstn_all2 (n := S n)) by lia.
      replace (length l - S n)%nat with 0%nat by lia.
      replace (length l - n)%nat with 0%nat by lia.
      change (length (v :: bs)) with (S (length bs)).
      rewrite !skipn_all2 by lia. reflexivity.
Qed.

Lemma puts_none bs : forall n, puts None n bs = None.
Proof. induction bs as [|v bs IH]; intros n; cbn [puts put]; [reflexivity|apply IH]. Qed.

Lemma zeros_repeat (l : list N) : map (fun _ => 0) l = repeat 0 (length l).
Proof. induction l as [|x l IH]; [reflexivity|]. cbn. rewrite IH. reflexivity. Qed.

Lemma skipn_zeros m n : skipn n (repeat 0 m) = repeat (0 : N) (m - n).
Proof.
  revert m. induction n as [|n IH]; intros m; [rewrite Nat.sub_0_r; reflexivity|].
  destruct m as [|m]; [reflexivity|]. cbn [repeat skipn Nat.sub]. apply IH.
Qed.

Lemma puts_filled (l : list N) bs :
  puts (option_map (map (fun _ => 0)) (Some l)) 0 bs = Some (filled (length l) bs).
Proof.
  cbn [option_map]. rewrite puts_spec. cbn [firstn app Nat.add].
  rewrite map_length, Nat.sub_0_r. unfold filled. rewrite zeros_repeat, skipn_zeros.
  reflexivity.
Qed.

Lemma hex_ok s bs buf : means s bs ->
  hex_string_to_bytes s buf
  = HOk (length bs) (option_map (fun l => filled (length l) bs) buf).
Proof.
  intros M. unfold hex_string_to_bytes.
  rewrite (bytes_means (S (length s)) s 0 0 _ bs ltac:(lia) M). cbn [Nat.add].
  f_equal. destruct buf as [l|]; [apply puts_filled|]. cbn [option_map]. apply puts_none.
Qed.

Lemma digit_legal c v : digit c v -> legal c.
Proof. intros H. right. exists v. exact H. Qed.
Lemma writes_legal t v : writes t v -> Forall legal t.
Proof.
  intros W. destruct W as [c v D|c d v w D G].
  - constructor; [eapply digit_legal; eassumption|constructor].
  - constructor; [eapply digit_legal; eassumption|].
    constructor; [eapply digit_legal; eassumption|constructor].
Qed.

Lemma means_legal s bs : means s bs -> Forall legal s.
Proof.
  intros M. induction M as [|t bs M IH|t v W|t v s bs W M IH|c d v w e x s bs D G F M IH].
  - constructor.
  - constructor; [left; reflexivity|exact IH].
  - exact (writes_legal t v W).
  - apply Forall_app. split; [exact (writes_legal t v W)|].
    constructor; [left; reflexivity|exact IH].
  - constructor; [eapply digit_legal; eassumption|].
    constructor; [eapply digit_legal; eassumption|exact IH].
Qed.

Lemma hex_cases s buf :
  (hex_string_to_bytes s buf = HErr /\ exists c, In c s /\ ~ legal c)
  \/ exists bs, means s bs.
Proof.
  unfold hex_string_to_bytes.
  destruct (bytes_cases (S (length s)) s 0 0
              (option_map (map (fun _ => 0)) buf) ltac:(lia)) as [H|[bs [M _]]].
  - left. exact H.
  - right. exists bs. exact M.
Qed.

Lemma colons_mean s bs : colons s bs -> means s bs.
Proof.
  induction 1 as [t v W|t v s bs W C IH]; [apply m_last; exact W|apply m_sep; assumption].
Qed.

Lemma pairs_mean s bs : pairs s bs -> means s bs.
Proof.
  induction 1 as [|c d v w s bs D G P IH]; [constructor|].
  destruct P as [|e f x y s bs E F P].
  - apply m_last. constructor; assumption.
  - apply (m_next c d v w e x); assumption.
Qed.

(* Values are bytes. *)
Lemma means_bytes s bs : means s bs -> bytes bs.
Proof.
  assert (W2 : forall t v, writes t v -> v < 256).
  { intros t v W. destruct W as [c v D|c d v w D G].
    - pose proof (digit_lt c v D). lia.
    - pose proof (digit_lt c v D). pose proof (digit_lt d w G). lia. }
  intros M. induction M as [|t bs M IH|t v W|t v s bs W M IH|c d v w e x s bs D G F M IH].
  - constructor.
  - constructor; [lia|exact IH].
  - constructor; [exact (W2 t v W)|constructor].
  - constructor; [exact (W2 t v W)|exact IH].
  - constructor; [exact (W2 _ _ (w_two c d v w D G))|exact IH].
Qed.
