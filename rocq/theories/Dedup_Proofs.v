From Verif Require Import Common Dedup_Model Dedup_Spec.
Local Open Scope N_scope.

(** The ring holds the last 25 of the executed requests followed by zero entries. *)
Definition ring (h : hist) (past : list (N * N)) : Prop :=
  (idx h < SIZE)%nat /\ List.length (slots h) = SIZE /\
  (* newest first, read backwards from the index *)
  rev (firstn (idx h) (slots h)) ++ rev (skipn (idx h) (slots h)) = firstn SIZE (past ++ repeat (0, 0) SIZE).

Lemma ring_init : ring init [].
Proof. split; [unfold SIZE; cbn; lia|]. split; [reflexivity|]. reflexivity. Qed.

Lemma write_app (l1 : list (N * N)) (x v : N * N) (l2 : list (N * N)) : write (List.length l1) v (l1 ++ x :: l2) = l1 ++ v :: l2.
Proof. induction l1 as [|y r IH]; cbn; [reflexivity|f_equal; exact IH]. Qed.

Lemma firstn_cons_last {A} (n : nat) (v : A) (l : list A) (x : A) (m : list A) :
  firstn n l = m ++ [x] -> List.length (m ++ [x]) = n -> firstn n (v :: l) = v :: m.
Proof.
  intros H Hn. rewrite app_length in Hn. cbn in Hn. destruct n as [|n]; [lia|]. cbn [firstn]. f_equal.
  assert (E : firstn n l = firstn n (firstn (S n) l)) by (rewrite firstn_firstn; f_equal; lia).
  rewrite E, H. rewrite firstn_app. replace (n - List.length m)%nat with 0%nat by lia. cbn [firstn]. rewrite app_nil_r.
  apply firstn_all2. lia.
Qed.

Lemma ring_write (h : hist) (past : list (N * N)) (v : N * N) : ring h past ->
  ring (mkH (write (idx h) v (slots h)) (Nat.modulo (idx h + 1) SIZE)) (v :: past).
Proof.
  intros (H1 & H2 & H3). set (l1 := firstn (idx h) (slots h)) in *.
  assert (Hl1 : List.length l1 = idx h) by (unfold l1; rewrite firstn_length; lia).
  destruct (skipn (idx h) (slots h)) as [|x l2] eqn:E.
  { exfalso. pose proof (skipn_length (idx h) (slots h)) as K. rewrite E, H2 in K. cbn [List.length] in K. lia. }
  assert (Es : slots h = l1 ++ x :: l2) by (unfold l1; rewrite <- E, firstn_skipn; reflexivity).
  assert (Hw : write (idx h) v (slots h) = l1 ++ v :: l2) by (rewrite Es, <- Hl1; apply write_app).
  assert (Hlen : List.length (l1 ++ v :: l2) = SIZE) by (rewrite <- H2, Es, !app_length; reflexivity).
  rewrite Hw. split; [cbn [idx]; apply Nat.mod_upper_bound; discriminate|]. split; [exact Hlen|]. cbn [idx slots].
  assert (Hnew : firstn SIZE ((v :: past) ++ repeat (0, 0) SIZE) = v :: rev l1 ++ rev l2).
  { cbn [app]. cbn [rev] in H3. rewrite app_assoc in H3. apply firstn_cons_last with (x := x); [symmetry; exact H3|].
    rewrite app_length, app_length, !rev_length. cbn. rewrite Es, app_length in H2. cbn in H2. lia. }
  rewrite Hnew. rewrite app_length in Hlen. cbn [List.length] in Hlen.
  destruct (Nat.eq_dec (idx h + 1) SIZE) as [Eq|Ne].
  - rewrite Eq, Nat.mod_same by discriminate. cbn [firstn skipn rev app].
    assert (l2 = []) by (destruct l2; [reflexivity|cbn in Hlen; lia]). subst l2.
    rewrite rev_app_distr. cbn. rewrite app_nil_r. reflexivity.
  - rewrite Nat.mod_small by lia. replace (idx h + 1)%nat with (List.length (l1 ++ [v])) by (rewrite app_length; cbn; lia).
    replace (l1 ++ v :: l2) with ((l1 ++ [v]) ++ l2) by (rewrite <- app_assoc; reflexivity).
    rewrite firstn_app, skipn_app, Nat.sub_diag, firstn_all, skipn_all. cbn [firstn skipn app]. rewrite app_nil_r, rev_app_distr. reflexivity.
Qed.

Lemma ring_in (h : hist) (past : list (N * N)) (e : N * N) : ring h past ->
  In e (slots h) <-> In e (firstn SIZE (past ++ repeat (0, 0) SIZE)).
Proof.
  intros (_ & _ & H). rewrite <- H, in_app_iff, <- !in_rev, <- in_app_iff, firstn_skipn. reflexivity.
Qed.
Lemma is_dup_spec (h : hist) (m d : N) : is_dup h m d = true <-> In (m, d) (slots h).
Proof.
  unfold is_dup. rewrite existsb_exists. split.
  - intros ((a & b) & Hin & E). cbn in E. apply andb_prop in E as [E1 E2]. apply N.eqb_eq in E1, E2. subst. exact Hin.
  - intros H. exists (m, d). split; [exact H|]. cbn. rewrite !N.eqb_refl. reflexivity.
Qed.

(** In the window: executed within the last 25, or the zero entry while fewer than 25 were executed. *)
Lemma window_in (past : list (N * N)) (e : N * N) :
  In e (firstn SIZE (past ++ repeat (0, 0) SIZE)) <-> In e (firstn SIZE past) \/ e = (0, 0) /\ (List.length past < SIZE)%nat.
Proof.
  rewrite firstn_app, in_app_iff. split; intros [H|H]; auto.
  - right. destruct (Nat.lt_ge_cases (List.length past) SIZE) as [Hl|Hl].
    + split; [|exact Hl]. apply (repeat_spec SIZE (0, 0) e). rewrite <- (firstn_skipn (SIZE - List.length past) (repeat (0, 0) SIZE)).
      apply in_or_app. left. exact H.
    + replace (SIZE - List.length past)%nat with 0%nat in H by lia. destruct H.
  - right. destruct H as [-> Hl]. destruct (SIZE - List.length past)%nat as [|n] eqn:E; [lia|]. left. reflexivity.
Qed.

Definition good_answer (past : list (N * N)) (r : req) (a : bool) : Prop :=
  a = true <-> r_con r = true \/ fresh SIZE past r /\ ~ ((r_mid r, r_dev r) = (0, 0) /\ (List.length past < SIZE)%nat).

Lemma accept_ring (h : hist) (past : list (N * N)) (r : req) : ring h past ->
  let (h', a) := accept h r in ring h' (if a && negb (r_con r) then (r_mid r, r_dev r) :: past else past) /\ good_answer past r a.
Proof.
  intros H. unfold accept, good_answer, fresh. destruct (r_con r) eqn:Ec.
  - cbn. split; [exact H|tauto].
  - destruct (is_dup h (r_mid r) (r_dev r)) eqn:Ed; cbn [andb negb].
    + split; [exact H|]. apply is_dup_spec, (ring_in h past _ H), window_in in Ed. split; [discriminate|]. intros [K|[K1 K2]]; [discriminate|].
      destruct Ed as [Ed|Ed]; [exfalso; exact (K1 Ed)|exfalso; exact (K2 Ed)].
    + split; [apply ring_write, H|]. split; [|reflexivity]. intros _. right.
      assert (K : ~ In (r_mid r, r_dev r) (slots h)) by (rewrite <- is_dup_spec, Ed; discriminate).
      rewrite (ring_in h past _ H), window_in in K. tauto.
Qed.

Fixpoint all_good (past : list (N * N)) (rs : list req) (ans : list bool) : Prop :=
  match rs, ans with
  | [], [] => True
  | r :: rs', a :: ans' => good_answer past r a /\ all_good (if a && negb (r_con r) then (r_mid r, r_dev r) :: past else past) rs' ans'
  | _, _ => False
  end.
Lemma run_good (rs : list req) : forall h past, ring h past -> all_good past rs (answers h rs).
Proof.
  induction rs as [|r rs IH]; intros h past H; [exact I|]. cbn [answers]. pose proof (accept_ring h past r H) as K.
  destruct (accept h r) as [h' a]. destruct K as [K1 K2]. split; [exact K2|]. apply IH, K1.
Qed.

Lemma executed_app (rs1 rs2 : list req) : forall a1 a2 acc, List.length rs1 = List.length a1 ->
  executed (rs1 ++ rs2) (a1 ++ a2) acc = executed rs2 a2 (executed rs1 a1 acc).
Proof.
  induction rs1 as [|r rs1 IH]; intros [|a a1] a2 acc H; try discriminate; [reflexivity|]. cbn. apply IH. injection H as H. exact H.
Qed.
Lemma answers_length (rs : list req) : forall h, List.length (answers h rs) = List.length rs.
Proof. induction rs as [|r rs IH]; intros h; [reflexivity|]. cbn. destruct (accept h r). cbn. rewrite IH. reflexivity. Qed.

Definition final (h : hist) (rs : list req) : hist := fold_left (fun h r => fst (accept h r)) rs h.
Lemma answers_app (rs1 rs2 : list req) : forall h, answers h (rs1 ++ rs2) = answers h rs1 ++ answers (final h rs1) rs2.
Proof.
  induction rs1 as [|r rs1 IH]; intros h; [reflexivity|]. cbn. destruct (accept h r) as [h' a] eqn:E. cbn. f_equal. apply IH.
Qed.
Lemma ring_run (rs : list req) : forall h past, ring h past -> ring (final h rs) (executed rs (answers h rs) past).
Proof.
  induction rs as [|r rs IH]; intros h past H; [exact H|]. cbn. pose proof (accept_ring h past r H) as K. destruct (accept h r) as [h' a] eqn:E.
  destruct K as [K1 K2]. cbn. apply IH, K1.
Qed.

Lemma exact_answer (rs : list req) (r : req) : let past := executed rs (answers init rs) [] in
  answers init (rs ++ [r]) = answers init rs ++ [snd (accept (final init rs) r)] /\ good_answer past r (snd (accept (final init rs) r)).
Proof.
  intros past. split.
  - rewrite answers_app. cbn [answers]. destruct (accept (final init rs) r). reflexivity.
  - pose proof (accept_ring (final init rs) past r (ring_run rs init [] ring_init)) as K. destruct (accept _ r). apply K.
Qed.

(** No recorded request repeats one of the 25 before it. *)
Fixpoint window_nodup (n : nat) (l : list (N * N)) : Prop :=
  match l with [] => True | x :: r => ~ In x (firstn n r) /\ window_nodup n r end.
Lemma window_run (rs : list req) : forall h past, ring h past -> window_nodup SIZE past ->
  window_nodup SIZE (executed rs (answers h rs) past).
Proof.
  induction rs as [|r rs IH]; intros h past H Hw; [exact Hw|]. cbn [answers]. pose proof (accept_ring h past r H) as K.
  destruct (accept h r) as [h' a]. destruct K as [K1 K2]. cbn [executed]. apply IH; [exact K1|].
  destruct (a && negb (r_con r)) eqn:E; [|exact Hw]. apply andb_prop in E as [-> E]. split; [|exact Hw].
  destruct K2 as [K2 _]. destruct (K2 eq_refl) as [K|[K _]]; [rewrite K in E; discriminate|exact K].
Qed.
