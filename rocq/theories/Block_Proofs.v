From Verif Require Import Common Block_Model Block_Spec.
Local Open Scope N_scope.

Lemma opt_eqb_spec (a b : option (list N)) : opt_eqb a b = true <-> a = b.
Proof.
  destruct a as [x|], b as [y|]; cbn; try (split; [discriminate|congruence]); [|tauto]. rewrite list_eqb_spec. split; congruence.
Qed.
Lemma key_eqb_spec (a b : key) : key_eqb a b = true <-> a = b.
Proof.
  destruct a as [h1 e1 m1 q1], b as [h2 e2 m2 q2]. unfold key_eqb. cbn [k_href k_ep k_method k_query].
  rewrite !andb_true_iff, list_eqb_spec, !N.eqb_eq, opt_eqb_spec. split; [intros (((-> & ->) & ->) & ->); reflexivity|].
  intros E. injection E as -> -> -> ->. tauto.
Qed.
Lemma key_eqb_refl (k : key) : key_eqb k k = true.
Proof. apply key_eqb_spec. reflexivity. Qed.
Lemma key_eqb_neq (a b : key) : a <> b -> key_eqb a b = false.
Proof. intros H. destruct (key_eqb a b) eqn:E; [|reflexivity]. apply key_eqb_spec in E. contradiction. Qed.

(** ** The buffer list *)
Lemma find_buf_in (k : key) (l : list buf) (b : buf) : find_buf k l = Some b -> In b l /\ b_key b = k.
Proof. intros H. apply find_some in H as [H1 H2]. apply key_eqb_spec in H2. auto. Qed.
Lemma in_put_buf (k : key) (u x : buf) (l : list buf) : In x (put_buf k u l) -> x = u \/ In x l.
Proof.
  induction l as [|b r IH]; cbn; [tauto|]. destruct (key_eqb (b_key b) k); cbn; intros [H|H]; auto. destruct (IH H); auto.
Qed.
Lemma in_drop_buf (k : key) (x : buf) (l : list buf) : In x (drop_buf k l) -> In x l.
Proof. induction l as [|b r IH]; cbn; [tauto|]. destruct (key_eqb (b_key b) k); cbn; [auto|]. intros [H|H]; auto. Qed.
Lemma in_sweep (x : buf) (l : list buf) : In x (sweep l) -> In x l /\ b_ref x <> 0.
Proof. unfold sweep. rewrite filter_In. intros [H1 H2]. split; [exact H1|]. destruct (N.eqb_spec (b_ref x) 0); [discriminate|exact n]. Qed.

Lemma find_put_same (k : key) (u : buf) (l : list buf) : find_buf k l <> None -> b_key u = k -> find_buf k (put_buf k u l) = Some u.
Proof.
  intros H Hu. induction l as [|b r IH]; [exfalso; apply H; reflexivity|]. unfold find_buf in *. cbn in *. destruct (key_eqb (b_key b) k) eqn:E; cbn.
  - rewrite Hu, key_eqb_refl. reflexivity.
  - rewrite E. apply IH, H.
Qed.
Lemma find_put_other (k k' : key) (u : buf) (l : list buf) : k <> k' -> b_key u = k' -> find_buf k (put_buf k' u l) = find_buf k l.
Proof.
  intros Hn Hu. induction l as [|b r IH]; [reflexivity|]. unfold find_buf in *. cbn. destruct (key_eqb (b_key b) k') eqn:E; cbn.
  - apply key_eqb_spec in E. rewrite Hu, E. rewrite key_eqb_neq by congruence. reflexivity.
  - rewrite IH. reflexivity.
Qed.
Lemma find_drop_other (k k' : key) (l : list buf) : k <> k' -> find_buf k (drop_buf k' l) = find_buf k l.
Proof.
  intros Hn. induction l as [|b r IH]; [reflexivity|]. unfold find_buf in *. cbn. destruct (key_eqb (b_key b) k') eqn:E; cbn.
  - apply key_eqb_spec in E. rewrite E. rewrite key_eqb_neq by congruence. reflexivity.
  - rewrite IH. reflexivity.
Qed.
Lemma find_snoc (k : key) (u : buf) (l : list buf) :
  find_buf k (l ++ [u]) = match find_buf k l with Some b => Some b | None => if key_eqb (b_key u) k then Some u else None end.
Proof. unfold find_buf. induction l as [|b r IH]; [reflexivity|]. cbn. destruct (key_eqb (b_key b) k); [reflexivity|exact IH]. Qed.
Lemma find_sweep_some (k : key) (b : buf) (l : list buf) : find_buf k l = Some b -> b_ref b <> 0 -> find_buf k (sweep l) = Some b.
Proof.
  unfold find_buf, sweep. induction l as [|x r IH]; cbn; [discriminate|]. intros H Hr. destruct (key_eqb (b_key x) k) eqn:E.
  - injection H as ->. destruct (N.eqb_spec (b_ref b) 0); [contradiction|]. cbn. rewrite E. reflexivity.
  - destruct (b_ref x =? 0); cbn; [|rewrite E]; apply IH; assumption.
Qed.
Lemma find_sweep_none (k : key) (l : list buf) : find_buf k l = None -> find_buf k (sweep l) = None.
Proof.
  unfold find_buf, sweep. induction l as [|x r IH]; cbn; [reflexivity|]. intros H. destruct (key_eqb (b_key x) k) eqn:E; [discriminate|].
  destruct (b_ref x =? 0); cbn; [|rewrite E]; apply IH, H.
Qed.

(** ** Slices *)
Lemma slice_app (P : list N) (o n : N) : firstn (N.to_nat o) P ++ slice P o n = firstn (N.to_nat (o + n)) P.
Proof.
  unfold slice. rewrite N2Nat.inj_add. generalize (N.to_nat o) as a, (N.to_nat n) as b. intros a. revert P.
  induction a as [|a IH]; intros P b; [reflexivity|]. destruct P as [|x P]; [cbn; rewrite !firstn_nil; reflexivity|].
  cbn. f_equal. apply IH.
Qed.
Lemma slice_length (P : list N) (o n : N) : List.length (slice P o n) = N.to_nat (N.min n (total P - o)).
Proof. unfold slice, total. rewrite firstn_length, skipn_length. lia. Qed.

Lemma take_all (P : list N) (n : N) : total P <= n -> firstn (N.to_nat n) P = P.
Proof. intros H. apply firstn_all2. unfold total in H. lia. Qed.

(** ** Safety on the server side *)
Section S.
Variables max_app block_size : N.
Variable k : key.
Variable P : list N.
Variable sz : N.
Hypothesis Hsz : 0 < sz.
Hypothesis Hbs : sz <= block_size.
Hypothesis H16 : block_size < 2 ^ 16.

Definition pref (b : buf) : Prop :=
  b_key b = k -> exists j, b_data b = firstn (N.to_nat (j * sz)) P /\ (j = 0 \/ j * sz < total P).

Lemma pref_next (b : buf) (j : N) : b_data b = firstn (N.to_nat (j * sz)) P -> (j = 0 \/ j * sz < total P) -> next_off b = j * sz.
Proof using Type. clear Hsz Hbs H16. intros E H. unfold next_off. rewrite E, firstn_length. unfold total in H. destruct H as [->|H]; lia. Qed.

Lemma cut_exact (o : blk) (p : list N) : k_size o = sz -> p = slice P (k_num o * sz) sz ->
  firstn (N.to_nat (N.min (N.of_nat (List.length p) mod 2 ^ 16) (N.min (k_size o) block_size))) p = p.
Proof.
  intros E ->. apply firstn_all2. rewrite slice_length, E, N2Nat.id. rewrite N.mod_small by lia. lia.
Qed.

(** What handling one block of the transfer does to the buffer of the key. *)
Lemma handle_pref (b b' : buf) (w : option (N * N)) (i : N) : b_key b = k -> pref b -> is_block P sz i ->
  handle_block b (i * sz) (slice P (i * sz) sz) = Some (b', w) ->
  b_key b' = k /\ (more_after P sz i = true -> pref b') /\ (more_after P sz i = false -> b_data b' = P).
Proof.
  intros Hk Hp Hi H. destruct (Hp Hk) as (j & Ej & Hj). pose proof (pref_next b j Ej Hj) as Hn. unfold handle_block in H.
  rewrite Hn in H. destruct (_ || _) eqn:Eo; [discriminate|].
  assert (Hle : i * sz <= j * sz) by (destruct (N.ltb_spec (j * sz) (i * sz)); [rewrite !orb_true_r in Eo; discriminate|assumption]).
  unfold more_after. destruct (N.eqb_spec (j * sz) (i * sz)) as [E|E]; injection H as <- <-; cbn [b_key b_data].
  - assert (j = i) by (apply N.mul_cancel_r with (p := sz); lia). subst j. split; [exact Hk|]. split.
    + intros Hm. intros _. exists (i + 1). cbn [b_data]. rewrite Ej, slice_app. split; [f_equal; f_equal; ring|right; lia].
    + intros Hm. rewrite Ej, slice_app. apply take_all. lia.
  - split; [exact Hk|]. split; [intros _; exact Hp|]. intros Hm. exfalso. destruct Hj as [->|Hj]; [lia|].
    assert (Hij : i + 1 <= j) by nia. assert ((i + 1) * sz <= j * sz) by (apply N.mul_le_mono_r; exact Hij). lia.
Qed.

Lemma step_safe (l : list buf) (o : op) : (forall b, In b l -> pref b) -> (op_key o = k -> faithful P sz o) ->
  let (l', x) := step max_app block_size l o in
  (forall b, In b l' -> pref b) /\ (op_key o = k -> forall p, x = Deliver p -> p = P).
Proof.
  intros Hl Hf. destruct o as [k0 o p size1 room|k0 p size1 room|k0]; cbn [step op_key] in *.
  - unfold block1. cbv zeta. set (l1 := drop_stale k0 o _ l).
    assert (H1 : forall b, In b l1 -> pref b).
    { intros b Hb. apply Hl. unfold l1, drop_stale in Hb. destruct (find_buf k0 l) as [c|]; [|exact Hb].
      destruct (_ && _); [apply in_drop_buf in Hb|]; exact Hb. }
    clearbody l1. set (l2 := ensure max_app k0 o size1 room l1).
    assert (H2 : forall b, In b l2 -> pref b).
    { intros b Hb. unfold l2, ensure in Hb. destruct (find_buf k0 l1); [exact (H1 b Hb)|]. destruct (_ && _); [|exact (H1 b Hb)].
      apply in_app_or in Hb as [Hb|[<-|[]]]; [exact (H1 b Hb)|]. intros _. exists 0. cbn. auto. }
    clearbody l2. destruct (find_buf k0 l2) as [b|] eqn:Ef.
    2:{ split; [|discriminate]. intros b Hb. apply in_sweep in Hb as [Hb _]. exact (H2 b Hb). }
    apply find_buf_in in Ef as [Hin Hbk].
    destruct (handle_block b _ _) as [[b' w]|] eqn:Eh.
    2:{ split; [|discriminate]. intros x Hx. apply in_sweep in Hx as [Hx _]. apply in_put_buf in Hx as [->|Hx]; [|exact (H2 x Hx)].
        exact (H2 b Hin). }
    assert (Hother : k0 <> k -> pref b').
    { intros Hn Hk. exfalso. apply Hn. unfold handle_block in Eh. destruct (_ || _); [discriminate|].
      destruct (_ =? _); injection Eh as <- <-; cbn [b_key] in Hk; congruence. }
    assert (Hkey : (if key_eqb k0 k then k0 = k else k0 <> k)).
    { destruct (key_eqb k0 k) eqn:E; [apply key_eqb_spec, E|]. intros ->. rewrite key_eqb_refl in E. discriminate. }
    destruct (key_eqb k0 k).
    + specialize (Hf Hkey). destruct Hf as (F1 & F2 & F3 & F4). rewrite cut_exact in Eh by assumption. subst p.
      unfold b_offset in Eh. rewrite F1 in Eh. apply handle_pref in Eh as (G1 & G2 & G3); [|congruence|exact (H2 b Hin)|exact F2].
      rewrite F3. destruct (more_after P sz (k_num o)) eqn:Em.
      * split; [|discriminate]. intros x Hx. apply in_sweep in Hx as [Hx _]. apply in_put_buf in Hx as [->|Hx]; [|exact (H2 x Hx)].
        intros _. apply (G2 eq_refl G1).
      * split; [|intros _ p E; injection E as <-; apply G3; reflexivity].
        intros x Hx. apply in_sweep in Hx as [Hx Hr]. apply in_put_buf in Hx as [->|Hx]; [|exact (H2 x Hx)]. cbn in Hr. congruence.
    + destruct (k_more o).
      * split; [|discriminate]. intros x Hx. apply in_sweep in Hx as [Hx _]. apply in_put_buf in Hx as [->|Hx]; [|exact (H2 x Hx)].
        exact (Hother Hkey).
      * split; [|congruence]. intros x Hx. apply in_sweep in Hx as [Hx _]. apply in_put_buf in Hx as [->|Hx]; [|exact (H2 x Hx)].
        exact (Hother Hkey).
  - assert (Hsw : forall l', (forall b, In b l' -> pref b) -> forall b, In b (sweep l') -> pref b)
      by (intros l' H b Hb; apply in_sweep in Hb as [Hb _]; exact (H b Hb)).
    unfold plain. destruct (_ <? _) eqn:Es; [split; [apply Hsw, Hl|discriminate]|].
    destruct (N.eqb_spec (N.of_nat (List.length p)) 0) as [E0|E0].
    + split; [apply Hsw, Hl|]. intros Hk q Eq. injection Eq as <-. specialize (Hf Hk). cbn [faithful] in Hf. subst p. destruct P; [reflexivity|discriminate].
    + cbv zeta. set (l1 := drop_buf k0 l).
      assert (H1 : forall b, In b l1 -> pref b).
      { intros b Hb. apply Hl. unfold l1 in Hb. apply in_drop_buf in Hb; exact Hb. }
      clearbody l1. destruct room; cbn [negb]; [|split; [apply Hsw, H1|discriminate]].
      destruct (handle_block _ _ _) as [[b' w]|] eqn:Eh; [|split; [apply Hsw, H1|discriminate]].
      split; [apply Hsw, H1|]. intros Hk q Eq. injection Eq as <-. specialize (Hf Hk). cbn [faithful] in Hf. subst p.
      unfold handle_block in Eh. destruct (_ || _); [discriminate|]. cbn [next_off b_data List.length] in Eh.
      injection Eh as <- <-. cbn [b_data app]. rewrite N.mod_small by lia.
      rewrite Nat2N.id. rewrite (firstn_all P). apply firstn_all.
  - split; [|discriminate]. intros b Hb. apply Hl, (in_drop_buf k0), Hb.
Qed.

Lemma outs_safe (ops : list op) : forall l, (forall b, In b l -> pref b) -> (forall o, In o ops -> op_key o = k -> faithful P sz o) ->
  Forall2 (fun o x => op_key o = k -> forall p, x = Deliver p -> p = P) ops (outs max_app block_size l ops).
Proof.
  induction ops as [|o r IH]; intros l Hl Hf; [constructor|]. cbn [outs].
  pose proof (step_safe l o Hl (Hf o (or_introl eq_refl))) as K. destruct (step max_app block_size l o) as [l' x]. destruct K as [K1 K2].
  constructor; [exact K2|]. apply IH; [exact K1|]. intros o' Ho. apply Hf. right. exact Ho.
Qed.

(** ** Completeness *)
Lemma handle_key (b b' : buf) (w : option (N * N)) (off : N) (p : list N) : handle_block b off p = Some (b', w) -> b_key b' = b_key b.
Proof. unfold handle_block. destruct (_ || _); [discriminate|]. destruct (_ =? _); intros H; injection H as <- <-; reflexivity. Qed.

(** A request of another transfer does not touch the buffer of the key. *)
Lemma step_other (l : list buf) (o : op) : op_key o <> k ->
  (forall b, find_buf k l = Some b -> b_ref b <> 0) ->
  find_buf k (fst (step max_app block_size l o)) = find_buf k l.
Proof.
  intros Hn Hr. assert (Hs : forall l', find_buf k l' = find_buf k l -> find_buf k (sweep l') = find_buf k l).
  { intros l' E. destruct (find_buf k l) as [b|] eqn:Eb; [apply find_sweep_some; [exact E|apply Hr; reflexivity]|apply find_sweep_none, E]. }
  destruct o as [k0 o p size1 room|k0 p size1 room|k0]; cbn [step op_key] in *.
  - unfold block1. cbv zeta. set (l1 := drop_stale k0 o _ l).
    assert (H1 : find_buf k l1 = find_buf k l).
    { unfold l1, drop_stale. destruct (find_buf k0 l) as [c|]; [|reflexivity]. destruct (_ && _); [apply find_drop_other; congruence|reflexivity]. }
    clearbody l1. set (l2 := ensure max_app k0 o size1 room l1).
    assert (H2 : find_buf k l2 = find_buf k l).
    { unfold l2, ensure. destruct (find_buf k0 l1); [exact H1|]. destruct (_ && _); [|exact H1]. rewrite find_snoc, H1. cbn [b_key].
      rewrite key_eqb_neq by exact Hn. destruct (find_buf k l); reflexivity. }
    clearbody l2. destruct (find_buf k0 l2) as [b|] eqn:Ef; [|apply Hs, H2].
    apply find_buf_in in Ef as [Hin Hbk].
    destruct (handle_block b _ _) as [[b' w]|] eqn:Eh.
    + apply handle_key in Eh. destruct (k_more o); cbn [fst]; apply Hs; rewrite find_put_other; try exact H2; cbn [b_key]; congruence.
    + cbn [fst]. apply Hs. rewrite find_put_other; try exact H2; cbn [b_key]; congruence.
  - unfold plain. destruct (_ <? _); [apply Hs; reflexivity|]. destruct (_ =? _); [apply Hs; reflexivity|].
    cbv zeta. set (l1 := drop_buf k0 l).
    assert (H1 : find_buf k l1 = find_buf k l) by (unfold l1; apply find_drop_other; congruence).
    clearbody l1. destruct room; cbn [negb]; [|apply Hs, H1]. destruct (handle_block _ _ _) as [[b' w]|]; apply Hs, H1.
  - apply find_drop_other. congruence.
Qed.

(** The buffer when block [n] is the next one expected. *)
Definition waits (n : N) (l : list buf) : Prop :=
  match find_buf k l with
  | None => n = 0
  | Some b => b_data b = firstn (N.to_nat (n * sz)) P /\ 0 < n /\ n * sz < total P /\ b_payload b = 0 /\ b_ref b <> 0 /\ total P <= b_size b
  end.

Lemma handle_ok (b : buf) (n i : N) : b_data b = firstn (N.to_nat (n * sz)) P -> (n = 0 \/ n * sz < total P) -> total P <= b_size b ->
  0 < total P -> i <= n -> is_block P sz i ->
  handle_block b (i * sz) (slice P (i * sz) sz) =
  Some (if i =? n then mkB (b_key b) (b_size b) (firstn (N.to_nat ((n + 1) * sz)) P) (b_payload b) (b_ref b) else b,
        if i =? n then Some (n * sz, N.min sz (total P - n * sz)) else None).
Proof using Hsz.
  clear Hbs H16.
  intros E Hn Hs HP Hi Hb. pose proof (pref_next b n E Hn) as Hnext. unfold handle_block. rewrite Hnext, slice_length, N2Nat.id.
  assert (Hib : i * sz < total P) by (destruct Hb as [->|Hb]; lia).
  assert (Hmul : i * sz <= n * sz) by (apply N.mul_le_mono_r; exact Hi).
  replace (b_size b <=? i * sz) with false by lia. replace (b_size b - i * sz <? N.min sz (total P - i * sz)) with false by lia.
  replace (n * sz <? i * sz) with false by lia. cbn [orb].
  destruct (N.eqb_spec i n) as [->|Hne].
  - rewrite N.eqb_refl. rewrite E, slice_app. replace (n * sz + sz) with ((n + 1) * sz) by ring. reflexivity.
  - destruct (N.eqb_spec (n * sz) (i * sz)) as [Eq|_]; [exfalso; apply Hne; symmetry; apply N.mul_cancel_r with (p := sz); lia|reflexivity].
Qed.

Lemma find_after (l : list buf) (n : N) (o : blk) (p : list N) (size1 : N) :
  waits n l -> k_num o <= n -> k_size o = sz -> is_block P sz (k_num o) -> 0 < total P -> total P < 2 ^ 32 -> p = slice P (k_num o * sz) sz ->
  total P <= buffer_size max_app size1 ->
  exists l2 b, find_buf k l2 = Some b /\ b_data b = firstn (N.to_nat (n * sz)) P /\ (n = 0 \/ n * sz < total P) /\ b_key b = k /\
    b_payload b = 0 /\ total P <= b_size b /\
    block1 max_app block_size k o p size1 true l =
    match handle_block b (k_num o * sz) p with
    | None => (put_buf k (mkB (b_key b) (b_size b) (b_data b) (b_payload b) 0) l2, Reject)
    | Some (b', _) =>
      if k_more o then (put_buf k (mkB (b_key b') (b_size b') (b_data b') (b_payload b') 1) l2, Continue (k_num o) (N.min (k_size o) block_size))
      else (put_buf k (mkB (b_key b') (b_size b') (b_data b') (next_off b') 0) l2, Deliver (b_data b'))
    end.
Proof.
  intros Hw Hi Ho Hb HP H32 Ep Hsize. unfold block1, ensure, drop_stale. cbv zeta. rewrite (cut_exact o p Ho Ep). unfold waits in Hw. unfold b_offset. rewrite Ho.
  destruct (find_buf k l) as [b|] eqn:Ef.
  - destruct Hw as (W1 & W2 & W3 & W4 & W5 & W6). exists l, b. pose proof (find_buf_in k l b Ef) as [_ Hbk].
    assert (Hnext : next_off b = n * sz) by (apply pref_next; auto). rewrite W4, Hnext.
    replace (0 =? n * sz) with false by (symmetry; apply N.eqb_neq; nia). cbn [andb]. rewrite Ef.
    repeat split; auto. rewrite Ef, W4. reflexivity.
  - subst n. assert (E0 : k_num o = 0) by lia. rewrite Ef. rewrite E0. change (0 =? 0) with true. cbn [andb].
    exists (l ++ [mkB k (buffer_size max_app size1) [] 0 1]), (mkB k (buffer_size max_app size1) [] 0 1).
    rewrite find_snoc, Ef. cbn [b_key]. rewrite key_eqb_refl. repeat split; auto.
Qed.

Lemma step_early (l : list buf) (o : op) (n : N) : waits n l -> op_key o = k -> early_block P sz max_app o -> num_of o <= n ->
  0 < total P -> total P < 2 ^ 32 ->
  waits (if num_of o =? n then n + 1 else n) (fst (step max_app block_size l o)).
Proof.
  intros Hw Hk He Hi HP H32. destruct o as [k0 o p size1 room|k0 p size1 room|k0]; cbn [early_block] in He; try contradiction.
  destruct He as (F1 & F2 & F3 & F4 & F5 & F6 & F7). cbn [op_key num_of] in *. subst k0 room. cbn [step].
  destruct (find_after l n o p size1 Hw Hi F1 F2 HP H32 F5 F7) as (l2 & b & G1 & G2 & G3 & G4 & G5 & G6 & ->).
  rewrite F5. rewrite (handle_ok b n (k_num o) G2 G3 G6 HP Hi F2). rewrite F4. cbn [fst]. unfold waits.
  set (b' := if k_num o =? n then _ else b).
  assert (Hkey : b_key b' = k) by (unfold b'; destruct (k_num o =? n); exact G4).
  rewrite (find_sweep_some k (mkB (b_key b') (b_size b') (b_data b') (b_payload b') 1));
    [|apply find_put_same; [congruence|exact Hkey]|discriminate].
  cbn [b_data b_payload b_ref b_size]. unfold b'. unfold more_after in F3. destruct (N.eqb_spec (k_num o) n) as [E|E].
  - cbn [b_data b_payload b_ref b_size]. repeat split; auto; [lia|subst n; lia|discriminate].
  - repeat split; auto; [lia| |discriminate]. destruct G3 as [G3|G3]; [lia|exact G3].
Qed.

Lemma run_early (ops : list op) : forall l n, waits n l ->
  (forall o, In o ops -> op_key o = k -> early_block P sz max_app o) -> 0 < total P -> total P < 2 ^ 32 ->
  let nums := map num_of (filter (fun o => key_eqb (op_key o) k) ops) in
  advancing n nums -> waits (reached n nums) (run max_app block_size l ops).
Proof.
  induction ops as [|o r IH]; intros l n Hw Hf HP H32 nums Ha; [exact Hw|]. unfold nums in *. cbn [filter run fold_left] in *.
  destruct (key_eqb (op_key o) k) eqn:E.
  - apply key_eqb_spec in E. cbn [map advancing reached] in *. destruct Ha as [Ha1 Ha2].
    apply IH; [|intros o' Ho; apply Hf; right; exact Ho|assumption..]. apply step_early; auto. apply Hf; [left; reflexivity|exact E].
  - apply IH; [|intros o' Ho; apply Hf; right; exact Ho|assumption..]. unfold waits in *. rewrite step_other.
    + exact Hw.
    + intros K. rewrite K, key_eqb_refl in E. discriminate.
    + intros b Eb. rewrite Eb in Hw. tauto.
Qed.

Lemma outs_app (a b : list op) : forall l, outs max_app block_size l (a ++ b) = outs max_app block_size l a ++ outs max_app block_size (run max_app block_size l a) b.
Proof.
  induction a as [|o r IH]; intros l; [reflexivity|]. cbn [app outs run fold_left]. destruct (step max_app block_size l o) as [l' x]. cbn [fst app]. f_equal. apply IH.
Qed.

Lemma completes (ops : list op) (o : blk) (size1 : N) :
  (forall x, In x ops -> op_key x = k -> early_block P sz max_app x) -> 0 < total P -> total P < 2 ^ 32 ->
  let nums := map num_of (filter (fun x => key_eqb (op_key x) k) ops) in
  advancing 0 nums -> reached 0 nums = k_num o ->
  k_size o = sz -> is_block P sz (k_num o) -> more_after P sz (k_num o) = false -> k_more o = false ->
  total P <= buffer_size max_app size1 ->
  outs max_app block_size [] (ops ++ [Block k o (slice P (k_num o * sz) sz) size1 true]) =
  outs max_app block_size [] ops ++ [Deliver P].
Proof.
  intros Hf HP H32 nums Ha Hr Hs Hb Hm Hmo Hsize. rewrite outs_app. f_equal. cbn [outs step].
  pose proof (run_early ops [] 0 eq_refl Hf HP H32 Ha) as Hw. fold nums in Hw. rewrite Hr in Hw.
  destruct (find_after _ (k_num o) o _ size1 Hw (N.le_refl _) Hs Hb HP H32 eq_refl Hsize) as (l2 & b & G1 & G2 & G3 & G4 & G5 & G6 & ->).
  rewrite (handle_ok b (k_num o) (k_num o) G2 G3 G6 HP (N.le_refl _) Hb). rewrite Hmo, N.eqb_refl. cbn [b_data].
  unfold more_after in Hm. rewrite take_all by lia. reflexivity.
Qed.
End S.

(** ** The buffer is never exceeded *)
Lemma handle_bounds (b b' : buf) (off at_ n : N) (p : list N) : handle_block b off p = Some (b', Some (at_, n)) -> at_ + n <= b_size b.
Proof.
  unfold handle_block. destruct (_ || _) eqn:E; [discriminate|]. destruct (N.eqb_spec (next_off b) off) as [Eq|]; [|discriminate].
  intros H. injection H as <- <- <-. lia.
Qed.

(** ** The client *)
Section C.
Variable max_app : N.
Variable P : list N.
Variable sz : N.
Hypothesis Hsz : 0 < sz.
Hypothesis HP : 0 < total P.

(** A response of the transfer: block [i], with a Block2 option. *)
Definition from_server (m : option blk * list N) : Prop :=
  exists o, fst m = Some o /\ k_size o = sz /\ is_block P sz (k_num o) /\ k_more o = more_after P sz (k_num o) /\ snd m = slice P (k_num o * sz) sz.
Definition asked (m : option blk * list N) : N := match fst m with Some o => k_num o | None => 0 end.

Definition cpref (n : N) (st : option (list N)) : Prop :=
  match st with None => n = 0 | Some d => d = firstn (N.to_nat (n * sz)) P /\ (n = 0 \/ n * sz < total P) end.

Lemma client_step (n : N) (st : option (list N)) (m : option blk * list N) : total P <= max_app -> cpref n st -> from_server m -> asked m <= n ->
  let (st', x) := client max_app st (fst m) (snd m) in
  match x with
  | Ask j => j = asked m + 1 /\ cpref (if asked m =? n then n + 1 else n) st' /\ more_after P sz (asked m) = true
  | Invoke p => p = P /\ st' = None /\ more_after P sz (asked m) = false
  end.
Proof.
  intros Hmax Hc (o & Eo & Hs & Hb & Hm & Ep) Ha. unfold asked in *. rewrite Eo in *. cbn [fst] in *. unfold client. cbv zeta. cbv beta iota.
  set (data := match st with Some d => d | None => [] end).
  assert (Hd : data = firstn (N.to_nat (n * sz)) P /\ (n = 0 \/ n * sz < total P)).
  { unfold data, cpref in *. destruct st; [exact Hc|]. subst n. cbn. auto. }
  destruct Hd as [Hd Hn]. unfold b_offset. rewrite Hs, Ep.
  set (b := mkB (mkK [] 0 0 None) max_app data 0 1).
  pose proof (handle_ok P sz Hsz b n (k_num o) Hd Hn Hmax HP Ha Hb) as Hh.
  assert (Hne : exists y r, slice P (k_num o * sz) sz = y :: r).
  { pose proof (slice_length P (k_num o * sz) sz) as L. destruct (slice P (k_num o * sz) sz) as [|y r]; [|eauto].
    cbn in L. exfalso. assert (k_num o * sz < total P) by (destruct Hb as [->|Hb]; lia). lia. }
  destruct Hne as (y & r & Er). rewrite Er in *. rewrite Hh. clear Hh. destruct o as [num more size]. cbn [k_num k_more k_size] in *.
  destruct more.
  - split; [reflexivity|]. split; [|congruence]. unfold more_after in Hm. destruct (N.eqb_spec num n) as [E|E]; cbn [cpref b_data].
    + split; [reflexivity|]. right. subst. lia.
    + split; [exact Hd|exact Hn].
  - split; [|split; [reflexivity|congruence]]. unfold more_after in Hm. destruct (N.eqb_spec num n) as [E|E]; cbn [b_data].
    + subst num. apply take_all. lia.
    + exfalso. assert (num + 1 <= n) by lia. assert ((num + 1) * sz <= n * sz) by (apply N.mul_le_mono_r; assumption).
      destruct Hn as [->|Hn]; lia.
Qed.

(** Every answer asks for the following block or delivers the payload, as long as the server only sends
    blocks that were asked for (now or earlier). *)
Fixpoint requested (n : N) (ms : list (option blk * list N)) : Prop :=
  match ms with
  | [] => True
  | m :: r => asked m <= n /\ (if more_after P sz (asked m) then requested (if asked m =? n then n + 1 else n) r else requested 0 r)
  end.
Lemma client_safe (ms : list (option blk * list N)) : total P <= max_app -> forall n st, cpref n st -> Forall from_server ms -> requested n ms ->
  Forall2 (fun m x => x = if more_after P sz (asked m) then Ask (asked m + 1) else Invoke P) ms (client_outs max_app st ms).
Proof.
  intros Hmax. induction ms as [|m r IH]; intros n st Hc Hf Hr; [constructor|]. inversion Hf as [|? ? Hm Hfr]; subst. cbn [requested] in Hr. destruct Hr as [Hr1 Hr2].
  destruct m as [o p]. cbn [client_outs]. pose proof (client_step n st (o, p) Hmax Hc Hm Hr1) as K. cbn [fst snd] in K.
  destruct (client max_app st o p) as [st' x]. destruct x as [j|q].
  - destruct K as (-> & K2 & K3). rewrite K3 in Hr2. constructor; [rewrite K3; reflexivity|]. apply (IH _ st' K2 Hfr Hr2).
  - destruct K as (-> & -> & K3). rewrite K3 in Hr2. constructor; [rewrite K3; reflexivity|]. apply (IH 0 None eq_refl Hfr Hr2).
Qed.
End C.

(** ** Sending *)
Lemma dispatch_aligned (P : list N) (i bs size : N) : 0 < size -> size <= bs -> i * bs < total P ->
  dispatch P (i * bs) size = D_data (slice P (i * bs) size) (N.min (i * bs + size) (total P)).
Proof.
  intros H0 Hs Hi. unfold dispatch. change (N.of_nat (List.length P)) with (total P).
  replace (i * bs <? total P) with true by lia.
  destruct (N.ltb_spec (total P) size) as [Ht|Ht].
  - assert (i = 0) by nia. subst i. replace (total P <? 0 * bs + total P) with false by lia. f_equal; [|lia].
    unfold slice. change (skipn (N.to_nat (0 * bs)) P) with P. rewrite !firstn_all2; [reflexivity|unfold total in *; lia..].
  - replace (total P <? i * bs + N.min size (total P - i * bs)) with false by lia. f_equal; [|lia].
    unfold slice. destruct (N.min_spec size (total P - i * bs)) as [[H1 ->]|[H1 ->]]; [reflexivity|].
    rewrite !firstn_all2; [reflexivity|rewrite skipn_length; unfold total in *; lia..].
Qed.
Lemma dispatch_end (P : list N) (off size : N) : total P <= off -> dispatch P off size = D_none.
Proof. intros H. unfold dispatch. change (N.of_nat (List.length P)) with (total P). replace (off <? total P) with false by lia. reflexivity. Qed.

Section Sv.
Variable block_size : N.
Variable P : list N.
Hypothesis Hbs : 0 < block_size.

(** A block that is answered is that slice of the payload, with the right more flag. *)
Definition right_block (sz : N) (x : sout) : Prop :=
  match x with
  | S_block num more size p => size = N.min sz block_size /\ p = slice P (num * sz) size /\ more = (num * sz + size <? total P)
  | S_oob => False
  | _ => True
  end.
Lemma next_right (next : N) (o : blk) (st : option (list N * N)) : st = None \/ st = Some (P, next) -> 0 < k_size o ->
  let (st', x) := next_block block_size st o in
  right_block (k_size o) x /\ (st' = None \/ exists next', st' = Some (P, next')).
Proof.
  intros Hst Hk. unfold next_block. destruct Hst as [->| ->]; [cbn; auto|]. destruct (_ <? _); [cbn; eauto|].
  set (size := N.min (k_size o) block_size). unfold b_offset.
  destruct (N.lt_ge_cases (k_num o * k_size o) (total P)) as [Hlt|Hge].
  - rewrite dispatch_aligned by (unfold size; lia). change (N.of_nat (List.length P)) with (total P). split.
    + cbn [right_block]. split; [reflexivity|]. split; [reflexivity|]. fold size. destruct (N.ltb_spec (k_num o * k_size o + size) (total P)); lia.
    + destruct (_ <? _); eauto.
  - rewrite dispatch_end by exact Hge. cbn. auto.
Qed.
Lemma serve_right (os : list blk) : forall st, st = None \/ (exists next, st = Some (P, next)) -> Forall (fun o => 0 < k_size o) os ->
  Forall2 (fun o x => right_block (k_size o) x) os (serve block_size st os).
Proof.
  induction os as [|o r IH]; intros st Hst Hf; [constructor|]. inversion Hf; subst. cbn [serve].
  assert (K : let (st', x) := next_block block_size st o in right_block (k_size o) x /\ (st' = None \/ exists next', st' = Some (P, next'))).
  { destruct Hst as [->|[next ->]]; [apply (next_right 0)|apply (next_right next)]; auto. }
  destruct (next_block block_size st o) as [st' x]. destruct K as [K1 K2]. constructor; [exact K1|]. apply IH; assumption.
Qed.

(** The number of the block answered is the one asked for. *)
Lemma serve_num (os : list blk) : forall st, Forall2 (fun o x => match x with S_block num _ _ _ => num = k_num o | _ => True end) os (serve block_size st os).
Proof.
  induction os as [|o r IH]; intros st; [constructor|]. cbn [serve]. destruct (next_block block_size st o) as [st' x] eqn:E. constructor; [|apply IH].
  unfold next_block in E. destruct st as [[d nx]|]; [|injection E as <- <-; exact I]. destruct (_ <? _); [injection E as <- <-; exact I|].
  destruct (dispatch _ _ _); injection E as <- <-; auto.
Qed.

(** Nothing is served from beyond the end. *)
Lemma serve_inside (os : list blk) : forall st, st = None \/ (exists next, st = Some (P, next)) -> Forall (fun o => 0 < k_size o) os ->
  Forall2 (fun o x => match x with S_block _ _ _ p => k_num o * k_size o < total P /\ p <> [] | _ => True end) os (serve block_size st os).
Proof.
  induction os as [|o r IH]; intros st Hst Hf; [constructor|]. inversion Hf; subst. cbn [serve].
  assert (K : let (st', x) := next_block block_size st o in
     match x with S_block _ _ _ p => k_num o * k_size o < total P /\ p <> [] | _ => True end /\ (st' = None \/ exists next', st' = Some (P, next'))).
  { destruct Hst as [->|[next ->]]; [cbn; auto|]. unfold next_block. destruct (_ <? _); [eauto|].
    unfold dispatch, b_offset. change (N.of_nat (List.length P)) with (total P). destruct (N.ltb_spec (k_num o * k_size o) (total P)) as [Hi|Hi]; [|auto].
    set (n := if total P <? N.min (k_size o) block_size then total P else N.min (N.min (k_size o) block_size) (total P - k_num o * k_size o)).
    assert (Hn : 0 < n) by (unfold n; destruct (_ <? _); lia). clearbody n.
    destruct (total P <? k_num o * k_size o + n); [auto|]. split; [split; [exact Hi|]|destruct (_ <? _); eauto].
    intros E; apply (f_equal (@List.length N)) in E; rewrite firstn_length, skipn_length in E; cbn [List.length] in E; unfold total in *; lia. }
  destruct (next_block block_size st o) as [st' x]. destruct K as [K1 K2]. constructor; [exact K1|]. apply IH; assumption.
Qed.

(** Asking for the blocks one after the other gives the whole payload. *)
Variable sz : N.
Hypothesis Hsz : 0 < sz <= block_size.
Hypothesis HP : total P < 2 ^ 32.
Definition ask_from (i : N) (n : nat) : list blk := map (fun j => mkBlk (i + N.of_nat j) false sz) (seq 0 n).
Definition data_of (x : sout) : list N := match x with S_block _ _ _ p => p | _ => [] end.

Lemma next_in_order (i : N) : 0 < i -> i * sz < total P ->
  next_block block_size (Some (P, i * sz)) (mkBlk i false sz) =
  (if more_after P sz i then Some (P, (i + 1) * sz) else None, S_block i (more_after P sz i) sz (slice P (i * sz) sz)).
Proof.
  intros H0 Hi. unfold next_block, b_offset. cbn [k_num k_size]. replace (N.min sz block_size) with sz by lia.
  replace ((i * sz + 2 ^ 32 - i * sz) mod 2 ^ 32) with 0 by (replace (i * sz + 2 ^ 32 - i * sz) with (2 ^ 32) by lia; reflexivity).
  replace (sz <? 0) with false by lia. rewrite dispatch_aligned by lia. change (N.of_nat (List.length P)) with (total P). unfold more_after.
  replace ((i + 1) * sz) with (i * sz + sz) by ring.
  destruct (N.ltb_spec (i * sz + sz) (total P)) as [H|H].
  - replace (N.min (i * sz + sz) (total P)) with (i * sz + sz) by lia. replace (i * sz + sz <? total P) with true by lia. reflexivity.
  - replace (N.min (i * sz + sz) (total P)) with (total P) by lia. rewrite N.ltb_irrefl. reflexivity.
Qed.

Lemma ask_from_S (i : N) (n : nat) : ask_from i (S n) = mkBlk i false sz :: ask_from (i + 1) n.
Proof.
  unfold ask_from. cbn [seq map]. f_equal; [f_equal; lia|]. rewrite <- seq_shift, map_map. apply map_ext. intros j. f_equal. lia.
Qed.
Lemma serve_all (n : nat) : forall i, 0 < i -> i * sz < total P -> total P <= (i + N.of_nat n) * sz -> (n = 0%nat \/ (i + N.of_nat n - 1) * sz < total P) ->
  concat (map data_of (serve block_size (Some (P, i * sz)) (ask_from i n))) = skipn (N.to_nat (i * sz)) P.
Proof.
  induction n as [|n IH]; intros i H0 Hi Hend Hl; [lia|]. destruct Hl as [Hl|Hl]; [discriminate|]. rewrite ask_from_S. cbn [serve]. rewrite next_in_order by assumption. cbn [map concat data_of].
  assert (Hsl : slice P (i * sz) sz ++ skipn (N.to_nat ((i + 1) * sz)) P = skipn (N.to_nat (i * sz)) P).
  { unfold slice. replace (N.to_nat ((i + 1) * sz)) with (N.to_nat (i * sz) + N.to_nat sz)%nat by lia. rewrite <- skipn_skipn. apply firstn_skipn. }
  unfold more_after. destruct (N.ltb_spec ((i + 1) * sz) (total P)) as [H|H].
  - rewrite (IH (i + 1)); [exact Hsl|lia|exact H|lia|]. destruct n as [|n]; [left; reflexivity|right]. replace (i + 1 + N.of_nat (S n) - 1) with (i + N.of_nat (S (S n)) - 1) by lia. exact Hl.
  - assert (n = 0%nat) by (destruct n; [reflexivity|exfalso]; assert ((i + 1) * sz <= (i + N.of_nat (S (S n)) - 1) * sz) by (apply N.mul_le_mono_r; lia); lia).
    subst n. cbn. rewrite app_nil_r. rewrite <- Hsl. rewrite (skipn_all2 P) by (unfold total in H; lia). rewrite app_nil_r. reflexivity.
Qed.

(** The first answer and the following ones together. *)
Lemma first_then (n : nat) : sz < total P -> total P <= (1 + N.of_nat n) * sz -> N.of_nat n * sz < total P ->
  let (st, x) := first_block block_size P sz in x = S_block 0 true sz (slice P 0 sz) /\
  data_of x ++ concat (map data_of (serve block_size st (ask_from 1 n))) = P.
Proof.
  intros H1 H2 H3. unfold first_block. replace (N.min sz block_size) with sz by lia.
  rewrite <- (N.mul_0_l sz), dispatch_aligned by lia. change (N.of_nat (List.length P)) with (total P).
  replace (N.min (0 * sz + sz) (total P)) with (1 * sz) by lia. replace (sz <? total P) with true by lia.
  split; [reflexivity|]. rewrite serve_all; [|lia|lia|exact H2|].
  - cbn [data_of]. unfold slice. rewrite N.mul_1_l. change (skipn (N.to_nat (0 * sz)) P) with P. apply firstn_skipn.
  - right. replace (1 + N.of_nat n - 1) with (N.of_nat n) by lia. exact H3.
Qed.

(** The client sending a request in blocks. *)
Lemma send_right (i : N) : send_next block_size P (mkBlk i true sz) =
  if more_after P sz i then S_block (i + 1) (more_after P sz (i + 1)) sz (slice P ((i + 1) * sz) sz) else S_drop.
Proof.
  unfold send_next, b_offset. cbn [k_num k_size]. replace (N.min sz block_size) with sz by lia. replace (i * sz + sz) with ((i + 1) * sz) by ring.
  unfold more_after. destruct (N.ltb_spec ((i + 1) * sz) (total P)) as [H|H].
  - rewrite dispatch_aligned by lia. change (N.of_nat (List.length P)) with (total P). f_equal.
    replace ((i + 1 + 1) * sz) with ((i + 1) * sz + sz) by ring. destruct (N.ltb_spec ((i + 1) * sz + sz) (total P)); lia.
  - rewrite dispatch_end by exact H. reflexivity.
Qed.
End Sv.
