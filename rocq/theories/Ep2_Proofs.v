From Verif Require Import Common Ep_Model Ep_Spec Ep_Proofs.
From Coq Require Import String.
Local Open Scope string_scope.
Local Open Scope list_scope.
Local Open Scope N_scope.

(** * One group *)
Lemma reads_inv b t c n : reads b (t ++ [c]) n -> exists v, digit c v /\ v < b /\ (t = [] /\ n = v \/ exists m, reads b t m /\ n = m * b + v).
Proof.
  intros R. remember (t ++ [c]) as x eqn:E. destruct R as [d v D L|t' m d v R D L].
  - destruct t as [|y t]; [|destruct t; discriminate]. injection E as ->. exists v. auto.
  - apply app_inj_tail in E. destruct E as [-> ->]. exists v. split; [assumption|]. split; [assumption|]. right. exists m. auto.
Qed.
Lemma reads_nil b n : ~ reads b [] n.
Proof. intros R. exact (reads_nonempty _ _ _ R eq_refl). Qed.
Lemma lor16 x y : x < 16 -> y < 16 -> N.lor (x * 16 mod 256) y = 16 * x + y.
Proof.
  intros X Y.
  assert (S : forallb (fun x => forallb (fun y => N.lor (x * 16 mod 256) y =? 16 * x + y) (below 16)) (below 16) = true) by (vm_compute; reflexivity).
  rewrite forallb_forall in S. specialize (S x (below_In 16 x X)). rewrite forallb_forall in S. specialize (S y (below_In 16 y Y)). lia.
Qed.
Lemma bin2_ok c d x y : digit c x -> digit d y -> bin2 c d = 16 * x + y.
Proof.
  intros C D. apply digit_hexval in C, D. unfold bin2. destruct C as (-> & C), D as (-> & D). apply lor16; tauto.
Qed.
Lemma bin1_ok c x : digit c x -> bin1 c = x.
Proof. intros C. apply digit_hexval in C. unfold bin1. tauto. Qed.

Inductive group_case : N -> list N -> Prop :=
| G1 c x : digit c x -> group_case x [c]
| G2 c d x y : digit c x -> digit d y -> group_case (16 * x + y) [c; d]
| G3 b c d w x y : digit b w -> digit c x -> digit d y -> group_case (256 * w + (16 * x + y)) [b; c; d]
| G4 a b c d v w x y : digit a v -> digit b w -> digit c x -> digit d y -> group_case (256 * (16 * v + w) + (16 * x + y)) [a; b; c; d].
Lemma group_cases w t : group w t -> group_case w t.
Proof.
  intros [R L]. destruct t as [|a t]; [exfalso; exact (reads_nil _ _ R)|].
  destruct t as [|b t].
  - apply (reads_inv 16 [] a) in R. destruct R as (v & D & _ & [[_ ->]|(m & R & _)]); [constructor; assumption|]. exfalso. exact (reads_nil _ _ R).
  - destruct t as [|c t].
    + apply (reads_inv 16 [a] b) in R. destruct R as (v & D & _ & [[X _]|(m & R & ->)]); [discriminate|].
      apply (reads_inv 16 [] a) in R. destruct R as (v' & D' & _ & [[_ ->]|(m' & R & _)]); [|exfalso; exact (reads_nil _ _ R)].
      replace (v' * 16 + v) with (16 * v' + v) by lia. constructor; assumption.
    + destruct t as [|d t].
      * apply (reads_inv 16 [a; b] c) in R. destruct R as (v & D & _ & [[X _]|(m & R & ->)]); [discriminate|].
        apply (reads_inv 16 [a] b) in R. destruct R as (v' & D' & _ & [[X _]|(m' & R & ->)]); [discriminate|].
        apply (reads_inv 16 [] a) in R. destruct R as (v'' & D'' & _ & [[_ ->]|(m'' & R & _)]); [|exfalso; exact (reads_nil _ _ R)].
        replace ((v'' * 16 + v') * 16 + v) with (256 * v'' + (16 * v' + v)) by lia. constructor; assumption.
      * destruct t as [|e t]; [|cbn in L; lia].
        apply (reads_inv 16 [a; b; c] d) in R. destruct R as (v & D & _ & [[X _]|(m & R & ->)]); [discriminate|].
        apply (reads_inv 16 [a; b] c) in R. destruct R as (v0 & D0 & _ & [[X _]|(m0 & R & ->)]); [discriminate|].
        apply (reads_inv 16 [a] b) in R. destruct R as (v' & D' & _ & [[X _]|(m' & R & ->)]); [discriminate|].
        apply (reads_inv 16 [] a) in R. destruct R as (v'' & D'' & _ & [[_ ->]|(m'' & R & _)]); [|exfalso; exact (reads_nil _ _ R)].
        replace (((v'' * 16 + v') * 16 + v0) * 16 + v) with (256 * (16 * v'' + v') + (16 * v0 + v)) by lia. constructor; assumption.
Qed.

Definition nocolon (c : N) : bool := negb (c =? 58).
Lemma group_nocolon w t : group w t -> forallb nocolon t = true.
Proof.
  intros [R _]. apply reads_chars in R. apply forallb_forall. intros c I. rewrite Forall_forall in R. specialize (R c I).
  unfold nocolon. apply negb_true_iff, N.eqb_neq. tauto.
Qed.
Definition ends (r : list N) : Prop := match r with [] => True | c :: _ => c = 58 end.
Lemma ends_stops r : ends r -> stops nocolon r.
Proof. destruct r as [|c r]; [auto|]. cbn. intros ->. reflexivity. Qed.

(** The part of the loop body after the test for a double colon. *)
Definition body (f : nat) (s a : list N) (split : option nat) : option (list N * option nat) :=
  match span nocolon s with
  | [p; q; r; t] => parse6_loop f (skipn 4 s) (a ++ [bin2 p q; bin2 r t]) split
  | [p; q; r] => parse6_loop f (skipn 3 s) (a ++ [bin1 p; bin2 q r]) split
  | [p; q] => parse6_loop f (skipn 2 s) (a ++ [0; bin2 p q]) split
  | [p] => parse6_loop f (skipn 1 s) (a ++ [0; bin1 p]) split
  | [] => parse6_loop f (tl s) a split
  | _ => None
  end.
Lemma loop_unfold f s a split : s <> [] -> (List.length a < 15)%nat ->
  parse6_loop (S f) s a split =
  match split, s with
  | None, 58 :: 58 :: r => body f r a (Some (List.length a))
  | _, _ => body f s a split
  end.
Proof.
  intros NE L. destruct s as [|c s]; [contradiction|]. cbn [parse6_loop]. replace (15 <=? List.length a)%nat with false by lia.
  fold nocolon. unfold body. destruct split as [k|]; [reflexivity|].
  destruct c as [|p]; [reflexivity|]. do 6 (destruct p as [p|p|]; try reflexivity).
  destruct s as [|c s]; [reflexivity|]. destruct c as [|p]; [reflexivity|]. do 6 (destruct p as [p|p|]; try reflexivity).
Qed.
Lemma hi h l : l < 256 -> (256 * h + l) / 256 = h. Proof. intros. lia. Qed.
Lemma lo h l : l < 256 -> (256 * h + l) mod 256 = l. Proof. intros. lia. Qed.
Lemma hi0 l : l < 256 -> l / 256 = 0. Proof. intros. lia. Qed.
Lemma lo0 l : l < 256 -> l mod 256 = l. Proof. intros. lia. Qed.
Lemma body_group f w g r a split : group w g -> ends r ->
  body f (g ++ r) a split = parse6_loop f r (a ++ [w / 256; w mod 256]) split.
Proof.
  intros G E. unfold body. rewrite span_app by (eauto using group_nocolon, ends_stops).
  destruct (group_cases _ _ G) as [c x C|c d x y C D|b c d w x y B C D|e b c d v w x y A B C D]; cbn [app skipn].
  - rewrite (bin1_ok _ _ C). apply digit_hexval in C. rewrite ?hi, ?lo, ?hi0, ?lo0 by lia. reflexivity.
  - rewrite (bin2_ok _ _ _ _ C D). apply digit_hexval in C, D. rewrite ?hi, ?lo, ?hi0, ?lo0 by lia. reflexivity.
  - rewrite (bin1_ok _ _ B), (bin2_ok _ _ _ _ C D). apply digit_hexval in B, C, D. rewrite ?hi, ?lo, ?hi0, ?lo0 by lia. reflexivity.
  - rewrite (bin2_ok _ _ _ _ A B), (bin2_ok _ _ _ _ C D). apply digit_hexval in A, B, C, D. rewrite ?hi, ?lo, ?hi0, ?lo0 by lia. reflexivity.
Qed.
Lemma group_head w g r : group w g -> exists c t, g ++ r = c :: t /\ c <> 58.
Proof.
  intros [R _]. pose proof (reads_nonempty _ _ _ R). apply reads_chars in R. destruct g as [|c g]; [contradiction|].
  inversion R as [|? ? X _]; subst. exists c, (g ++ r). split; [reflexivity|tauto].
Qed.
Lemma not_double split c t : c <> 58 -> forall f a, match split, c :: t with
  | None, 58 :: 58 :: r => body f r a (Some (List.length a))
  | _, _ => body f (c :: t) a split
  end = body f (c :: t) a split.
Proof. intros NE f a. destruct split; [reflexivity|]. destruct c as [|p]; [reflexivity|]. do 6 (destruct p as [p|p|]; try reflexivity). contradiction. Qed.
Lemma loop_group f w g r a split : group w g -> ends r -> (List.length a < 15)%nat ->
  parse6_loop (S f) (g ++ r) a split = parse6_loop f r (a ++ [w / 256; w mod 256]) split.
Proof.
  intros G E L. rewrite <- (body_group f w g r a split G E). destruct (group_head w g r G) as (c & t & -> & NE).
  rewrite loop_unfold by (try discriminate; assumption). apply not_double. assumption.
Qed.
Lemma loop_sep f w g r a split : group w g -> ends r -> (List.length a < 15)%nat ->
  parse6_loop (S (S f)) (58 :: g ++ r) a split = parse6_loop f r (a ++ [w / 256; w mod 256]) split.
Proof.
  intros G E L. rewrite loop_unfold by (try discriminate; assumption).
  assert (X : match split, 58 :: g ++ r with
              | None, 58 :: 58 :: r => body (S f) r a (Some (List.length a))
              | _, _ => body (S f) (58 :: g ++ r) a split
              end = body (S f) (58 :: g ++ r) a split).
  { destruct split; [reflexivity|]. destruct (group_head w g r G) as (c & t & -> & NE). destruct c as [|p]; [reflexivity|]. do 6 (destruct p as [p|p|]; try reflexivity). contradiction. }
  rewrite X. unfold body. cbn [span nocolon tl]. replace (negb (58 =? 58)) with false by reflexivity. cbn iota. apply loop_group; assumption.
Qed.

(** * Many groups *)
Lemma bytes_of_app a b : bytes_of (a ++ b) = bytes_of a ++ bytes_of b.
Proof. unfold bytes_of. apply flat_map_app. Qed.
Lemma bytes_of_len a : List.length (bytes_of a) = (2 * List.length a)%nat.
Proof. unfold bytes_of. induction a as [|x a IH]; [reflexivity|]. cbn [flat_map app List.length] in *. lia. Qed.
(** More fuel changes nothing once a result is there. *)
Lemma loop_more f : forall s a split x, parse6_loop f s a split = Some x -> parse6_loop (S f) s a split = Some x.
Proof.
  induction f as [|f IH]; intros s a split x H; [discriminate|].
  destruct s as [|c s]; [exact H|]. destruct (15 <=? List.length a)%nat eqn:L.
  - cbn [parse6_loop] in H |- *. rewrite L in *. exact H.
  - apply Nat.leb_gt in L. rewrite loop_unfold in H by (try discriminate; lia). rewrite loop_unfold by (try discriminate; lia).
    assert (B : forall s' sp, body f s' a sp = Some x -> body (S f) s' a sp = Some x).
    { intros s' sp. unfold body. intros K. repeat first [discriminate K | apply IH; exact K | match type of K with context [match ?y with _ => _ end] => destruct y end]. }
    revert H. destruct split as [k|]; [apply B|]. destruct c as [|p]; [apply B|]. do 6 (destruct p as [p|p|]; try apply B).
    destruct s as [|c s]; [apply B|]. destruct c as [|p]; [apply B|]. do 6 (destruct p as [p|p|]; try apply B).
Qed.
Lemma loop_more_le f f' s a split x : (f <= f')%nat -> parse6_loop f s a split = Some x -> parse6_loop f' s a split = Some x.
Proof. intros L. induction L as [|f' L IH]; intros H; [exact H|]. apply loop_more. auto. Qed.

Lemma group_len w t : group w t -> (1 <= List.length t <= 4)%nat.
Proof. intros [R L]. apply reads_nonempty in R. destruct t; [contradiction|]. cbn in *. lia. Qed.
Lemma join_cons t ts : join (t :: ts) = t ++ match ts with [] => [] | _ => 58 :: join ts end.
Proof. destruct ts; [cbn; rewrite app_nil_r; reflexivity|reflexivity]. Qed.

(** The groups [ws] written after a colon. *)
Lemma loop_rest ws ts : Forall2 group ws ts -> forall f r a split x, ends r -> (List.length a + 2 * List.length ws <= 16)%nat ->
  parse6_loop f r (a ++ bytes_of ws) split = Some x ->
  exists f', (f' <= f + List.length (flat_map (fun t => 58%N :: t) ts))%nat /\ parse6_loop f' (flat_map (fun t => 58 :: t) ts ++ r) a split = Some x.
Proof.
  induction 1 as [|w t ws ts G F IH]; intros f r a split x E L H.
  - cbn [flat_map app]. exists f. split; [cbn; lia|]. unfold bytes_of in H. cbn [flat_map] in H. rewrite app_nil_r in H. exact H.
  - cbn [List.length] in L.
    change (bytes_of (w :: ws)) with ([w / 256; w mod 256] ++ bytes_of ws) in H. rewrite app_assoc in H.
    apply IH in H; [|exact E|rewrite app_length; cbn [List.length]; lia]. destruct H as (f' & Lf & H).
    exists (S (S f')). pose proof (group_len _ _ G) as GL. split; [cbn [flat_map]; rewrite app_length; cbn [List.length]; lia|].
    cbn [flat_map]. rewrite <- app_assoc. cbn [app]. rewrite (loop_sep f' w t _ a split G).
    + exact H.
    + destruct ts; [exact E|reflexivity].
    + lia.
Qed.
Lemma join_flat t ts : join (t :: ts) = t ++ flat_map (fun t => 58 :: t) ts.
Proof. revert t. induction ts as [|u ts IH]; intros t; [cbn; rewrite app_nil_r; reflexivity|]. cbn [flat_map app]. rewrite join_cons, IH. reflexivity. Qed.
Lemma loop_join ws ts : Forall2 group ws ts -> forall f r a split x, ends r -> (List.length a + 2 * List.length ws <= 16)%nat ->
  parse6_loop f r (a ++ bytes_of ws) split = Some x ->
  exists f', (f' <= f + List.length (join ts))%nat /\ parse6_loop f' (join ts ++ r) a split = Some x.
Proof.
  intros [|w t ws' ts' G F] f r a split x E L H.
  - cbn [app join List.length]. exists f. split; [lia|]. unfold bytes_of in H. cbn [flat_map] in H. rewrite app_nil_r in H. exact H.
  - rewrite join_flat. cbn [List.length] in L.
    change (bytes_of (w :: ws')) with ([w / 256; w mod 256] ++ bytes_of ws') in H. rewrite app_assoc in H.
    destruct (loop_rest ws' ts' F f r (a ++ [w / 256; w mod 256]) split x E) as (f' & Lf & H'); [rewrite app_length; cbn [List.length]; lia|exact H|].
    exists (S f'). pose proof (group_len _ _ G). split; [rewrite app_length; lia|].
    rewrite <- app_assoc. rewrite (loop_group f' w t _ a split G); [exact H'| |lia]. destruct ts'; [exact E|reflexivity].
Qed.
(** The double colon, with the groups after it. *)
Lemma loop_gap r rt : Forall2 group r rt -> forall a, (List.length a + 2 * List.length r < 15)%nat ->
  exists f', (f' <= 2 + List.length (join rt))%nat /\ parse6_loop f' (58 :: 58 :: join rt) a None = Some (a ++ bytes_of r, Some (List.length a)).
Proof.
  intros [|w t ws ts G F] a L.
  - exists 2%nat. split; [cbn; lia|]. rewrite loop_unfold by (try discriminate; cbn in L; lia). unfold body, bytes_of. cbn [span tl join flat_map]. rewrite app_nil_r. reflexivity.
  - cbn [List.length] in L. rewrite join_flat.
    destruct (loop_rest ws ts F 1 [] (a ++ [w / 256; w mod 256]) (Some (List.length a)) (a ++ bytes_of (w :: ws), Some (List.length a))) as (f' & Lf & H).
    + exact I.
    + rewrite app_length. cbn [List.length]. lia.
    + rewrite <- app_assoc. reflexivity.
    + exists (S f'). pose proof (group_len _ _ G). split; [rewrite app_length; lia|].
      rewrite loop_unfold by (try discriminate; lia). rewrite app_nil_r in H. rewrite body_group with (w := w); [exact H|exact G|]. destruct ts; [exact I|reflexivity].
Qed.

Ltac list_cases a n := match n with O => destruct a as [|? ?]; [|cbn in *; lia] | S ?m => destruct a as [|? a]; [|list_cases a m] end.
Lemma shift_spec l r : (List.length l + List.length r <= 14)%nat ->
  shift (List.length r) (pad 16 (l ++ r)) (List.length (l ++ r) - 1) 15 = l ++ repeat 0 (16 - List.length l - List.length r) ++ r.
Proof.
  intros L.
  assert (G : forall n m (l r : list N), List.length l = n -> List.length r = m -> (n + m <= 14)%nat ->
     shift m (pad 16 (l ++ r)) (n + m - 1) 15 = l ++ repeat 0 (16 - n - m) ++ r).
  2:{ rewrite app_length. apply (G _ _ l r eq_refl eq_refl L). }
  clear. intros n m l r Hl Hr L.
  do 15 (destruct n as [|n]; [destruct l as [|? l]; [|discriminate];
    do 15 (destruct m as [|m]; [destruct r as [|? r]; [first [reflexivity|exfalso; cbn in L; lia]|discriminate]|destruct r as [|? r]; [discriminate|]]); exfalso; lia
   |destruct l as [|? l]; [discriminate|]]). exfalso; lia.
Qed.
