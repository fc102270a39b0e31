From Verif Require Import Common Evq_Model Evq_Spec.
Local Open Scope N_scope.

Definition nthe (q : list event) (i : N) : event := nth (N.to_nat i) q zero_event.

Record rep (r : ring) (q : list event) : Prop := {
  rp_n : r_n r = N.of_nat (List.length q);
  rp_le : r_n r <= r_cap r;
  rp_f : r_f r < r_cap r;
  rp_len : b_len (r_buf r) = r_cap r;
  rp_cell : forall i, i < r_n r -> b_cell (r_buf r) ((r_f r + i) mod r_cap r) = nthe q i }.

Lemma wrap f i cap : f < cap -> i < cap -> (f + i) mod cap = if f + i <? cap then f + i else f + i - cap.
Proof.
  intros Hf Hi. destruct (f + i <? cap) eqn:E; [apply N.mod_small; lia|].
  symmetry. apply (N.mod_unique _ _ 1); lia.
Qed.

Lemma rep_init : rep ring_init [].
Proof. constructor; cbn; try lia. Qed.

Lemma nthe_app1 q e i : i < N.of_nat (List.length q) -> nthe (q ++ [e]) i = nthe q i.
Proof. intros H. unfold nthe. apply app_nth1. lia. Qed.
Lemma nthe_app2 q e : nthe (q ++ [e]) (N.of_nat (List.length q)) = e.
Proof. unfold nthe. rewrite app_nth2 by lia. replace (N.to_nat _ - _)%nat with 0%nat by lia. reflexivity. Qed.

Lemma append_ok r q e : rep r q -> r_n r < r_cap r -> exists r', append r e = Some r' /\ rep r' (q ++ [e]) /\ r_cap r' = r_cap r.
Proof.
  intros R Hn. pose proof (rp_f _ _ R) as Hf. pose proof (rp_n _ _ R) as En. pose proof (rp_len _ _ R) as El.
  unfold append, put. rewrite (wrap _ _ _ Hf Hn).
  destruct ((if r_f r + r_n r <? r_cap r then r_f r + r_n r else r_f r + r_n r - r_cap r) <? b_len (r_buf r)) eqn:E;
    [|destruct (r_f r + r_n r <? r_cap r) eqn:E1; lia].
  eexists. split; [reflexivity|]. split; [|reflexivity]. constructor; cbn [r_buf r_f r_n r_cap b_len b_cell].
  - rewrite app_length. cbn [List.length]. lia.
  - lia.
  - exact Hf.
  - exact El.
  - intros i Hi. rewrite (wrap _ i _ Hf) by lia.
    destruct (N.eq_dec i (r_n r)) as [->|Hne].
    + rewrite N.eqb_refl, En, nthe_app2. reflexivity.
    + rewrite nthe_app1 by lia. rewrite <- (rp_cell _ _ R i) by lia. rewrite (wrap _ i _ Hf) by lia.
      match goal with |- (if ?c then _ else _) = _ => destruct c eqn:E2 end; [exfalso|reflexivity].
      destruct (r_f r + i <? r_cap r) eqn:E3; destruct (r_f r + r_n r <? r_cap r) eqn:E4; lia.
Qed.

(** The copy loop: [c] old capacity (all entries used), [f] first; [o] is the old contents. *)
Lemma grow_loop_ok (c f : N) (o : N -> event) : f < c ->
  forall fuel b i, b_len b = 2 * c -> f <= i -> i <= c + f -> (N.to_nat (c + f - i) < fuel)%nat ->
  (forall a, a < f -> b_cell b a = o a) ->
  (forall a, i <= a -> a < c -> b_cell b a = o a) ->
  (forall a, f <= a -> a < i -> a < c -> b_cell b (c + a) = o a) ->
  exists b', grow_loop fuel b (2 * c) c (c - f) i (N.min i c - f) = Some b' /\ b_len b' = 2 * c /\
    (forall a, a < f -> b_cell b' a = o a) /\ (forall a, f <= a -> a < c -> b_cell b' (c + a) = o a).
Proof.
  intros Hf. induction fuel as [|fu IH]; intros b i Hl H1 H2 Hfu A B C; [lia|]. cbn [grow_loop].
  destruct (i <? 2 * c - (c - f)) eqn:E.
  - destruct (i <? c) eqn:E1.
    + unfold get, put. rewrite Hl. destruct (i <? 2 * c) eqn:E2; [|lia].
      replace (N.min i c) with i by lia.
      destruct (2 * c - (c - f) + (i - f) <? 2 * c) eqn:E3; [|lia]. cbn [option_map b_len].
      rewrite E2. cbn [b_cell].
      replace (i - f + 1) with (N.min (i + 1) c - f) by lia.
      apply IH; cbn [b_len b_cell]; [reflexivity|lia|lia|lia| | |].
      * intros a Ha. destruct (a =? i) eqn:E4; [lia|]. destruct (a =? 2 * c - (c - f) + (i - f)) eqn:E5; [lia|]. apply A; exact Ha.
      * intros a Ha Hc. destruct (a =? i) eqn:E4; [lia|]. destruct (a =? 2 * c - (c - f) + (i - f)) eqn:E5; [lia|]. apply B; lia.
      * intros a Ha Hi Hc. destruct (c + a =? i) eqn:E4; [lia|].
        destruct (c + a =? 2 * c - (c - f) + (i - f)) eqn:E5; [replace a with i by lia; apply B; lia|]. apply C; lia.
    + unfold put. rewrite Hl. destruct (i <? 2 * c) eqn:E2; [|lia].
      replace (N.min i c) with (N.min (i + 1) c) by lia.
      apply IH; cbn [b_len b_cell]; [reflexivity|lia|lia|lia| | |].
      * intros a Ha. destruct (a =? i) eqn:E4; [lia|]. apply A; exact Ha.
      * intros a Ha Hc. lia.
      * intros a Ha Hi Hc. destruct (c + a =? i) eqn:E4; [lia|]. apply C; lia.
  - exists b. split; [reflexivity|]. split; [exact Hl|]. split; [exact A|]. intros a Ha Hc. apply C; lia.
Qed.

Lemma grow_ok junk r q : rep r q -> r_n r = r_cap r -> exists r', grow junk r = Some r' /\ rep r' q /\ r_cap r' = 2 * r_cap r.
Proof.
  intros R Hn. pose proof (rp_f _ _ R) as Hf. pose proof (rp_n _ _ R) as En. pose proof (rp_len _ _ R) as El.
  unfold grow. rewrite Hn. replace (r_cap r * 2) with (2 * r_cap r) by lia.
  pose (o := b_cell (r_buf r)).
  destruct (grow_loop_ok (r_cap r) (r_f r) o Hf (S (N.to_nat (2 * r_cap r)))
     (mkBuf (2 * r_cap r) (fun a => if a <? b_len (r_buf r) then b_cell (r_buf r) a else junk a)) (r_f r)) as (b' & E & Hl & A & B);
    cbn [b_len b_cell]; try lia.
  - intros a Ha. rewrite El. destruct (a <? r_cap r) eqn:E; [reflexivity|lia].
  - intros a Ha Hc. rewrite El. destruct (a <? r_cap r) eqn:E; [reflexivity|lia].
  - replace (N.min (r_f r) (r_cap r) - r_f r) with 0 in E by lia. rewrite E.
    eexists. split; [reflexivity|]. split; [|reflexivity]. constructor; cbn [r_buf r_f r_n r_cap]; [lia|lia|lia|exact Hl|].
    intros i Hi. rewrite wrap by lia. rewrite <- (rp_cell _ _ R i) by lia. rewrite wrap by lia. fold o.
    destruct (2 * r_cap r - (r_cap r - r_f r) + i <? 2 * r_cap r) eqn:E1; destruct (r_f r + i <? r_cap r) eqn:E2; try lia.
    + rewrite <- B by lia. f_equal. lia.
    + rewrite <- A by lia. f_equal. lia.
Qed.

(** In the fixed build the capacity stays 10. *)
Definition cap_ok (dyn : bool) (r : ring) : Prop := dyn = true \/ r_cap r = 10.

Lemma post_ok dyn junk r q e : rep r q -> cap_ok dyn r -> exists r', post dyn junk r e = Some (r', if negb dyn && (N.of_nat (List.length q) =? 10) then 1 else 0) /\
  rep r' (if negb dyn && (N.of_nat (List.length q) =? 10) then q else q ++ [e]) /\ cap_ok dyn r'.
Proof.
  intros R Hc. pose proof (rp_n _ _ R) as En. pose proof (rp_le _ _ R) as Hle. pose proof (rp_f _ _ R) as Hf.
  unfold post. destruct (r_n r =? r_cap r) eqn:E.
  - destruct dyn; cbn [negb andb].
    + destruct (grow_ok junk r q R ltac:(lia)) as (r1 & E1 & R1 & C1). rewrite E1.
      pose proof (rp_n _ _ R1). destruct (append_ok r1 q e R1 ltac:(lia)) as (r2 & E2 & R2 & C2). rewrite E2. cbn [option_map].
      exists r2. split; [reflexivity|]. split; [exact R2|left; reflexivity].
    + destruct Hc as [Hc|Hc]; [discriminate|]. destruct (N.of_nat (List.length q) =? 10) eqn:E1; [|lia].
      exists r. split; [reflexivity|]. split; [exact R|right; exact Hc].
  - destruct (append_ok r q e R ltac:(lia)) as (r2 & E2 & R2 & C2). rewrite E2. cbn [option_map]. exists r2.
    assert (X : negb dyn && (N.of_nat (List.length q) =? 10) = false).
    { destruct dyn; [reflexivity|]. destruct Hc as [Hc|Hc]; [discriminate|]. cbn [negb andb]. lia. }
    rewrite X. split; [reflexivity|]. split; [exact R2|]. destruct Hc as [Hc|Hc]; [left; exact Hc|right; lia].
Qed.

Lemma take_ok r q : rep r q -> exists r', take r = Some (r', hd_error q) /\ rep r' (tl q) /\ r_cap r' = r_cap r.
Proof.
  intros R. pose proof (rp_n _ _ R) as En. pose proof (rp_le _ _ R) as Hle. pose proof (rp_f _ _ R) as Hf. pose proof (rp_len _ _ R) as El.
  unfold take. destruct q as [|e t].
  - cbn [List.length] in En. rewrite En. change (N.of_nat 0) with 0. rewrite N.eqb_refl. exists r. split; [reflexivity|]. split; [exact R|reflexivity].
  - cbn [List.length] in En. destruct (r_n r =? 0) eqn:E; [lia|]. unfold get. rewrite El. destruct (r_f r <? r_cap r) eqn:E1; [|lia].
    pose proof (rp_cell _ _ R 0 ltac:(lia)) as H0. rewrite N.add_0_r, N.mod_small in H0 by lia. rewrite H0.
    eexists. split; [reflexivity|]. split; [|reflexivity]. constructor; cbn [r_buf r_f r_n r_cap tl].
    + lia.
    + lia.
    + apply N.mod_lt. lia.
    + exact El.
    + intros i Hi. pose proof (rp_cell _ _ R (i + 1) ltac:(lia)) as H1.
      rewrite N.add_mod_idemp_l by lia. replace (r_f r + 1 + i) with (r_f r + (i + 1)) by lia. rewrite H1.
      unfold nthe. replace (N.to_nat (i + 1)) with (S (N.to_nat i)) by lia. reflexivity.
Qed.

Definition remove_nth (i : N) (q : list event) : list event := firstn (N.to_nat i) q ++ skipn (S (N.to_nat i)) q.

Lemma remove_nth_len i q : i < N.of_nat (List.length q) -> List.length (remove_nth i q) = (List.length q - 1)%nat.
Proof. intros H. unfold remove_nth. rewrite app_length, firstn_length, skipn_length. lia. Qed.

Lemma remove_nth_nth i q k : i < N.of_nat (List.length q) -> nthe (remove_nth i q) k = if k <? i then nthe q k else nthe q (k + 1).
Proof.
  intros H. unfold nthe, remove_nth.
  assert (L : List.length (firstn (N.to_nat i) q) = N.to_nat i) by (rewrite firstn_length; lia).
  destruct (k <? i) eqn:E.
  - rewrite app_nth1 by lia. rewrite <- (firstn_skipn (N.to_nat i) q) at 2. rewrite app_nth1 by lia. reflexivity.
  - rewrite app_nth2 by lia. rewrite L. rewrite <- (firstn_skipn (S (N.to_nat i)) q) at 2.
    assert (L2 : List.length (firstn (S (N.to_nat i)) q) = S (N.to_nat i)) by (rewrite firstn_length; lia).
    rewrite app_nth2 by lia. rewrite L2. f_equal. lia.
Qed.

Lemma drop_at_ok r q i : rep r q -> i < r_n r -> exists r', drop_at r i = Some r' /\ rep r' (remove_nth i q) /\ r_cap r' = r_cap r /\ r_n r' = r_n r - 1.
Proof.
  intros R Hi. pose proof (rp_n _ _ R) as En. pose proof (rp_le _ _ R) as Hle. pose proof (rp_f _ _ R) as Hf. pose proof (rp_len _ _ R) as El.
  pose proof (rp_cell _ _ R) as HC. assert (Hlen := remove_nth_len i q ltac:(lia)).
  assert (Hnth := fun k => remove_nth_nth i q k ltac:(lia)).
  unfold drop_at. rewrite (wrap _ i _ Hf) by lia.
  destruct (1 <? r_n r) eqn:E1.
  - replace (r_f r + r_n r - 1) with (r_f r + (r_n r - 1)) by lia. rewrite (wrap _ (r_n r - 1) _ Hf) by lia.
    set (index := if r_f r + i <? r_cap r then r_f r + i else r_f r + i - r_cap r).
    set (last := if r_f r + (r_n r - 1) <? r_cap r then r_f r + (r_n r - 1) else r_f r + (r_n r - 1) - r_cap r).
    assert (Hix : index < r_cap r) by (unfold index; destruct (r_f r + i <? r_cap r) eqn:?; lia).
    assert (Hla : last < r_cap r) by (unfold last; destruct (r_f r + (r_n r - 1) <? r_cap r) eqn:?; lia).
    assert (HC' : forall k, k < r_n r -> b_cell (r_buf r) (if r_f r + k <? r_cap r then r_f r + k else r_f r + k - r_cap r) = nthe q k).
    { intros k Hk. rewrite <- (HC k Hk). rewrite wrap by lia. reflexivity. }
    destruct (index <=? last) eqn:E2.
    + unfold move. rewrite El. destruct ((index + (last - index) <=? r_cap r) && (index + 1 + (last - index) <=? r_cap r)) eqn:E3; [|lia].
      eexists. split; [reflexivity|]. split; [|split; reflexivity]. constructor; cbn [r_buf r_f r_n r_cap b_len b_cell]; [lia|lia|exact Hf|reflexivity|].
      intros k Hk. rewrite (wrap _ k _ Hf) by lia. rewrite Hnth.
      destruct (k <? i) eqn:E4.
      * rewrite <- (HC' k) by lia.
        match goal with |- (if ?c then _ else _) = _ => destruct c eqn:E5 end; [exfalso|reflexivity].
        unfold index, last in *. destruct (r_f r + i <? r_cap r) eqn:?; destruct (r_f r + (r_n r - 1) <? r_cap r) eqn:?; destruct (r_f r + k <? r_cap r) eqn:?; lia.
      * rewrite <- (HC' (k + 1)) by lia.
        match goal with |- (if ?c then _ else _) = _ => destruct c eqn:E5 end.
        -- f_equal. unfold index, last in *. destruct (r_f r + i <? r_cap r) eqn:?; destruct (r_f r + (r_n r - 1) <? r_cap r) eqn:?; destruct (r_f r + k <? r_cap r) eqn:?; destruct (r_f r + (k + 1) <? r_cap r) eqn:?; lia.
        -- exfalso. unfold index, last in *. destruct (r_f r + i <? r_cap r) eqn:?; destruct (r_f r + (r_n r - 1) <? r_cap r) eqn:?; destruct (r_f r + k <? r_cap r) eqn:?; lia.
    + unfold move at 1. rewrite El. destruct ((index + (r_cap r - 1 - index) <=? r_cap r) && (index + 1 + (r_cap r - 1 - index) <=? r_cap r)) eqn:E3; [|lia].
      unfold get. cbn [b_len b_cell]. destruct (0 <? r_cap r) eqn:E4; [|lia].
      unfold put. cbn [b_len b_cell]. destruct (r_cap r - 1 <? r_cap r) eqn:E5; [|lia].
      unfold move. cbn [b_len b_cell]. destruct ((0 + last <=? r_cap r) && (1 + last <=? r_cap r)) eqn:E6; [|lia].
      eexists. split; [reflexivity|]. split; [|split; reflexivity]. constructor; cbn [r_buf r_f r_n r_cap b_len b_cell]; [lia|lia|exact Hf|reflexivity|].
      assert (Hw1 : r_f r + i < r_cap r) by (unfold index, last in *; destruct (r_f r + i <? r_cap r) eqn:?; destruct (r_f r + (r_n r - 1) <? r_cap r) eqn:?; lia).
      assert (Hw2 : r_cap r <= r_f r + (r_n r - 1)) by (unfold index, last in *; destruct (r_f r + i <? r_cap r) eqn:?; destruct (r_f r + (r_n r - 1) <? r_cap r) eqn:?; lia).
      assert (Ei : index = r_f r + i) by (unfold index; destruct (r_f r + i <? r_cap r) eqn:?; lia).
      assert (Ela : last = r_f r + (r_n r - 1) - r_cap r) by (unfold last; destruct (r_f r + (r_n r - 1) <? r_cap r) eqn:?; lia).
      clearbody index last.
      intros k Hk. rewrite (wrap _ k _ Hf) by lia. rewrite Hnth.
      set (w := if r_f r + k <? r_cap r then r_f r + k else r_f r + k - r_cap r).
      assert (Hw : (r_f r + k < r_cap r /\ w = r_f r + k) \/ (r_cap r <= r_f r + k /\ w = r_f r + k - r_cap r)) by (unfold w; destruct (r_f r + k <? r_cap r) eqn:?; lia).
      clearbody w.
      assert (HC2 : forall m a, m < r_n r -> (r_f r + m < r_cap r /\ a = r_f r + m) \/ (r_cap r <= r_f r + m /\ a = r_f r + m - r_cap r) -> b_cell (r_buf r) a = nthe q m).
      { intros m a Hm Ha. rewrite <- (HC' m Hm). f_equal. destruct (r_f r + m <? r_cap r) eqn:?; lia. }
      destruct ((0 <=? w) && (w <? 0 + last)) eqn:F1.
      * replace (w - 0 + 1) with (w + 1) by lia. destruct (w + 1 =? r_cap r - 1) eqn:F2; [lia|].
        destruct ((index <=? w + 1) && (w + 1 <? index + (r_cap r - 1 - index))) eqn:F3; [lia|].
        destruct (k <? i) eqn:F4; [lia|]. apply HC2; lia.
      * destruct (w =? r_cap r - 1) eqn:F2.
        -- destruct ((index <=? 0) && (0 <? index + (r_cap r - 1 - index))) eqn:F3.
           ++ lia.
           ++ destruct (k <? i) eqn:F4; [lia|]. apply HC2; lia.
        -- destruct ((index <=? w) && (w <? index + (r_cap r - 1 - index))) eqn:F3.
           ++ destruct (k <? i) eqn:F4; [lia|]. apply HC2; lia.
           ++ destruct (k <? i) eqn:F4; [|lia]. apply HC2; lia.
  - eexists. split; [reflexivity|]. split; [|split; reflexivity]. constructor; cbn [r_buf r_f r_n r_cap]; [lia|lia|exact Hf|exact El|]. intros k Hk. lia.
Qed.

Lemma drop_loop_ok p m fuel : forall r q1 q2 d, rep r (q1 ++ q2) -> (List.length q2 < fuel)%nat ->
  exists r', drop_loop fuel r p m (N.of_nat (List.length q1)) d = Some (r', d + N.of_nat (List.length (filter (matches p m) q2))) /\
    rep r' (q1 ++ filter (fun e => negb (matches p m e)) q2) /\ r_cap r' = r_cap r.
Proof.
  induction fuel as [|fu IH]; intros r q1 q2 d R Hf; [lia|]. cbn [drop_loop].
  pose proof (rp_n _ _ R) as En. rewrite app_length in En.
  destruct q2 as [|e t].
  - cbn [List.length] in En. destruct (N.of_nat (List.length q1) <? r_n r) eqn:E; [lia|]. exists r.
    cbn [filter List.length]. rewrite N.add_0_r. split; [reflexivity|]. split; [exact R|reflexivity].
  - cbn [List.length] in En, Hf. destruct (N.of_nat (List.length q1) <? r_n r) eqn:E; [|lia].
    pose proof (rp_cell _ _ R (N.of_nat (List.length q1)) ltac:(lia)) as H0.
    unfold get. rewrite (rp_len _ _ R).
    assert (Hm : (r_f r + N.of_nat (List.length q1)) mod r_cap r < r_cap r) by (apply N.mod_lt; pose proof (rp_f _ _ R); lia).
    destruct ((r_f r + N.of_nat (List.length q1)) mod r_cap r <? r_cap r) eqn:E1; [|lia]. rewrite H0.
    assert (Hn : nthe (q1 ++ e :: t) (N.of_nat (List.length q1)) = e).
    { unfold nthe. rewrite app_nth2 by lia. replace (N.to_nat _ - _)%nat with 0%nat by lia. reflexivity. }
    rewrite Hn. cbn [filter]. change (matches p m e) with ((e_p e =? p) && m e).
    destruct (e_p e =? p) eqn:F1; destruct (m e) eqn:F2; cbn [negb orb andb].
    + destruct (drop_at_ok r (q1 ++ e :: t) (N.of_nat (List.length q1)) R ltac:(lia)) as (r1 & D & R1 & C1 & N1). rewrite D.
      assert (Eq : remove_nth (N.of_nat (List.length q1)) (q1 ++ e :: t) = q1 ++ t).
      { unfold remove_nth. rewrite Nnat.Nat2N.id. rewrite firstn_app, firstn_all, Nat.sub_diag. cbn [firstn]. rewrite app_nil_r.
        f_equal. rewrite skipn_app. rewrite skipn_all2 by lia. replace (S _ - _)%nat with 1%nat by lia. reflexivity. }
      rewrite Eq in R1. destruct (IH r1 q1 t (d + 1) R1 ltac:(lia)) as (r2 & E2 & R2 & C2). rewrite E2. exists r2.
      split; [f_equal; f_equal; cbn [List.length]; lia|]. split; [exact R2|lia].
    + replace (q1 ++ e :: t) with ((q1 ++ [e]) ++ t) in R by (rewrite <- app_assoc; reflexivity).
      destruct (IH r (q1 ++ [e]) t d R ltac:(lia)) as (r2 & E2 & R2 & C2).
      rewrite app_length in E2. cbn [List.length] in E2. replace (N.of_nat (List.length q1) + 1) with (N.of_nat (List.length q1 + 1)) by lia. rewrite E2.
      exists r2. split; [reflexivity|]. split; [rewrite <- app_assoc in R2; exact R2|exact C2].
    + replace (q1 ++ e :: t) with ((q1 ++ [e]) ++ t) in R by (rewrite <- app_assoc; reflexivity).
      destruct (IH r (q1 ++ [e]) t d R ltac:(lia)) as (r2 & E2 & R2 & C2).
      rewrite app_length in E2. cbn [List.length] in E2. replace (N.of_nat (List.length q1) + 1) with (N.of_nat (List.length q1 + 1)) by lia. rewrite E2.
      exists r2. split; [reflexivity|]. split; [rewrite <- app_assoc in R2; exact R2|exact C2].
    + replace (q1 ++ e :: t) with ((q1 ++ [e]) ++ t) in R by (rewrite <- app_assoc; reflexivity).
      destruct (IH r (q1 ++ [e]) t d R ltac:(lia)) as (r2 & E2 & R2 & C2).
      rewrite app_length in E2. cbn [List.length] in E2. replace (N.of_nat (List.length q1) + 1) with (N.of_nat (List.length q1 + 1)) by lia. rewrite E2.
      exists r2. split; [reflexivity|]. split; [rewrite <- app_assoc in R2; exact R2|exact C2].
Qed.

Lemma iter_loop_ok m fuel : forall r q1 q2, rep r (q1 ++ q2) -> (List.length q2 < fuel)%nat ->
  iter_loop fuel r m (N.of_nat (List.length q1)) = Some (existsb m q2).
Proof.
  induction fuel as [|fu IH]; intros r q1 q2 R Hf; [lia|]. cbn [iter_loop].
  pose proof (rp_n _ _ R) as En. rewrite app_length in En.
  destruct q2 as [|e t].
  - cbn [List.length] in En. destruct (N.of_nat (List.length q1) <? r_n r) eqn:E; [lia|reflexivity].
  - cbn [List.length] in En, Hf. destruct (N.of_nat (List.length q1) <? r_n r) eqn:E; [|lia].
    pose proof (rp_cell _ _ R (N.of_nat (List.length q1)) ltac:(lia)) as H0.
    unfold get. rewrite (rp_len _ _ R).
    assert (Hm : (r_f r + N.of_nat (List.length q1)) mod r_cap r < r_cap r) by (apply N.mod_lt; pose proof (rp_f _ _ R); lia).
    destruct ((r_f r + N.of_nat (List.length q1)) mod r_cap r <? r_cap r) eqn:E1; [|lia]. rewrite H0.
    assert (Hn : nthe (q1 ++ e :: t) (N.of_nat (List.length q1)) = e).
    { unfold nthe. rewrite app_nth2 by lia. replace (N.to_nat _ - _)%nat with 0%nat by lia. reflexivity. }
    rewrite Hn. cbn [existsb]. destruct (m e); [reflexivity|]. cbn [orb].
    replace (q1 ++ e :: t) with ((q1 ++ [e]) ++ t) in R by (rewrite <- app_assoc; reflexivity).
    specialize (IH r (q1 ++ [e]) t R ltac:(lia)). rewrite app_length in IH. cbn [List.length] in IH.
    replace (N.of_nat (List.length q1) + 1) with (N.of_nat (List.length q1 + 1)) by lia. exact IH.
Qed.

Lemma exec_ok dyn junk r q o : rep r q -> cap_ok dyn r ->
  exists r', exec dyn junk r o = Some (r', snd (spec dyn q o)) /\ rep r' (fst (spec dyn q o)) /\ cap_ok dyn r'.
Proof.
  intros R Hc. pose proof (rp_n _ _ R) as En. destruct o as [e| |p m| |m]; cbn [exec spec].
  - destruct (post_ok dyn junk r q e R Hc) as (r' & E & R' & C'). rewrite E. exists r'. cbn [option_map fst snd].
    revert R'. destruct (negb dyn && (N.of_nat (List.length q) =? 10)); cbn [fst snd]; intros R'; (split; [reflexivity|]); split; assumption.
  - destruct (take_ok r q R) as (r' & E & R' & C'). rewrite E. exists r'. cbn [option_map fst snd]. split; [reflexivity|]. split; [exact R'|].
    destruct Hc as [Hc|Hc]; [left; exact Hc|right; lia].
  - unfold drop. destruct (p =? 0); cbn [option_map fst snd].
    + exists r. split; [reflexivity|]; split; assumption.
    + destruct (drop_loop_ok p m (S (N.to_nat (r_n r))) r [] q 0 R ltac:(lia)) as (r' & E & R' & C').
      change (N.of_nat (List.length (@nil event))) with 0 in E. rewrite E. cbn [option_map fst snd]. rewrite N.add_0_l. exists r'. split; [reflexivity|].
      split; [exact R'|]. destruct Hc as [Hc|Hc]; [left; exact Hc|right; lia].
  - exists r. cbn [fst snd]. rewrite En. split; [reflexivity|]; split; assumption.
  - exists r. cbn [fst snd]. unfold iter_any. pose proof (iter_loop_ok m (S (N.to_nat (r_n r))) r [] q R ltac:(lia)) as E. change (N.of_nat (List.length (@nil event))) with 0 in E. rewrite E. cbn [option_map]. split; [reflexivity|]; split; assumption.
Qed.

Lemma run_ok dyn junk os : forall r q, rep r q -> cap_ok dyn r ->
  exists r', run dyn junk r os = Some (r', snd (spec_run dyn q os)) /\ rep r' (fst (spec_run dyn q os)).
Proof.
  induction os as [|o rest IH]; intros r q R Hc; cbn [run spec_run].
  - exists r. split; [reflexivity|exact R].
  - destruct (exec_ok dyn junk r q o R Hc) as (r1 & E & R1 & C1). rewrite E. destruct (spec dyn q o) as [q1 v]. cbn [fst snd] in *.
    destruct (IH r1 q1 R1 C1) as (r2 & E2 & R2). rewrite E2. destruct (spec_run dyn q1 rest) as [q2 vs]. cbn [option_map fst snd] in *.
    exists r2. split; [reflexivity|exact R2].
Qed.

Lemma fifo_spec dyn os : forall q, forallb no_drop os = true ->
  q ++ accepted os (snd (spec_run dyn q os)) = delivered (snd (spec_run dyn q os)) ++ fst (spec_run dyn q os).
Proof.
  induction os as [|o rest IH]; intros q H; cbn [spec_run].
  - cbn. apply app_nil_r.
  - cbn [forallb] in H. apply andb_true_iff in H. destruct H as [H1 H2].
    destruct o as [e| |p m| |m]; cbn [spec no_drop] in *; [| |discriminate| |].
    + destruct (negb dyn && (N.of_nat (List.length q) =? 10)).
      * specialize (IH q H2). destruct (spec_run dyn q rest) as [q2 vs]. cbn [fst snd accepted delivered] in *. exact IH.
      * specialize (IH (q ++ [e]) H2). destruct (spec_run dyn (q ++ [e]) rest) as [q2 vs]. cbn [fst snd accepted delivered] in *.
        rewrite <- IH, <- app_assoc. reflexivity.
    + specialize (IH (tl q) H2). destruct (spec_run dyn (tl q) rest) as [q2 vs]. cbn [fst snd accepted delivered] in *.
      destruct q as [|e t]; cbn [hd_error tl app] in *; [exact IH|]. rewrite <- IH. reflexivity.
    + specialize (IH q H2). destruct (spec_run dyn q rest) as [q2 vs]. cbn [fst snd accepted delivered] in *. exact IH.
    + specialize (IH q H2). destruct (spec_run dyn q rest) as [q2 vs]. cbn [fst snd accepted delivered] in *. exact IH.
Qed.
