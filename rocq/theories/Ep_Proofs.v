From Verif Require Import Common Ep_Model Ep_Spec.
From Coq Require Import String.
Local Open Scope string_scope.
Local Open Scope list_scope.
Local Open Scope N_scope.

(** * Comparison *)
Lemma has_bit fl k : has fl (2 ^ k) = N.testbit fl k.
Proof.
  unfold has. destruct (N.testbit fl k) eqn:E.
  - apply negb_true_iff, N.eqb_neq. intros H.
    assert (B : N.testbit (N.land fl (2 ^ k)) k = true) by (rewrite N.land_spec, E, N.pow2_bits_true; reflexivity).
    rewrite H, N.bits_0 in B. discriminate.
  - apply negb_false_iff, N.eqb_eq. apply N.bits_inj. intros i. rewrite N.land_spec, N.bits_0.
    destruct (N.eq_dec k i) as [<-|n].
    + rewrite E. reflexivity.
    + rewrite N.pow2_bits_false by exact n. apply andb_false_r.
Qed.
Lemma has6 fl : has fl IPV6 = N.testbit fl 3. Proof. exact (has_bit fl 3). Qed.
Lemma has4 fl : has fl IPV4 = N.testbit fl 2. Proof. exact (has_bit fl 2). Qed.
Lemma has_tcp fl : has fl TCP = N.testbit fl 4. Proof. exact (has_bit fl 4). Qed.
Lemma has_sec fl : has fl SECURED = N.testbit fl 1. Proof. exact (has_bit fl 1). Qed.

Lemma mask_bits a b : N.land a flag_mask = N.land b flag_mask <-> forall i, i < 6 -> N.testbit a i = N.testbit b i.
Proof.
  assert (M : forall i, N.testbit flag_mask i = (i <? 6)).
  { intros i. change flag_mask with (N.ones 6). destruct (i <? 6) eqn:E.
    - apply N.ones_spec_low. lia.
    - apply N.ones_spec_high. lia. }
  split.
  - intros H i L. assert (X : N.testbit (N.land a flag_mask) i = N.testbit (N.land b flag_mask) i) by (rewrite H; reflexivity).
    rewrite !N.land_spec, M in X. replace (i <? 6) with true in X by lia. rewrite !andb_true_r in X. exact X.
  - intros H. apply N.bits_inj. intros i. rewrite !N.land_spec, M. destruct (i <? 6) eqn:E.
    + rewrite H by lia. reflexivity.
    + rewrite !andb_false_r. reflexivity.
Qed.

Lemma firstn_nth_eq n : forall a b : list N, (n <= List.length a)%nat -> (n <= List.length b)%nat ->
  (firstn n a = firstn n b <-> forall i, (i < n)%nat -> nth i a 0 = nth i b 0).
Proof.
  induction n as [|n IH]; intros a b La Lb.
  - split; [lia|reflexivity].
  - destruct a as [|x a]; [cbn in La; lia|]. destruct b as [|y b]; [cbn in Lb; lia|]. cbn [List.length] in La, Lb.
    cbn [firstn]. split.
    + intros [= -> H] i Li. destruct i as [|i]; [reflexivity|]. cbn [nth]. apply (proj1 (IH a b ltac:(lia) ltac:(lia)) H). lia.
    + intros H. f_equal; [exact (H O ltac:(lia))|]. apply (IH a b); [lia|lia|]. intros i Li. exact (H (S i) ltac:(lia)).
Qed.

Lemma sessions_spec a b : compare_sessions a b = true <-> e_sess a = 0 \/ e_sess b = 0 \/ e_sess a = e_sess b.
Proof. unfold compare_sessions. rewrite !orb_true_iff, !N.eqb_eq. tauto. Qed.

Lemma compare_spec a b : ep_ok a -> ep_ok b -> (ep_compare a b = true <-> same_peer a b).
Proof.
  intros A B. unfold ep_compare, same_peer, is_v6, is_v4. rewrite has6, has4.
  destruct (N.land (e_flags a) flag_mask =? N.land (e_flags b) flag_mask) eqn:F.
  2:{ cbn [negb orb]. split; [discriminate|]. intros [H _]. apply mask_bits in H. apply N.eqb_neq in F. contradiction. }
  apply N.eqb_eq in F. pose proof (proj1 (mask_bits _ _) F) as FB.
  destruct (e_dev a =? e_dev b) eqn:D; cbn [negb orb].
  2:{ split; [discriminate|]. intros (_ & H & _). apply N.eqb_neq in D. contradiction. }
  apply N.eqb_eq in D.
  destruct (N.testbit (e_flags a) 3) eqn:V6.
  - rewrite !andb_true_iff, sessions_spec, N.eqb_eq, list_eqb_spec.
    rewrite !firstn_all2 by (rewrite ?(eo_len _ A), ?(eo_len _ B); lia).
    split.
    + intros [[H1 H2] H3]. repeat split; auto.
    + intros (_ & _ & P & Se & [[_ E]|[X _]]); [tauto|]. exfalso. exact (X eq_refl).
  - destruct (N.testbit (e_flags a) 2) eqn:V4.
    + rewrite !andb_true_iff, sessions_spec, N.eqb_eq, list_eqb_spec.
      rewrite firstn_nth_eq by (rewrite ?(eo_len _ A), ?(eo_len _ B); lia).
      split.
      * intros [[H1 H2] H3]. repeat (split; [solve [auto]|]). right. split; [discriminate|]. split; [reflexivity|assumption].
      * intros (_ & _ & P & Se & [[X _]|[_ [_ E]]]); [discriminate|]. tauto.
    + split; [discriminate|]. intros (_ & _ & _ & _ & [[X _]|[_ [X _]]]); discriminate.
Qed.

Lemma same_peer_sym a b : same_peer a b -> same_peer b a.
Proof.
  intros (F & D & P & S & X). split; [intros i L; symmetry; auto|]. split; [auto|]. split; [auto|]. split; [intuition auto|].
  unfold is_v6, is_v4 in *. rewrite <- (F 3), <- (F 2) by lia.
  destruct X as [[X Y]|(X & Y & Z)]; [left; auto|right]. split; [assumption|]. split; [assumption|]. intros i L. symmetry. auto.
Qed.
Lemma list_eqb_sym a b : list_eqb a b = list_eqb b a.
Proof.
  destruct (list_eqb a b) eqn:E.
  - apply list_eqb_spec in E. subst. symmetry. apply list_eqb_refl.
  - symmetry. destruct (list_eqb b a) eqn:E2; [|reflexivity]. apply list_eqb_spec in E2. subst. rewrite list_eqb_refl in E. discriminate.
Qed.
Lemma compare_sessions_sym a b : compare_sessions a b = compare_sessions b a.
Proof. unfold compare_sessions. rewrite (N.eqb_sym (e_sess b) (e_sess a)). destruct (e_sess a =? 0), (e_sess b =? 0); reflexivity. Qed.
Lemma compare_sym a b : ep_compare a b = ep_compare b a.
Proof.
  unfold ep_compare. rewrite (N.eqb_sym (N.land (e_flags a) _)), (N.eqb_sym (e_dev a)).
  destruct (N.land (e_flags b) flag_mask =? N.land (e_flags a) flag_mask) eqn:F; [|reflexivity]. apply N.eqb_eq in F.
  pose proof (proj1 (mask_bits _ _) F) as FB. rewrite !has6, !has4, (FB 3), (FB 2) by lia.
  rewrite (list_eqb_sym (firstn 16 (e_addr a))), (list_eqb_sym (firstn 4 (e_addr a))), (N.eqb_sym (e_port a)), (compare_sessions_sym a).
  reflexivity.
Qed.
Lemma same_peer_trans a b c : e_sess b <> 0 -> same_peer a b -> same_peer b c -> same_peer a c.
Proof.
  intros S (F & D & P & Se & X) (F' & D' & P' & Se' & X').
  split; [intros i L; rewrite F; auto|]. split; [congruence|]. split; [congruence|].
  split; [destruct Se as [E|[E|E]]; [auto|contradiction|]; destruct Se' as [E'|[E'|E']]; [contradiction|auto|right; right; congruence]|].
  unfold is_v6, is_v4 in *. rewrite <- (F 3), <- (F 2) in X' by lia.
  destruct X as [[X Y]|(X & Y & Z)], X' as [[X' Y']|(X' & Y' & Z')]; try contradiction.
  - left. split; [assumption|congruence].
  - right. split; [assumption|]. split; [assumption|]. intros i L. rewrite Z by assumption. auto.
Qed.
Lemma same_peer_trans0 a b c : (e_sess a = 0 \/ e_sess c = 0) -> same_peer a b -> same_peer b c -> same_peer a c.
Proof.
  intros S (F & D & P & Se & X) (F' & D' & P' & Se' & X').
  split; [intros i L; rewrite F; auto|]. split; [congruence|]. split; [congruence|].
  split; [tauto|].
  unfold is_v6, is_v4 in *. rewrite <- (F 3), <- (F 2) in X' by lia.
  destruct X as [[X Y]|(X & Y & Z)], X' as [[X' Y']|(X' & Y' & Z')]; try contradiction.
  - left. split; [assumption|congruence].
  - right. split; [assumption|]. split; [assumption|]. intros i L. rewrite Z by assumption. auto.
Qed.
Lemma compare_refl a : ep_compare a a = true <-> is_v6 a \/ is_v4 a.
Proof.
  unfold ep_compare, is_v6, is_v4. rewrite !N.eqb_refl, has6, has4, !list_eqb_refl. cbn [negb orb andb].
  assert (S : compare_sessions a a = true) by (unfold compare_sessions; rewrite N.eqb_refl; apply orb_true_r). rewrite S.
  destruct (N.testbit (e_flags a) 3), (N.testbit (e_flags a) 2); intuition discriminate.
Qed.
Lemma compare_addr a b : ep_compare a b = true -> compare_address a b = true.
Proof.
  unfold ep_compare, compare_address. destruct (N.land (e_flags a) flag_mask =? N.land (e_flags b) flag_mask) eqn:F; [|discriminate].
  apply N.eqb_eq in F. pose proof (proj1 (mask_bits _ _) F) as FB. cbn [negb orb].
  destruct (e_dev a =? e_dev b); [|discriminate]. cbn [negb].
  rewrite !has6, !has4, !N.land_spec, <- (FB 3), <- (FB 2), !andb_diag by lia.
  destruct (N.testbit (e_flags a) 3); [rewrite !andb_true_iff; tauto|].
  destruct (N.testbit (e_flags a) 2); [rewrite !andb_true_iff; tauto|discriminate].
Qed.

(** * Numbers *)
Lemma digit_hexval c v : digit c v -> hexval c = v /\ c <> 58 /\ c < 128 /\ c <> 47 /\ c <> 93 /\ c <> 46 /\ v < 16.
Proof.
  intros [[L ->]|[L [-> | ->]]]; unfold hexval.
  - replace (48 <=? 48 + v) with true by lia. replace (48 + v <=? 57) with true by lia. cbn [andb]. lia.
  - replace (87 + v <=? 57) with false by lia. rewrite andb_false_r. replace (97 <=? 87 + v) with true by lia.
    replace (87 + v <=? 102) with true by lia. cbn [andb]. lia.
  - replace (55 + v <=? 57) with false by lia. rewrite andb_false_r. replace (97 <=? 55 + v) with false by lia.
    replace (65 <=? 55 + v) with true by lia. replace (55 + v <=? 70) with true by lia. cbn [andb]. lia.
Qed.
Lemma digit_dec c v : digit c v -> v < 10 -> c = 48 + v.
Proof. intros [[_ ->]|[L _]] H; [reflexivity|lia]. Qed.

Lemma reads_nonempty b t n : reads b t n -> t <> [].
Proof. intros [c v _ _|t' n' c v _ _ _]; [discriminate|]. destruct t'; discriminate. Qed.
Lemma reads_chars b t n : reads b t n -> Forall (fun c => c <> 58 /\ c <> 47 /\ c <> 93 /\ c <> 46) t.
Proof.
  induction 1 as [c v D L|t n c v R IH D L].
  - apply digit_hexval in D. constructor; [tauto|constructor].
  - apply Forall_app. split; [assumption|]. apply digit_hexval in D. constructor; [tauto|constructor].
Qed.
Lemma reads_digits t n : reads 10 t n -> forallb is_digit t = true /\ dval t = n.
Proof.
  induction 1 as [c v D L|t n c v R IH D L].
  - apply digit_dec in D; [|assumption]. subst c. unfold is_digit, dval. cbn [forallb fold_left].
    replace (48 <=? 48 + v) with true by lia. replace (48 + v <=? 57) with true by lia. split; [reflexivity|lia].
  - destruct IH as [H1 H2]. apply digit_dec in D; [|assumption]. subst c. split.
    + rewrite forallb_app, H1. cbn [forallb andb]. unfold is_digit. replace (48 <=? 48 + v) with true by lia. replace (48 + v <=? 57) with true by lia. reflexivity.
    + unfold dval in *. rewrite fold_left_app, H2. cbn [fold_left]. lia.
Qed.

Definition stops (p : N -> bool) (r : list N) : Prop := match r with [] => True | c :: _ => p c = false end.
Lemma span_app p t r : forallb p t = true -> stops p r -> span p (t ++ r) = t.
Proof.
  induction t as [|c t IH]; intros F S.
  - destruct r as [|d r]; [reflexivity|]. cbn in S |- *. rewrite S. reflexivity.
  - cbn [forallb] in F. apply andb_true_iff in F. destruct F as [F1 F2]. cbn [app span]. rewrite F1. f_equal. auto.
Qed.
Lemma strtoul_reads t n r : reads 10 t n -> n < 65536 -> stops is_digit r -> strtoul10 (t ++ r) = (n, List.length t).
Proof.
  intros R L S. destruct (reads_digits t n R) as [D V]. pose proof (reads_nonempty _ _ _ R) as NE.
  destruct t as [|c t]; [contradiction|]. cbn [forallb] in D. apply andb_true_iff in D. destruct D as [Dc Dt].
  unfold is_digit in Dc. apply andb_true_iff in Dc. destruct Dc as [D1 D2].
  unfold strtoul10.
  assert (SP : span is_space ((c :: t) ++ r) = []).
  { cbn [app span]. unfold is_space. replace (c =? 32) with false by lia. replace (c <=? 13) with false by lia. rewrite andb_false_r. reflexivity. }
  rewrite SP. cbn [List.length skipn app].
  assert (M : match c :: t ++ r with 45 :: r0 => (true, 1%nat, r0) | 43 :: r0 => (false, 1%nat, r0) | _ => (false, 0%nat, c :: t ++ r) end = (false, 0%nat, c :: t ++ r)).
  { destruct c as [|p]; [reflexivity|]. do 6 (destruct p as [p|p|]; try reflexivity; try lia). }
  rewrite M. change (c :: t ++ r) with ((c :: t) ++ r). rewrite span_app.
  - cbn [List.length]. rewrite V. replace (2 ^ 64 <=? n) with false by (symmetry; apply N.leb_gt; change (2 ^ 64) with 18446744073709551616; lia). reflexivity.
  - cbn [forallb]. unfold is_digit at 1. rewrite Dt. rewrite D1, D2. reflexivity.
  - exact S.
Qed.

Lemma dec_reads f : forall n, n < 2 ^ N.of_nat f -> reads 10 (dec_aux (S f) n) n.
Proof.
  induction f as [|f IH]; intros n L.
  - cbn [dec_aux]. assert (n = 0) by (change (2 ^ N.of_nat 0) with 1 in L; lia). subst n.
    change (reads 10 [48] 0). constructor; [left; lia|lia].
  - cbn [dec_aux] in *. destruct (n <? 10) eqn:E.
    + apply N.ltb_lt in E. cbn [app]. rewrite N.mod_small by lia. constructor; [left; lia|lia].
    + assert (n / 10 < 2 ^ N.of_nat f).
      { rewrite Nat2N.inj_succ, N.pow_succ_r' in L. lia. }
      specialize (IH _ H). assert (X : n / 10 * 10 + n mod 10 = n) by (pose proof (N.div_mod n 10); lia).
      pose proof (R_more 10 _ _ (48 + n mod 10) (n mod 10) IH ltac:(left; lia) ltac:(lia)) as Q. rewrite X in Q. exact Q.
Qed.
Lemma size_lt n : n < 2 ^ N.of_nat (N.size_nat n).
Proof.
  destruct n as [|p]; [reflexivity|]. cbn [N.size_nat]. pose proof (N.size_gt (N.pos p)) as H.
  replace (N.of_nat (Pos.size_nat p)) with (N.size (N.pos p)); [exact H|].
  cbn [N.size]. clear H. induction p as [p IH|p IH|]; cbn [Pos.size Pos.size_nat]; [| |reflexivity];
    rewrite Nat2N.inj_succ, <- IH; lia.
Qed.
Lemma dec_ok n : reads 10 (dec n) n.
Proof. unfold dec. apply dec_reads, size_lt. Qed.
Lemma dec_len k : forall f n, n < 10 ^ N.of_nat (S k) -> (List.length (dec_aux f n) <= S k)%nat.
Proof.
  induction k as [|k IH]; intros f n L; (destruct f as [|f]; [cbn; lia|]); cbn [dec_aux].
  - change (10 ^ N.of_nat 1) with 10 in L. replace (n <? 10) with true by lia. cbn. lia.
  - rewrite app_length. cbn [List.length]. destruct (n <? 10) eqn:E; [cbn; lia|].
    specialize (IH f (n / 10)). rewrite (Nat2N.inj_succ (S k)), N.pow_succ_r' in L.
    assert (n / 10 < 10 ^ N.of_nat (S k)) by lia. apply IH in H. lia.
Qed.
Lemma dec_len_port n : n < 65536 -> (List.length (dec n) <= 5)%nat.
Proof. intros L. apply (dec_len 4). change (10 ^ N.of_nat 5) with 100000. lia. Qed.
Lemma dec_len_byte n : n < 256 -> (List.length (dec n) <= 3)%nat.
Proof. intros L. apply (dec_len 2). change (10 ^ N.of_nat 3) with 1000. lia. Qed.

Lemma xdigit_ok d : d < 16 -> digit (xdigit d) d.
Proof. intros L. unfold xdigit. destruct (d <? 10) eqn:E; [left|right]; lia. Qed.
Lemma hex_reads f : forall n, n < 2 ^ N.of_nat f -> reads 16 (hex_aux (S f) n) n.
Proof.
  induction f as [|f IH]; intros n L.
  - cbn [hex_aux]. assert (n = 0) by (change (2 ^ N.of_nat 0) with 1 in L; lia). subst n.
    change (reads 16 [48] 0). constructor; [left; lia|lia].
  - cbn [hex_aux] in *. destruct (n <? 16) eqn:E.
    + apply N.ltb_lt in E. cbn [app]. rewrite N.mod_small by lia. constructor; [apply xdigit_ok; lia|lia].
    + assert (n / 16 < 2 ^ N.of_nat f).
      { rewrite Nat2N.inj_succ, N.pow_succ_r' in L. lia. }
      specialize (IH _ H). assert (X : n / 16 * 16 + n mod 16 = n) by (pose proof (N.div_mod n 16); lia).
      pose proof (R_more 16 _ _ (xdigit (n mod 16)) (n mod 16) IH ltac:(apply xdigit_ok; lia) ltac:(lia)) as Q. rewrite X in Q. exact Q.
Qed.
Lemma hex_len k : forall f n, n < 16 ^ N.of_nat (S k) -> (List.length (hex_aux f n) <= S k)%nat.
Proof.
  induction k as [|k IH]; intros f n L; (destruct f as [|f]; [cbn; lia|]); cbn [hex_aux].
  - change (16 ^ N.of_nat 1) with 16 in L. replace (n <? 16) with true by lia. cbn. lia.
  - rewrite app_length. cbn [List.length]. destruct (n <? 16) eqn:E; [cbn; lia|].
    specialize (IH f (n / 16)). rewrite (Nat2N.inj_succ (S k)), N.pow_succ_r' in L.
    assert (n / 16 < 16 ^ N.of_nat (S k)) by lia. apply IH in H. lia.
Qed.
Lemma hex_group w : w < 65536 -> group w (hex w).
Proof.
  intros L. split.
  - unfold hex. apply hex_reads, size_lt.
  - apply (hex_len 3). change (16 ^ N.of_nat 4) with 65536. lia.
Qed.
