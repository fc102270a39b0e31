(** Proofs about the URI chosen for a created resource. *)
From Verif Require Import Common Ri_Model Ep_Model Ep_Spec Ep_Proofs Col_Model Col_Spec Col_Proofs.
From Coq Require Import ZArith Sorting.Sorted.
Local Open Scope list_scope.
Local Open Scope N_scope.

(** * Decimal texts *)
Lemma value_snoc s c : value_of (s ++ [c]) = value_of s * 10 + (c - 48).
Proof.
  induction s as [|x s IH]; cbn [app value_of List.length].
  - change (10 ^ N.of_nat 0) with 1. lia.
  - rewrite IH, app_length. cbn [List.length]. replace (List.length s + 1)%nat with (S (List.length s)) by lia.
    rewrite Nat2N.inj_succ, N.pow_succ_r'. lia.
Qed.
Lemma dval_value s : dval s = value_of s.
Proof.
  induction s as [|c s IH] using rev_ind; [reflexivity|]. rewrite value_snoc, <- IH. unfold dval. rewrite fold_left_app. reflexivity.
Qed.
Lemma pow_pos k : 0 < 10 ^ N.of_nat k.
Proof. apply N.neq_0_lt_0, N.pow_nonzero. lia. Qed.
Lemma value_bound s : Forall (fun c => 48 <= c <= 57) s -> value_of s < 10 ^ N.of_nat (List.length s).
Proof.
  induction 1 as [|c s Hc Hs IH]; [reflexivity|]. cbn [value_of List.length]. rewrite Nat2N.inj_succ, N.pow_succ_r'.
  pose proof (pow_pos (List.length s)). nia.
Qed.
Lemma value_lower c s : 49 <= c -> 10 ^ N.of_nat (List.length s) <= value_of (c :: s).
Proof. intros H. cbn [value_of]. pose proof (pow_pos (List.length s)). nia. Qed.
Lemma value_lex s t : lex s t -> List.length s = List.length t -> Forall (fun c => 48 <= c <= 57) s -> Forall (fun c => 48 <= c <= 57) t ->
  value_of s < value_of t.
Proof.
  induction 1 as [y b|x y a b H|x a b H IH]; intros Hl Hs Ht; [discriminate| |]; injection Hl as Hl; inversion Hs; subst; inversion Ht; subst; cbn [value_of].
  - pose proof (value_bound a). rewrite Hl in *. pose proof (pow_pos (List.length b)). specialize (H0 ltac:(assumption)). nia.
  - rewrite Hl. specialize (IH Hl ltac:(assumption) ltac:(assumption)). lia.
Qed.

Lemma lex_prefix p a b : lex (p ++ a) (p ++ b) -> lex a b.
Proof. induction p as [|x p IH]; [auto|]. cbn [app]. inversion 1; subst; [lia|auto]. Qed.

Lemma href_value cu s t : plain_number s -> plain_number t -> href_lt (child cu s) (child cu t) -> value_of s < value_of t.
Proof.
  intros [[Hs1 Hs2] Hs3] [[Ht1 Ht2] Ht3]. unfold child. intros [H|[H K]]; rewrite !app_length in H.
  - destruct t as [|c t]; [contradiction|]. cbn [hd] in Ht3. inversion Ht2; subst. cbn [List.length] in H.
    pose proof (value_bound s Hs2). pose proof (value_lower c t ltac:(lia)).
    assert (10 ^ N.of_nat (List.length s) <= 10 ^ N.of_nat (List.length t)) by (apply N.pow_le_mono_r; lia). lia.
  - apply value_lex; [|lia|exact Hs2|exact Ht2]. rewrite !app_assoc in K. exact (lex_prefix _ _ _ K).
Qed.

Lemma child_inj cu s t : child cu s = child cu t -> s = t.
Proof. unfold child. intros H. apply app_inv_head in H. injection H as H. exact H. Qed.

Lemma plain_unique s t : plain_number s -> plain_number t -> value_of s = value_of t -> s = t.
Proof.
  intros Hs Ht E. destruct (href_total (child [] s) (child [] t)) as [H|[H|H]].
  - apply href_value in H; [lia|assumption|assumption].
  - exact (child_inj _ _ _ H).
  - apply href_value in H; [lia|assumption|assumption].
Qed.

Lemma digits_forall s : forallb is_digit s = true <-> Forall (fun c => 48 <= c <= 57) s.
Proof.
  rewrite forallb_forall, Forall_forall. split; intros H c Hc; specialize (H c Hc); unfold is_digit in *; cbn beta in *.
  - apply andb_true_iff in H. lia.
  - apply andb_true_iff. lia.
Qed.

Lemma dec_aux_plain f : forall n, 0 < n -> n < 2 ^ N.of_nat f -> hd 0 (dec_aux (S f) n) <> 48.
Proof.
  induction f as [|f IH]; intros n Hn L; cbn [dec_aux].
  - change (2 ^ N.of_nat 0) with 1 in L. lia.
  - cbn [dec_aux] in IH. destruct (n <? 10) eqn:E.
    + cbn [app hd]. apply N.ltb_lt in E. rewrite N.mod_small by lia. lia.
    + apply N.ltb_ge in E. rewrite Nat2N.inj_succ, N.pow_succ_r' in L.
      assert (H1 : 0 < n / 10) by (apply N.div_str_pos; lia). assert (H2 : n / 10 < 2 ^ N.of_nat f) by lia.
      specialize (IH (n / 10) H1 H2). destruct ((if n / 10 <? 10 then [] else dec_aux f (n / 10 / 10)) ++ [48 + (n / 10) mod 10]) eqn:D.
      * destruct (if n / 10 <? 10 then [] else dec_aux f (n / 10 / 10)); discriminate.
      * exact IH.
Qed.
Lemma dec_plain n : 0 < n -> plain_number (dec n) /\ value_of (dec n) = n.
Proof.
  intros Hn. destruct (reads_digits _ _ (dec_ok n)) as [D V]. split; [|rewrite <- dval_value; exact V].
  split; [split; [exact (reads_nonempty _ _ _ (dec_ok n))|apply digits_forall; exact D]|].
  unfold dec. apply dec_aux_plain; [exact Hn|apply size_lt].
Qed.

Lemma plain_match (c : N) (s : list N) : 48 <= c <= 57 ->
  match c :: s with 45 :: r => (true, r) | 43 :: r => (false, r) | _ => (false, c :: s) end = (false, c :: s).
Proof. intros H. destruct c as [|p]; [reflexivity|]. do 6 (destruct p as [p|p|]; try reflexivity; try lia). Qed.

Lemma index_plain s : plain_number s ->
  link_index s = if (LONG_MAX <=? Z.of_N (value_of s))%Z then None else Some (Z.of_N (value_of s)).
Proof.
  intros [[Hs1 Hs2] Hs3]. destruct s as [|c s]; [contradiction|]. pose proof (proj2 (digits_forall _) Hs2) as D. inversion Hs2; subst.
  unfold link_index.
  assert (SP : span is_space (c :: s) = []).
  { cbn [span]. unfold is_space. replace (c =? 32) with false by lia. replace (c <=? 13) with false by lia. rewrite andb_false_r. reflexivity. }
  rewrite SP. cbn [List.length skipn]. rewrite (plain_match c s) by assumption.
  pose proof (span_app is_digit (c :: s) [] D I) as Sp. rewrite app_nil_r in Sp. rewrite Sp, Nat.ltb_irrefl, dval_value.
  replace ((Z.of_N (value_of (c :: s)) <=? - LONG_MAX - 1)%Z) with false; [rewrite orb_false_r; reflexivity|].
  symmetry. apply Z.leb_gt. unfold LONG_MAX. lia.
Qed.

Lemma span_split p s : exists r, s = span p s ++ r /\ forallb p (span p s) = true.
Proof. induction s as [|c s (r & IH1 & IH2)]; [exists []; split; reflexivity|]. cbn [span]. destruct (p c) eqn:E; [|exists (c :: s); split; reflexivity]. exists r. cbn [app forallb]. rewrite E, <- IH1. split; [reflexivity|exact IH2]. Qed.

Lemma index_numeral s v : link_index s = Some v -> numeral s.
Proof.
  unfold link_index. destruct (span_split is_space s) as (r & Hs & Sp). set (sp := span is_space s) in *. clearbody sp. subst s. rewrite skipn_app, skipn_all, Nat.sub_diag. cbn [skipn app].
  assert (W : Forall (fun c => c = 32 \/ 9 <= c <= 13) sp). { rewrite forallb_forall in Sp. apply Forall_forall. intros c H. specialize (Sp c H). unfold is_space in Sp. lia. }
  assert (Sg : exists (neg : bool) sg t, r = sg ++ t /\ (sg = [] \/ sg = [43] \/ sg = [45]) /\ match r with 45 :: x => (true, x) | 43 :: x => (false, x) | _ => (false, r) end = (neg, t)).
  { destruct r as [|c r]; [exists false, [], []; auto|]. destruct (N.eq_dec c 45) as [->|e1]; [exists true, [45], r; auto|]. destruct (N.eq_dec c 43) as [->|e2]; [exists false, [43], r; auto|]. exists false, [], (c :: r). split; [reflexivity|]. split; [auto|].
    destruct c as [|p]; [reflexivity|]. do 6 (destruct p as [p|p|]; try reflexivity; try (exfalso; lia)). }
  destruct Sg as (neg & sg & t & Hr & Hg & ->). destruct (span_split is_digit t) as (u & Ht & Dg). destruct (span is_digit t) as [|c d]; [discriminate|]. destruct (Nat.ltb_spec (List.length (c :: d)) (List.length t)) as [L|L]; [discriminate|]. intros _.
  assert (u = []) by (rewrite Ht, app_length in L; destruct u; [reflexivity|cbn in L; lia]). subst u. rewrite app_nil_r in Ht. exists sp, sg, (c :: d). rewrite Hr, Ht. split; [reflexivity|]. split; [exact W|]. split; [exact Hg|]. split; [discriminate|apply digits_forall; exact Dg].
Qed.

Lemma numeral_last s : numeral s -> 48 <= last s 0 <= 57.
Proof.
  intros (sp & sg & d & -> & _ & _ & Hd & F). rewrite app_assoc. destruct (exists_last Hd) as (d' & c & ->). rewrite app_assoc, last_last. rewrite Forall_forall in F. apply F. apply in_elt.
Qed.

Lemma starts_spec p s r : starts_with p s = Some r <-> s = p ++ r.
Proof.
  revert s. induction p as [|x p IH]; intros s; cbn [starts_with app].
  - split; [intros H; injection H; auto|intros ->; reflexivity].
  - destruct s as [|y s]; [split; discriminate|]. destruct (N.eqb_spec x y) as [->|E].
    + rewrite IH. split; [intros ->; reflexivity|intros H; injection H; auto].
    + split; [discriminate|]. intros H. injection H as H _. congruence.
Qed.

Definition number_of (cu : list N) (l : link) (n : N) : Prop :=
  exists s, ln_uri l = child cu s /\ plain_number s /\ value_of s = n /\ (Z.of_N n < LONG_MAX)%Z.

Lemma loop_case cu l r i : tidy cu (l :: r) ->
  ((forall n, ~ number_of cu l n) /\ index_loop cu (l :: r) i = index_loop cu r i) \/
  exists n, number_of cu l n /\ index_loop cu (l :: r) i =
    if negb (n =? i) then i else if i =? 4294967295 then 0 else index_loop cu r (i + 1).
Proof.
  intros Ht. cbn [index_loop]. destruct (starts_with (cu ++ [47]) (ln_uri l)) as [s|] eqn:E.
  - apply starts_spec in E. rewrite <- app_assoc in E. change (cu ++ [47] ++ s) with (child cu s) in E.
    assert (N1 : forall n, number_of cu l n -> exists v, link_index s = Some v /\ v = Z.of_N n).
    { intros n (s' & Hs & Hp & Hv & Hb). rewrite Hs in E. apply child_inj in E. subst s'. exists (Z.of_N n). split; [|reflexivity].
      rewrite (index_plain s Hp), Hv. replace (LONG_MAX <=? Z.of_N n)%Z with false; [reflexivity|]. symmetry. apply Z.leb_gt. exact Hb. }
    destruct s as [|c s].
    + left. split; [|reflexivity]. intros n (s' & Hs & Hp & _). rewrite Hs in E. apply child_inj in E. subst s'. destruct Hp as [[Hp _] _]. contradiction.
    + destruct (link_index (c :: s)) as [v|] eqn:Ev.
      * destruct (Ht l (c :: s) (or_introl eq_refl) E) as [Hn|Hp]; [exfalso; apply Hn; apply (index_numeral _ _ Ev)|]. rewrite (index_plain _ Hp) in Ev.
        destruct (LONG_MAX <=? Z.of_N (value_of (c :: s)))%Z eqn:Eb; [discriminate|]. assert (Hv : v = Z.of_N (value_of (c :: s))) by congruence. subst v. clear Ev N1. right. exists (value_of (c :: s)). split.
        -- exists (c :: s). split; [exact E|]. split; [exact Hp|]. split; [reflexivity|]. apply Z.leb_gt. exact Eb.
        -- replace (Z.of_N (value_of (c :: s)) =? Z.of_N i)%Z with (value_of (c :: s) =? i); [reflexivity|].
           destruct (N.eqb_spec (value_of (c :: s)) i) as [->|Hd]; symmetry; [apply Z.eqb_refl|apply Z.eqb_neq; lia].
      * left. split; [|reflexivity]. intros n Hn. destruct (N1 n Hn) as (v & Hv & _). discriminate.
  - left. split; [|reflexivity]. intros n (s' & Hs & _). assert (starts_with (cu ++ [47]) (ln_uri l) = Some s'); [|congruence].
    apply starts_spec. rewrite <- app_assoc. exact Hs.
Qed.

Lemma number_fun cu l n m : number_of cu l n -> number_of cu l m -> n = m.
Proof. intros (s & Hs & _ & <- & _) (t & Ht & _ & <- & _). rewrite Hs in Ht. apply child_inj in Ht. subst. reflexivity. Qed.

Lemma number_order cu a b n m : number_of cu a n -> number_of cu b m -> href_lt (ln_uri a) (ln_uri b) -> n < m.
Proof. intros (s & Hs & Ps & <- & _) (t & Ht & Pt & <- & _) H. rewrite Hs, Ht in H. exact (href_value cu s t Ps Pt H). Qed.

Lemma loop_spec cu ls : forall i, in_order ls -> distinct_uris ls -> tidy cu ls ->
  (forall l n, In l ls -> number_of cu l n -> i <= n) -> i + N.of_nat (List.length ls) < 4294967295 ->
  exists j, index_loop cu ls i = j /\ i <= j <= i + N.of_nat (List.length ls) /\
    (forall l, In l ls -> ~ number_of cu l j) /\
    (forall k, i <= k < j -> exists l, In l ls /\ number_of cu l k).
Proof.
  induction ls as [|l ls IH]; intros i Hs Hd Ht Hi Hb.
  - exists i. cbn [index_loop List.length]. split; [reflexivity|]. split; [lia|]. split; [intros l []|intros k Hk; lia].
  - unfold in_order in Hs. inversion Hs as [|x y Hs' Hf]; subst. unfold distinct_uris in Hd. cbn [map] in Hd. inversion Hd as [|x y Hd1 Hd2]; subst.
    cbn [List.length] in Hb.
    assert (Ht' : tidy cu ls) by (intros l' s Hl; apply Ht; right; exact Hl).
    assert (Hlt : forall l', In l' ls -> href_lt (ln_uri l) (ln_uri l')).
    { intros l' Hl'. rewrite Forall_forall in Hf. specialize (Hf l' Hl'). cbn beta in Hf. destruct (href_total (ln_uri l) (ln_uri l')) as [H|[H|H]]; [exact H| |contradiction].
      exfalso. apply Hd1. rewrite H. apply in_map. exact Hl'. }
    destruct (loop_case cu l ls i Ht) as [[Hn ->]|(n & Hn & ->)].
    + destruct (IH i Hs' Hd2 Ht' ltac:(intros l' n Hl'; apply Hi; right; exact Hl') ltac:(lia)) as (j & Hj & Hr & H1 & H2).
      exists j. split; [exact Hj|]. cbn [List.length]. split; [lia|]. split.
      * intros l' [<-|Hl']; [apply Hn|exact (H1 l' Hl')].
      * intros k Hk. destruct (H2 k Hk) as (l' & Hl' & Hk'). exists l'. split; [right; exact Hl'|exact Hk'].
    + pose proof (Hi l n (or_introl eq_refl) Hn) as Hin. destruct (N.eqb_spec n i) as [->|Hne]; cbn [negb].
      * replace (i =? 4294967295) with false by lia.
        destruct (IH (i + 1) Hs' Hd2 Ht') as (j & Hj & Hr & H1 & H2).
        { intros l' m Hl' Hm. pose proof (number_order cu l l' i m Hn Hm (Hlt l' Hl')). lia. }
        { lia. }
        exists j. split; [exact Hj|]. cbn [List.length]. split; [lia|]. split.
        -- intros l' [<-|Hl']; [|exact (H1 l' Hl')]. intros Hj'. pose proof (number_fun cu l i j Hn Hj'). lia.
        -- intros k Hk. destruct (N.eq_dec k i) as [->|Hk']; [exists l; split; [left; reflexivity|exact Hn]|].
           destruct (H2 k ltac:(lia)) as (l' & Hl' & H). exists l'. split; [right; exact Hl'|exact H].
      * exists i. split; [reflexivity|]. cbn [List.length]. split; [lia|]. split; [|intros k Hk; lia].
        intros l' [<-|Hl'] Hi'.
        -- apply Hne. exact (number_fun cu l n i Hn Hi').
        -- pose proof (number_order cu l l' n i Hn Hi' (Hlt l' Hl')). lia.
Qed.

Lemma unique_index_spec cu ls : cu <> [] -> (List.length cu < 62)%nat -> in_order ls -> distinct_uris ls -> tidy cu ls ->
  N.of_nat (List.length ls) < 4294967294 -> (forall l n, In l ls -> ~ (ln_uri l = child cu n /\ value_of n = 0 /\ plain_number n)) ->
  let i := unique_index cu ls in
  1 <= i <= 1 + N.of_nat (List.length ls) /\ (forall l, In l ls -> ln_uri l <> child cu (dec i)) /\
  (forall k, 1 <= k < i -> exists l, In l ls /\ ln_uri l = child cu (dec k)).
Proof.
  intros Hc Hl Hs Hd Ht Hb Hz. unfold unique_index. destruct cu as [|c0 cu0] eqn:Ec; [contradiction|]. rewrite <- Ec in *.
  replace (62 <=? List.length cu)%nat with false by (symmetry; apply Nat.leb_gt; exact Hl). cbn zeta.
  destruct (loop_spec cu ls 1 Hs Hd Ht) as (j & -> & Hr & H1 & H2).
  - intros l n Hin (s & Hu & Hp & Hv & _). destruct (N.eq_dec n 0) as [->|]; [exfalso; apply (Hz l s Hin); auto|lia].
  - lia.
  - split; [exact Hr|]. split.
    + intros l Hin Hu. apply (H1 l Hin). destruct (dec_plain j ltac:(lia)) as [Hp Hv]. exists (dec j). repeat split; try apply Hp; [exact Hu|exact Hv|].
      unfold LONG_MAX. lia.
    + intros k Hk. destruct (H2 k Hk) as (l & Hin & (s & Hu & Hp & Hv & _)). exists l. split; [exact Hin|].
      destruct (dec_plain k ltac:(lia)) as [Hp' Hv']. rewrite (plain_unique s (dec k) Hp Hp') in Hu; [exact Hu|lia].
Qed.

(** a plain number is not zero *)
Lemma plain_pos s : plain_number s -> 0 < value_of s.
Proof.
  intros [[Hs1 Hs2] Hs3]. destruct s as [|c s]; [contradiction|]. inversion Hs2; subst. cbn [hd] in Hs3.
  pose proof (value_lower c s ltac:(lia)). pose proof (pow_pos (List.length s)). lia.
Qed.

Lemma index_free cu ls : cu <> [] -> (List.length cu < 62)%nat -> in_order ls -> distinct_uris ls -> tidy cu ls ->
  N.of_nat (List.length ls) < 4294967294 ->
  let i := unique_index cu ls in
  1 <= i <= 1 + N.of_nat (List.length ls) /\ (forall l, In l ls -> ln_uri l <> child cu (dec i)) /\
  (forall k, 1 <= k < i -> exists l, In l ls /\ ln_uri l = child cu (dec k)).
Proof.
  intros Hc Hl Hs Hd Ht Hb. apply unique_index_spec; try assumption. intros l n _ (_ & Hv & Hp). apply plain_pos in Hp. lia.
Qed.

Lemma dec_len10 n : n < 10000000000 -> (List.length (dec n) <= 10)%nat.
Proof. intros L. apply (dec_len 9). change (10 ^ N.of_nat 10) with 10000000000. exact L. Qed.

(** the URI of a created resource *)
Lemma instance_uri_spec cu ls : cu <> [] -> in_order ls -> distinct_uris ls -> tidy cu ls -> N.of_nat (List.length ls) < 2147483647 ->
  match instance_uri cu ls with
  | Some u => exists i, 1 <= i /\ u = child cu (dec i) /\ (List.length u < 64)%nat /\ (forall l, In l ls -> ln_uri l <> u) /\
                (forall k, 1 <= k < i -> exists l, In l ls /\ ln_uri l = child cu (dec k))
  | None => (53 <= List.length cu)%nat
  end.
Proof.
  intros Hc Hs Hd Ht Hb. unfold instance_uri. destruct (le_lt_dec 62 (List.length cu)) as [Hl|Hl].
  - assert (E : unique_index cu ls = 0).
    { unfold unique_index. destruct cu; [reflexivity|]. rewrite (proj2 (Nat.leb_le _ _) Hl). reflexivity. }
    rewrite E, N.eqb_refl. lia.
  - destruct (index_free cu ls Hc Hl Hs Hd Ht ltac:(lia)) as (Hr & Hf & Hu). cbn zeta in *. set (i := unique_index cu ls) in *.
    replace (i =? 0) with false by lia. replace (i <? 2147483648) with true by lia.
    pose proof (dec_len10 i ltac:(lia)) as Hd10.
    destruct (64 <? List.length cu + 1 + List.length (dec i) + 1)%nat eqn:E.
    + apply Nat.ltb_lt in E. lia.
    + apply Nat.ltb_ge in E. exists i. split; [lia|]. split; [reflexivity|]. split; [rewrite !app_length; cbn [List.length]; lia|]. split; [exact Hf|exact Hu].
Qed.
