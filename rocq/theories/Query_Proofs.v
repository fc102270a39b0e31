From Verif Require Import Common Query_Model Query_Spec.
Local Open Scope nat_scope.

Lemma find_char_app c a b : ~ In c a -> find_char c (a ++ c :: b) = Some (length a).
Proof.
  induction a as [|x a IH]; intros H; cbn [app find_char length].
  - rewrite N.eqb_refl. reflexivity.
  - destruct (N.eqb_spec x c) as [->|]; [exfalso; apply H; left; reflexivity|].
    rewrite IH; [reflexivity|]. intros Hin; apply H; right; exact Hin.
Qed.

Lemma find_char_none c a : ~ In c a -> find_char c a = None.
Proof.
  induction a as [|x a IH]; intros H; cbn [find_char]; [reflexivity|].
  destruct (N.eqb_spec x c) as [->|]; [exfalso; apply H; left; reflexivity|].
  rewrite IH; [reflexivity|]. intros Hin; apply H; right; exact Hin.
Qed.

Lemma find_char_skip c a b : ~ In c a ->
  find_char c (a ++ b) = option_map (fun n => length a + n) (find_char c b).
Proof.
  induction a as [|x a IH]; intros H; cbn [app find_char length].
  - destruct (find_char c b); reflexivity.
  - destruct (N.eqb_spec x c) as [->|]; [exfalso; apply H; left; reflexivity|].
    rewrite IH by (intros Hin; apply H; right; exact Hin).
    destruct (find_char c b); reflexivity.
Qed.

(** text after the first pair *)
Definition tail_text (ps : list pair) : list N :=
  match ps with [] => [] | _ => 38%N :: render ps end.

Lemma render_cons p ps : render (p :: ps) = render_pair p ++ tail_text ps.
Proof. destruct ps; cbn [render tail_text]; [rewrite app_nil_r|]; reflexivity. Qed.

Lemma render_pair_noamp p : wf_pair p -> ~ In 38%N (render_pair p).
Proof.
  intros (_ & Ha & He & Hv). unfold render_pair. destruct (snd p) as [v|]; [|exact Ha].
  rewrite !in_app_iff. intros [H|[[H|[]]|H]]; [auto|discriminate|auto].
Qed.

Lemma render_pair_nonempty p : wf_pair p -> render_pair p <> [].
Proof.
  intros (Hn & _). unfold render_pair. destruct (snd p); [|exact Hn].
  destruct (fst p); discriminate || congruence.
Qed.

Lemma pair_at_render p ps : wf_pair p ->
  pair_at (render (p :: ps)) = (length (fst p), option_map (@length N) (snd p)).
Proof.
  intros Hwf. pose proof (render_pair_noamp p Hwf) as Hno. destruct Hwf as (Hn & Ha & He & Hv).
  rewrite render_cons. unfold pair_at.
  assert (Hamp : find_char 38 (render_pair p ++ tail_text ps) =
                 match ps with [] => None | _ => Some (length (render_pair p)) end).
  { destruct ps as [|q ps].
    - cbn [tail_text]. rewrite app_nil_r. apply find_char_none, Hno.
    - unfold tail_text. apply find_char_app, Hno. }
  rewrite Hamp. unfold render_pair in *. destruct (snd p) as [v|] eqn:Es.
  - rewrite <- !app_assoc. cbn [app]. rewrite find_char_app by exact He. cbn [option_map].
    destruct ps as [|q ps].
    + rewrite !app_length. cbn [length tail_text app]. rewrite app_nil_r. do 2 f_equal. lia.
    + rewrite !app_length. cbn [length].
      destruct (Nat.ltb_spec (length (fst p) + S (length v)) (length (fst p))); [lia|].
      do 2 f_equal. lia.
  - cbn [option_map]. rewrite find_char_skip by exact He.
    destruct ps as [|q ps].
    + cbn [tail_text find_char option_map]. rewrite app_nil_r. reflexivity.
    + destruct (find_char 61 (tail_text (q :: ps))) as [e|] eqn:Ee; cbn [option_map]; [|reflexivity].
      destruct (Nat.ltb_spec (length (fst p)) (length (fst p) + e)) as [|Hle]; [reflexivity|].
      cbn [tail_text find_char] in Ee.
      change (38 =? 61)%N with false in Ee. cbv iota in Ee.
      destruct (find_char 61 (render (q :: ps))); cbn in Ee; [injection Ee as <-; lia|discriminate].
Qed.

Lemma mk_kv_render off p ps : wf_pair p ->
  key (mk_kv off (render (p :: ps))) = fst p /\ value (mk_kv off (render (p :: ps))) = snd p.
Proof.
  intros Hwf. unfold mk_kv. rewrite pair_at_render by exact Hwf. cbn [key value].
  rewrite render_cons. unfold render_pair. destruct (snd p) as [v|].
  - cbn [option_map]. rewrite <- !app_assoc. split.
    + rewrite firstn_app, firstn_all, Nat.sub_diag. cbn [firstn]. apply app_nil_r.
    + f_equal. rewrite skipn_app. rewrite skipn_all2 by lia.
      replace (length (fst p) + 1 - length (fst p)) with 1 by lia. cbn [app skipn].
      rewrite firstn_app, firstn_all, Nat.sub_diag. cbn [firstn]. apply app_nil_r.
  - cbn [option_map]. split; [|reflexivity].
    rewrite firstn_app, firstn_all, Nat.sub_diag. cbn [firstn]. apply app_nil_r.
Qed.

Lemma render_nonempty p ps : wf_pair p -> render (p :: ps) <> [].
Proof.
  intros Hwf H. rewrite render_cons in H. apply app_eq_nil in H as [H _].
  exact (render_pair_nonempty p Hwf H).
Qed.

(** skipping the separators reaches the right pair *)
Lemma skip_pairs_render : forall n ps off,
  Forall wf_pair ps -> n < length ps ->
  skip_pairs n off (render ps) =
  Some (off + (length (render ps) - length (render (skipn n ps))), render (skipn n ps)).
Proof.
  induction n as [|n IH]; intros ps off Hwf Hn.
  - cbn [skip_pairs skipn]. rewrite Nat.sub_diag, Nat.add_0_r. reflexivity.
  - destruct ps as [|p ps]; [cbn [length] in Hn; lia|].
    inversion Hwf as [|? ? Hp Hps]; subst.
    destruct ps as [|q ps]; [cbn [length] in Hn; lia|].
    cbn [skip_pairs]. rewrite render_cons. unfold tail_text.
    rewrite find_char_app by (apply render_pair_noamp; exact Hp).
    rewrite skipn_app. rewrite skipn_all2 by lia.
    replace (length (render_pair p) + 1 - length (render_pair p)) with 1 by lia.
    cbn [app skipn]. rewrite IH; [|exact Hps|cbn [length] in *; lia].
    f_equal. f_equal. rewrite app_length. cbn [length].
    assert (Hle : length (render (skipn n (q :: ps))) <= length (render (q :: ps))).
    { clear. revert q ps. induction n as [|n IH]; intros q ps; [cbn [skipn]; lia|].
      cbn [skipn]. destruct ps as [|p ps].
      - rewrite skipn_nil. cbn. lia.
      - specialize (IH p ps). rewrite (render_cons q). unfold tail_text.
        rewrite app_length. cbn [length]. lia. }
    lia.
Qed.

Lemma skip_pairs_end : forall n ps off,
  Forall wf_pair ps -> length ps <= n -> ps <> [] -> skip_pairs n off (render ps) = None.
Proof.
  induction n as [|n IH]; intros ps off Hwf Hn Hne; [destruct ps; [congruence|cbn [length] in Hn; lia]|].
  destruct ps as [|p ps]; [congruence|]. inversion Hwf as [|? ? Hp Hps]; subst.
  cbn [skip_pairs]. rewrite render_cons. destruct ps as [|q ps].
  - cbn [tail_text]. rewrite app_nil_r. rewrite find_char_none by (apply render_pair_noamp; exact Hp). reflexivity.
  - unfold tail_text. rewrite find_char_app by (apply render_pair_noamp; exact Hp).
    rewrite skipn_app. rewrite skipn_all2 by lia.
    replace (length (render_pair p) + 1 - length (render_pair p)) with 1 by lia.
    cbn [app skipn]. apply IH; [exact Hps|cbn [length] in *; lia|discriminate].
Qed.

Lemma nth_key_value_spec ps n : Forall wf_pair ps ->
  match nth_error ps n with
  | Some p => exists np, nth_key_value (render ps) (S n) = Some {| key := fst p; value := snd p; next_pos := np |}
  | None => nth_key_value (render ps) (S n) = None
  end.
Proof.
  intros Hwf. unfold nth_key_value. cbn [Nat.sub]. rewrite Nat.sub_0_r.
  destruct ps as [|p0 ps0] eqn:Eps.
  { destruct n; reflexivity. }
  rewrite <- Eps in *.
  assert (Hne : render ps <> []).
  { subst ps. inversion Hwf; subst. apply render_nonempty; assumption. }
  destruct (render ps) as [|c r] eqn:Er; [congruence|]. rewrite <- Er.
  destruct (nth_error ps n) as [p|] eqn:En.
  - assert (Hlt : n < length ps) by (apply nth_error_Some; congruence).
    rewrite skip_pairs_render by assumption.
    destruct (skipn n ps) as [|p' r'] eqn:Esk.
    { apply (f_equal (@length pair)) in Esk. rewrite skipn_length in Esk. cbn in Esk. lia. }
    assert (p' = p).
    { pose proof (firstn_skipn n ps) as Hfs. rewrite Esk in Hfs. rewrite <- Hfs in En.
      rewrite nth_error_app2 in En by (rewrite firstn_length; lia).
      rewrite firstn_length in En. replace (n - Nat.min n (length ps)) with 0 in En by lia.
      cbn in En. congruence. }
    subst p'.
    assert (Hp : wf_pair p).
    { rewrite Forall_forall in Hwf. apply Hwf. apply nth_error_In in En. exact En. }
    match goal with |- exists np, Some (mk_kv ?o ?s) = _ => destruct (mk_kv_render o p r' Hp) as [Hk Hv] end.
    destruct (mk_kv _ _) as [k v np] eqn:E. cbn [key value] in *. subst k v. exists np. reflexivity.
  - apply nth_error_None in En. rewrite skip_pairs_end; [reflexivity|assumption|assumption|].
    subst ps; discriminate.
Qed.

(* the position returned: correct when the pair has a value or is the first *)
Lemma next_pos_correct ps n p : Forall wf_pair ps -> nth_error ps n = Some p ->
  (snd p <> None \/ n = 0) -> skipn (S n) ps <> [] ->
  exists kv, nth_key_value (render ps) (S n) = Some kv /\
    skipn (next_pos kv) (render ps) = render (skipn (S n) ps).
Proof.
  intros Hwf En Hor Hmore.
  assert (Hlt : n < length ps) by (apply nth_error_Some; congruence).
  unfold nth_key_value. cbn [Nat.sub]. rewrite Nat.sub_0_r.
  assert (Hne : render ps <> []).
  { destruct ps; [destruct n; discriminate|]. inversion Hwf; subst. apply render_nonempty; assumption. }
  destruct (render ps) as [|c r] eqn:Er; [congruence|]. rewrite <- Er.
  rewrite skip_pairs_render by assumption.
  assert (Hsk : skipn n ps = p :: skipn (S n) ps).
  { clear -En. revert n En. induction ps as [|q ps IH]; intros [|n] En; cbn in *; try congruence. apply IH, En. }
  eexists. split; [reflexivity|].
  assert (Hp : wf_pair p) by (rewrite Forall_forall in Hwf; eapply Hwf, nth_error_In; eassumption).
  rewrite Hsk. unfold mk_kv. rewrite pair_at_render by exact Hp. cbn [next_pos].
  (* the whole text is a prefix, the pair and the rest *)
  assert (Hpre : exists pre, render ps = pre ++ render (skipn n ps)).
  { clear -Hlt. revert n Hlt. induction ps as [|q ps IH]; intros [|n] Hlt; try (exists []; reflexivity).
    cbn [skipn]. destruct ps as [|q' ps]; [cbn in Hlt; lia|].
    destruct (IH n) as [pre Hpre]; [cbn [length] in *; lia|].
    exists (render_pair q ++ 38%N :: pre). rewrite render_cons. unfold tail_text. rewrite Hpre.
    rewrite <- app_assoc. reflexivity. }
  destruct Hpre as [pre Hpre]. rewrite Hsk in Hpre.
  remember (skipn (S n) ps) as rest eqn:Erest. destruct rest as [|q rest]; [congruence|].
  assert (Hoff : 0 + (length (render ps) - length (render (p :: q :: rest))) = length pre)
    by (rewrite Hpre, app_length; lia).
  rewrite Hoff. rewrite Hpre. rewrite render_cons. unfold tail_text.
  rewrite app_assoc. rewrite skipn_app, app_length.
  assert (Hlen : (match option_map (@length N) (snd p) with
          | Some l => length pre + length (fst p) + 1 + l + 1 | None => length (fst p) + 1 end)
         = length pre + length (render_pair p) + 1).
  { unfold render_pair. destruct (snd p) as [v|]; cbn [option_map].
    - rewrite !app_length. cbn [length]. lia.
    - destruct Hor as [Hor| ->]; [congruence|].
      assert (pre = []).
      { cbn [skipn] in Hsk. destruct pre as [|x pre]; [reflexivity|].
        rewrite Hsk in Hpre. apply (f_equal (@length N)) in Hpre. rewrite app_length in Hpre.
        cbn [length] in Hpre. lia. }
      subst pre. cbn [length]. lia. }
  rewrite Hlen. rewrite skipn_all2 by (rewrite app_length; lia).
  replace (length pre + length (render_pair p) + 1 - (length pre + length (render_pair p))) with 1 by lia.
  reflexivity.
Qed.

(* ------------------------------------------------------------ lookup *)
Lemma lower_eq_iff a b : lower a = lower b <->
  (a = b \/ (65 <= a <= 90 /\ b = a + 32) \/ (65 <= b <= 90 /\ a = b + 32))%N.
Proof.
  unfold lower.
  destruct ((65 <=? a) && (a <=? 90))%N eqn:Ea; destruct ((65 <=? b) && (b <=? 90))%N eqn:Eb; lia.
Qed.

Lemma ieq_spec a b : ieq a b = true <-> same_ignoring_case a b.
Proof.
  unfold ieq, same_ignoring_case. rewrite list_eqb_spec. split.
  - intros H. split; [apply (f_equal (@length N)) in H; rewrite !map_length in H; exact H|].
    intros i. cbv zeta. apply lower_eq_iff.
    pose proof (f_equal (fun l => nth i l (lower 0%N)) H) as Hn. cbv beta in Hn.
    rewrite !map_nth in Hn. exact Hn.
  - intros [Hl H]. apply nth_ext with (d := lower 0%N) (d' := lower 0%N); [rewrite !map_length; exact Hl|].
    intros i _. rewrite !map_nth. apply lower_eq_iff. apply H.
Qed.

Lemma match_cond k l : (Nat.eqb (length l) (length k) && ieq k l) = true <-> same_ignoring_case k l.
Proof.
  rewrite andb_true_iff, ieq_spec, Nat.eqb_eq. unfold same_ignoring_case. intuition congruence.
Qed.

Lemma nth1 p ps : wf_pair p ->
  nth_key_value (render (p :: ps)) 1 = Some (mk_kv 0 (render (p :: ps))).
Proof.
  intros Hp. unfold nth_key_value. cbn [Nat.sub skip_pairs].
  destruct (render (p :: ps)) eqn:E; [exfalso; eapply render_nonempty; eassumption|reflexivity].
Qed.

Lemma next_pos0 p ps : wf_pair p -> next_pos (mk_kv 0 (render (p :: ps))) = length (render_pair p) + 1.
Proof.
  intros Hp. unfold mk_kv. rewrite pair_at_render by exact Hp. cbn [next_pos].
  unfold render_pair. destruct (snd p) as [v|]; cbn [option_map]; [|lia].
  rewrite !app_length. cbn [length]. lia.
Qed.

Lemma skip_next p ps : wf_pair p ->
  skipn (length (render_pair p) + 1) (render (p :: ps)) = render ps.
Proof.
  intros Hp. rewrite render_cons. rewrite skipn_app, skipn_all2 by lia.
  replace (length (render_pair p) + 1 - length (render_pair p)) with 1 by lia.
  destruct ps; reflexivity.
Qed.

Definition to_found (o : option (option (list N))) : found :=
  match o with None => NotFound | Some v => Found v end.

Lemma lookup_render : forall ps fuel k r,
  Forall wf_pair ps -> length (render ps) < fuel -> first_match k ps r ->
  lookup_loop fuel (render ps) k = to_found r.
Proof.
  induction ps as [|p ps IH]; intros fuel k r Hwf Hf Hm.
  - inversion Hm; subst. destruct fuel; reflexivity.
  - inversion Hwf as [|? ? Hp Hps]; subst.
    destruct fuel as [|f]; [lia|].
    cbn [lookup_loop]. rewrite nth1 by exact Hp.
    destruct (render (p :: ps)) as [|c0 r0] eqn:Er; [exfalso; eapply render_nonempty; eassumption|].
    rewrite <- Er in *.
    destruct (mk_kv_render 0 p ps Hp) as [Hk Hv]. rewrite Hk, Hv, next_pos0, skip_next by exact Hp.
    inversion Hm as [|? ? Hs|? ? ? Hs Hr]; subst.
    + apply match_cond in Hs. rewrite Hs. reflexivity.
    + destruct (Nat.eqb (length (fst p)) (length k) && ieq k (fst p)) eqn:Ec;
        [apply match_cond in Ec; contradiction|].
      apply IH; [exact Hps| |exact Hr].
      assert (Hl : length (render ps) < length (render (p :: ps))).
      { rewrite render_cons, app_length. pose proof (render_pair_nonempty p Hp).
        destruct (render_pair p); [congruence|]. destruct ps as [|q ps]; [cbn [tail_text render length]; lia|]. cbn [tail_text length]. lia. }
      lia.
Qed.

Lemma exists_render : forall ps fuel k r,
  Forall wf_pair ps -> length (render ps) < fuel -> first_match k ps r ->
  exists_loop fuel (render ps) k = Some (match r with None => false | Some _ => true end).
Proof.
  induction ps as [|p ps IH]; intros fuel k r Hwf Hf Hm.
  - inversion Hm; subst. destruct fuel; reflexivity.
  - inversion Hwf as [|? ? Hp Hps]; subst.
    destruct fuel as [|f]; [lia|].
    cbn [exists_loop]. rewrite nth1 by exact Hp.
    destruct (render (p :: ps)) as [|c0 r0] eqn:Er; [exfalso; eapply render_nonempty; eassumption|].
    rewrite <- Er in *.
    destruct (mk_kv_render 0 p ps Hp) as [Hk Hv]. rewrite Hk, next_pos0 by exact Hp.
    inversion Hm as [|? ? Hs|? ? ? Hs Hr]; subst.
    + apply match_cond in Hs. rewrite Hs. reflexivity.
    + destruct (Nat.eqb (length (fst p)) (length k) && ieq k (fst p)) eqn:Ec;
        [apply match_cond in Ec; contradiction|].
      assert (Hskip : skipn (if length (render_pair p) + 1 - 1 <? length (render (p :: ps))
                       then length (render_pair p) + 1 - 1 + 1 else length (render_pair p) + 1 - 1)
                       (render (p :: ps)) = render ps).
      { destruct (Nat.ltb_spec (length (render_pair p) + 1 - 1) (length (render (p :: ps)))) as [Hlt|Hge].
        - replace (length (render_pair p) + 1 - 1 + 1) with (length (render_pair p) + 1) by lia.
          apply skip_next; exact Hp.
        - rewrite render_cons, app_length in Hge.
          destruct ps as [|q ps]; [|cbn [tail_text length] in Hge; lia].
          cbn [render]. rewrite skipn_all2 by lia. reflexivity. }
      rewrite Hskip.
      apply IH; [exact Hps| |exact Hr].
      assert (Hl : length (render ps) < length (render (p :: ps))).
      { rewrite render_cons, app_length. pose proof (render_pair_nonempty p Hp).
        destruct (render_pair p); [congruence|]. destruct ps as [|q ps]; [cbn [tail_text render length]; lia|]. cbn [tail_text length]. lia. }
      lia.
Qed.

Lemma first_match_total k ps : exists r, first_match k ps r.
Proof.
  induction ps as [|p ps [r IH]]; [eexists; constructor|].
  destruct (ieq k (fst p)) eqn:E.
  - eexists. apply fm_here. apply ieq_spec; exact E.
  - exists r. apply fm_next; [|exact IH]. intros H. apply ieq_spec in H. congruence.
Qed.

Lemma get_query_value_spec ps k r :
  Forall wf_pair ps -> length k <= 255 -> first_match k ps r ->
  get_query_value (render ps) k = to_found r /\
  query_exists (render ps) k = Some (match r with None => false | Some _ => true end).
Proof.
  intros Hwf Hk Hm. unfold get_query_value, query_exists.
  destruct (Nat.ltb_spec 255 (length k)); [lia|].
  split; [apply lookup_render; auto; lia | apply exists_render; auto; lia].
Qed.
