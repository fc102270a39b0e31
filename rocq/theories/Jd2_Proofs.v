From Verif Require Import Common Ep_Model Ep_Spec Ep_Proofs Rep_Model Jp_Spec Jp_Proofs Jp4_Proofs Jd_Model Jd_Spec Jd_Proofs.
From Coq Require Import String.
Local Open Scope string_scope.
Local Open Scope list_scope.
Local Open Scope nat_scope.

(** ** Numbers *)
Lemma reads_ge t n : reads 10 t n -> hd 48%N t <> 48%N -> (10 ^ N.of_nat (List.length t - 1) <= n)%N.
Proof.
  induction 1 as [c v D L|t n c v R IH D L]; intros H.
  - cbn [hd] in H. destruct D as [[_ ->]|[? _]]; [|lia]. change (10 ^ N.of_nat (List.length [(48 + v)%N] - 1))%N with 1%N. lia.
  - pose proof (reads_nonempty _ _ _ R) as NE. destruct t as [|x t]; [contradiction|].
    specialize (IH H). rewrite app_length. cbn [List.length] in *. replace (S (List.length t) + 1 - 1) with (S (S (List.length t) - 1)) by lia.
    rewrite Nat2N.inj_succ, N.pow_succ_r'. lia.
Qed.
Lemma reads_len t n : reads 10 t n -> no_lead t -> (n <= 2 ^ 63)%N -> List.length t <= 19.
Proof.
  intros R [->|H] L; [lia|]. pose proof (reads_ge t n R H) as G.
  destruct (le_lt_dec (List.length t) 19) as [?|C]; [assumption|exfalso].
  assert (10 ^ 19 <= 10 ^ N.of_nat (List.length t - 1))%N by (apply N.pow_le_mono_r; lia).
  assert (2 ^ 63 < 10 ^ 19)%N by reflexivity. lia.
Qed.
Lemma reads_prim t n : reads 10 t n -> Forall (fun c => (48 <= c <= 57)%N) t.
Proof.
  intros R. destruct (reads_digits t n R) as [F _]. rewrite forallb_forall in F. apply Forall_forall. intros c Hc. specialize (F c Hc).
  unfold is_digit in F. lia.
Qed.
Lemma digit_prim c : (48 <= c <= 57)%N -> prim_start c.
Proof. intros. unfold prim_start, prim_char. lia. Qed.
Lemma int_prim z s : int_text z s -> prim_text s.
Proof.
  intros [n t R _|n t _ R _].
  - pose proof (reads_nonempty _ _ _ R) as NE. destruct t as [|c t]; [contradiction|]. pose proof (reads_prim _ _ R) as F.
    inversion F as [|? ? Hc Ht]; subst. split; [apply digit_prim, Hc|]. eapply Forall_impl; [|exact Ht]. intros a Ha. apply digit_prim, Ha.
  - split; [unfold prim_start, prim_char; lia|]. eapply Forall_impl; [|exact (reads_prim _ _ R)]. intros a Ha. apply digit_prim, Ha.
Qed.
Lemma as_int_text z s : int_text z s -> i64 z -> as_int s = Some z.
Proof.
  intros H Hz. unfold i64 in Hz. change (2 ^ 63)%Z with 9223372036854775808%Z in Hz. unfold as_int. destruct H as [n t R Hl|n t Hn R Hl].
  - assert (List.length t <= 19) by (apply (reads_len t n R Hl); change (2 ^ 63)%N with 9223372036854775808%N; lia).
    rewrite firstn_all2 by lia. destruct (reads_digits t n R) as [F V]. pose proof (reads_nonempty _ _ _ R) as NE.
    destruct t as [|c t]; [contradiction|]. pose proof (reads_prim _ _ R) as F2. inversion F2 as [|? ? Hc Ht]; subst.
    rewrite (proj2 (N.eqb_neq c 45)) by lia. rewrite (proj2 (N.eqb_neq c 43)) by lia.
    rewrite <- (app_nil_r (c :: t)) at 1. rewrite span_app; [|exact F|exact I]. cbv zeta.
    destruct ((- 2 ^ 63 <=? Z.of_N (dval (c :: t))) && (Z.of_N (dval (c :: t)) <? 2 ^ 63))%Z eqn:E; [reflexivity|].
    exfalso. change (2 ^ 63)%Z with 9223372036854775808%Z in E. lia.
  - assert (List.length t <= 19) by (apply (reads_len t n R Hl); change (2 ^ 63)%N with 9223372036854775808%N; lia).
    rewrite firstn_all2 by (cbn [List.length]; lia). change (45 =? 45)%N with true. destruct (reads_digits t n R) as [F V]. pose proof (reads_nonempty _ _ _ R) as NE.
    rewrite <- (app_nil_r t) at 1. rewrite span_app; [|exact F|exact I]. destruct t as [|c t]; [contradiction|]. rewrite V. cbv zeta.
    destruct ((- 2 ^ 63 <=? - Z.of_N n) && (- Z.of_N n <? 2 ^ 63))%Z eqn:E; [reflexivity|].
    exfalso. change (2 ^ 63)%Z with 9223372036854775808%Z in E. lia.
Qed.
Lemma int_not_word z s w : int_text z s -> hd 0%N w <> 45%N -> (hd 0%N w < 48 \/ 57 < hd 0%N w)%N -> w <> [] -> list_eqb s w = false.
Proof.
  intros H Hw1 Hw2 Hw3. destruct (list_eqb s w) eqn:E; [|reflexivity]. apply list_eqb_spec in E. subst w. exfalso.
  destruct H as [n t R _|n t _ R _]; [|apply Hw1; reflexivity].
  pose proof (reads_prim _ _ R) as F. destruct t as [|c t]; [apply Hw3; reflexivity|]. inversion F; subst. cbn [hd] in Hw2. lia.
Qed.
Lemma int_no_null z s : int_text z s -> as_null s = false.
Proof. intros H. apply (int_not_word z s _ H); vm_compute; intuition discriminate. Qed.
Lemma int_no_bool z s : int_text z s -> as_bool s = None.
Proof.
  intros H. unfold as_bool. rewrite !(int_not_word z s) by (assumption || vm_compute; intuition discriminate). reflexivity.
Qed.
Definition bool_text (b : bool) : list N := if b then str "true" else str "false".
Lemma bool_prim b : prim_text (bool_text b).
Proof. destruct b; (split; [unfold prim_start, prim_char; vm_compute; intuition discriminate|]); repeat constructor; vm_compute; intuition discriminate. Qed.
Lemma null_prim : prim_text (str "null").
Proof. split; [unfold prim_start, prim_char; vm_compute; intuition discriminate|]; repeat constructor; vm_compute; intuition discriminate. Qed.
Lemma as_bool_text b : as_bool (bool_text b) = Some b. Proof. destruct b; reflexivity. Qed.
Lemma bool_no_null b : as_null (bool_text b) = false. Proof. destruct b; reflexivity. Qed.

(** ** Arrays of simple items *)
Lemma fold_scan {A} (y : aty) (l : list A) d : l <> [] -> fold_left (fun (d : aty * nat) (_ : A) => (y, S (snd d))) l d = (y, snd d + List.length l).
Proof.
  revert d. induction l as [|a l IH]; intros d H; [contradiction|]. cbn [fold_left]. destruct l as [|b l].
  - cbn [fold_left List.length]. f_equal. lia.
  - rewrite IH by discriminate. cbn [snd List.length]. f_equal. lia.
Qed.
Lemma fold_cons {A} (l : list A) d : fold_left (fun (d : list A) a => a :: d) l d = rev l ++ d.
Proof. revert d. induction l as [|a l IH]; intros d; [reflexivity|]. cbn [fold_left rev]. rewrite IH, <- app_assoc. reflexivity. Qed.

Section Items.
Context {A : Type} (P : A -> list N -> Prop) (tk : A -> tok -> Prop) (y : aty).
(** The text of an item is one token, of type [y]. *)
Hypothesis Htok : forall a u, P a u -> exists t, tk a t /\ type_of t = y /\ forall D (cb : tok -> D -> cbres * D) d d', cb t d = (CbTrue, d') -> reports cb u d d'.
Hypothesis Hy : y <> ANone.

Lemma scan_items l t : l <> [] -> separated P l t -> jsmn scan_type t (ANone, 0) = (ROk (List.length l), (y, List.length l)).
Proof.
  intros Hl HS.
  rewrite (jsmn_separated scan_type P (fun _ d => fst d = ANone \/ fst d = y) (fun _ d => (y, S (snd d))) 1 l t (ANone, 0)).
  - rewrite fold_scan by exact Hl. rewrite Nat.mul_1_l. reflexivity.
  - intros a r u d _ Hp _ Hd. split; [|right; reflexivity]. destruct (Htok a u Hp) as (k & _ & Hk & Hr). apply reports_takes, Hr.
    unfold scan_type. rewrite Hk. destruct y; try (exfalso; apply Hy; reflexivity); destruct Hd as [->| ->]; reflexivity.
  - exact HS.
  - left. reflexivity.
Qed.

Lemma assign_items (conv : tok -> cbres * option A) l t :
  (forall a t, In a l -> tk a t -> conv t = (CbTrue, Some a)) -> separated P l t ->
  jsmn (assign (List.length l) conv) t [] = (ROk (List.length l), rev l).
Proof.
  intros Hc HS.
  rewrite (jsmn_separated (assign (List.length l) conv) P (fun r d => List.length d + List.length r = List.length l) (fun a d => a :: d) 1 l t []).
  - rewrite fold_cons, app_nil_r, Nat.mul_1_l. reflexivity.
  - intros a r u d Hin Hp _ Hd. cbn [List.length] in *. split; [|lia]. destruct (Htok a u Hp) as (k & Hk1 & Hk & Hr). apply reports_takes, Hr.
    unfold assign. rewrite (Hc a k Hin Hk1). destruct (Nat.ltb_spec (List.length d) (List.length l)); [reflexivity | lia].
  - exact HS.
  - reflexivity.
Qed.
End Items.

(** ** Values *)
Section Values.
Variable fmt : N -> list N.
Definition skipped (t : list N) : Prop := forall D (cb : tok -> D -> cbres * D), skips cb t.
Definition PD (v : rval) : Prop :=
  forall t, json_value fmt v t -> decodable v ->
  skipped t /\
  forall f n r e, List.length t <= f ->
  reports (parse_token f) t (mkRd ((Some n, JUnknown) :: r) true e) (mkRd ((Some n, jv_of v) :: r) false e).
Definition QD (l : list rep) : Prop := Forall (fun p => PD (snd p)) l.

Lemma decodables_all l : decodables l -> Forall (fun p => decodable (snd p)) l.
Proof. induction l as [|[n v] l IH]; intros H; [constructor|]. destruct H. constructor; [assumption | apply IH; assumption]. Qed.
Lemma decodable_objs os : decodable (RObjArr os) -> os <> [] /\ Forall decodables os.
Proof.
  intros [H0 H]. split; [exact H0|]. clear H0. induction os as [|o os IH]; [constructor|]. destruct H as [H1 H2].
  constructor; [exact H1 | apply IH, H2].
Qed.
Lemma jv_of_known v : decodable v -> jv_of v <> JUnknown.
Proof. destruct v; intros H; try discriminate; destruct H. Qed.

(** *** Objects *)
Lemma members_skipped l t : QD l -> decodables l -> separated (json_member fmt) l t -> skipped t.
Proof.
  intros HQ Hd HS D cb. refine (skip_separated cb (json_member fmt) l t _ HS). intros [n v] u Hin Hm.
  inversion Hm as [n' v' x w1 w2 Hn H1 H2 Hv]; subst. apply decodables_all in Hd. unfold QD in HQ. rewrite Forall_forall in Hd, HQ.
  destruct (HQ _ Hin x Hv (Hd _ Hin)) as [Hs _].
  apply skip_app; [apply skip_quote, Hn|]. intros m k obj acc d c Hm'.
  destruct (skip_ws cb w1 H1 m k obj acc d c Hm') as (m1 & Hm1 & R1).
  assert (S2 : skips cb (w2 ++ x)) by (apply skip_ws_app; [exact H2 | apply Hs]).
  destruct (skip_sep cb 58%N (w2 ++ x) (or_intror eq_refl) S2 m1 k obj (rev w1 ++ acc) d c Hm1) as (m2 & Hm2 & R2).
  exists m2. split; [exact Hm2|]. change ([58%N] ++ w2 ++ x) with (58%N :: w2 ++ x). rewrite (run_app_go cb _ _ _ _ _ R1 R2). rewrite rev_app_distr, app_assoc. reflexivity.
Qed.
Definition add_item (p : rep) (d : rd) : rd := mkRd ((Some (fst p), jv_of (snd p)) :: r_rev d) false false.
Lemma fold_items l d : fold_left (fun d p => add_item p d) l d = match l with [] => d | _ => mkRd (rev (named l) ++ r_rev d) false false end.
Proof.
  revert d. induction l as [|p l IH]; intros d; [reflexivity|]. cbn [fold_left]. rewrite IH. cbn [named map rev]. destruct l as [|q l]; [reflexivity|].
  f_equal. cbn [named map rev r_rev add_item]. rewrite <- !app_assoc. reflexivity.
Qed.
Lemma members_parsed l t f : QD l -> decodables l -> separated (json_member fmt) l t -> List.length t <= f ->
  jsmn (parse_token f) t rd0 = (ROk (2 * List.length l), mkRd (rev (named l)) false false).
Proof.
  intros HQ Hd HS Hf.
  rewrite (jsmn_separated (parse_token f) (json_member fmt) (fun _ d => r_cur d = false /\ r_empty d = false) add_item 2 l t rd0).
  - rewrite fold_items. destruct l; [reflexivity|]. cbn [r_rev rd0]. rewrite app_nil_r. reflexivity.
  - intros [n v] r u d Hin Hm Hlen [Hc He]. split; [|split; reflexivity].
    inversion Hm as [n' v' x w1 w2 Hn H1 H2 Hv]; subst. apply decodables_all in Hd. unfold QD in HQ. rewrite Forall_forall in Hd, HQ.
    destruct (HQ _ Hin x Hv (Hd _ Hin)) as [_ Hr].
    assert (Lx : List.length x <= f) by (repeat rewrite app_length in Hlen; lia).
    assert (Lf : exists f', f = S f') by (exists (f - 1); unfold quote in Hlen; cbn [List.length app] in Hlen; lia).
    specialize (Hr f n (r_rev d) false Lx). intros obj acc c.
    assert (Hq : reports (parse_token f) (quote n) d (mkRd ((Some n, JUnknown) :: r_rev d) true false)).
    { apply report_quote; [exact Hn|]. destruct Lf as [f' ->]. cbn [parse_token]. unfold parse_string. rewrite Hc. f_equal. f_equal. destruct (r_rev d); [reflexivity | exact He]. }
    destruct (Hq obj acc c) as (s1 & R1 & D1). rewrite (run_app _ _ _ _ _ R1).
    destruct (done_ws _ _ _ _ w1 H1 D1) as (s2 & R2 & D2). rewrite (run_app _ _ _ _ _ R2).
    destruct (done_blank _ _ _ _ 58%N ltac:(unfold blank; tauto) D2) as (obj2 & acc2 & E). cbn [app run]. rewrite E.
    destruct (scan_ws (parse_token f) w2 obj2 acc2 (mkRd ((Some n, JUnknown) :: r_rev d) true false) (S c) H2) as (acc3 & R3). rewrite (run_app _ _ _ _ _ R3).
    destruct (Hr obj2 acc3 (S c)) as (s4 & R4 & D4). exists s4. split; [exact R4|]. replace (c + 2) with (S (S c)) by lia. exact D4.
  - exact HS.
  - split; reflexivity.
Qed.
Lemma object_parsed l t f d : QD l -> decodables l -> separated (json_member fmt) l t -> List.length t <= f ->
  parse_object (parse_token f) t d = set_rep (JObj (named l)) false d.
Proof.
  intros HQ Hd HS Hf. unfold parse_object. rewrite (members_parsed l t f HQ Hd HS Hf). cbn [r_rev]. rewrite rev_involutive.
  destruct l as [|[n v] l]; [reflexivity|]. destruct Hd as [Hv _]. apply jv_of_known in Hv. cbn [named map fst snd].
  destruct (jv_of v); try reflexivity. exfalso. apply Hv. reflexivity.
Qed.
Lemma pd_obj l : QD l -> PD (RObj l).
Proof.
  intros HQ t Ht Hd. inversion Ht as [| | | | | |? ? Ho| | | | | |]; subst. inversion Ho as [? u HS]; subst.
  pose proof (members_skipped l u HQ Hd HS) as Hs. split.
  - intros D cb. apply skip_container; [left; split; reflexivity | apply Hs].
  - intros f n r e Hf. apply report_object; [apply Hs|]. rewrite !app_length in Hf. cbn [List.length] in Hf. destruct f as [|f]; [lia|].
    cbn [parse_token]. rewrite (object_parsed l u f _ HQ Hd HS) by lia. reflexivity.
Qed.

(** *** Arrays of objects *)
Lemma objects_skipped os t : Forall QD os -> Forall decodables os -> separated (json_object fmt) os t -> skipped t.
Proof.
  intros HQ Hd HS D cb. refine (skip_separated cb (json_object fmt) os t _ HS). intros o u Hin Ho.
  rewrite Forall_forall in HQ, Hd. inversion Ho as [? x Hx]; subst. apply skip_container; [left; split; reflexivity|].
  apply (members_skipped o x (HQ _ Hin) (Hd _ Hin) Hx).
Qed.
Lemma objects_scanned os t : os <> [] -> Forall QD os -> Forall decodables os -> separated (json_object fmt) os t ->
  jsmn scan_type t (ANone, 0) = (ROk (List.length os), (AObj, List.length os)).
Proof.
  intros Hne HQ Hd HS. rewrite Forall_forall in HQ, Hd.
  apply (scan_items (fun o u => In o os /\ json_object fmt o u) (fun _ _ => True) AObj); [|discriminate|exact Hne|].
  - intros o u [Hin Ho]. inversion Ho as [? x Hx]; subst. exists (TObj x). split; [exact I|]. split; [reflexivity|].
    intros D cb d d' E. apply report_object; [|exact E]. apply (members_skipped o x (HQ _ Hin) (Hd _ Hin) Hx).
  - refine (sep_weaken _ _ os t _ HS). intros a u Hin Ha. split; assumption.
Qed.
Lemma fold_objects os d : fold_left (fun d o => mkRd ((None, JObj (named o)) :: r_rev d) false false) os d = match os with [] => d | _ => mkRd (rev (objects os) ++ r_rev d) false false end.
Proof.
  revert d. induction os as [|o os IH]; intros d; [reflexivity|]. cbn [fold_left]. rewrite IH. cbn [objects map rev]. destruct os as [|q os]; [reflexivity|].
  f_equal. cbn [objects map rev r_rev]. rewrite <- !app_assoc. reflexivity.
Qed.
Lemma objects_parsed os t f d : os <> [] -> Forall QD os -> Forall decodables os -> separated (json_object fmt) os t -> List.length t <= f ->
  parse_array (parse_token f) t d = set_rep (JObjs (objects os)) false d.
Proof.
  intros Hne HQ Hd HS Hf. unfold parse_array. rewrite (objects_scanned os t Hne HQ Hd HS). unfold parse_objects.
  rewrite Forall_forall in HQ, Hd.
  rewrite (jsmn_separated _ (json_object fmt) (fun _ d => r_cur d = false /\ r_empty d = false) (fun o d => mkRd ((None, JObj (named o)) :: r_rev d) false false) 1 os t rd0).
  - rewrite fold_objects. destruct os as [|o os]; [contradiction|]. cbn [List.length Nat.mul Nat.add r_rev rd0]. rewrite app_nil_r, rev_involutive. reflexivity.
  - intros o r u x Hin Ho Hlen [Hc He]. split; [|split; reflexivity]. inversion Ho as [? y Hy]; subst. apply reports_takes.
    apply report_object; [apply (members_skipped o y (HQ _ Hin) (Hd _ Hin) Hy)|]. rewrite !app_length in Hlen. cbn [List.length] in Hlen.
    rewrite (object_parsed o y f x (HQ _ Hin) (Hd _ Hin) Hy) by lia. unfold set_rep. rewrite Hc. f_equal. f_equal. destruct (r_rev x); [reflexivity | exact He].
  - exact HS.
  - split; reflexivity.
Qed.
Lemma pd_objs os : Forall QD os -> PD (RObjArr os).
Proof.
  intros HQ t Ht Hd. destruct (decodable_objs os Hd) as [Hne Hds]. inversion Ht as [| | | | | | | | | | | |? u HS]; subst.
  pose proof (objects_skipped os u HQ Hds HS) as Hs. split.
  - intros D cb. apply skip_container; [right; split; reflexivity | apply Hs].
  - intros f n r e Hf. apply report_array; [apply Hs|]. rewrite !app_length in Hf. cbn [List.length] in Hf. destruct f as [|f]; [lia|].
    cbn [parse_token]. rewrite (objects_parsed os u f _ Hne HQ Hds HS) by lia. reflexivity.
Qed.

(** *** Leaves *)
Lemma pd_prim v t : prim_text t -> (forall f n r e, 0 < f -> parse_token f (TPrim t) (mkRd ((Some n, JUnknown) :: r) true e) = (CbTrue, mkRd ((Some n, jv_of v) :: r) false e)) ->
  skipped t /\ forall f n r e, List.length t <= f -> reports (parse_token f) t (mkRd ((Some n, JUnknown) :: r) true e) (mkRd ((Some n, jv_of v) :: r) false e).
Proof.
  intros Hp H. split; [intros D cb; apply skip_prim, Hp|]. intros f n r e Hf. apply report_prim; [exact Hp|]. apply H. destruct t; [contradiction | cbn [List.length] in Hf; lia].
Qed.
(** An array of simple items. *)
Lemma pd_items {A} (P : A -> list N -> Prop) (tk : A -> list N -> tok) y conv mk (l : list A) u v :
  (forall a u, P a u -> skipped u) ->
  (forall a u, In a l -> P a u -> type_of (tk a u) = y /\ conv (tk a u) = (CbTrue, Some a) /\
     forall D (cb : tok -> D -> cbres * D) d d', cb (tk a u) d = (CbTrue, d') -> reports cb u d d') ->
  l <> [] -> separated P l u -> y <> ANone ->
  (forall f d size, jsmn scan_type u (ANone, 0) = (ROk size, (y, size)) -> parse_array (parse_token f) u d = parse_values conv mk u size d) ->
  jv_of v = mk l ->
  skipped ([91%N] ++ u ++ [93%N]) /\
  forall f n r e, List.length ([91%N] ++ u ++ [93%N]) <= f ->
  reports (parse_token f) ([91%N] ++ u ++ [93%N]) (mkRd ((Some n, JUnknown) :: r) true e) (mkRd ((Some n, jv_of v) :: r) false e).
Proof.
  intros Hsk Htok Hne HS Hy Hpa Hv.
  assert (Hs : skipped u) by (intros D cb; refine (skip_separated cb P l u _ HS); intros a x _ Hx; apply (Hsk a x Hx)).
  split; [intros D cb; apply skip_container; [right; split; reflexivity | apply Hs]|].
  assert (HS' : separated (fun a x => In a l /\ P a x) l u) by (refine (sep_weaken _ _ l u _ HS); intros a x Hin Ha; split; assumption).
  assert (Htok' : forall a x, In a l /\ P a x -> exists t, conv t = (CbTrue, Some a) /\ type_of t = y /\ forall D (cb : tok -> D -> cbres * D) d d', cb t d = (CbTrue, d') -> reports cb x d d').
  { intros a x [Hin Ha]. destruct (Htok a x Hin Ha) as (E1 & E2 & E3). exists (tk a x). auto. }
  intros f n r e Hf. apply report_array; [apply Hs|]. rewrite !app_length in Hf. cbn [List.length] in Hf. destruct f as [|f]; [lia|].
  cbn [parse_token]. rewrite (Hpa f _ (List.length l) (scan_items _ (fun a t => conv t = (CbTrue, Some a)) y Htok' Hy l u Hne HS')). unfold parse_values.
  cbn [set_rep r_cur r_rev]. rewrite (assign_items _ (fun a t => conv t = (CbTrue, Some a)) y Htok' conv l u ltac:(intros a t _ H; exact H) HS').
  rewrite rev_involutive. cbn [set_rep r_cur r_rev r_empty]. rewrite Hv. reflexivity.
Qed.
Lemma pd_leaf v : (forall l, v <> RObj l) -> (forall l, v <> RObjArr l) -> PD v.
Proof.
  intros N1 N2 t Ht Hd. destruct v; try (exfalso; eapply N1; reflexivity); try (exfalso; eapply N2; reflexivity); try contradiction; inversion Ht as [|? ? Hi| | | |? Hp| |? u HS|? u HS|? u HS|? u HS|? u HS|]; subst.
  - apply (pd_prim RNil); [apply null_prim|]. intros f n r e Hf. destruct f; [lia | reflexivity].
  - apply (pd_prim (RInt z)); [eapply int_prim; eassumption|]. intros f n r e Hf. destruct f; [lia|]. cbn [parse_token]. unfold parse_prim. cbn [r_cur r_rev].
    rewrite (int_no_null z), (int_no_bool z), (as_int_text z) by assumption. reflexivity.
  - apply (pd_prim (RBool b)); [apply bool_prim|]. intros f n r e Hf. destruct f; [lia|]. cbn [parse_token]. unfold parse_prim. cbn [r_cur r_rev].
    fold (bool_text b). rewrite bool_no_null, as_bool_text. reflexivity.
  - split; [intros D cb; apply skip_quote; assumption|]. intros f n r e Hf. apply report_quote; [assumption|]. destruct f; [unfold quote in Hf; cbn [List.length] in Hf; lia | reflexivity].
  - destruct Hd as [Hne Hall]. rewrite Forall_forall in Hall.
    apply (pd_items int_text (fun _ u => TPrim u) AInt conv_int JInts l u (RIntArr l)); try assumption; try discriminate; try reflexivity.
    + intros a x Ha D cb. eapply skip_prim, int_prim, Ha.
    + intros a x Hin Ha. cbn [type_of conv_int]. rewrite (int_no_null a), (int_no_bool a), (as_int_text a) by (assumption || apply Hall, Hin).
      split; [reflexivity|]. split; [reflexivity|]. intros D cb d d' E. apply report_prim; [eapply int_prim, Ha | exact E].
    + intros f d size E. unfold parse_array. rewrite E. reflexivity.
  - apply (pd_items (fun b x => x = bool_text b) (fun _ u => TPrim u) ABool conv_bool JBools l u (RBoolArr l)); try assumption; try discriminate; try reflexivity.
    + intros a x -> D cb. apply skip_prim, bool_prim.
    + intros a x Hin ->. cbn [type_of conv_bool]. rewrite bool_no_null, as_bool_text.
      split; [reflexivity|]. split; [reflexivity|]. intros D cb d d' E. apply report_prim; [apply bool_prim | exact E].
    + intros f d size E. unfold parse_array. rewrite E. reflexivity.
  - destruct Hd as [Hne Hall]. rewrite Forall_forall in Hall.
    apply (pd_items (fun x s => plain_text x /\ s = quote x) (fun a _ => TStr a) AStr conv_str JStrs l u (RStrArr l)); try assumption; try discriminate; try reflexivity.
    + intros a x [Ha ->] D cb. apply skip_quote, Ha.
    + intros a x Hin [Ha ->]. cbn [type_of conv_str]. specialize (Hall a Hin). cbv beta in Hall. destruct (Nat.leb_spec 128 (List.length a)); [lia|].
      split; [reflexivity|]. split; [reflexivity|]. intros D cb d d' E. apply report_quote; [exact Ha | exact E].
    + intros f d size E. unfold parse_array. rewrite E. reflexivity.
Qed.
Lemma value_parsed v : PD v.
Proof.
  apply (rval_ind2 PD QD); [constructor | intros n x l Hx Hl; constructor; assumption | exact pd_obj | exact pd_objs | exact pd_leaf].
Qed.
Lemma reps_parsed l : QD l. Proof. apply Forall_forall. intros p _. apply value_parsed. Qed.

(** ** Documents *)
(** Behind the document: nothing, or a NUL and anything. *)
Definition ended (rest : list N) : Prop := rest = [] \/ exists r, rest = 0%N :: r.
Lemma parse_one t u v w1 w2 rest it :
  ws w1 -> ws w2 -> ended rest -> t = [123%N] ++ u ++ [125%N] \/ t = [91%N] ++ u ++ [93%N] ->
  (forall f, List.length u <= f -> closes (parse_token (S f)) t rd0 (mkRd [(None, v)] false false)) ->
  v = JObj it \/ v = JObjs it ->
  parse_json (w1 ++ t ++ w2 ++ rest) = PRep it.
Proof.
  intros H1 H2 Hr Ht Hrep Hv. unfold parse_json, jsmn. set (js := w1 ++ t ++ w2 ++ rest).
  assert (Lu : List.length u <= List.length js) by (unfold js; rewrite !app_length; destruct Ht as [->| ->]; rewrite !app_length; lia).
  specialize (Hrep (List.length js) Lu). set (cb := parse_token (S (List.length js))) in *. unfold js.
  destruct (scan_ws cb w1 false [] rd0 0 H1) as (acc & R1). rewrite (run_jsmn cb _ _ _ _ R1).
  destruct (Hrep false acc 0) as (obj & R2). rewrite (run_jsmn cb _ _ _ _ R2).
  destruct (scan_ws cb w2 obj [] (mkRd [(None, v)] false false) 1 H2) as (acc3 & R3). rewrite (run_jsmn cb _ _ _ _ R3).
  assert (E : jsmn_from cb rest (mkSt Scan 0 obj acc3 (mkRd [(None, v)] false false) 1) = (ROk 1, mkRd [(None, v)] false false)).
  { destruct Hr as [->|[r ->]]; reflexivity. }
  rewrite E. destruct Hv as [->| ->]; reflexivity.
Qed.
Lemma parse_object_doc l t w1 w2 rest : json_object fmt l t -> decodables l -> ws w1 -> ws w2 -> ended rest ->
  parse_json (w1 ++ t ++ w2 ++ rest) = PRep (named l).
Proof.
  intros Ho Hd H1 H2 Hr. inversion Ho as [? u HS]; subst.
  apply (parse_one _ u (JObj (named l)) w1 w2 rest (named l) H1 H2 Hr); [left; reflexivity | | left; reflexivity].
  intros f Hf. apply close_object; [apply (members_skipped l u (reps_parsed l) Hd HS)|].
  cbn [parse_token]. rewrite (object_parsed l u f _ (reps_parsed l) Hd HS Hf). reflexivity.
Qed.
Lemma parse_array_doc os t w1 w2 rest : separated (json_object fmt) os t -> os <> [] -> Forall decodables os -> ws w1 -> ws w2 -> ended rest ->
  parse_json (w1 ++ ([91%N] ++ t ++ [93%N]) ++ w2 ++ rest) = PRep (objects os).
Proof.
  intros HS Hne Hd H1 H2 Hr. assert (HQ : Forall QD os) by (apply Forall_forall; intros o _; apply reps_parsed).
  apply (parse_one _ t (JObjs (objects os)) w1 w2 rest (objects os) H1 H2 Hr); [right; reflexivity | | right; reflexivity].
  intros f Hf. apply close_array; [apply (objects_skipped os t HQ Hd HS)|].
  cbn [parse_token]. rewrite (objects_parsed os t f _ Hne HQ Hd HS Hf). reflexivity.
Qed.
Lemma parse_empty_array w1 w2 w3 rest : ws w1 -> ws w2 -> ws w3 -> ended rest -> parse_json (w1 ++ ([91%N] ++ w3 ++ [93%N]) ++ w2 ++ rest) = PEmpty.
Proof.
  intros H1 H2 H3 Hr. unfold parse_json, jsmn. set (js := w1 ++ _). set (cb := parse_token (S (List.length js))). unfold js.
  destruct (scan_ws cb w1 false [] rd0 0 H1) as (acc & R1). rewrite (run_jsmn cb _ _ _ _ R1).
  assert (C : closes cb ([91%N] ++ w3 ++ [93%N]) rd0 (mkRd [(None, JNil)] false true)).
  { apply close_array; [apply idle_skips, skip_ws, H3|]. unfold cb. cbn [parse_token]. unfold parse_array.
    assert (E : jsmn scan_type w3 (ANone, 0) = (ROk 0, (ANone, 0))).
    { apply (jsmn_separated scan_type (fun (_ : unit) _ => False) (fun _ _ => True) (fun _ d => d) 0 [] w3 (ANone, 0)); [intros ? ? ? ? []|apply sep_none, H3|exact I]. }
    rewrite E. reflexivity. }
  destruct (C false acc 0) as (obj & R2). rewrite (run_jsmn cb _ _ _ _ R2).
  destruct (scan_ws cb w2 obj [] (mkRd [(None, JNil)] false true) 1 H2) as (acc3 & R3). rewrite (run_jsmn cb _ _ _ _ R3).
  destruct Hr as [->|[r ->]]; reflexivity.
Qed.
End Values.
