From Verif Require Import Common Ep_Model Ep_Spec Ep_Proofs Base64_Model Base64_Spec Base64_Proofs Buf_Model Rep_Model Jp_Model Jp_Spec Jp_Proofs Jp2_Proofs.
From Coq Require Import String.
Local Open Scope string_scope.
Local Open Scope list_scope.
Local Open Scope nat_scope.

(** ** Nothing is written outside the buffer, whatever its size and whatever the mode *)
Section Safe.
Variable m0 : list N.
Variables lo e : nat.
Hypothesis Hle : lo <= e /\ e <= List.length m0.

Definition msafe (m : list N) : Prop := List.length m = List.length m0 /\ firstn lo m = firstn lo m0 /\ skipn e m = skipn e m0.
Definition safe (s : jst) : Prop := msafe (j_mem s) /\ lo <= j_off s /\ j_off s + j_size s = e.
Definition zin (m : list N) : Prop := exists i, lo <= i < e /\ nth_error m i = Some 0%N.

(** Replacing a part of the memory between [lo] and [e]. *)
Lemma splice m off x : msafe m -> lo <= off -> off + List.length x <= e ->
  msafe (firstn off m ++ x ++ skipn (off + List.length x) m).
Proof.
  intros (Hl & Hf & Hs) Ho Hx. repeat split.
  - rewrite !app_length, firstn_length, skipn_length. lia.
  - rewrite firstn_app, firstn_firstn. replace (min lo off) with lo by lia.
    rewrite firstn_length. replace (lo - min off (List.length m)) with 0 by lia. rewrite firstn_O, app_nil_r. exact Hf.
  - rewrite !app_assoc, skipn_app. rewrite skipn_all2 by (rewrite app_length, firstn_length; lia). cbn [app].
    rewrite app_length, firstn_length. rewrite skipn_skipn. rewrite <- Hs. f_equal. lia.
Qed.
Lemma vsn_safe m off size t : msafe m -> lo <= off -> off + size = e -> msafe (vsn m off size t) /\ (size <> 0 -> zin (vsn m off size t)) /\ (size = 0 -> vsn m off size t = m).
Proof.
  intros Hm Ho He. destruct size as [|k]; [cbn; split; [exact Hm | split; [congruence | reflexivity]]|].
  unfold vsn. assert (Hlen : List.length (firstn k t ++ [0%N]) <= S k) by (rewrite app_length, firstn_length; cbn [List.length]; lia).
  split; [apply splice; [exact Hm | exact Ho | lia]|]. split; [|congruence]. intros _.
  exists (off + List.length (firstn k t)). rewrite app_length in Hlen. cbn [List.length] in Hlen. split; [lia|].
  destruct Hm as [Hl _].
  assert (Hp : List.length (firstn off m) = off) by (rewrite firstn_length; lia).
  rewrite nth_error_app2 by lia. rewrite Hp.
  rewrite <- app_assoc. rewrite nth_error_app2 by lia. replace (off + _ - off - _) with 0 by lia. reflexivity.
Qed.

Definition okf (f : jst -> jst) : Prop := forall s, safe s -> safe (f s) /\ (zin (j_mem s) -> zin (j_mem (f s))).
Lemma ok_id : okf (fun s => s). Proof. intros s H. split; [exact H | trivial]. Qed.
Lemma ok_comp f g : okf f -> okf g -> okf (fun s => g (f s)).
Proof. intros Hf Hg s H. destruct (Hf s H) as [H1 H2]. destruct (Hg _ H1) as [H3 H4]. split; [exact H3|]. intros Hz. exact (H4 (H2 Hz)). Qed.

Lemma adv_safe s num : safe s -> safe (adv s num) /\ j_mem (adv s num) = j_mem s.
Proof.
  intros (Hm & Ho & He). unfold adv. destruct (N.ltb_spec num (N.of_nat (j_size s))) as [Hlt|_].
  - split; [|reflexivity]. split; [exact Hm|]. cbn [j_off j_size]. lia.
  - destruct (Nat.eqb_spec (j_size s) 0); split; try reflexivity; split; try exact Hm; cbn [j_off j_size]; lia.
Qed.
Lemma put_safe s t : safe s -> safe (put s t) /\ (zin (j_mem s) \/ j_size s <> 0 -> zin (j_mem (put s t))).
Proof.
  intros (Hm & Ho & He). unfold put. destruct (vsn_safe (j_mem s) (j_off s) (j_size s) t Hm Ho He) as (H1 & H2 & H3).
  destruct (adv_safe (mkJ (vsn (j_mem s) (j_off s) (j_size s) t) (j_off s) (j_size s) (j_total s) (j_bad s)) (N.of_nat (List.length t))) as [Ha Hb].
  { split; [exact H1 | split; assumption]. }
  split; [exact Ha|]. rewrite Hb. cbn [j_mem]. intros Hz. destruct (Nat.eq_dec (j_size s) 0) as [E|E]; [|exact (H2 E)].
  rewrite (H3 E). destruct Hz as [Hz|Hz]; [exact Hz | congruence].
Qed.
Lemma ok_put t : okf (fun s => put s t).
Proof. intros s H. destruct (put_safe s t H) as [H1 H2]. split; [exact H1|]. intros Hz. apply H2. left. exact Hz. Qed.
Lemma ok_call f : okf f -> okf (fun s => call s f).
Proof.
  intros Hf s (Hm & Ho & He). unfold call.
  destruct (Hf (mkJ (j_mem s) (j_off s) (j_size s) 0 (j_bad s))) as [[Hm1 _] H2]; [split; [exact Hm | split; assumption]|].
  destruct (adv_safe (mkJ (j_mem (f (mkJ (j_mem s) (j_off s) (j_size s) 0 (j_bad s)))) (j_off s) (j_size s) (j_total s)
    (j_bad (f (mkJ (j_mem s) (j_off s) (j_size s) 0 (j_bad s))))) (j_total (f (mkJ (j_mem s) (j_off s) (j_size s) 0 (j_bad s))))) as [Ha Hb].
  { split; [exact Hm1 | split; assumption]. }
  split; [exact Ha|]. rewrite Hb. exact H2.
Qed.

Lemma tab_loop_safe d : forall b, msafe (w_mem b) -> lo <= w_off b -> w_off b + w_size b = e ->
  msafe (w_mem (fst (tab_loop b d))) /\ (zin (w_mem b) -> zin (w_mem (fst (tab_loop b d)))).
Proof.
  induction d as [|d IH]; intros b Hm Ho He; [split; [exact Hm | trivial]|].
  cbn [tab_loop]. unfold buffer_write. destruct (w_null b) eqn:En.
  - destruct (IH (mkWb true (w_mem b) (w_off b) (w_size b) (w_total b + List.length (str "  "))) Hm Ho He) as [H1 H2].
    destruct (tab_loop _ d); split; [exact H1 | exact H2].
  - destruct (vsn_safe (w_mem b) (w_off b) (w_size b) (str "  ") Hm Ho He) as (H1 & H2 & H3).
    assert (Hz : zin (w_mem b) -> zin (vsn (w_mem b) (w_off b) (w_size b) (str "  "))).
    { intros Hz. destruct (Nat.eq_dec (w_size b) 0) as [E|E]; [rewrite (H3 E); exact Hz | exact (H2 E)]. }
    destruct (Nat.leb_spec (w_size b) (List.length (str "  "))) as [Hc|Hc].
    + cbn [fst w_mem]. split; assumption.
    + destruct (IH (mkWb false (vsn (w_mem b) (w_off b) (w_size b) (str "  ")) (w_off b + List.length (str "  ")) (w_size b - List.length (str "  ")) (w_total b + List.length (str "  "))))
        as [H4 H5]; [exact H1 | cbn [w_off]; lia | cbn [w_off w_size]; lia|].
      split; [exact H4|]. intros Hz0. exact (H5 (Hz Hz0)).
Qed.
Lemma ok_tab null d : okf (fun s => tab null s d).
Proof.
  intros s (Hm & Ho & He). unfold tab.
  destruct (tab_loop_safe d (mkWb null (j_mem s) (j_off s) (j_size s) 0) Hm Ho He) as [H1 H2].
  destruct (tab_loop (mkWb null (j_mem s) (j_off s) (j_size s) 0) d) as [b num]. cbn [fst w_mem] in H1, H2.
  destruct (adv_safe (mkJ (w_mem b) (j_off s) (j_size s) (j_total s) (j_bad s)) num) as [Ha Hb]; [split; [exact H1 | split; assumption]|].
  split; [exact Ha|]. rewrite Hb. exact H2.
Qed.
Lemma ok_ptab pretty null d : okf (fun s => ptab pretty null s d).
Proof. unfold ptab. destruct pretty; [apply ok_tab | apply ok_id]. Qed.

Lemma ok_b64 b : bytes_ok b -> okf (b64 b).
Proof.
  intros Hb s H. unfold b64. destruct (b64_encode b Hb) as [He Hl]. rewrite He, <- Hl. set (out := b64_text b) in *. clearbody out. cbv zeta.
  destruct (put_safe s (str """") H) as [H1 Hz1]. set (s1 := put s (str """")) in *. clearbody s1.
  destruct (Nat.ltb_spec (S (List.length out)) (j_size s1)) as [Hlt|Hge].
  - assert (Hs : safe (mkJ (poke (j_mem s1) (j_off s1) out) (j_off s1) (j_size s1) (j_total s1) (j_bad s1))).
    { destruct H1 as (Hm & Ho & Hee). split; [|split; assumption]. cbn [j_mem]. apply splice; [exact Hm | exact Ho | lia]. }
    destruct (adv_safe _ (N.of_nat (List.length out)) Hs) as [H2 _].
    destruct (put_safe _ (str """") H2) as [H3 H4].
    split; [exact H3|]. intros _. apply H4. right. unfold adv. cbn [j_mem j_off j_size j_total j_bad].
    replace (_ <? _)%N with true by (symmetry; apply N.ltb_lt; lia). cbn [j_size]. lia.
  - match goal with |- safe (put ?x ?t) /\ _ => destruct (put_safe x t) as [H2 H3] end.
    { destruct H1 as (Hm & Ho & Hee). split; [exact Hm|]. cbn [j_off j_size]. lia. }
    split; [exact H2|]. intros Hz. apply H3. left. cbn [j_mem]. apply Hz1. left. exact Hz.
Qed.

Variable fmt : N -> list N.
Variables pretty null : bool.
Lemma ok_if (b : bool) f g : okf f -> okf g -> okf (fun s => if b then f s else g s).
Proof. destruct b; intros; assumption. Qed.
Lemma ok_ext f g : (forall s, f s = g s) -> okf f -> okf g.
Proof. intros He Hf s H. rewrite <- !He. exact (Hf s H). Qed.
Lemma ok_eol : okf (fun s => if pretty then put s nl else s).
Proof. destruct pretty; [apply ok_put | apply ok_id]. Qed.

Lemma ok_items l : okf (items pretty l).
Proof.
  induction l as [|t r IH]; [apply ok_id|]. cbn [items].
  apply (ok_comp (fun s => match r with [] => put s t | _ => put (put s t) (if pretty then str ", " else str ",") end) (items pretty r)); [|exact IH].
  destruct r; [apply ok_put|]. apply (ok_comp (fun s => put s t) (fun s => put s _)); apply ok_put.
Qed.
Lemma ok_lines one d l : (forall t, In t l -> okf (one t)) -> okf (lines pretty null one d l).
Proof.
  induction l as [|t r IH]; intros H1; [apply ok_id|]. cbn [lines].
  assert (Ho : okf (fun s => one t (ptab pretty null s (d + 2)))).
  { apply (ok_comp (fun s => ptab pretty null s (d + 2)) (one t)); [apply ok_ptab | apply H1; left; reflexivity]. }
  apply (ok_comp (fun s => match r with [] => if pretty then put (one t (ptab pretty null s (d + 2))) nl else one t (ptab pretty null s (d + 2))
     | _ => put (one t (ptab pretty null s (d + 2))) (if pretty then str "," ++ nl else str ",") end) (lines pretty null one d r)); [|apply IH; intros t' Ht'; apply H1; right; exact Ht'].
  destruct r.
  - apply (ok_comp _ (fun s => if pretty then put s nl else s) Ho ok_eol).
  - apply (ok_comp _ (fun s => put s _) Ho). apply ok_put.
Qed.
Lemma ok_block one d l : (forall t, In t l -> okf (one t)) -> okf (block pretty null one d l).
Proof.
  intros H1. unfold block.
  apply (ok_comp (fun s => ptab pretty null (lines pretty null one d l (put s (if pretty then str "[" ++ nl else str "["))) (d + 1)) (fun s => put s (str "]"))); [|apply ok_put].
  apply (ok_comp (fun s => lines pretty null one d l (put s (if pretty then str "[" ++ nl else str "["))) (fun s => ptab pretty null s (d + 1))); [|apply ok_ptab].
  apply (ok_comp (fun s => put s (if pretty then str "[" ++ nl else str "[")) (lines pretty null one d l)); [apply ok_put | apply ok_lines; exact H1].
Qed.

Definition PS (v : rval) : Prop := forall d n, tree_ok v -> okf (value fmt pretty null d n v).
Definition QS (l : list rep) : Prop := forall d, reps_ok l -> okf (attrs_with pretty null (value fmt pretty null d) d l).
Lemma qs_nil : QS []. Proof. intros d _. apply ok_id. Qed.
Lemma qs_cons n v l : PS v -> QS l -> QS ((n, v) :: l).
Proof.
  intros HP HQ d [Hv Hr]. cbn [attrs_with]. fold (attrs_with pretty null (value fmt pretty null d) d).
  pose (g1 := fun s => match n with [] => ptab pretty null s (d + 1) | _ => put (ptab pretty null s (d + 1)) (quoted n ++ (if pretty then str " : " else str ":")) end).
  assert (O1 : okf g1).
  { unfold g1. destruct n; [apply ok_ptab|]. apply (ok_comp (fun s => ptab pretty null s (d + 1)) (fun s => put s _)); [apply ok_ptab | apply ok_put]. }
  assert (O2 := ok_comp g1 (value fmt pretty null d n v) O1 (HP d n Hv)).
  pose (g3 := fun s => match l with [] => value fmt pretty null d n v (g1 s) | _ => put (value fmt pretty null d n v (g1 s)) (str ",") end).
  assert (O3 : okf g3). { unfold g3. destruct l; [exact O2|]. apply (ok_comp _ (fun s => put s _) O2). apply ok_put. }
  assert (O4 := ok_comp g3 (fun s => if pretty then put s nl else s) O3 ok_eol).
  exact (ok_comp _ _ O4 (HQ d Hr)).
Qed.
Lemma ps_obj l : QS l -> PS (RObj l).
Proof.
  intros HQ d n Hok. cbn [value].
  assert (O1 := ok_put (if pretty then str "{" ++ nl else str "{")).
  assert (O2 := ok_comp _ _ O1 (ok_call _ (HQ (d + 1) Hok))).
  assert (O3 := ok_comp _ _ O2 (ok_ptab pretty null (d + 1))).
  exact (ok_comp _ _ O3 (ok_put (str "}"))).
Qed.
Lemma ok_objs d l : Forall QS l -> Forall reps_ok l -> okf (objs fmt pretty null d l).
Proof.
  induction 1 as [|o r HQ _ IH]; intros Hok; [apply ok_id|]. inversion Hok as [|? ? Ho Hr]; subst.
  apply (ok_ext (fun s => objs fmt pretty null d (o :: r) s)); [reflexivity|].
  assert (O1 := ok_comp _ _ (ok_ptab pretty null (d + 2)) (ok_put (if pretty then str "{" ++ nl else str "{"))).
  assert (O2 := ok_comp _ _ O1 (ok_call _ (HQ (d + 2) Ho))).
  destruct r as [|o2 r].
  - exact (ok_comp _ _ O2 (IH Hr)).
  - assert (O3 := ok_comp _ _ O2 (ok_ptab pretty null (d + 2))).
    assert (O4 := ok_comp _ _ O3 (ok_put (if pretty then str "}," ++ nl else str "},"))).
    exact (ok_comp _ _ O4 (IH Hr)).
Qed.
Lemma ps_objs os : Forall QS os -> PS (RObjArr os).
Proof.
  intros HQ d n Hok. destruct (tree_ok_objs _ Hok) as [Hne Hos].
  assert (O1 := ok_comp _ _ (ok_put (str "[")) ok_eol).
  assert (O2 := ok_comp _ _ O1 (ok_objs d os HQ Hos)).
  assert (O3 := ok_comp _ _ O2 (ok_ptab pretty null (d + 2))).
  assert (O4 := ok_comp _ _ O3 (ok_put (str "}]"))).
  apply (ok_ext _ (value fmt pretty null d n (RObjArr os))) in O4; [exact O4|]. intros s. destruct os; [exfalso; apply Hne; reflexivity | reflexivity].
Qed.
Lemma ps_leaf v : (forall l, v <> RObj l) -> (forall l, v <> RObjArr l) -> PS v.
Proof.
  intros H1 H2 d n Hok.
  destruct v as [|z|x|b|b|t|l| |l|l|l|l|l|l]; try (exfalso; eapply H1; reflexivity); try (exfalso; eapply H2; reflexivity); cbn [value tree_ok] in *.
  - apply ok_put.
  - apply ok_put.
  - apply ok_put.
  - apply ok_put.
  - destruct (found n); [|apply ok_id]. apply ok_call, ok_b64, Hok.
  - apply ok_put.
  - apply ok_id.
  - exact (ok_comp _ _ (ok_comp _ _ (ok_put (str "[")) (ok_items _)) (ok_put (str "]"))).
  - exact (ok_comp _ _ (ok_comp _ _ (ok_put (str "[")) (ok_items _)) (ok_put (str "]"))).
  - exact (ok_comp _ _ (ok_comp _ _ (ok_put (str "[")) (ok_items _)) (ok_put (str "]"))).
  - apply ok_block. intros b Hin. apply ok_call, ok_b64. destruct (found n); [|destruct Hin]. exact (proj1 (Forall_forall _ _) Hok b Hin).
  - apply ok_block. intros t _. apply ok_put.
Qed.
Lemma ok_reps l d : reps_ok l -> okf (attrs_with pretty null (value fmt pretty null d) d l).
Proof. exact (reps_ind2 PS QS qs_nil qs_cons ps_obj ps_objs ps_leaf l d). Qed.

Lemma ok_to_json l s : reps_ok l -> safe s -> safe (to_json_from fmt pretty null l s) /\ (j_size s <> 0 -> zin (j_mem (to_json_from fmt pretty null l s))).
Proof.
  intros Hok Hs. destruct (put_safe s (if is_objects l then str "[" else str "{") Hs) as [H1 H2].
  pose (g := fun s => match l with ([], RObj []) :: _ => s | _ => call s (format fmt pretty null 0 l) end).
  assert (Og : okf g).
  { unfold g. assert (Oc : okf (fun s => call s (format fmt pretty null 0 l))) by (apply ok_call, ok_reps, Hok).
    destruct l as [|[[|c n] v] r]; [exact Oc | | exact Oc]. destruct v as [|z|x|b|b|t|l| |l|l|l|l|l|l]; try exact Oc. destruct l; [apply ok_id | exact Oc]. }
  assert (O := ok_comp _ _ (ok_comp _ _ (ok_comp _ _ ok_eol Og) (ok_put (if is_objects l then str "]" else str "}"))) ok_eol).
  destruct (O _ H1) as [H3 H4]. split; [exact H3|]. intros Hz. apply H4, H2. right. exact Hz.
Qed.
End Safe.

Lemma to_json_safe fmt pretty null l mem size mem' n :
  reps_ok l -> size <= List.length mem -> to_json fmt pretty null l mem size = Some (mem', n) ->
  List.length mem' = List.length mem /\ skipn size mem' = skipn size mem /\ (size <> 0 -> exists i, i < size /\ nth_error mem' i = Some 0%N).
Proof.
  intros Hok Hsz H. unfold to_json in H.
  destruct (ok_to_json mem 0 size ltac:(lia) fmt pretty null l (mkJ mem 0 size 0 false) Hok) as [[(H1 & _ & H2) _] H3].
  { split; [split; [reflexivity | split; reflexivity] | cbn [j_off j_size]; lia]. }
  destruct (j_bad _); [discriminate|]. injection H as <- <-. split; [exact H1|]. split; [exact H2|].
  intros Hz. destruct (H3 Hz) as (i & Hi & Hn). exists i. split; [lia | exact Hn].
Qed.
