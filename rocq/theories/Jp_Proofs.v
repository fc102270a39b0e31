From Verif Require Import Common Ep_Model Ep_Spec Ep_Proofs Base64_Model Base64_Spec Base64_Proofs Buf_Model Rep_Model Jp_Model Jp_Spec.
From Coq Require Import String.
Local Open Scope string_scope.
Local Open Scope list_scope.
Local Open Scope nat_scope.

(** ** Induction over payload trees *)
Section Ind.
Variable P : rval -> Prop.
Variable Q : list rep -> Prop.
Hypothesis Hq0 : Q [].
Hypothesis Hq1 : forall n v l, P v -> Q l -> Q ((n, v) :: l).
Hypothesis Hobj : forall l, Q l -> P (RObj l).
Hypothesis Hobjs : forall os, Forall Q os -> P (RObjArr os).
Hypothesis Hleaf : forall v, (forall l, v <> RObj l) -> (forall l, v <> RObjArr l) -> P v.
Fixpoint rval_ind2 (v : rval) : P v :=
  let fix reps (l : list rep) : Q l :=
    match l with [] => Hq0 | (n, x) :: r => Hq1 n x r (rval_ind2 x) (reps r) end in
  match v with
  | RObj l => Hobj l (reps l)
  | RObjArr os => Hobjs os ((fix go (os : list (list rep)) : Forall Q os :=
                               match os with [] => Forall_nil Q | o :: r => Forall_cons o (reps o) (go r) end) os)
  | v => Hleaf v ltac:(intros; discriminate) ltac:(intros; discriminate)
  end.
Lemma reps_ind2 l : Q l.
Proof. induction l as [|[n v] r IH]; [exact Hq0|]. apply Hq1; [apply rval_ind2 | exact IH]. Qed.
End Ind.

(** ** Memory *)
Lemma vsn_app P post size t off :
  List.length P = off -> size <> 0 ->
  vsn (P ++ post) off size t = P ++ firstn (size - 1) t ++ 0%N :: skipn (S (List.length (firstn (size - 1) t))) post.
Proof.
  intros <- Hs. destruct size as [|k]; [lia|]. unfold vsn. replace (S k - 1) with k by lia.
  rewrite firstn_app, Nat.sub_diag, firstn_all, firstn_O, app_nil_r, <- app_assoc. f_equal. f_equal.
  cbn [app]. f_equal. rewrite skipn_app, skipn_all2 by lia.
  rewrite app_nil_l. f_equal. rewrite app_length. cbn [List.length]. lia.
Qed.

Definition wfs (s : jst) : Prop := j_off s + j_size s <= List.length (j_mem s).
Definition pre (s : jst) : list N := firstn (j_off s) (j_mem s).
Definition rest (s : jst) : list N := skipn (j_off s + j_size s) (j_mem s).

Lemma mem_parts s : wfs s -> exists mid, j_mem s = pre s ++ mid ++ rest s /\ List.length mid = j_size s /\ List.length (pre s) = j_off s.
Proof.
  intros H. unfold wfs in H. exists (firstn (j_size s) (skipn (j_off s) (j_mem s))). unfold pre, rest. repeat split.
  - rewrite <- (firstn_skipn (j_off s) (j_mem s)) at 1. f_equal. rewrite <- (firstn_skipn (j_size s) (skipn (j_off s) (j_mem s))) at 1. f_equal. rewrite skipn_skipn. f_equal; lia.
  - rewrite firstn_length, skipn_length. lia.
  - rewrite firstn_length. lia.
Qed.

(** ** The relation between the text printed so far and the state *)
Definition small (n : nat) : Prop := (N.of_nat n < 2 ^ 64)%N.
Definition printed (s0 : jst) (T : list N) (s : jst) : Prop :=
  j_total s = N.of_nat (List.length T) /\ j_bad s = j_bad s0 /\
  ((List.length T < j_size s0 /\ exists mid,
      j_mem s = pre s0 ++ T ++ mid ++ rest s0 /\ List.length T + List.length mid = j_size s0 /\
      j_off s = j_off s0 + List.length T /\ j_size s = j_size s0 - List.length T /\
      (hd_error mid = Some 0%N \/ j_mem s = j_mem s0 /\ T = []))
   \/ (j_size s0 <= List.length T /\ j_off s = j_off s0 + j_size s0 /\ j_size s = 0 /\
       (j_size s0 = 0 /\ j_mem s = j_mem s0 \/
        exists k mid, k < j_size s0 /\ k <= List.length T /\ j_mem s = pre s0 ++ firstn k T ++ 0%N :: mid ++ rest s0 /\
                      k + 1 + List.length mid = j_size s0))).

Lemma fresh s : wfs s -> j_total s = 0%N -> printed s [] s.
Proof.
  intros Hw Ht. split; [exact Ht|]. split; [reflexivity|]. cbn [List.length].
  destruct (Nat.eq_dec (j_size s) 0) as [E|E].
  - right. repeat split; try lia. left. split; [exact E | reflexivity].
  - left. split; [lia|]. destruct (mem_parts s Hw) as (mid & Hm & Hl & _). exists mid. repeat split; try lia; [exact Hm|].
    right. split; reflexivity.
Qed.

Lemma printed_wfs s0 T s : wfs s0 -> printed s0 T s -> wfs s.
Proof.
  intros Hw (_ & _ & [(Hlt & mid & Hm & Hl & Ho & Hs & _) | (Hge & Ho & Hs & Hm)]); unfold wfs in *.
  - rewrite Hm, !app_length, Ho, Hs. unfold pre, rest. rewrite firstn_length, skipn_length. lia.
  - rewrite Ho, Hs. destruct Hm as [[H0 Hm] | (k & mid & Hk & Hk2 & Hm & Hl)].
    + rewrite Hm. lia.
    + rewrite Hm, !app_length. cbn [List.length]. rewrite app_length, firstn_length. unfold pre, rest. rewrite firstn_length, skipn_length. lia.
Qed.

Lemma firstn_app_le {A} k (a b : list A) : k <= List.length a -> firstn k (a ++ b) = firstn k a.
Proof. intros H. rewrite firstn_app. replace (k - List.length a) with 0 by lia. rewrite firstn_O, app_nil_r. reflexivity. Qed.

(** The general step: a part [U] was printed by something that itself behaves as [printed]. *)
Lemma call_printed s0 T s U f :
  wfs s0 -> printed s0 T s -> small (List.length T + List.length U) ->
  (wfs (mkJ (j_mem s) (j_off s) (j_size s) 0 (j_bad s)) ->
   printed (mkJ (j_mem s) (j_off s) (j_size s) 0 (j_bad s)) U (f (mkJ (j_mem s) (j_off s) (j_size s) 0 (j_bad s)))) ->
  printed s0 (T ++ U) (call s f).
Proof.
  intros Hw HP Hsm HU. pose proof (printed_wfs _ _ _ Hw HP) as Hws.
  specialize (HU Hws). unfold call.
  set (s1 := mkJ (j_mem s) (j_off s) (j_size s) 0 (j_bad s)) in *. set (r := f s1) in *. clearbody r.
  destruct HP as (Ht & Hb & HP). destruct HU as (Htu & Hbu & HU). cbn [s1 j_bad] in Hbu.
  assert (Hsum : ((j_total s + j_total r) mod 2 ^ 64 = N.of_nat (List.length (T ++ U)))%N).
  { rewrite Ht, Htu, app_length, Nat2N.inj_add. apply N.mod_small. unfold small in Hsm. lia. }
  unfold printed, adv. cbn [j_mem j_off j_size j_total j_bad].
  assert (Hl0 : List.length (pre s0) = j_off s0) by (unfold pre, wfs in *; rewrite firstn_length; lia).
  destruct HP as [(Hlt & mid & Hm & Hl & Ho & Hs & Hz) | (Hge & Ho & Hs & Hm)].
  - assert (Hpre : pre s1 = pre s0 ++ T).
    { unfold pre, s1. cbn [j_mem j_off]. rewrite Hm, Ho, app_assoc. apply (firstn_app_le _ (pre s0 ++ T)) || idtac.
      rewrite firstn_app, firstn_all2 by (rewrite app_length; lia).
      replace (_ - _) with 0 by (rewrite app_length; lia). rewrite firstn_O, app_nil_r. reflexivity. }
    assert (Hrest : rest s1 = rest s0).
    { unfold rest at 1. unfold s1. cbn [j_mem j_off j_size]. rewrite Hm, Ho, Hs, !app_assoc. 
      rewrite skipn_app, skipn_all2 by (rewrite !app_length; lia).
      replace (_ - _) with 0 by (rewrite !app_length; lia). reflexivity. }
    rewrite Hpre, Hrest in HU. cbn [s1 j_size j_off j_mem] in HU.
    destruct HU as [(Hlu & mu & Hmu & Hlmu & Hou & Hsu & Hzu) | (Hgu & Hou & Hsu & Hmu)].
    + rewrite Htu. replace (N.of_nat (List.length U) <? N.of_nat (j_size s))%N with true by (symmetry; apply N.ltb_lt; lia).
      cbn [j_mem j_off j_size j_total j_bad]. rewrite <- Htu. split; [exact Hsum|]. split; [congruence|]. left.
      rewrite Htu, Nat2N.id, app_length. split; [lia|]. exists mu. rewrite <- app_assoc. rewrite <- app_assoc in Hmu.
      repeat split; try lia; [exact Hmu|].
      destruct Hzu as [Hzu | [Hzu ->]]; [left; exact Hzu|].
      destruct Hz as [Hz | [Hz ->]]; [| right; split; [congruence | reflexivity]].
      left. rewrite Hm in Hzu. rewrite Hmu in Hzu. cbn [app] in Hzu. apply app_inv_head in Hzu. apply app_inv_head in Hzu.
      destruct mid as [|m mid]; [cbn in Hz; discriminate|]. destruct mu as [|m' mu]; [cbn [List.length] in Hlmu; lia|].
      cbn [app] in Hzu. injection Hzu as -> _. exact Hz.
    + rewrite Htu. replace (N.of_nat (List.length U) <? N.of_nat (j_size s))%N with false by (symmetry; apply N.ltb_ge; lia).
      destruct (Nat.eqb_spec (j_size s) 0) as [E|E]; [lia|].
      cbn [j_mem j_off j_size j_total j_bad]. rewrite <- Htu. split; [exact Hsum|]. split; [congruence|]. right.
      rewrite app_length. repeat split; try lia. right.
      destruct Hmu as [[? _] | (k & mu & Hk & Hk2 & Hmu & Hlmu)]; [lia|].
      exists (List.length T + k), mu. repeat split; try lia.
      rewrite firstn_app_2, Hmu, <- !app_assoc. reflexivity.
  - rewrite Hs. replace (j_total r <? N.of_nat 0)%N with false by (symmetry; apply N.ltb_ge; lia). cbn [Nat.eqb].
    cbn [j_mem j_off j_size j_total j_bad]. split; [exact Hsum|]. split; [congruence|]. right.
    assert (Hmr : j_mem r = j_mem s).
    { cbn [s1 j_size] in HU. rewrite Hs in HU. destruct HU as [(? & _) | (_ & _ & _ & [[_ HU] | (k & _ & ? & _)])]; [lia | exact HU | lia]. }
    rewrite app_length. repeat split; try lia.
    destruct Hm as [[H0 Hm] | (k & mid & Hk & Hk2 & Hm & Hl)].
    + left. split; [exact H0 | congruence].
    + right. exists k, mid. repeat split; try lia. rewrite Hmr, Hm. rewrite firstn_app_le by exact Hk2. reflexivity.
Qed.

(** snprintf into the whole of the room that is left. *)
Lemma put_fresh s t :
  wfs s -> j_total s = 0%N -> small (List.length t) -> printed s t (put s t).
Proof.
  intros Hw Ht Hsm. unfold put, adv. cbn [j_mem j_off j_size j_total j_bad]. rewrite Ht, N.add_0_l, N.mod_small by exact Hsm.
  destruct (mem_parts s Hw) as (mid & Hm & Hl & Hp).
  destruct (Nat.eq_dec (j_size s) 0) as [E|E].
  - rewrite E. unfold vsn. replace (_ <? N.of_nat 0)%N with false by (symmetry; apply N.ltb_ge; lia). cbn [Nat.eqb].
    split; [reflexivity|]. split; [reflexivity|]. right. cbn [j_mem j_off j_size]. repeat split; try lia. left. split; [exact E | reflexivity].
  - assert (Hv := vsn_app (pre s) (mid ++ rest s) (j_size s) t (j_off s) Hp E). rewrite <- Hm in Hv.
    destruct (Nat.lt_ge_cases (List.length t) (j_size s)) as [Hlt|Hge].
    + replace (_ <? _)%N with true by (symmetry; apply N.ltb_lt; lia). split; [reflexivity|]. split; [reflexivity|]. left.
      cbn [j_mem j_off j_size]. split; [exact Hlt|]. rewrite Nat2N.id.
      rewrite firstn_all2 in Hv by lia.
      exists (0%N :: skipn (S (List.length t)) mid). repeat split; try lia.
      * rewrite Hv. f_equal. f_equal. cbn [app]. f_equal. rewrite skipn_app. replace (S (List.length t) - List.length mid) with 0 by lia. reflexivity.
      * cbn [List.length]. rewrite skipn_length. lia.
      * left. reflexivity.
    + replace (_ <? _)%N with false by (symmetry; apply N.ltb_ge; lia). destruct (Nat.eqb_spec (j_size s) 0) as [E'|_]; [lia|].
      split; [reflexivity|]. split; [reflexivity|]. right. cbn [j_mem j_off j_size]. repeat split; try lia. right.
      assert (Hf : List.length (firstn (j_size s - 1) t) = j_size s - 1) by (rewrite firstn_length; lia).
      exists (j_size s - 1), (skipn (j_size s) mid). repeat split; try lia.
      * rewrite Hv, Hf. f_equal. f_equal. f_equal. replace (S (j_size s - 1)) with (j_size s) by lia.
        rewrite skipn_app. replace (j_size s - List.length mid) with 0 by lia. reflexivity.
      * rewrite skipn_length. lia.
Qed.

Lemma put_is_call s t : small (List.length t) -> put s t = call s (fun s => put s t).
Proof.
  intros Hsm. unfold call, put, adv at 1. cbn [j_mem j_off j_size j_total j_bad].
  unfold adv at 2 3 4. cbn [j_mem j_off j_size j_total j_bad].
  assert (Hn : ((0 + N.of_nat (List.length t)) mod 2 ^ 64 = N.of_nat (List.length t))%N) by (apply N.mod_small; unfold small in Hsm; lia).
  destruct (N.of_nat (List.length t) <? N.of_nat (j_size s))%N eqn:E1; [|destruct (Nat.eqb (j_size s) 0) eqn:E2];
    cbn [j_mem j_off j_size j_total j_bad]; rewrite Hn; unfold adv; cbn [j_mem j_off j_size j_total j_bad]; rewrite E1, ?E2; reflexivity.
Qed.

Lemma put_printed s0 T s t :
  wfs s0 -> printed s0 T s -> small (List.length T + List.length t) -> printed s0 (T ++ t) (put s t).
Proof.
  intros Hw HP Hsm. rewrite put_is_call by (unfold small in *; lia).
  apply call_printed; try assumption. intros Hw1. apply put_fresh; [exact Hw1 | reflexivity | unfold small in *; lia].
Qed.

(** ** Base64 *)
Lemma b64_encode b : bytes_ok b ->
  encode STD true b (S (encoded_size (List.length b) true)) = Some (b64_text b) /\ List.length (b64_text b) = encoded_size (List.length b) true.
Proof.
  intros Hb. assert (E : encode STD true b (S (encoded_size (List.length b) true)) = Some (b64_text b)).
  { rewrite encode_spec by (assumption || lia). reflexivity. }
  split; [exact E|]. exact (proj1 (encoded_size_full _ _ _ _ _ Hb E)).
Qed.

Lemma put_shape s0 T s t mid :
  wfs s0 -> j_total s = N.of_nat (List.length T) -> j_bad s = j_bad s0 -> List.length T < j_size s0 ->
  j_mem s = pre s0 ++ T ++ mid ++ rest s0 -> List.length T + List.length mid = j_size s0 ->
  j_off s = j_off s0 + List.length T -> j_size s = j_size s0 - List.length T ->
  small (List.length T + List.length t) -> printed s0 (T ++ t) (put s t).
Proof.
  intros Hw Ht Hb Hlt Hm Hl Ho Hs Hsm.
  assert (Hl0 : List.length (pre s0) = j_off s0) by (unfold pre, wfs in *; rewrite firstn_length; lia).
  assert (Hv : vsn (j_mem s) (j_off s) (j_size s) t =
               (pre s0 ++ T) ++ firstn (j_size s - 1) t ++ 0%N :: skipn (S (List.length (firstn (j_size s - 1) t))) (mid ++ rest s0)).
  { rewrite Hm, app_assoc. apply vsn_app; [rewrite app_length; lia | lia]. }
  unfold put, adv. cbn [j_mem j_off j_size j_total j_bad].
  assert (Hsum : ((j_total s + N.of_nat (List.length t)) mod 2 ^ 64 = N.of_nat (List.length (T ++ t)))%N).
  { rewrite Ht, app_length, Nat2N.inj_add. apply N.mod_small. unfold small in Hsm. lia. }
  destruct (Nat.lt_ge_cases (List.length t) (j_size s)) as [Hlu|Hge].
  - replace (_ <? _)%N with true by (symmetry; apply N.ltb_lt; lia). split; [exact Hsum|]. split; [exact Hb|]. left.
    cbn [j_mem j_off j_size]. rewrite app_length. split; [lia|]. rewrite Nat2N.id. rewrite firstn_all2 in Hv by lia.
    exists (0%N :: skipn (S (List.length t)) mid). repeat split; try lia.
    + rewrite Hv, <- !app_assoc. f_equal. f_equal. f_equal. cbn [app]. f_equal. rewrite skipn_app.
      replace (S (List.length t) - List.length mid) with 0 by lia. reflexivity.
    + cbn [List.length]. rewrite skipn_length. lia.
    + left. reflexivity.
  - replace (_ <? _)%N with false by (symmetry; apply N.ltb_ge; lia). destruct (Nat.eqb_spec (j_size s) 0) as [E'|_]; [lia|].
    split; [exact Hsum|]. split; [exact Hb|]. right. cbn [j_mem j_off j_size]. rewrite app_length. repeat split; try lia. right.
    assert (Hf : List.length (firstn (j_size s - 1) t) = j_size s - 1) by (rewrite firstn_length; lia).
    exists (List.length T + (j_size s - 1)), (skipn (j_size s) mid). repeat split; try lia.
    + rewrite Hv, Hf, firstn_app_2, <- !app_assoc. do 4 f_equal. replace (S (j_size s - 1)) with (j_size s) by lia.
      rewrite skipn_app. replace (j_size s - List.length mid) with 0 by lia. reflexivity.
    + rewrite skipn_length. lia.
Qed.

Lemma b64_fresh b s : wfs s -> j_total s = 0%N -> bytes_ok b -> small (List.length (quote (b64_text b))) -> printed s (quote (b64_text b)) (b64 b s).
Proof.
  intros Hw Ht Hb Hsm. destruct (b64_encode b Hb) as [He Hl]. unfold b64. rewrite He, <- Hl. set (out := b64_text b) in *. clearbody out.
  assert (Hql : List.length (quote out) = S (S (List.length out))) by (unfold quote; cbn [List.length]; rewrite app_length; cbn [List.length]; lia).
  rewrite Hql in Hsm.
  assert (H1 : printed s [34%N] (put s (str """"))).
  { apply (put_fresh s [34%N]); [exact Hw | exact Ht | unfold small in *; cbn [List.length]; lia]. }
  set (s1 := put s (str """")) in *. clearbody s1. cbv zeta.
  destruct H1 as (Ht1 & Hb1 & H1). cbn [List.length] in Ht1, H1.
  change (quote out) with ([34%N] ++ out ++ [34%N]). rewrite app_assoc.
  destruct (Nat.ltb_spec (S (List.length out)) (j_size s1)) as [Hlt|Hge].
  - destruct H1 as [(Hl1 & mid & Hm & Hlm & Ho & Hs & Hz) | (_ & _ & Hs & _)]; [|lia].
    assert (Hp : List.length (pre s) = j_off s) by (unfold pre, wfs in *; rewrite firstn_length; lia).
    unfold adv. cbn [j_mem j_off j_size j_total j_bad].
    replace (_ <? _)%N with true by (symmetry; apply N.ltb_lt; lia).
    apply put_shape with (mid := skipn (List.length out) mid); try exact Hw; cbn [j_mem j_off j_size j_total j_bad];
      rewrite ?app_length, ?Nat2N.id; cbn [List.length]; try lia; [| exact Hb1 | | | unfold small in *; change (List.length (str """")) with 1; lia].
    + rewrite Ht1, N.mod_small by (unfold small in Hsm; lia). lia.
    + unfold poke. rewrite Hm, Ho. rewrite (app_assoc (pre s)).
      rewrite firstn_app. rewrite firstn_all2 by (rewrite app_length; cbn [List.length]; lia).
      replace (_ - _) with 0 by (rewrite app_length; cbn [List.length]; lia). rewrite firstn_O, app_nil_r, <- !app_assoc. f_equal. f_equal. f_equal.
      rewrite (app_assoc (pre s)). rewrite skipn_app, skipn_all2 by (rewrite app_length; cbn [List.length]; lia). cbn [app].
      replace (_ - _) with (List.length out) by (rewrite app_length; cbn [List.length]; lia).
      rewrite skipn_app. replace (List.length out - List.length mid) with 0 by lia. reflexivity.
    + rewrite skipn_length. lia.
  - unfold put, adv. cbn [j_mem j_off j_size j_total j_bad].
    change (str """") with [34%N]. cbn [List.length Nat.eqb vsn].
    replace (N.of_nat 1 <? N.of_nat 0)%N with false by reflexivity.
    split; [cbn [j_total]; rewrite !app_length; cbn [List.length]; rewrite Ht1; replace (S (List.length out) - 1) with (List.length out) by lia;
      unfold small in Hsm; rewrite (N.mod_small (N.of_nat 1 + _)) by lia; rewrite N.mod_small by lia; lia|].
    split; [exact Hb1|]. right. cbn [j_mem j_off j_size]. rewrite !app_length. cbn [List.length].
    destruct H1 as [(Hl1 & mid & Hm & Hlm & Ho & Hs & Hz) | (Hge1 & Ho & Hs & Hm)].
    + repeat split; try lia. right. destruct Hz as [Hz | [_ Hz]]; [|discriminate]. destruct mid as [|z mid]; [discriminate|].
      cbn [hd_error] in Hz. injection Hz as ->. cbn [List.length] in Hlm. exists 1, mid. repeat split; try lia. exact Hm.
    + repeat split; try lia. destruct Hm as [[H0 Hm] | (k & mid & Hk & Hk2 & Hm & Hlm)].
      * left. split; [exact H0 | exact Hm].
      * right. exists k, mid. repeat split; try lia. rewrite Hm, <- app_assoc, firstn_app_le by (cbn [List.length]; exact Hk2). reflexivity.
Qed.

(** ** Indentation *)
Lemma tab_loop_null b d : w_null b = true -> tab_loop b d = (mkWb true (w_mem b) (w_off b) (w_size b) (w_total b + 2 * d), N.of_nat (w_total b + 2 * d)).
Proof.
  revert b. induction d as [|d IH]; intros b Hn; cbn [tab_loop].
  - rewrite Nat.mul_0_r, Nat.add_0_r. destruct b; cbn in *; subst; reflexivity.
  - unfold buffer_write. rewrite Hn. rewrite IH by reflexivity. cbn [w_mem w_off w_size w_total].
    change (List.length (str "  ")) with 2. f_equal; [f_equal; lia | f_equal; lia].
Qed.
Lemma tab_loop_fits P mid R tot d :
  2 * d < List.length mid ->
  exists mid', tab_loop (mkWb false (P ++ mid ++ R) (List.length P) (List.length mid) tot) d =
    (mkWb false (P ++ repeat 32%N (2 * d) ++ mid' ++ R) (List.length P + 2 * d) (List.length mid - 2 * d) (tot + 2 * d), N.of_nat (tot + 2 * d)) /\
    2 * d + List.length mid' = List.length mid /\ (hd_error mid' = Some 0%N \/ d = 0 /\ mid' = mid).
Proof.
  revert P mid tot. induction d as [|d IH]; intros P mid tot H.
  - exists mid. cbn [tab_loop w_total]. rewrite Nat.mul_0_r, !Nat.add_0_r, Nat.sub_0_r. cbn [repeat app].
    repeat split. right. split; reflexivity.
  - cbn [tab_loop]. unfold buffer_write. cbn [w_null w_mem w_off w_size w_total]. change (List.length (str "  ")) with 2.
    replace (List.length mid <=? 2) with false by (symmetry; apply Nat.leb_gt; lia).
    rewrite vsn_app by (reflexivity || lia). rewrite firstn_all2 by (cbn; lia). change (List.length (str "  ")) with 2.
    rewrite skipn_app. replace (3 - List.length mid) with 0 by lia. rewrite (skipn_O R).
    destruct (IH (P ++ [32; 32]%N) (0%N :: skipn 3 mid) (tot + 2)) as (mid' & He & Hl & Hz).
    { cbn [List.length]. rewrite skipn_length. lia. }
    exists mid'. cbn [List.length] in *. rewrite skipn_length in *. rewrite app_length in He. cbn [List.length] in He.
    rewrite <- app_assoc in He. cbn [app] in He.
    replace (S (List.length mid - 3)) with (List.length mid - 2) in * by lia.
    change (str "  ") with [32; 32]%N. cbn [app]. rewrite He. repeat split; try lia.
    + rewrite <- !app_assoc. cbn [app]. replace (2 * S d) with (S (S (2 * d))) by lia. cbn [repeat app]. f_equal; [f_equal; lia | f_equal; lia].
    + left. destruct Hz as [Hz | [-> ->]]; [exact Hz | reflexivity].
Qed.

Lemma tab_printed null s0 T s d :
  wfs s0 -> printed s0 T s -> small (List.length T + 2 * d) -> null = true /\ j_size s0 = 0 \/ null = false /\ List.length T + 2 * d < j_size s0 ->
  printed s0 (T ++ repeat 32%N (2 * d)) (tab null s d).
Proof.
  intros Hw (Ht & Hb & HP) Hsm Hn. unfold tab.
  assert (Hsum : ((j_total s + N.of_nat (0 + 2 * d)) mod 2 ^ 64 = N.of_nat (List.length (T ++ repeat 32%N (2 * d))))%N).
  { rewrite Ht, app_length, repeat_length, Nat.add_0_l, Nat2N.inj_add. apply N.mod_small. unfold small in Hsm. lia. }
  destruct Hn as [[-> H0] | [-> Hlt]].
  - rewrite tab_loop_null by reflexivity. cbn [w_mem w_off w_size w_total]. unfold adv. cbn [j_mem j_off j_size j_total j_bad].
    destruct HP as [(? & _) | (Hge & Ho & Hs & Hm)]; [lia|]. rewrite Hs.
    replace (_ <? N.of_nat 0)%N with false by (symmetry; apply N.ltb_ge; lia). cbn [Nat.eqb].
    split; [exact Hsum|]. split; [exact Hb|]. right. cbn [j_mem j_off j_size]. rewrite app_length. repeat split; try lia.
    left. split; [exact H0|]. destruct Hm as [[_ Hm] | (k & _ & ? & _)]; [exact Hm | lia].
  - destruct HP as [(Hl1 & mid & Hm & Hlm & Ho & Hs & Hz) | (? & _)]; [|lia].
    assert (Hl0 : List.length (pre s0) = j_off s0) by (unfold pre, wfs in *; rewrite firstn_length; lia).
    destruct (tab_loop_fits (pre s0 ++ T) mid (rest s0) 0 d ltac:(lia)) as (mid' & He & Hl & Hz').
    rewrite app_length, Hl0, <- Ho, <- app_assoc, <- Hm in He. replace (List.length mid) with (j_size s) in He at 1 by lia.
    rewrite He. cbn [w_mem]. unfold adv. cbn [j_mem j_off j_size j_total j_bad].
    replace (_ <? _)%N with true by (symmetry; apply N.ltb_lt; lia).
    split; [exact Hsum|]. split; [exact Hb|]. left. cbn [j_mem j_off j_size]. rewrite app_length, repeat_length. split; [lia|].
    exists mid'. rewrite Nat2N.id. repeat split; try lia; [rewrite <- !app_assoc; reflexivity|].
    destruct Hz' as [Hz' | [-> ->]]; [left; exact Hz'|]. destruct Hz as [Hz | [Hz ->]]; [left; exact Hz|].
    right. cbn [Nat.mul repeat app]. rewrite <- Hz, Hm. rewrite app_nil_r. split; reflexivity.
Qed.
