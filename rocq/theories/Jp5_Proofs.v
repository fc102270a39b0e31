From Verif Require Import Common Ep_Model Ep_Spec Ep_Proofs Base64_Model Base64_Spec Base64_Proofs Buf_Model Rep_Model Jp_Model Jp_Spec Jp_Proofs Jp2_Proofs.
From Coq Require Import String.
Local Open Scope string_scope.
Local Open Scope list_scope.
Local Open Scope nat_scope.

(** ** A text cut short is noticed, with indentation as well

    When the text does not fit, the value returned may be too small, because a failed indentation counts as -1.  The
    deficit is bounded: [est s0 T b c a s] says that where the text [T] does not fit into the room of [s0], the count
    [z] is at least the room minus [b] if no room is left, and the room left is at most [c] otherwise. *)
Definition est (s0 : jst) (T : list N) (b c a : Z) (s : jst) : Prop :=
  (List.length T < j_size s0 /\ j_size s = j_size s0 - List.length T /\ j_total s = N.of_nat (List.length T)) \/
  (j_size s0 <= List.length T /\ exists z, j_total s = Z.to_N (z mod 2 ^ 64) /\ (Z.min a 0 <= z <= Z.of_nat (List.length T))%Z /\
     (j_size s = 0 /\ (Z.of_nat (j_size s0) - Z.max b 0 <= z)%Z \/
      0 < j_size s /\ z = (Z.of_nat (j_size s0) - Z.of_nat (j_size s))%Z /\ (Z.of_nat (j_size s) <= c)%Z)).

Lemma est_weaken s0 T b c a b' c' a' s : est s0 T b c a s -> (b <= b')%Z -> (c <= c')%Z -> (a' <= a)%Z -> est s0 T b' c' a' s.
Proof.
  intros [H | (H & z & Hz & Ha & HD)] Hb Hc Haa; [left; exact H|]. right. split; [exact H|]. exists z. split; [exact Hz|]. split; [lia|].
  destruct HD as [[H1 H2] | (H1 & H2 & H3)]; [left; split; [exact H1 | lia] | right; repeat split; [exact H1 | exact H2 | lia]].
Qed.
Lemma est_fresh s : j_total s = 0%N -> est s [] 0 0 0 s.
Proof.
  intros Ht. destruct (Nat.eq_dec (j_size s) 0) as [E|E].
  - right. cbn [List.length]. split; [lia|]. exists 0%Z. split; [exact Ht|]. split; [lia|]. left. split; [exact E | lia].
  - left. cbn [List.length]. repeat split; [lia | lia | exact Ht].
Qed.
Lemma est_printed s0 T s : wfs s0 -> printed s0 T s -> small (List.length T) -> est s0 T 0 0 0 s.
Proof.
  intros Hw (Ht & _ & [(H & mid & _ & _ & _ & Hs & _) | (H & _ & Hs & _)]) Hsm; [left; repeat split; assumption|].
  right. split; [exact H|]. exists (Z.of_nat (List.length T)). split; [|split; [lia | left; split; [exact Hs | lia]]].
  rewrite Ht, Z.mod_small by (unfold small in Hsm; lia). lia.
Qed.

Lemma adv_size s num : j_size (adv s num) = if (num <? N.of_nat (j_size s))%N then j_size s - N.to_nat num else 0.
Proof. unfold adv. destruct (num <? _)%N; [reflexivity|]. destruct (Nat.eqb_spec (j_size s) 0); cbn [j_size]; lia. Qed.
Lemma adv_total s num : j_total (adv s num) = ((j_total s + num) mod 2 ^ 64)%N.
Proof. unfold adv. destruct (num <? _)%N; [reflexivity|]. destruct (Nat.eqb _ _); reflexivity. Qed.

Lemma to_N_mod z : Z.of_N (Z.to_N (z mod 2 ^ 64)) = (z mod 2 ^ 64)%Z.
Proof. apply Z2N.id. apply Z.mod_pos_bound. reflexivity. Qed.
Lemma add_mod z k : ((Z.to_N (z mod 2 ^ 64) + N.of_nat k) mod 2 ^ 64)%N = Z.to_N ((z + Z.of_nat k) mod 2 ^ 64).
Proof.
  apply N2Z.inj. rewrite N2Z.inj_mod, N2Z.inj_add, !to_N_mod, nat_N_Z. change (Z.of_N (2 ^ 64)) with (2 ^ 64)%Z.
  rewrite Z.add_mod_idemp_l by lia. reflexivity.
Qed.
Lemma sub_mod z : ((Z.to_N (z mod 2 ^ 64) + (2 ^ 64 - 1)) mod 2 ^ 64)%N = Z.to_N ((z - 1) mod 2 ^ 64).
Proof.
  apply N2Z.inj. rewrite N2Z.inj_mod, N2Z.inj_add, !to_N_mod. change (Z.of_N (2 ^ 64)) with (2 ^ 64)%Z. change (Z.of_N (2 ^ 64 - 1)) with (2 ^ 64 - 1)%Z.
  rewrite Z.add_mod_idemp_l by lia. replace (z + (2 ^ 64 - 1))%Z with (z - 1 + 1 * 2 ^ 64)%Z by lia. apply Z.mod_add. lia.
Qed.

(** [k] characters by something that counts right. *)
Lemma est_adv s0 T U b c a s mem bad :
  est s0 T b c a s -> small (List.length T + List.length U) ->
  est s0 (T ++ U) (b - Z.of_nat (List.length U)) (c - Z.of_nat (List.length U)) (a + Z.of_nat (List.length U))
    (adv (mkJ mem (j_off s) (j_size s) (j_total s) bad) (N.of_nat (List.length U))).
Proof.
  intros HE Hsm. unfold est. rewrite adv_size, adv_total. cbn [j_size j_total]. rewrite app_length. set (k := List.length U) in *. clearbody k.
  destruct HE as [(H1 & H2 & H3) | (H1 & z & Hz & Ha & HD)].
  - destruct (N.ltb_spec (N.of_nat k) (N.of_nat (j_size s))) as [Hlt|Hge].
    + left. rewrite H3. split; [lia|]. split; [lia|]. rewrite N.mod_small by (unfold small in Hsm; lia). lia.
    + right. split; [lia|]. exists (Z.of_nat (List.length T + k)). split.
      * rewrite H3, N.mod_small by (unfold small in Hsm; lia). rewrite Z.mod_small by (unfold small in Hsm; lia). lia.
      * split; [lia | left; split; [reflexivity | lia]].
  - right. split; [lia|]. exists (z + Z.of_nat k)%Z. split; [rewrite Hz; apply add_mod|]. split; [lia|].
    destruct (N.ltb_spec (N.of_nat k) (N.of_nat (j_size s))) as [Hlt|Hge]; destruct HD as [[H2 H3] | (H2 & H3 & H4)]; lia.
Qed.

Lemma est_put s0 T b c a s t : est s0 T b c a s -> small (List.length T + List.length t) ->
  est s0 (T ++ t) (b - Z.of_nat (List.length t)) (c - Z.of_nat (List.length t)) (a + Z.of_nat (List.length t)) (put s t).
Proof. intros HE Hsm. unfold put. exact (est_adv s0 T t b c a s _ _ HE Hsm). Qed.

(** The number of bytes an indentation answers. *)
Lemma tab_num null s d : null = false ->
  snd (tab_loop (mkWb null (j_mem s) (j_off s) (j_size s) 0) (S d)) = if j_size s <=? 2 * S d then (2 ^ 64 - 1)%N else N.of_nat (2 * S d).
Proof.
  intros ->.
  assert (G : forall d mem off size tot, 0 < d -> snd (tab_loop (mkWb false mem off size tot) d) = if size <=? 2 * d then (2 ^ 64 - 1)%N else N.of_nat (tot + 2 * d)).
  { clear. induction d as [|d IH]; intros mem off size tot Hd; [lia|]. cbn [tab_loop]. unfold buffer_write. cbn [w_null w_mem w_off w_size w_total].
    change (List.length (str "  ")) with 2. destruct (Nat.leb_spec size 2) as [H|H].
    - cbn [snd]. replace (size <=? 2 * S d) with true by (symmetry; apply Nat.leb_le; lia). reflexivity.
    - destruct d as [|d].
      + cbn [tab_loop snd w_total]. replace (size <=? 2 * 1) with false by (symmetry; apply Nat.leb_gt; lia). reflexivity.
      + rewrite IH by lia. destruct (Nat.leb_spec (size - 2) (2 * S d)); destruct (Nat.leb_spec size (2 * S (S d))); lia. }
  rewrite G by lia. reflexivity.
Qed.
Lemma est_tab s0 T b c a s d : est s0 T b c a s -> small (List.length T + 2 * S d) ->
  est s0 (T ++ repeat 32%N (2 * S d)) (Z.max (b + 1) (Z.of_nat (2 * S d) + 1)) (c - Z.of_nat (2 * S d)) (Z.min a 0 - 1) (tab false s (S d)).
Proof.
  intros HE Hsm. unfold tab. assert (Hn := tab_num false s d eq_refl). destruct (tab_loop _ _) as [wb' num]. cbn [snd] in Hn. subst num.
  destruct (Nat.leb_spec (j_size s) (2 * S d)) as [Hle|Hgt].
  - unfold est. rewrite adv_size, adv_total, app_length, repeat_length. cbn [j_size j_total]. set (k := 2 * S d) in *.
    assert (Hlim : est s0 T b c a s -> (N.of_nat (j_size s) <= 2 ^ 64 - 1)%N).
    { unfold small in Hsm. lia. }
    replace (2 ^ 64 - 1 <? N.of_nat (j_size s))%N with false by (symmetry; apply N.ltb_ge; exact (Hlim HE)).
    destruct HE as [(H1 & H2 & H3) | (H1 & z & Hz & Ha & HD)]; right; (split; [lia|]).
    + exists (Z.of_nat (List.length T) - 1)%Z. split; [|split; [lia | left; split; [reflexivity | lia]]].
      rewrite <- sub_mod, H3. do 2 f_equal. rewrite Z.mod_small by (unfold small in Hsm; lia). lia.
    + exists (z - 1)%Z. split; [rewrite Hz; apply sub_mod|]. split; [lia|]. left. split; [reflexivity|].
      destruct HD as [[H2 H3] | (H2 & H3 & H4)]; lia.
  - assert (Hl : List.length (repeat 32%N (2 * S d)) = 2 * S d) by apply repeat_length.
    rewrite <- Hl at 4. apply (est_weaken _ _ (b - Z.of_nat (2 * S d)) (c - Z.of_nat (2 * S d)) (a + Z.of_nat (2 * S d))); [|lia|lia|lia].
    rewrite <- Hl at 2 3 4. apply est_adv; [exact HE | rewrite Hl; exact Hsm].
Qed.

Lemma est_call s0 T b c a s U bu cu f :
  est s0 T b c a s -> small (List.length T + List.length U) ->
  est (mkJ (j_mem s) (j_off s) (j_size s) 0 (j_bad s)) U bu cu 0 (f (mkJ (j_mem s) (j_off s) (j_size s) 0 (j_bad s))) ->
  est s0 (T ++ U) (Z.max b 0) (Z.max c (Z.max bu cu)) a (call s f).
Proof.
  intros HE Hsm HU. unfold call. set (s1 := mkJ (j_mem s) (j_off s) (j_size s) 0 (j_bad s)) in *. set (r := f s1) in *. clearbody r.
  assert (exists k, j_total r = N.of_nat k /\ k <= List.length U /\ (List.length U < j_size s -> k = List.length U) /\
    (j_size s <= List.length U -> (Z.of_nat (j_size s) - Z.max (Z.max bu cu) 0 <= Z.of_nat k)%Z)) as (k & Hk & Hk1 & Hk2 & Hk3).
  { destruct HU as [(H1 & H2 & H3) | (H1 & z & Hz & Ha & HD)]; cbn [s1 j_size] in *.
    - exists (List.length U). split; [exact H3|]. split; [lia|]. split; [reflexivity | lia].
    - exists (Z.to_nat z). split; [rewrite Hz, Z.mod_small by (unfold small in Hsm; lia); lia|]. split; [lia|]. split; [lia|]. intros _.
      destruct HD as [[H2 H3] | (H2 & H3 & H4)]; lia. }
  unfold est. rewrite adv_size, adv_total, app_length. cbn [j_size j_total]. rewrite Hk.
  destruct HE as [(H1 & H2 & H3) | (H1 & z & Hz & Ha & HD)].
  - rewrite H3. destruct (Nat.lt_ge_cases (List.length U) (j_size s)) as [Hlt|Hge].
    + left. specialize (Hk2 Hlt). subst k. split; [lia|]. replace (_ <? _)%N with true by (symmetry; apply N.ltb_lt; lia).
      split; [lia|]. rewrite N.mod_small by (unfold small in Hsm; lia). lia.
    + right. specialize (Hk3 Hge). split; [lia|]. exists (Z.of_nat (List.length T + k)). split.
      * rewrite N.mod_small by (unfold small in Hsm; lia). rewrite Z.mod_small by (unfold small in Hsm; lia). lia.
      * split; [lia|]. destruct (N.ltb_spec (N.of_nat k) (N.of_nat (j_size s))); lia.
  - right. split; [lia|]. exists (z + Z.of_nat k)%Z. split; [rewrite Hz; apply add_mod|]. split; [lia|].
    destruct (N.ltb_spec (N.of_nat k) (N.of_nat (j_size s))) as [Hlt|Hge]; destruct HD as [[H2 H3] | (H2 & H3 & H4)]; lia.
Qed.

Section Pretty.
Variable fmt : N -> list N.

(** Steps with their bounds rounded up. *)
Lemma put_e s0 T b c a s t t' b' c' a' : est s0 T b c a s -> small (List.length T + List.length t) -> t' = t ->
  (b - Z.of_nat (List.length t) <= b')%Z -> (c - Z.of_nat (List.length t) <= c')%Z -> (a' <= a + Z.of_nat (List.length t))%Z ->
  est s0 (T ++ t) b' c' a' (put s t').
Proof. intros HE Hs -> Hb Hc Ha. exact (est_weaken _ _ _ _ _ _ _ _ _ (est_put _ _ _ _ _ _ _ HE Hs) Hb Hc Ha). Qed.
Lemma tab_e s0 T b c a s d b' c' a' : est s0 T b c a s -> small (List.length T + List.length (indent true (S d))) ->
  (b + 1 <= b')%Z -> (Z.of_nat (2 * S d) + 1 <= b')%Z -> (c - Z.of_nat (2 * S d) <= c')%Z -> (a' <= Z.min a 0 - 1)%Z ->
  est s0 (T ++ indent true (S d)) b' c' a' (ptab true false s (S d)).
Proof.
  intros HE Hs Hb Hb2 Hc Ha. unfold indent in *. rewrite repeat_length in Hs. unfold ptab.
  refine (est_weaken _ _ _ _ _ _ _ _ _ (est_tab _ _ _ _ _ _ d HE Hs) _ Hc Ha). lia.
Qed.
Lemma call_e s0 T b c a s U bu cu f b' c' a' : est s0 T b c a s -> small (List.length T + List.length U) ->
  (forall s1, j_size s1 = j_size s -> j_mem s1 = j_mem s -> j_off s1 = j_off s -> j_total s1 = 0%N -> est s1 U bu cu 0 (f s1)) ->
  (Z.max b 0 <= b')%Z -> (Z.max c (Z.max bu cu) <= c')%Z -> (a' <= a)%Z ->
  est s0 (T ++ U) b' c' a' (call s f).
Proof.
  intros HE Hs HU Hb Hc Ha. refine (est_weaken _ _ _ _ _ _ _ _ _ (est_call _ _ _ _ _ _ _ bu cu f HE Hs _) Hb Hc Ha).
  apply HU; reflexivity.
Qed.

Ltac sm := match goal with H : small ?n |- small ?m => unfold small, eol in *; rewrite ?app_length in *; cbn [List.length] in *; lia end.
Ltac num := unfold eol; cbn [List.length]; rewrite ?app_length; cbn [List.length]; lia.

Lemma quote_len t : List.length (quote t) = S (S (List.length t)).
Proof. unfold quote. cbn [List.length]. rewrite app_length. cbn [List.length]. lia. Qed.
Lemma b64_total b s : bytes_ok b -> j_total s = 0%N -> small (List.length (quote (b64_text b))) -> j_total (b64 b s) = N.of_nat (List.length (quote (b64_text b))).
Proof.
  intros Hb Ht Hsm. destruct (b64_encode b Hb) as [He Hl]. unfold b64. rewrite He, <- Hl. rewrite quote_len in *. set (out := b64_text b) in *. clearbody out. cbv zeta.
  assert (Ht1 : j_total (put s (str """")) = 1%N) by (unfold put; rewrite adv_total; cbn [j_total]; rewrite Ht; reflexivity).
  set (s1 := put s (str """")) in *. clearbody s1. unfold put. rewrite adv_total. cbn [j_total]. change (N.of_nat (List.length (str """"))) with 1%N. unfold small in Hsm.
  destruct (Nat.ltb_spec (S (List.length out)) (j_size s1)) as [Hlt|Hge].
  - rewrite adv_total. cbn [j_total]. rewrite Ht1, (N.mod_small (1 + _)) by lia. rewrite N.mod_small by lia. lia.
  - cbn [j_total]. rewrite Ht1. replace (S (List.length out) - 1) with (List.length out) by lia. rewrite (N.mod_small (1 + _)) by lia. rewrite N.mod_small by lia. lia.
Qed.
Lemma b64_e b s0 T bb c a s : bytes_ok b -> est s0 T bb c a s -> small (List.length T + List.length (quote (b64_text b))) ->
  est s0 (T ++ quote (b64_text b)) (bb - Z.of_nat (List.length (quote (b64_text b)))) (c - Z.of_nat (List.length (quote (b64_text b)))) (a + Z.of_nat (List.length (quote (b64_text b)))) (call s (b64 b)).
Proof.
  intros Hb HE Hs. unfold call. rewrite b64_total; [| exact Hb | reflexivity | unfold small in *; lia]. apply est_adv; assumption.
Qed.

Lemma items_e l : forall s0 T b c a s, (0 <= b)%Z -> (0 <= c)%Z -> est s0 T b c a s -> small (List.length T + List.length (items_layout true l)) ->
  est s0 (T ++ items_layout true l) b c a (items true l s).
Proof.
  induction l as [|t r IH]; intros s0 T b c a s Hb Hc HE Hs; cbn [items items_layout] in *; [rewrite app_nil_r; exact HE|].
  rewrite !app_assoc. apply IH; [exact Hb | exact Hc | | sm].
  assert (H1 : est s0 (T ++ t) b c a (put s t)) by (apply (put_e s0 T b c a s t t); [exact HE | sm | reflexivity | lia | lia | lia]).
  destruct r as [|t2 r]; cbn [comma] in *; [rewrite app_nil_r; exact H1|].
  apply (put_e s0 (T ++ t) b c a _ ([44%N] ++ [32%N]) (str ", ")); [exact H1 | sm | reflexivity | lia | lia | lia].
Qed.

Lemma lines_e one txt (d : nat) l :
  (forall t, In t l -> 2 <= List.length (txt t)) ->
  (forall t s0 T b c a s, In t l -> (2 <= b)%Z -> (0 <= c)%Z -> est s0 T b c a s -> small (List.length T + List.length (txt t)) -> est s0 (T ++ txt t) (b - 2) c (a + 1) (one t s)) ->
  forall s0 T s, est s0 T (2 * Z.of_nat d + 2) (2 * Z.of_nat d + 2) 0 s -> small (List.length T + List.length (lines_layout true d (map txt l))) ->
  est s0 (T ++ lines_layout true d (map txt l)) (2 * Z.of_nat d + 2) (2 * Z.of_nat d + 2) 0 (lines true false one d l s).
Proof.
  induction l as [|t r IH]; intros H2 H1 s0 T s HE Hs; cbn [lines lines_layout map] in *; [rewrite app_nil_r; exact HE|].
  rewrite !app_assoc. apply IH; [intros t' Ht'; apply H2; right; exact Ht' | intros t' s0' T' b' c' a' s' Ht'; apply H1; right; exact Ht' | | sm].
  assert (Ha : est s0 (T ++ indent true (d + 2)) (2 * Z.of_nat d + 5) 0 (-1) (ptab true false s (d + 2))).
  { replace (d + 2) with (S (d + 1)) in * by lia. apply (tab_e s0 T _ _ _ s (d + 1) _ _ _ HE); [sm | lia | lia | lia | lia]. }
  assert (Hb : est s0 ((T ++ indent true (d + 2)) ++ txt t) (2 * Z.of_nat d + 3) 0 0 (one t (ptab true false s (d + 2)))).
  { refine (est_weaken _ _ _ _ _ _ _ _ _ (H1 t _ _ _ _ _ _ (or_introl eq_refl) _ _ Ha _) _ _ _); [lia | lia | sm | lia | lia | lia]. }
  destruct r as [|t2 r]; cbn [map comma] in *.
  - rewrite app_nil_r. apply (put_e s0 _ _ _ _ _ [10%N] nl _ _ _ Hb); [sm | reflexivity | num | num | num].
  - rewrite <- app_assoc. apply (put_e s0 _ _ _ _ _ [44; 10]%N _ _ _ _ Hb); [sm | reflexivity | num | num | num].
Qed.
Lemma block_e one txt (d : nat) l s0 T s :
  (forall t, In t l -> 2 <= List.length (txt t)) ->
  (forall t s0 T b c a s, In t l -> (2 <= b)%Z -> (0 <= c)%Z -> est s0 T b c a s -> small (List.length T + List.length (txt t)) -> est s0 (T ++ txt t) (b - 2) c (a + 1) (one t s)) ->
  est s0 T (2 * Z.of_nat d + 3) (2 * Z.of_nat d + 3) (-1) s -> small (List.length T + List.length (block_layout true d (map txt l))) ->
  est s0 (T ++ block_layout true d (map txt l)) (2 * Z.of_nat d + 3) (2 * Z.of_nat d + 3) (-1) (block true false one d l s).
Proof.
  intros H2 H1 HE Hs. unfold block, block_layout in *. rewrite !app_assoc.
  assert (Ha : est s0 ((T ++ [91%N]) ++ eol true) (2 * Z.of_nat d + 2) (2 * Z.of_nat d + 2) 0 (put s (str "[" ++ nl))).
  { rewrite <- app_assoc. apply (put_e s0 T _ _ _ s [91; 10]%N _ _ _ _ HE); [sm | reflexivity | num | num | num]. }
  assert (Hb := lines_e one txt d l H2 H1 s0 _ _ Ha). 
  assert (Hc : est s0 ((((T ++ [91%N]) ++ eol true) ++ lines_layout true d (map txt l)) ++ indent true (d + 1)) (2 * Z.of_nat d + 3) (2 * Z.of_nat d + 2) (-1)
     (ptab true false (lines true false one d l (put s (str "[" ++ nl))) (d + 1))).
  { replace (d + 1) with (S d) in * by lia. refine (tab_e s0 _ _ _ _ _ d _ _ _ (Hb _) _ _ _ _ _); [sm | sm | lia | lia | lia | lia]. }
  apply (put_e s0 _ _ _ _ _ [93%N] (str "]") _ _ _ Hc); [sm | reflexivity | num | num | num].
Qed.

Definition PE (v : rval) : Prop := forall (d : nat) n s0 T s, tree_ok v ->
  est s0 T (2 * Z.of_nat d + 3) (2 * Z.of_nat d + 3) (-1) s -> small (List.length T + List.length (value_layout fmt true d n v)) ->
  est s0 (T ++ value_layout fmt true d n v) (2 * Z.of_nat d + 3) (2 * Z.of_nat d + 3) (-1) (value fmt true false d n v s).
Definition QE (l : list rep) : Prop := forall (d : nat) s0 T s, reps_ok l ->
  est s0 T (2 * Z.of_nat d + 2) (2 * Z.of_nat d + 2) 0 s -> small (List.length T + List.length (attrs_layout true (value_layout fmt true d) d l)) ->
  est s0 (T ++ attrs_layout true (value_layout fmt true d) d l) (2 * Z.of_nat d + 2) (2 * Z.of_nat d + 2) 0 (attrs_with true false (value fmt true false d) d l s).
Lemma qe_nil : QE []. Proof. intros d s0 T s _ HE _. cbn. rewrite app_nil_r. exact HE. Qed.
Lemma qe_cons n v l : PE v -> QE l -> QE ((n, v) :: l).
Proof.
  intros HP HQ d s0 T s [Hv Hr] HE Hs. cbn [attrs_layout attrs_with] in *. fold (attrs_layout true (value_layout fmt true d) d) in *.
  fold (attrs_with true false (value fmt true false d) d). rewrite !app_assoc.
  apply HQ; [exact Hr | | sm].
  assert (Ha : est s0 (T ++ indent true (d + 1)) (2 * Z.of_nat d + 3) (2 * Z.of_nat d + 3) (-1) (ptab true false s (d + 1))).
  { replace (d + 1) with (S d) in * by lia. apply (tab_e s0 T _ _ _ s d _ _ _ HE); [sm | lia | lia | lia | lia]. }
  set (nm := match n with [] => [] | _ :: _ => quote n ++ str " : " end) in *.
  assert (Hb : est s0 ((T ++ indent true (d + 1)) ++ nm) (2 * Z.of_nat d + 3) (2 * Z.of_nat d + 3) (-1)
     match n with [] => ptab true false s (d + 1) | _ :: _ => put (ptab true false s (d + 1)) (quoted n ++ str " : ") end).
  { destruct n as [|ch n]; [unfold nm; rewrite app_nil_r; exact Ha|].
    apply (put_e s0 _ _ _ _ _ nm (quoted (ch :: n) ++ str " : ") _ _ _ Ha); [sm | reflexivity | lia | lia | lia]. }
  assert (Hc : est s0 (((T ++ indent true (d + 1)) ++ nm) ++ value_layout fmt true d n v) (2 * Z.of_nat d + 3) (2 * Z.of_nat d + 3) (-1)
     (value fmt true false d n v match n with [] => ptab true false s (d + 1) | _ :: _ => put (ptab true false s (d + 1)) (quoted n ++ str " : ") end)).
  { apply HP; [exact Hv | exact Hb | sm]. }
  destruct l as [|x l]; cbn [comma] in *.
  - rewrite app_nil_r. apply (put_e s0 _ _ _ _ _ [10%N] nl _ _ _ Hc); [sm | reflexivity | num | num | num].
  - rewrite app_nil_r in *.
    assert (He : est s0 ((((T ++ indent true (d + 1)) ++ nm) ++ value_layout fmt true d n v) ++ [44%N]) (2 * Z.of_nat d + 3) (2 * Z.of_nat d + 3) (-1)
       (put (value fmt true false d n v match n with [] => ptab true false s (d + 1) | _ :: _ => put (ptab true false s (d + 1)) (quoted n ++ str " : ") end) (str ","))).
    { apply (put_e s0 _ _ _ _ _ [44%N] (str ",") _ _ _ Hc); [sm | reflexivity | num | num | num]. }
    apply (put_e s0 _ _ _ _ _ [10%N] nl _ _ _ He); [sm | reflexivity | num | num | num].
Qed.
Lemma reps_call l (d : nat) : QE l -> reps_ok l -> small (List.length (attrs_layout true (value_layout fmt true d) d l)) ->
  forall s1, j_total s1 = 0%N -> est s1 (attrs_layout true (value_layout fmt true d) d l) (2 * Z.of_nat d + 2) (2 * Z.of_nat d + 2) 0 (attrs_with true false (value fmt true false d) d l s1).
Proof.
  intros HQ Hok Hs s1 Ht. apply (HQ d s1 [] s1); [exact Hok | | exact Hs].
  refine (est_weaken _ _ _ _ _ _ _ _ _ (est_fresh s1 Ht) _ _ _); lia.
Qed.
Lemma pe_obj l : QE l -> PE (RObj l).
Proof.
  intros HQ d n s0 T s Hok HE Hs. cbn [value_layout value] in *. fold (attrs_layout true (value_layout fmt true (d + 1)) (d + 1)) in *.
  rewrite !app_assoc.
  assert (Ha : est s0 ((T ++ [123%N]) ++ eol true) (2 * Z.of_nat d + 1) (2 * Z.of_nat d + 1) 0 (put s (str "{" ++ nl))).
  { rewrite <- app_assoc. apply (put_e s0 T _ _ _ s [123; 10]%N _ _ _ _ HE); [sm | reflexivity | num | num | num]. }
  set (U := attrs_layout true (value_layout fmt true (d + 1)) (d + 1) l) in *.
  assert (Hb : est s0 (((T ++ [123%N]) ++ eol true) ++ U) (2 * Z.of_nat d + 1) (2 * Z.of_nat d + 4) 0
     (call (put s (str "{" ++ nl)) (attrs_with true false (value fmt true false (d + 1)) (d + 1) l))).
  { refine (call_e s0 _ _ _ _ _ U (2 * Z.of_nat (d + 1) + 2) (2 * Z.of_nat (d + 1) + 2) _ _ _ _ Ha _ _ _ _ _); [sm | | lia | lia | lia].
    intros s1 _ _ _ Ht1. apply reps_call; [exact HQ | exact Hok | fold U; sm | exact Ht1]. }
  assert (Hc : est s0 ((((T ++ [123%N]) ++ eol true) ++ U) ++ indent true (d + 1)) (2 * Z.of_nat d + 3) 2 (-1)
     (ptab true false (call (put s (str "{" ++ nl)) (attrs_with true false (value fmt true false (d + 1)) (d + 1) l)) (d + 1))).
  { replace (indent true (d + 1)) with (indent true (S d)) in * by (f_equal; lia). replace (ptab true false (call _ _) (d + 1)) with (ptab true false (call (put s (str "{" ++ nl)) (attrs_with true false (value fmt true false (d + 1)) (d + 1) l)) (S d)) by (f_equal; lia).
    refine (tab_e s0 _ _ _ _ _ d _ _ _ Hb _ _ _ _ _); [sm | lia | lia | lia | lia]. }
  apply (put_e s0 _ _ _ _ _ [125%N] (str "}") _ _ _ Hc); [sm | reflexivity | num | num | num].
Qed.
Lemma objs_e (d : nat) os : os <> [] -> Forall QE os -> Forall reps_ok os -> forall s0 T s,
  est s0 T (2 * Z.of_nat d + 2) (2 * Z.of_nat d + 2) 0 s -> small (List.length T + List.length (objs_layout fmt true d os)) ->
  est s0 (T ++ objs_layout fmt true d os) (2 * Z.of_nat d + 3) (2 * Z.of_nat d + 6) 0 (objs fmt true false d os s).
Proof.
  intros Hne HQ. induction HQ as [|o r Ho _ IH]; intros Hok s0 T s HE Hs; [exfalso; apply Hne; reflexivity|].
  inversion Hok as [|? ? Hoo Hr]; subst. rewrite objs_cons. rewrite objs_layout_cons in *. rewrite !app_assoc.
  assert (Ha : est s0 (T ++ indent true (d + 2)) (2 * Z.of_nat d + 5) 0 (-1) (ptab true false s (d + 2))).
  { replace (d + 2) with (S (d + 1)) in * by lia. apply (tab_e s0 T _ _ _ s (d + 1) _ _ _ HE); [sm | lia | lia | lia | lia]. }
  assert (Hb : est s0 (((T ++ indent true (d + 2)) ++ [123%N]) ++ eol true) (2 * Z.of_nat d + 3) 0 0 (put (ptab true false s (d + 2)) (str "{" ++ nl))).
  { rewrite <- app_assoc. apply (put_e s0 _ _ _ _ _ [123; 10]%N _ _ _ _ Ha); [sm | reflexivity | num | num | num]. }
  set (U := attrs_layout true (value_layout fmt true (d + 2)) (d + 2) o) in *.
  assert (Hc : est s0 ((((T ++ indent true (d + 2)) ++ [123%N]) ++ eol true) ++ U) (2 * Z.of_nat d + 3) (2 * Z.of_nat d + 6) 0
     (call (put (ptab true false s (d + 2)) (str "{" ++ nl)) (attrs_with true false (value fmt true false (d + 2)) (d + 2) o))).
  { refine (call_e s0 _ _ _ _ _ U (2 * Z.of_nat (d + 2) + 2) (2 * Z.of_nat (d + 2) + 2) _ _ _ _ Hb _ _ _ _ _); [sm | | lia | lia | lia].
    intros s1 _ _ _ Ht1. apply reps_call; [exact Ho | exact Hoo | fold U; sm | exact Ht1]. }
  destruct r as [|o2 r].
  - cbn [between] in *. change (objs_layout fmt true d []) with (@nil N). rewrite !app_nil_r. exact Hc.
  - apply IH; [discriminate | exact Hr | | sm]. unfold between in *. rewrite (app_assoc _ (indent true (d + 2))).
    set (s2 := call (put (ptab true false s (d + 2)) (str "{" ++ nl)) (attrs_with true false (value fmt true false (d + 2)) (d + 2) o)) in *.
    assert (He : est s0 (((((T ++ indent true (d + 2)) ++ [123%N]) ++ eol true) ++ U) ++ indent true (d + 2)) (2 * Z.of_nat d + 5) 2 (-1) (ptab true false s2 (d + 2))).
    { clearbody s2 U. replace (d + 2) with (S (d + 1)) in * by lia. refine (tab_e s0 _ _ _ _ _ (d + 1) _ _ _ Hc _ _ _ _ _); [sm | lia | lia | lia | lia]. }
    apply (put_e s0 _ _ _ _ _ ([125; 44]%N ++ eol true) _ _ _ _ He); [sm | reflexivity | num | num | num].
Qed.
Lemma pe_objs os : Forall QE os -> PE (RObjArr os).
Proof.
  intros HQ d n s0 T s Hok HE Hs. destruct (tree_ok_objs _ Hok) as [Hne Hos].
  change (value_layout fmt true d n (RObjArr os)) with ([91%N] ++ eol true ++ objs_layout fmt true d os ++ indent true (d + 2) ++ [125; 93]%N) in *.
  rewrite !app_assoc.
  assert (E : value fmt true false d n (RObjArr os) s = put (ptab true false (objs fmt true false d os (put (put s (str "[")) nl)) (d + 2)) (str "}]"))
    by (destruct os; [exfalso; apply Hne; reflexivity | reflexivity]).
  rewrite E.
  assert (Ha : est s0 (T ++ [91%N]) (2 * Z.of_nat d + 2) (2 * Z.of_nat d + 2) 0 (put s (str "["))).
  { apply (put_e s0 T _ _ _ s [91%N] (str "[") _ _ _ HE); [sm | reflexivity | num | num | num]. }
  assert (Hb : est s0 ((T ++ [91%N]) ++ eol true) (2 * Z.of_nat d + 2) (2 * Z.of_nat d + 2) 0 (put (put s (str "[")) nl)).
  { apply (put_e s0 _ _ _ _ _ [10%N] nl _ _ _ Ha); [sm | reflexivity | num | num | num]. }
  assert (Hc := objs_e d os Hne HQ Hos s0 _ _ Hb). set (s2 := objs fmt true false d os (put (put s (str "[")) nl)) in *. clearbody s2.
  assert (He : est s0 ((((T ++ [91%N]) ++ eol true) ++ objs_layout fmt true d os) ++ indent true (d + 2)) (2 * Z.of_nat d + 5) 2 (-1) (ptab true false s2 (d + 2))).
  { assert (Hc' := Hc ltac:(sm)). clear Hc. replace (indent true (d + 2)) with (indent true (S (d + 1))) in * by (f_equal; lia).
    replace (ptab true false s2 (d + 2)) with (ptab true false s2 (S (d + 1))) by (f_equal; lia).
    refine (tab_e s0 _ _ _ _ _ (d + 1) _ _ _ Hc' _ _ _ _ _); [sm | lia | lia | lia | lia]. }
  apply (put_e s0 _ _ _ _ _ [125; 93]%N (str "}]") _ _ _ He); [sm | reflexivity | num | num | num].
Qed.
Lemma pe_leaf v : (forall l, v <> RObj l) -> (forall l, v <> RObjArr l) -> PE v.
Proof.
  intros H1 H2 d n s0 T s Hok HE Hs.
  assert (Hput : forall t, small (List.length T + List.length t) -> est s0 (T ++ t) (2 * Z.of_nat d + 3) (2 * Z.of_nat d + 3) (-1) (put s t)).
  { intros t Ht. apply (put_e s0 T _ _ _ s t t _ _ _ HE); [exact Ht | reflexivity | lia | lia | lia]. }
  assert (Hit : forall l, small (List.length T + List.length ([91%N] ++ items_layout true l ++ [93%N])) ->
    est s0 (T ++ [91%N] ++ items_layout true l ++ [93%N]) (2 * Z.of_nat d + 3) (2 * Z.of_nat d + 3) (-1) (put (items true l (put s (str "["))) (str "]"))).
  { intros l Hl. rewrite !app_assoc. refine (put_e s0 _ (2 * Z.of_nat d + 3) (2 * Z.of_nat d + 3) (-1) _ [93%N] (str "]") _ _ _ _ _ _ _ _ _); [| clear Hs; sm | reflexivity | num | num | num].
    apply items_e; [lia | lia | | clear Hs; sm]. apply (Hput [91%N]). clear Hs. sm. }
  destruct v as [|z|x|b|b|t|l| |l|l|l|l|l|l]; try (exfalso; eapply H1; reflexivity); try (exfalso; eapply H2; reflexivity);
    cbn [value value_layout tree_ok] in *; rewrite ?found_readable in *.
  - apply Hput. exact Hs.
  - apply (Hput (int_dec z)). exact Hs.
  - apply Hput. exact Hs.
  - apply (Hput (if b then str "true" else str "false")). exact Hs.
  - destruct (readable n); [|rewrite app_nil_r; exact HE].
    refine (est_weaken _ _ _ _ _ _ _ _ _ (b64_e b s0 T _ _ _ s Hok HE Hs) _ _ _); lia.
  - apply (Hput (quote t)). exact Hs.
  - rewrite app_nil_r. exact HE.
  - apply Hit. exact Hs.
  - apply Hit. exact Hs.
  - apply Hit. exact Hs.
  - replace (if readable n then map (fun b => quote (b64_text b)) l else []) with (map (fun b => quote (b64_text b)) (if readable n then l else [])) in *
      by (destruct (readable n); reflexivity).
    apply block_e; [intros t _; rewrite quote_len; lia | | exact HE | exact Hs].
    intros t s0' T' b' c' a' s' Hin Hb Hc HE' Hs'.
    assert (Ht : bytes_ok t) by (destruct (readable n); [exact (proj1 (Forall_forall _ _) Hok t Hin) | destruct Hin]).
    refine (est_weaken _ _ _ _ _ _ _ _ _ (b64_e t s0' T' _ _ _ s' Ht HE' Hs') _ _ _); rewrite quote_len; lia.
  - replace (if readable n then map quote l else []) with (map quote (if readable n then l else [])) in * by (destruct (readable n); reflexivity).
    apply block_e; [intros t _; rewrite quote_len; lia | | exact HE | exact Hs].
    intros t s0' T' b' c' a' s' _ Hb Hc HE' Hs'.
    apply (put_e s0' T' _ _ _ s' (quote t) _ _ _ _ HE' Hs'); [reflexivity | rewrite quote_len; lia | rewrite quote_len; lia | rewrite quote_len; lia].
Qed.
Lemma reps_est l : QE l.
Proof. exact (reps_ind2 PE QE qe_nil qe_cons pe_obj pe_objs pe_leaf l). Qed.

Lemma top_e l o c s0 : j_total s0 = 0%N -> reps_ok l ->
  small (List.length ([o] ++ eol true ++ attrs_layout true (value_layout fmt true 0) 0 l ++ [c] ++ eol true)) ->
  est s0 ([o] ++ eol true ++ attrs_layout true (value_layout fmt true 0) 0 l ++ [c] ++ eol true) 0 0 0
   (put (put (call (put (put s0 [o]) nl) (format fmt true false 0 l)) [c]) nl).
Proof.
  intros Ht Hok Hs. rewrite !app_assoc. set (U := attrs_layout true (value_layout fmt true 0) 0 l) in *.
  assert (Ha : est s0 [o] 0 0 0 (put s0 [o])) by (apply (put_e s0 [] 0 0 0 s0 [o] [o]); [apply est_fresh; exact Ht | sm | reflexivity | num | num | num]).
  assert (Hb : est s0 ([o] ++ eol true) 0 0 0 (put (put s0 [o]) nl)) by (apply (put_e s0 [o] 0 0 0 _ [10%N] nl _ _ _ Ha); [sm | reflexivity | num | num | num]).
  assert (Hc : est s0 (([o] ++ eol true) ++ U) 0 2 0 (call (put (put s0 [o]) nl) (format fmt true false 0 l))).
  { refine (call_e s0 _ _ _ _ _ U 2 2 _ _ _ _ Hb _ _ _ _ _); [sm | | lia | lia | lia].
    intros s1 _ _ _ Ht1. apply (reps_call l 0 (reps_est l) Hok); [fold U; sm | exact Ht1]. }
  assert (Hd : est s0 ((([o] ++ eol true) ++ U) ++ [c]) 0 1 0 (put (call (put (put s0 [o]) nl) (format fmt true false 0 l)) [c])).
  { apply (put_e s0 _ _ _ _ _ [c] [c] _ _ _ Hc); [sm | reflexivity | num | num | num]. }
  apply (put_e s0 _ _ _ _ _ [10%N] nl _ _ _ Hd); [sm | reflexivity | num | num | num].
Qed.
Lemma to_json_est l s0 : j_total s0 = 0%N -> reps_ok l -> small (List.length (layout fmt true l)) ->
  est s0 (layout fmt true l) 0 0 0 (to_json_from fmt true false l s0).
Proof.
  intros Ht Hok Hs. unfold to_json_from, layout in *.
  destruct l as [|[[|c n] v] r]; [apply (top_e [] 123%N 125%N s0 Ht Hok Hs) | | apply (top_e ((c :: n, v) :: r) 123%N 125%N s0 Ht Hok Hs)].
  destruct v as [|z|x|b|b|t|l| |l|l|l|l|l|l]; try (apply (top_e _ 123%N 125%N s0 Ht Hok Hs)).
  destruct l as [|a l]; [|apply (top_e _ 91%N 93%N s0 Ht Hok Hs)].
  cbn [is_objects]. cbv zeta. rewrite !app_assoc.
  assert (Ha : est s0 [91%N] 0 0 0 (put s0 (str "["))) by (apply (put_e s0 [] 0 0 0 s0 [91%N] (str "[")); [apply est_fresh; exact Ht | sm | reflexivity | num | num | num]).
  assert (Hb : est s0 ([91%N] ++ eol true) 0 0 0 (put (put s0 (str "[")) nl)) by (apply (put_e s0 [91%N] 0 0 0 _ [10%N] nl _ _ _ Ha); [sm | reflexivity | num | num | num]).
  assert (Hd : est s0 (([91%N] ++ eol true) ++ [93%N]) 0 0 0 (put (put (put s0 (str "[")) nl) (str "]"))).
  { apply (put_e s0 _ _ _ _ _ [93%N] (str "]") _ _ _ Hb); [sm | reflexivity | num | num | num]. }
  apply (put_e s0 _ _ _ _ _ [10%N] nl _ _ _ Hd); [sm | reflexivity | num | num | num].
Qed.
End Pretty.
