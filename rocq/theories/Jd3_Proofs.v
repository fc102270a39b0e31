From Verif Require Import Common Ep_Model Jd_Model.
From Coq Require Import String.
Local Open Scope string_scope.
Local Open Scope list_scope.
Local Open Scope nat_scope.

(** ** The decoder neither runs out of the recursion bound nor traps *)

(** What a character does apart from the callback. *)
Inductive ctl : Type := CFail | CGo (m : mode) (dep : nat) (obj : bool) (acc : list N) | CEmit (t : tok) (k : option (mode * nat * bool * list N)).
Definition scan_ctl (c : N) (dep : nat) (obj : bool) (acc : list N) : ctl :=
  if ((c =? 123) || (c =? 91))%N then
    match dep with O => CGo Scan 1 (c =? 123)%N [] | S _ => CGo Scan (S dep) obj (c :: acc) end
  else if ((c =? 125) || (c =? 93))%N then
    match dep with
    | O => CFail
    | S O => if Bool.eqb obj (c =? 125)%N then CEmit (if obj then TObj (rev acc) else TArr (rev acc)) (Some (Scan, 0, obj, [])) else CFail
    | S k => CGo Scan k obj (c :: acc)
    end
  else if (c =? 34)%N then CGo Str dep obj (match dep with O => [] | _ => c :: acc end)
  else if ((c =? 9) || (c =? 13) || (c =? 10) || (c =? 32) || (c =? 58) || (c =? 44))%N then CGo Scan dep obj (c :: acc)
  else if ((c <? 32) || (127 <=? c))%N then CFail
  else CGo Prim dep obj (match dep with O => [c] | _ => c :: acc end).
Definition control (c : N) (m : mode) (dep : nat) (obj : bool) (acc : list N) : ctl :=
  match m with
  | Scan => scan_ctl c dep obj acc
  | Prim =>
    if is_delim c then
      match dep with
      | O => CEmit (TPrim (rev acc)) (match scan_ctl c 0 obj [] with CGo m dep obj acc => Some (m, dep, obj, acc) | _ => None end)
      | S _ => scan_ctl c dep obj acc
      end
    else if ((c <? 32) || (127 <=? c))%N then CFail else CGo Prim dep obj (c :: acc)
  | Str =>
    if (c =? 0)%N then CFail
    else if (c =? 34)%N then match dep with O => CEmit (TStr (rev acc)) (Some (Scan, 0, obj, [])) | S _ => CGo Scan dep obj (c :: acc) end
    else if (c =? 92)%N then CGo Esc dep obj (c :: acc)
    else CGo Str dep obj (c :: acc)
  | Esc =>
    if ((c =? 34) || (c =? 47) || (c =? 92) || (c =? 98) || (c =? 102) || (c =? 114) || (c =? 110) || (c =? 116))%N then CGo Str dep obj (c :: acc)
    else if (c =? 117)%N then CGo (Hex 4) dep obj (c :: acc)
    else CFail
  | Hex k => if is_xdigit c then CGo (match k with S (S k') => Hex (S k') | _ => Str end) dep obj (c :: acc) else CFail
  end.
Definition apply_ctl {D} (cb : tok -> D -> cbres * D) (x : ctl) (d : D) (n : nat) : @next D :=
  match x with
  | CFail => Stop RFail d
  | CGo m dep obj acc => Go (mkSt m dep obj acc d n)
  | CEmit t k => emit cb t d n (fun d' n' => match k with Some (m, dep, obj, acc) => Go (mkSt m dep obj acc d' n') | None => Stop RFail d' end)
  end.
Lemma scan_char_ctl {D} (cb : tok -> D -> cbres * D) c dep obj acc d n : scan_char cb c dep obj acc d n = apply_ctl cb (scan_ctl c dep obj acc) d n.
Proof.
  unfold scan_char, scan_ctl.
  destruct ((c =? 123) || (c =? 91))%N; [destruct dep; reflexivity|].
  destruct ((c =? 125) || (c =? 93))%N; [destruct dep as [|[|k]]; try reflexivity; destruct (Bool.eqb obj (c =? 125)%N); reflexivity|].
  destruct (c =? 34)%N; [reflexivity|]. destruct ((c =? 9) || (c =? 13) || (c =? 10) || (c =? 32) || (c =? 58) || (c =? 44))%N; [reflexivity|].
  destruct ((c <? 32) || (127 <=? c))%N; reflexivity.
Qed.
Lemma step_ctl {D} (cb : tok -> D -> cbres * D) c m dep obj acc d n : step cb c (mkSt m dep obj acc d n) = apply_ctl cb (control c m dep obj acc) d n.
Proof.
  destruct m; cbn [step control].
  - apply scan_char_ctl.
  - destruct (c =? 0)%N; [reflexivity|]. destruct (c =? 34)%N; [destruct dep; reflexivity|]. destruct (c =? 92)%N; reflexivity.
  - destruct ((c =? 34) || (c =? 47) || (c =? 92) || (c =? 98) || (c =? 102) || (c =? 114) || (c =? 110) || (c =? 116))%N; [reflexivity|]. destruct (c =? 117)%N; reflexivity.
  - destruct (is_xdigit c); reflexivity.
  - destruct (is_delim c) eqn:E; [|destruct ((c <? 32) || (127 <=? c))%N; reflexivity].
    destruct dep as [|k]; [|apply scan_char_ctl]. cbn [apply_ctl]. unfold emit. destruct (cb (TPrim (rev acc)) d) as [[] d']; try reflexivity.
    rewrite scan_char_ctl. unfold is_delim in E.
    repeat (apply orb_true_iff in E; destruct E as [E|E]); apply N.eqb_eq in E; subst c; reflexivity.
Qed.

(** The need of a token for recursion. *)
Definition tlen (t : tok) : nat := match t with TObj s | TArr s => List.length s | _ => 0 end.
Definition bounded (B : nat) (js : list N) (m : mode) (dep : nat) (acc : list N) : Prop :=
  List.length js <= B /\ (0 < dep -> List.length acc + List.length js < B) /\ (m <> Scan -> 0 < B).
Lemma control_bounded B c js m dep obj acc : bounded B (c :: js) m dep acc ->
  match control c m dep obj acc with
  | CFail => True
  | CGo m' dep' _ acc' => bounded B js m' dep' acc'
  | CEmit t k => tlen t < B /\ match k with Some (m', dep', _, acc') => bounded B js m' dep' acc' | None => True end
  end.
Proof.
  unfold bounded. cbn [List.length]. intros (H1 & H2 & H3).
  assert (SC : forall a, (0 < dep -> a = acc) -> match scan_ctl c dep obj a with
    | CFail => True
    | CGo m' dep' _ acc' => List.length js <= B /\ (0 < dep' -> List.length acc' + List.length js < B) /\ (m' <> Scan -> 0 < B)
    | CEmit t k => tlen t < B /\ match k with Some (m', dep', _, acc') => List.length js <= B /\ (0 < dep' -> List.length acc' + List.length js < B) /\ (m' <> Scan -> 0 < B) | None => True end
    end).
  { intros a Ha. unfold scan_ctl.
    destruct ((c =? 123) || (c =? 91))%N; [destruct dep; [cbn [List.length]|rewrite Ha by lia; cbn [List.length]]; (repeat split; intros; try lia; try congruence)|].
    destruct ((c =? 125) || (c =? 93))%N.
    { destruct dep as [|[|k]]; [exact I| |rewrite Ha by lia; cbn [List.length]; repeat split; intros; try lia; congruence].
      destruct (Bool.eqb obj (c =? 125)%N); [|exact I]. rewrite Ha by lia. specialize (H2 ltac:(lia)).
      split; [destruct obj; cbn [tlen]; rewrite rev_length; lia|]. repeat split; intros; try lia; congruence. }
    destruct (c =? 34)%N; [destruct dep; [cbn [List.length]|rewrite Ha by lia; cbn [List.length]]; repeat split; intros; lia|].
    destruct ((c =? 9) || (c =? 13) || (c =? 10) || (c =? 32) || (c =? 58) || (c =? 44))%N; [repeat split; intros; try lia; try congruence; rewrite Ha by lia; cbn [List.length]; lia|].
    destruct ((c <? 32) || (127 <=? c))%N; [exact I|]. destruct dep; [cbn [List.length]|rewrite Ha by lia; cbn [List.length]]; repeat split; intros; lia. }
  destruct m; cbn [control].
  - apply SC. reflexivity.
  - destruct (c =? 0)%N; [exact I|]. destruct (c =? 34)%N; [destruct dep; [split; [cbn [tlen]; lia|]|]|destruct (c =? 92)%N]; cbn [List.length]; repeat split; intros; try lia; congruence.
  - destruct ((c =? 34) || (c =? 47) || (c =? 92) || (c =? 98) || (c =? 102) || (c =? 114) || (c =? 110) || (c =? 116))%N; [|destruct (c =? 117)%N; [|exact I]]; cbn [List.length]; repeat split; intros; lia.
  - destruct (is_xdigit c); [|exact I]. cbn [List.length]; repeat split; intros; lia.
  - destruct (is_delim c) eqn:E; [|destruct ((c <? 32) || (127 <=? c))%N; [exact I|]; cbn [List.length]; repeat split; intros; lia].
    destruct dep as [|k]; [|apply SC; reflexivity]. split; [cbn [tlen]; lia|]. specialize (SC [] ltac:(intros; lia)).
    destruct (scan_ctl c 0 obj []); try exact I. exact SC.
Qed.

Definition fine (r : cbres) : Prop := r = CbTrue \/ r = CbFalse.
Definition well (s : status) : Prop := (exists n, s = ROk n) \/ s = RFail.

Lemma jsmn_well {D} (cb : tok -> D -> cbres * D) B : (forall t d, tlen t < B -> fine (fst (cb t d))) ->
  forall js m dep obj acc d n, bounded B js m dep acc -> well (fst (jsmn_from cb js (mkSt m dep obj acc d n))).
Proof.
  intros Hcb. induction js as [|c js IH]; intros m dep obj acc d n Hb.
  - cbn [jsmn_from]. unfold finish. cbn [s_dep s_mode s_acc s_data s_cnt]. destruct dep; [|right; reflexivity].
    destruct m; try (right; reflexivity); [left; exists n; reflexivity|]. unfold emit.
    assert (F := Hcb (TPrim (rev acc)) d ltac:(destruct Hb as (_ & _ & H); apply H; discriminate)).
    destruct (cb (TPrim (rev acc)) d) as [r d']. cbn [fst] in F. destruct F as [->| ->]; [left; exists (S n); reflexivity | right; reflexivity].
  - assert (Hc := control_bounded B c js m dep obj acc Hb).
    assert (ST : well (fst (match step cb c (mkSt m dep obj acc d n) with Go s' => jsmn_from cb js s' | Stop x d' => (x, d') end))).
    { rewrite step_ctl. destruct (control c m dep obj acc) as [|m' dep' obj' acc'|t k]; cbn [apply_ctl].
      - right. reflexivity.
      - apply IH, Hc.
      - destruct Hc as [Ht Hk]. specialize (Hcb t d Ht). unfold emit. destruct (cb t d) as [r d']. cbn [fst] in Hcb. destruct Hcb as [->| ->]; [|right; reflexivity].
        destruct k as [[[[m' dep'] obj'] acc']|]; [apply IH, Hk | right; reflexivity]. }
    cbn [jsmn_from s_mode]. destruct m; try exact ST. destruct (c =? 0)%N; [|exact ST].
    unfold finish. cbn [s_dep s_mode s_data s_cnt]. destruct dep; [left; exists n; reflexivity | right; reflexivity].
Qed.

(** *** Two passes over the same text *)
Definition le_scan (a b : aty * nat) : Prop := snd a <= snd b /\ (fst a <> ANone -> fst b = fst a).
Lemma le_scan_refl a : le_scan a a. Proof. split; [lia | reflexivity]. Qed.
Lemma le_scan_trans a b c : le_scan a b -> le_scan b c -> le_scan a c.
Proof. intros [H1 H2] [H3 H4]. split; [lia|]. intros H. rewrite H4; [apply H2, H | rewrite H2 by exact H; exact H]. Qed.
Lemma scan_type_le t d d' : scan_type t d = (CbTrue, d') -> le_scan d d' /\ type_of t = fst d' /\ fst d' <> ANone /\ snd d' = S (snd d).
Proof.
  unfold scan_type. destruct d as [y k]. cbn [fst snd]. intros H.
  destruct (type_of t) eqn:E; try discriminate; destruct y; cbn [aty_eqb] in H; try discriminate; injection H as <-; unfold le_scan; cbn [fst snd]; intuition (try lia; try congruence).
Qed.
Lemma scan_le js : forall s n e, jsmn_from scan_type js s = (ROk n, e) -> le_scan (s_data s) e.
Proof.
  induction js as [|c js IH]; intros s n e H.
  - cbn [jsmn_from] in H. unfold finish in H. destruct (s_dep s); [|discriminate]. destruct (s_mode s); try discriminate; [injection H as _ <-; apply le_scan_refl|].
    unfold emit in H. destruct (scan_type (TPrim (rev (s_acc s))) (s_data s)) as [[] d'] eqn:E; try discriminate. cbn [s_cnt s_data] in H. injection H as _ <-. apply (scan_type_le _ _ _ E).
  - assert (ST : (match step scan_type c s with Go s' => jsmn_from scan_type js s' | Stop x d' => (x, d') end) = (ROk n, e) -> le_scan (s_data s) e).
    { destruct s as [m dep obj acc d k]. rewrite step_ctl. cbn [s_data]. destruct (control c m dep obj acc) as [|m' dep' obj' acc'|t x]; cbn [apply_ctl]; intros X.
      - discriminate.
      - exact (IH _ _ _ X).
      - unfold emit in X. destruct (scan_type t d) as [[] d'] eqn:E; try discriminate. destruct x as [[[[m' dep'] obj'] acc']|]; [|discriminate].
        eapply le_scan_trans; [apply (scan_type_le _ _ _ E) | exact (IH _ _ _ X)]. }
    cbn [jsmn_from] in H. destruct (s_mode s) eqn:M; try exact (ST H). destruct (c =? 0)%N; [|exact (ST H)].
    unfold finish in H. rewrite M in H. destruct (s_dep s); [|discriminate]. injection H as _ <-. apply le_scan_refl.
Qed.

(** If the first pass found items of one type, the callback of the second pass sees only tokens of that type,
    and at most as many. *)
Lemma two_pass {D} (cb : tok -> D -> cbres * D) B Y size (I : nat -> D -> Prop) :
  (forall t k d, type_of t = Y -> tlen t < B -> k < size -> I k d -> (fst (cb t d) = CbTrue /\ I (S k) (snd (cb t d))) \/ fst (cb t d) = CbFalse) ->
  forall js m dep obj acc e d n n', bounded B js m dep acc -> I (snd e) d ->
  jsmn_from scan_type js (mkSt m dep obj acc e n) = (ROk n', (Y, size)) ->
  well (fst (jsmn_from cb js (mkSt m dep obj acc d n))).
Proof.
  intros Hcb. induction js as [|c js IH]; intros m dep obj acc e d n n' Hb HI H.
  - cbn [jsmn_from] in *. unfold finish in *. cbn [s_dep s_mode s_acc s_data s_cnt] in *. destruct dep; [|right; reflexivity].
    destruct m; try (right; reflexivity); [left; exists n; reflexivity|]. unfold emit in *.
    destruct (scan_type (TPrim (rev acc)) e) as [[] e'] eqn:E; try discriminate. cbn [s_cnt s_data] in H. injection H as _ ->.
    destruct (scan_type_le _ _ _ E) as (_ & Ht & _ & Hs). cbn [fst snd] in *.
    destruct (Hcb (TPrim (rev acc)) (snd e) d Ht ltac:(destruct Hb as (_ & _ & X); apply X; discriminate) ltac:(lia) HI) as [[F _]|F];
      destruct (cb (TPrim (rev acc)) d) as [r d']; cbn [fst] in F; subst r; [left; exists (S n); reflexivity | right; reflexivity].
  - assert (Hc := control_bounded B c js m dep obj acc Hb).
    assert (ST : (match step scan_type c (mkSt m dep obj acc e n) with Go s' => jsmn_from scan_type js s' | Stop x d' => (x, d') end) = (ROk n', (Y, size)) ->
      well (fst (match step cb c (mkSt m dep obj acc d n) with Go s' => jsmn_from cb js s' | Stop x d' => (x, d') end))).
    { rewrite !step_ctl. destruct (control c m dep obj acc) as [|m' dep' obj' acc'|t k]; cbn [apply_ctl]; intros X.
      - right. reflexivity.
      - exact (IH _ _ _ _ _ _ _ _ Hc HI X).
      - destruct Hc as [Ht Hk]. unfold emit in *. destruct (scan_type t e) as [[] e'] eqn:E; try discriminate.
        destruct k as [[[[m' dep'] obj'] acc']|]; [|discriminate].
        destruct (scan_type_le _ _ _ E) as (_ & Hty & Hne & Hs). assert (L := scan_le _ _ _ _ X). cbn [s_data] in L. destruct L as [L1 L2]. cbn [fst snd] in L1, L2.
        rewrite <- (L2 Hne) in Hty.
        destruct (Hcb t (snd e) d Hty Ht ltac:(lia) HI) as [[F HI']|F]; destruct (cb t d) as [r d']; cbn [fst snd] in *; subst r; [|right; reflexivity].
        rewrite <- Hs in HI'. exact (IH _ _ _ _ _ _ _ _ Hk HI' X). }
    cbn [jsmn_from s_mode] in *. destruct m; try exact (ST H). destruct (c =? 0)%N; [|exact (ST H)].
    unfold finish. cbn [s_dep s_mode s_data s_cnt]. destruct dep; [left; exists n; reflexivity | right; reflexivity].
Qed.

Lemma bounded0 js : bounded (List.length js) js Scan 0 [].
Proof. unfold bounded. repeat split; intros; try lia; congruence. Qed.
Lemma scan_type_fine t d : fine (fst (scan_type t d)).
Proof. unfold scan_type, fine. destruct (type_of t); cbn [fst]; try (right; reflexivity); destruct (aty_eqb _ _); cbn [fst]; auto. Qed.
Lemma set_rep_fine v root d : fine (fst (set_rep v root d)).
Proof. unfold set_rep, fine. destruct (r_cur d); [|left; reflexivity]. destruct (r_rev d) as [|[[n|] x] r]; cbn [fst]; auto. Qed.
Lemma values_fine {A} (conv : tok -> cbres * option A) mk s size d n Y :
  (forall t, type_of t = Y -> exists a, conv t = (CbTrue, Some a)) ->
  jsmn scan_type s (ANone, 0) = (ROk n, (Y, size)) -> fine (fst (parse_values conv mk s size d)).
Proof.
  intros Hc H. unfold parse_values. assert (F := set_rep_fine (mk []) false d). destruct (set_rep (mk []) false d) as [r d'] eqn:E. cbn [fst] in F.
  destruct F as [->| ->]; [|right; reflexivity].
  assert (W : well (fst (jsmn (assign size conv) s []))).
  { unfold jsmn in *. refine (two_pass (assign size conv) (List.length s) Y size (fun k l => List.length l = k) _ _ _ _ _ _ (ANone, 0) [] _ _ (bounded0 s) eq_refl H).
    intros t k l Ht _ Hk Hl. destruct (Hc t Ht) as (a & Ha). left. unfold assign. rewrite Ha.
    destruct (Nat.ltb_spec (List.length l) size); [|lia]. cbn [fst snd List.length]. auto. }
  destruct (jsmn (assign size conv) s []) as [x l]. cbn [fst] in W. destruct W as [[k ->]| ->]; [apply set_rep_fine | right; reflexivity].
Qed.

Lemma parse_token_fine f : forall t d, tlen t < f -> fine (fst (parse_token f t d)).
Proof.
  induction f as [|f IH]; intros t d Ht; [lia|].
  assert (OBJ : forall s d, List.length s <= f -> fine (fst (parse_object (parse_token f) s d))).
  { intros s x Hs. unfold parse_object.
    assert (W : well (fst (jsmn (parse_token f) s rd0))).
    { unfold jsmn. apply (jsmn_well (parse_token f) (List.length s)); [|apply bounded0]. intros t0 d0 H0. apply IH. lia. }
    destruct (jsmn (parse_token f) s rd0) as [r o]. cbn [fst] in W. destruct W as [[k ->]| ->]; [|right; reflexivity].
    destruct (rev (r_rev o)) as [|[[nm|] []] l]; try (right; reflexivity); apply set_rep_fine. }
  destruct t as [s|s|s|s]; cbn [parse_token tlen] in *.
  - unfold parse_prim, fine. destruct (r_cur d); [|right; reflexivity]. destruct (r_rev d) as [|[nm v] r]; [right; reflexivity|].
    destruct (as_null s); [left; reflexivity|]. destruct (as_bool s); [left; reflexivity|]. destruct (as_int s); [left | right]; reflexivity.
  - unfold parse_string, fine. destruct (r_cur d); [|left; reflexivity]. destruct (r_rev d) as [|[[nm|] v] r]; cbn [fst]; auto.
  - apply OBJ. lia.
  - unfold parse_array. destruct (jsmn scan_type s (ANone, 0)) as [r [y size]] eqn:E.
    assert (W : well (fst (jsmn scan_type s (ANone, 0)))) by (apply (jsmn_well scan_type (List.length s)); [intros; apply scan_type_fine | apply bounded0]).
    rewrite E in W. cbn [fst] in W. destruct W as [[k ->]| ->]; [|right; reflexivity].
    destruct y; try apply set_rep_fine.
    + apply (values_fine conv_bool JBools s size d k ABool); [|exact E]. intros [x|x|x|x]; cbn [type_of conv_bool]; try discriminate.
      destruct (as_null x); [discriminate|]. destruct (as_bool x) as [b|]; [exists b; reflexivity|]. destruct (as_int x); discriminate.
    + apply (values_fine conv_int JInts s size d k AInt); [|exact E]. intros [x|x|x|x]; cbn [type_of conv_int]; try discriminate.
      destruct (as_null x); [discriminate|]. destruct (as_bool x) as [b|]; [discriminate|]. destruct (as_int x) as [z|]; [exists z; reflexivity | discriminate].
    + apply (values_fine conv_str JStrs s size d k AStr); [|exact E]. intros [x|x|x|x]; cbn [type_of conv_str]; try discriminate; [|eexists; reflexivity].
      destruct (as_null x); [discriminate|]. destruct (as_bool x) as [b|]; [discriminate|]. destruct (as_int x) as [z|]; discriminate.
    + unfold parse_objects.
      assert (W : well (fst (jsmn (fun t o => match t with TObj x => parse_object (parse_token f) x o | _ => (CbTrap, o) end) s rd0))).
      { unfold jsmn in *. refine (two_pass _ (List.length s) AObj size (fun _ _ => True) _ _ _ _ _ _ (ANone, 0) rd0 _ _ (bounded0 s) I E).
        intros [x|x|x|x] j o Hty Hl _ _; cbn [type_of tlen] in *; try discriminate.
        - destruct (as_null x); [discriminate|]. destruct (as_bool x) as [b|]; [discriminate|]. destruct (as_int x) as [z|]; discriminate.
        - assert (F := OBJ x o ltac:(lia)). destruct F as [F|F]; rewrite F; auto. }
      destruct (jsmn _ s rd0) as [r o]. cbn [fst] in W. destruct W as [[[|j] ->]| ->]; try (left; reflexivity). apply set_rep_fine.
    + right. reflexivity.
Qed.
Lemma parse_json_safe js : parse_json js <> PTrap /\ parse_json js <> PFuel.
Proof.
  unfold parse_json.
  assert (W : well (fst (jsmn (parse_token (S (List.length js))) js rd0))).
  { unfold jsmn. apply (jsmn_well _ (List.length js)); [|apply bounded0]. intros t d H. apply parse_token_fine. lia. }
  destruct (jsmn (parse_token (S (List.length js))) js rd0) as [r d]. cbn [fst] in W. destruct W as [[[|k] ->]| ->]; try (split; discriminate).
  destruct (r_empty d); [split; discriminate|]. destruct (rev (r_rev d)) as [|[[nm|] []] []]; split; discriminate.
Qed.
