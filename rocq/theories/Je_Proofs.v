(** The encoder writes the text of the calls, whatever the growth of the buffer. *)
From Verif Require Import Common Ep_Model Rep_Model Jd_Model Je_Model Jp_Spec Jd_Spec Je_Spec.
From Coq Require Import String.
Local Open Scope string_scope.
Local Open Scope list_scope.
Local Open Scope nat_scope.

Lemma append_fits d e T J : e_pos e = Some (List.length T) -> List.length d <= List.length J ->
  exists J', put d e (T ++ J) = mkR ENone (mkE (Some (List.length (T ++ d))) (e_need e) (e_fl e)) ((T ++ d) ++ J') false /\
    List.length ((T ++ d) ++ J') = List.length (T ++ J).
Proof.
  intros Hp Hf. exists (skipn (List.length d) J). unfold put. rewrite Hp.
  destruct (Nat.ltb_spec (List.length (T ++ J)) (List.length T + List.length d)) as [H|H]; [rewrite app_length in H; lia|].
  unfold poke. destruct (Nat.leb_spec (List.length T + List.length d) (List.length (T ++ J))) as [H1|H1]; [|lia].
  rewrite firstn_app, firstn_all, Nat.sub_diag, firstn_O, app_nil_r.
  rewrite skipn_app, skipn_all2 by lia. rewrite app_nil_l.
  replace (List.length T + List.length d - List.length T) with (List.length d) by lia.
  split; [rewrite <- !app_assoc, (app_length T d); reflexivity|]. rewrite <- !app_assoc, !app_length, skipn_length. lia.
Qed.
Lemma append_over d e T J : e_pos e = Some (List.length T) -> List.length J < List.length d ->
  put d e (T ++ J) = mkR EOom (mkE None (List.length T + List.length d - List.length (T ++ J)) (e_fl e)) (T ++ J) false.
Proof.
  intros Hp Hf. unfold put. rewrite Hp.
  destruct (Nat.ltb_spec (List.length (T ++ J)) (List.length T + List.length d)) as [H|H]; [reflexivity|rewrite app_length in H; lia].
Qed.

Lemma alsos_over l : forall n f mem,
  alsos (mkR EOom (mkE None n f) mem false) l = mkR EOom (mkE None (n + List.length (List.concat l)) f) mem false.
Proof.
  induction l as [|d l IH]; intros n f mem; cbn [alsos List.concat].
  - cbn [List.length]. rewrite Nat.add_0_r. reflexivity.
  - unfold also, put. cbn [x_enc x_mem x_err x_bad e_pos e_need e_fl orb]. rewrite IH, app_length, Nat.add_assoc. reflexivity.
Qed.
Lemma alsos_fits l : forall e T J, e_pos e = Some (List.length T) -> List.length (List.concat l) <= List.length J ->
  exists J', alsos (mkR ENone e (T ++ J) false) l
    = mkR ENone (mkE (Some (List.length (T ++ List.concat l))) (e_need e) (e_fl e)) ((T ++ List.concat l) ++ J') false /\
    List.length ((T ++ List.concat l) ++ J') = List.length (T ++ J).
Proof.
  induction l as [|d l IH]; intros e T J Hp Hf; cbn [alsos List.concat] in *.
  - exists J. rewrite !app_nil_r. split; [|reflexivity]. destruct e as [p n f]. cbn [e_pos] in Hp. subst p. reflexivity.
  - rewrite app_length in Hf. destruct (append_fits d e T J Hp) as (J1 & E1 & L1); [lia|].
    unfold also. cbn [x_enc x_mem x_err x_bad]. rewrite E1. cbn [x_enc x_mem x_err x_bad orb].
    destruct (IH (mkE (Some (List.length (T ++ d))) (e_need e) (e_fl e)) (T ++ d) J1 eq_refl) as (J2 & E2 & L2).
    { rewrite !app_length in L1. lia. }
    exists J2. cbn [e_need e_fl] in E2. rewrite <- !app_assoc in *. rewrite E2. split; [reflexivity|]. rewrite L2. exact L1.
Qed.
Lemma alsos_short l : forall e T J, e_pos e = Some (List.length T) -> List.length J < List.length (List.concat l) ->
  exists J', alsos (mkR ENone e (T ++ J) false) l
    = mkR EOom (mkE None (List.length T + List.length (List.concat l) - List.length (T ++ J)) (e_fl e)) (T ++ J') false /\
    List.length (T ++ J') = List.length (T ++ J).
Proof.
  induction l as [|d l IH]; intros e T J Hp Hf; cbn [alsos List.concat] in *.
  - cbn [List.length] in Hf. lia.
  - rewrite app_length in Hf. unfold also. cbn [x_enc x_mem x_err x_bad].
    destruct (Nat.leb_spec (List.length d) (List.length J)) as [H|H].
    + destruct (append_fits d e T J Hp H) as (J1 & E1 & L1). rewrite E1. cbn [x_enc x_mem x_err x_bad orb].
      destruct (IH (mkE (Some (List.length (T ++ d))) (e_need e) (e_fl e)) (T ++ d) J1 eq_refl) as (J2 & E2 & L2).
      { rewrite !app_length in L1. lia. }
      exists (d ++ J2). cbn [e_fl] in E2. rewrite E2. rewrite <- !app_assoc in *. split; [|rewrite L2; exact L1].
      f_equal. f_equal. rewrite L1, !app_length. lia.
    + exists J. rewrite append_over by assumption. cbn [x_enc x_mem x_err x_bad orb]. rewrite alsos_over. split; [|reflexivity].
      f_equal. f_equal. rewrite !app_length. lia.
Qed.

(** An attempt to write [u] at the end of [T] that leaves the flags [f'] behind. *)
Definition writes (att : enc -> list N -> res) (e : enc) (T u : list N) (f' : flags) : Prop := forall J,
  (List.length u <= List.length J -> exists n J', att e (T ++ J) = mkR ENone (mkE (Some (List.length (T ++ u))) n f') ((T ++ u) ++ J') false /\
      List.length ((T ++ u) ++ J') = List.length (T ++ J)) /\
  (List.length J < List.length u -> exists f J', att e (T ++ J) = mkR EOom (mkE None (List.length T + List.length u - List.length (T ++ J)) f) (T ++ J') false /\
      List.length (T ++ J') = List.length (T ++ J)).

Lemma retry_writes att e T u f' b J : writes att e T u f' -> b_mem b = T ++ J -> b_size b <= capacity b ->
  (List.length (T ++ u) <= capacity b ->
    exists n J' b', retry att e b = (ENone, mkE (Some (List.length (T ++ u))) n f', b', false) /\
      b_mem b' = (T ++ u) ++ J' /\ b_max b' = b_max b /\ b_realloc b' = b_realloc b /\ b_size b <= b_size b' /\ b_size b' <= capacity b') /\
  (capacity b < List.length (T ++ u) -> exists e' b', retry att e b = (EOom, e', b', false)).
Proof.
  intros HW HM HS. unfold retry. rewrite HM. unfold capacity, b_size in *. rewrite HM in *.
  destruct (HW J) as [HF HO]. destruct (Nat.leb_spec (List.length u) (List.length J)) as [H|H].
  - destruct (HF H) as (n & J' & E & L). rewrite E. cbn [x_err x_enc x_mem x_bad]. split.
    + intros HC. exists n, J', (mkB ((T ++ u) ++ J') (b_max b) (b_realloc b)). cbn [b_mem b_max b_realloc].
      rewrite L. repeat (split; [reflexivity|]). destruct (b_realloc b); lia.
    + intros HC. exfalso. rewrite !app_length in *. destruct (b_realloc b); lia.
  - destruct (HO H) as (f & J' & E & L). rewrite E. cbn [x_err x_enc x_mem x_bad]. unfold grow, extra, b_size. cbn [b_mem b_max b_realloc e_pos e_need].
    rewrite L. destruct (b_realloc b) eqn:ER; cbn [negb].
    + destruct (Nat.ltb_spec (b_max b) (List.length (T ++ J) + (List.length T + List.length u - List.length (T ++ J)))) as [HX|HX].
      * split; [intros HC; exfalso; rewrite !app_length in *; lia|]. intros _. eexists _, _. reflexivity.
      * set (more := if (2 * _ <? _) then _ else _).
        assert (Hm : List.length u - List.length J <= more /\ List.length (T ++ J) + more <= b_max b).
        { unfold more. rewrite !app_length in *. destruct (Nat.ltb_spec (2 * (List.length T + List.length J + (List.length T + List.length u - (List.length T + List.length J)))) (b_max b / 4)) as [H2|H2]; [|lia].
          pose proof (Nat.mul_div_le (b_max b) 4). lia. }
        cbn [b_mem b_max b_realloc]. rewrite <- (app_assoc T J'). destruct (HW (J' ++ repeat 0%N more)) as [HF2 _].
        destruct HF2 as (n & J2 & E2 & L2). { rewrite !app_length in *. rewrite repeat_length. lia. }
        rewrite E2. cbn [x_err x_enc x_mem x_bad orb]. split.
        -- intros _. exists n, J2, (mkB ((T ++ u) ++ J2) (b_max b) true). cbn [b_mem b_max b_realloc]. repeat (split; [reflexivity|]).
           rewrite L2. rewrite !app_length in *. rewrite repeat_length. lia.
        -- intros HC. exfalso. rewrite !app_length in *. lia.
    + split; [intros HC; exfalso; rewrite !app_length in *; lia|]. intros _. eexists _, _. reflexivity.
Qed.

(** Flags and places. *)
Definition shows (f : flags) (p : place) : Prop :=
  match p with
  | Top => f_key f = false /\ f_arr f = false /\ f_map f = false
  | InArray first => f = mkF false (negb first) true false
  | Name first => f = mkF false (negb first) false true
  | Value => f = mkF true false false true
  end.
Lemma sep_lead f p : shows f p -> match separator f with Some s => s | None => [] end = lead p.
Proof.
  destruct f as [k v a m], p as [|[]|[]|]; cbn [shows f_key f_arr f_map]; intros H;
    try (destruct H as (-> & -> & ->)); try (injection H as -> -> -> ->); reflexivity.
Qed.
Lemma write_writes pieces e T p f' g : e_pos e = Some (List.length T) -> shows (e_fl e) p -> g (e_fl e) = f' ->
  writes (fun e m => set_flags g (write pieces e m)) e T (lead p ++ List.concat pieces) f'.
Proof.
  intros HP HS Hg. rewrite <- (sep_lead _ _ HS). unfold write.
  set (l := match separator (e_fl e) with Some s => s :: pieces | None => pieces end).
  replace (match separator (e_fl e) with Some s => s | None => [] end ++ List.concat pieces) with (List.concat l) by (unfold l; destruct (separator (e_fl e)); reflexivity).
  intros J. split.
  - intros H. destruct (alsos_fits l e T J HP H) as (J' & E & L). exists (e_need e), J'. unfold l in E. rewrite E. cbn [set_flags x_err x_enc x_mem x_bad e_pos e_need e_fl].
    rewrite Hg. split; [reflexivity|exact L].
  - intros H. destruct (alsos_short l e T J HP H) as (J' & E & L). exists (e_fl e), J'. unfold l in E. rewrite E. cbn [set_flags x_err]. split; [reflexivity|exact L].
Qed.
Lemma close_writes e c T u : e_pos c = Some (List.length T) -> u = [if f_map (e_fl c) then 125%N else 93%N] ->
  writes (fun e m => close e c m) e T u (e_fl e).
Proof.
  intros HP -> J. unfold close. split.
  - intros H. destruct (append_fits [if f_map (e_fl c) then 125%N else 93%N] (mkE (e_pos c) (e_need c) (e_fl e)) T J HP H) as (J' & E & L).
    exists (e_need c), J'. rewrite E. split; [reflexivity|exact L].
  - intros H. exists (e_fl e), J. rewrite append_over by assumption. split; reflexivity.
Qed.

Lemma no_key_next f p t : shows f p -> no_key f = true -> next t p = if t then next t p else None.
Proof.
  destruct f as [k v a m], p as [|[]|[]|]; cbn [shows f_key f_arr f_map]; intros H;
    try (destruct H as (-> & -> & ->)); try (injection H as -> -> -> ->); destruct t; cbn; congruence.
Qed.
Lemma value_next f p : shows f p -> no_key f = false -> exists p', next false p = Some p' /\ shows (value_done f) p'.
Proof.
  destruct f as [k v a m], p as [|[]|[]|]; cbn [shows f_key f_arr f_map]; intros H;
    try (destruct H as (-> & -> & ->)); try (injection H as -> -> -> ->); cbn; try discriminate; intros _; eexists; split; try reflexivity; cbn; tauto.
Qed.
Lemma text_next f p : shows f p -> exists p', next true p = Some p' /\ shows (text_done f) p'.
Proof.
  destruct f as [k v a m], p as [|[]|[]|]; cbn [shows f_key f_arr f_map]; intros H;
    try (destruct H as (-> & -> & ->)); try (injection H as -> -> -> ->); eexists; split; try reflexivity; cbn; tauto.
Qed.

(** One value. *)
Lemma encode_writes p e T pl : e_pos e = Some (List.length T) -> shows (e_fl e) pl ->
  match next (is_text p) pl, token p with
  | Some pl', Some u => exists f', shows f' pl' /\ writes (encode p) e T (lead pl ++ u) f'
  | _, _ => forall m, encode p e m = fail e m
  end.
Proof.
  intros HP HS.
  assert (V : forall t (att : enc -> list N -> res), (forall e m, att e m = if no_key (e_fl e) then fail e m else set_flags value_done (write [t] e m)) ->
    match next false pl with Some pl' => exists f', shows f' pl' /\ writes att e T (lead pl ++ t) f' | None => forall m, att e m = fail e m end).
  { intros t att Ha. destruct (no_key (e_fl e)) eqn:EN.
    - rewrite (no_key_next _ _ false HS EN). intros m. rewrite Ha, EN. reflexivity.
    - destruct (value_next _ _ HS EN) as (pl' & -> & HS'). exists (value_done (e_fl e)). split; [exact HS'|].
      pose proof (write_writes [t] e T pl _ value_done HP HS eq_refl) as W. cbn [List.concat] in W. rewrite app_nil_r in W.
      intros J. destruct (W J) as [W1 W2]. rewrite Ha, EN. exact (conj W1 W2). }
  destruct p as [|b|z|n|s|s|]; cbn [is_text token].
  - specialize (V (str "null") (encode PNull) (fun _ _ => eq_refl)). destruct (next false pl); exact V.
  - specialize (V (if b then str "true" else str "false") (encode (PBool b)) (fun _ _ => eq_refl)). destruct (next false pl); exact V.
  - destruct ((- 2 ^ 52 - 1 <=? z) && (z <=? 2 ^ 53))%Z eqn:EZ.
    + specialize (V (int_dec z) (encode (PInt z))). assert (HV : forall e m, encode (PInt z) e m = if no_key (e_fl e) then fail e m else set_flags value_done (write [int_dec z] e m)).
      { intros e' m. cbn [encode]. replace ((JMAX <? z) || (z <? JMIN))%Z with false; [reflexivity|]. symmetry. apply Bool.andb_true_iff in EZ. apply Bool.orb_false_iff. unfold JMAX, JMIN. lia. }
      specialize (V HV). destruct (next false pl); exact V.
    + assert (HX : forall m, encode (PInt z) e m = fail e m).
      { intros m. cbn [encode]. destruct (no_key (e_fl e)); [reflexivity|]. replace ((JMAX <? z) || (z <? JMIN))%Z with true; [reflexivity|]. symmetry. apply Bool.andb_false_iff in EZ. apply Bool.orb_true_iff. unfold JMAX, JMIN. lia. }
      destruct (next false pl); exact HX.
  - destruct (n <=? 2 ^ 53)%N eqn:EZ.
    + specialize (V (dec n) (encode (PUint n))). assert (HV : forall e m, encode (PUint n) e m = if no_key (e_fl e) then fail e m else set_flags value_done (write [dec n] e m)).
      { intros e' m. cbn [encode]. replace (Z.to_N JMAX <? n)%N with false; [reflexivity|]. symmetry. change (Z.to_N JMAX) with (2 ^ 53)%N. apply N.leb_le in EZ. apply N.ltb_ge. exact EZ. }
      specialize (V HV). destruct (next false pl); exact V.
    + assert (HX : forall m, encode (PUint n) e m = fail e m).
      { intros m. cbn [encode]. destruct (no_key (e_fl e)); [reflexivity|]. replace (Z.to_N JMAX <? n)%N with true; [reflexivity|]. symmetry. change (Z.to_N JMAX) with (2 ^ 53)%N. apply N.leb_gt in EZ. apply N.ltb_lt. exact EZ. }
      destruct (next false pl); exact HX.
  - destruct (text_next _ _ HS) as (pl' & -> & HS'). exists (text_done (e_fl e)). split; [exact HS'|].
    exact (write_writes [[34%N]; s; [34%N]] e T pl _ text_done HP HS eq_refl).
  - destruct (Nat.ltb_spec (List.length s) 320) as [H|H].
    + specialize (V s (encode (PDouble s))). assert (HV : forall e m, encode (PDouble s) e m = if no_key (e_fl e) then fail e m else set_flags value_done (write [s] e m)).
      { intros e' m. cbn [encode]. destruct (Nat.leb_spec 320 (List.length s)); [lia|reflexivity]. }
      specialize (V HV). destruct (next false pl); exact V.
    + assert (HX : forall m, encode (PDouble s) e m = fail e m).
      { intros m. cbn [encode]. destruct (no_key (e_fl e)); [reflexivity|]. destruct (Nat.leb_spec 320 (List.length s)); [reflexivity|lia]. }
      destruct (next false pl); exact HX.
  - destruct (next false pl); reflexivity.
Qed.
Lemma create_writes m e T pl : e_pos e = Some (List.length T) -> shows (e_fl e) pl ->
  match next false pl with
  | Some pl' => exists f', shows f' pl' /\ writes (fun e mem => fst (create m e mem)) e T (lead pl ++ [if m then 123%N else 91%N]) f'
  | None => forall mem, fst (create m e mem) = fail e mem
  end.
Proof.
  intros HP HS. destruct (no_key (e_fl e)) eqn:EN.
  - rewrite (no_key_next _ _ false HS EN). intros mem. unfold create. rewrite EN. reflexivity.
  - destruct (value_next _ _ HS EN) as (pl' & -> & HS'). exists (value_done (e_fl e)). split; [exact HS'|].
    pose proof (write_writes [[if m then 123%N else 91%N]] e T pl _ value_done HP HS eq_refl) as W.
    intros J. destruct (W J) as [W1 W2]. cbn [List.concat] in W1, W2. rewrite app_nil_r in W1, W2. unfold create. rewrite EN. cbn [fst]. exact (conj W1 W2).
Qed.

(** The state without error. *)
Record good (k : nat) (pls : list place) (T : list N) (s : est) : Prop := mkG {
  gd_err : g_err s = false; gd_bad : g_bad s = false;
  gd_top : exists e r, g_stack s = e :: r /\ e_pos e = Some (List.length T);
  gd_pls : Forall2 (fun e p => shows (e_fl e) p) (g_stack s) pls;
  gd_mem : exists J, b_mem (g_buf s) = T ++ J;
  gd_cap : capacity (g_buf s) = k; gd_size : b_size (g_buf s) <= k }.

Lemma exec_err o s : g_err s = true -> g_err (exec o s) = true.
Proof.
  intros H. unfold exec. destruct o as [p|m|], (g_stack s) as [|e [|e2 r]]; try exact H;
    match goal with |- context [retry ?a ?b ?c] => destruct (retry a b c) as [[[x e'] b'] bad] end; cbn [g_err]; rewrite H; reflexivity.
Qed.
Lemma exec_all_err l : forall s, g_err s = true -> g_err (exec_all l s) = true.
Proof. induction l as [|o l IH]; intros s H; [exact H|]. apply IH. apply exec_err. exact H. Qed.

Lemma retry_fail att e b : (forall m, att e m = fail e m) -> retry att e b = (EOther, e, mkB (b_mem b) (b_max b) (b_realloc b), false).
Proof. intros H. unfold retry. rewrite H. reflexivity. Qed.

Lemma cap_same b b' : b_max b' = b_max b -> b_realloc b' = b_realloc b -> b_size b <= b_size b' -> b_size b' <= capacity b' ->
  (b_realloc b = false -> b_size b' = b_size b) -> capacity b' = capacity b.
Proof. intros H1 H2 H3 H4 H5. unfold capacity in *. rewrite H2 in *. destruct (b_realloc b); [exact H1|]. apply H5. reflexivity. Qed.

Lemma retry_size att e b : (forall e m, List.length (x_mem (att e m)) = List.length m) ->
  let '(x, e', b', bad) := retry att e b in
  b_max b' = b_max b /\ b_realloc b' = b_realloc b /\ (b_realloc b = false -> b_size b' = b_size b) /\ (b_size b <= b_max b -> b_size b' <= b_max b).
Proof.
  intros H. unfold retry. pose proof (H e (b_mem b)) as H1. destruct (att e (b_mem b)) as [x e1 m1 bad]. cbn [x_err x_enc x_mem x_bad] in *.
  destruct x.
  - unfold b_size. cbn [b_mem b_max b_realloc]. rewrite H1. auto.
  - unfold grow. cbn [b_max b_realloc b_mem]. destruct (b_realloc b) eqn:ER; cbn [negb].
    + destruct (Nat.ltb_spec (b_max b) (b_size (mkB m1 (b_max b) true) + extra e1)) as [HX|HX].
      * unfold b_size. cbn [b_mem b_max b_realloc]. rewrite H1. repeat split; auto.
      * set (more := if (2 * _ <? _) then _ else _).
        assert (Hm : b_size b <= b_max b -> b_size b + more <= b_max b).
        { unfold more, b_size in *. cbn [b_mem] in *. rewrite H1 in *. destruct (Nat.ltb_spec (2 * (List.length (b_mem b) + extra e1)) (b_max b / 4)) as [H2|H2]; [|lia].
          pose proof (Nat.mul_div_le (b_max b) 4). lia. }
        pose proof (H e (m1 ++ repeat 0%N more)) as H2. cbn [b_mem]. destruct (att e (m1 ++ repeat 0%N more)) as [x2 e2 m2 bad2]. cbn [x_err x_enc x_mem x_bad] in *.
        unfold b_size in *. cbn [b_mem b_max b_realloc]. rewrite app_length, repeat_length, H1 in H2. rewrite H2. repeat split; auto. discriminate.
    + unfold b_size. cbn [b_mem b_max b_realloc]. rewrite H1. repeat split; auto.
  - unfold b_size. cbn [b_mem b_max b_realloc]. rewrite H1. auto.
Qed.
Lemma append_len d e m : List.length (x_mem (put d e m)) = List.length m /\ x_bad (put d e m) = false.
Proof.
  unfold put. destruct (e_pos e) as [p|]; [|split; reflexivity]. destruct (Nat.ltb_spec (List.length m) (p + List.length d)) as [H|H]; [split; reflexivity|].
  unfold poke. destruct (Nat.leb_spec (p + List.length d) (List.length m)) as [H1|H1]; [|lia]. cbn [x_mem x_bad]. split; [|reflexivity].
  rewrite !app_length, firstn_length, skipn_length. lia.
Qed.
Lemma alsos_len l : forall r, x_bad r = false -> List.length (x_mem (alsos r l)) = List.length (x_mem r) /\ x_bad (alsos r l) = false.
Proof.
  induction l as [|d l IH]; intros r H; cbn [alsos]; [auto|]. destruct (append_len d (x_enc r) (x_mem r)) as [H1 H2].
  destruct (IH (also r d)) as [H3 H4]; [unfold also; cbn [x_bad]; rewrite H, H2; reflexivity|]. split; [|exact H4]. rewrite H3. exact H1.
Qed.
Lemma write_len l e m g : List.length (x_mem (set_flags g (write l e m))) = List.length m /\ x_bad (set_flags g (write l e m)) = false.
Proof.
  unfold write. pose proof (alsos_len (match separator (e_fl e) with Some s => s :: l | None => l end) (mkR ENone e m false) eq_refl) as H.
  unfold set_flags. destruct (x_err _); exact H.
Qed.
Lemma encode_len p e m : List.length (x_mem (encode p e m)) = List.length m /\ x_bad (encode p e m) = false.
Proof.
  destruct p; cbn [encode]; try (destruct (no_key (e_fl e)); [split; reflexivity|]); try (split; reflexivity); try apply write_len.
  - destruct ((JMAX <? z) || (z <? JMIN))%Z; [split; reflexivity|apply write_len].
  - destruct (Z.to_N JMAX <? n)%N; [split; reflexivity|apply write_len].
  - destruct (Nat.leb 320 (List.length s)); [split; reflexivity|apply write_len].
Qed.
Lemma create_len mp e m : List.length (x_mem (fst (create mp e m))) = List.length m /\ x_bad (fst (create mp e m)) = false.
Proof. unfold create. destruct (no_key (e_fl e)); [split; reflexivity|]. apply write_len. Qed.
Lemma close_len e c m : List.length (x_mem (close e c m)) = List.length m /\ x_bad (close e c m) = false.
Proof. apply append_len. Qed.

(** One call. *)
Lemma exec_good o k pls T s : good k pls T s ->
  match call o (pls, T) with
  | Some (pls', T') => (List.length T' <= k -> good k pls' T' (exec o s)) /\ (k < List.length T' -> List.length T <= k -> g_err (exec o s) = true)
  | None => g_err (exec o s) = true
  end.
Proof.
  intros [G1 G2 (e & r & G3 & G4) G5 (J & G6) G7 G8]. rewrite G3 in G5. inversion G5 as [|? p ? ps HS HR]; subst.
  assert (GE : forall att f' u p', (forall e m, List.length (x_mem (att e m)) = List.length m) -> shows f' p' -> writes att e T u f' ->
     forall o' c, (forall x e' b bad, retry att e (g_buf s) = (x, e', b, bad) -> exec o' s = mkS (c x e' ++ r) b (g_err s || is_err x) (g_bad s || bad)) ->
     (List.length (T ++ u) <= capacity (g_buf s) -> exists n b, exec o' s = mkS (c ENone (mkE (Some (List.length (T ++ u))) n f') ++ r) b false false
        /\ (exists J', b_mem b = (T ++ u) ++ J') /\ capacity b = capacity (g_buf s) /\ b_size b <= capacity (g_buf s)) /\
     (capacity (g_buf s) < List.length (T ++ u) -> g_err (exec o' s) = true)).
  { intros att f' u p' HL HS' HW o' c Hx. destruct (retry_writes _ _ _ _ _ _ _ HW G6 G8) as [R1 R2]. split.
    - intros HC. destruct (R1 HC) as (n & J' & b' & E & M & X1 & X2 & X3 & X4). exists n, b'. rewrite (Hx _ _ _ _ E), G1, G2.
      split; [reflexivity|]. split; [exists J'; exact M|].
      pose proof (retry_size att e (g_buf s) HL) as RS. rewrite E in RS. destruct RS as (_ & _ & RS & _).
      pose proof (cap_same _ _ X1 X2 X3 X4 RS) as HK. rewrite HK in X4. split; [exact HK|exact X4].
    - intros HC. destruct (R2 HC) as (e' & b' & E). rewrite (Hx _ _ _ _ E). cbn [g_err is_err]. apply Bool.orb_true_r. }
  destruct o as [q|m|]; cbn [call].
  - pose proof (encode_writes q e T p G4 HS) as HE.
    assert (Hx : forall x e' b bad, retry (encode q) e (g_buf s) = (x, e', b, bad) -> exec (OPrim q) s = mkS ((fun _ e' => [e']) x e' ++ r) b (g_err s || is_err x) (g_bad s || bad)).
    { intros x e' b bad E. cbn [exec]. rewrite G3, E. reflexivity. }
    assert (HF : (forall m, encode q e m = fail e m) -> g_err (exec (OPrim q) s) = true).
    { intros H. rewrite (Hx _ _ _ _ (retry_fail _ _ (g_buf s) H)). cbn [g_err is_err]. apply Bool.orb_true_r. }
    destruct (next (is_text q) p) as [p'|]; [|exact (HF HE)]. destruct (token q) as [u|]; [|exact (HF HE)].
    destruct HE as (f' & HS' & HW). destruct (GE _ f' _ p' (fun e m => proj1 (encode_len q e m)) HS' HW _ _ Hx) as [K1 K2].
    split; [|intros HC _; exact (K2 HC)]. intros HC. destruct (K1 HC) as (n & b & E & MJ & X1 & X2). rewrite E. constructor; cbn [g_err g_bad g_stack g_buf app]; try assumption; try reflexivity.
    + eexists _, _. split; reflexivity.
    + constructor; assumption.
  - pose proof (create_writes m e T p G4 HS) as HE.
    set (c := fun x e' => [match x with ENone => mkE (e_pos e') (e_need e') (mkF false false (negb m) m) | EOom => e' | EOther => enc0 end; e']).
    assert (Hx : forall x e' b bad, retry (fun e m0 => fst (create m e m0)) e (g_buf s) = (x, e', b, bad) -> exec (OOpen m) s = mkS (c x e' ++ r) b (g_err s || is_err x) (g_bad s || bad)).
    { intros x e' b bad E. cbn [exec]. rewrite G3, E. reflexivity. }
    destruct (next false p) as [p'|].
    2:{ rewrite (Hx _ _ _ _ (retry_fail _ _ (g_buf s) HE)). cbn [g_err is_err]. apply Bool.orb_true_r. }
    destruct HE as (f' & HS' & HW). destruct (GE _ f' _ p' (fun e m0 => proj1 (create_len m e m0)) HS' HW _ _ Hx) as [K1 K2].
    split; [|intros HC _; exact (K2 HC)]. intros HC. destruct (K1 HC) as (n & b & E & MJ & X1 & X2). rewrite E. constructor; cbn [g_err g_bad g_stack g_buf app c]; try assumption; try reflexivity.
    + eexists _, _. split; reflexivity.
    + constructor; [destruct m; reflexivity|]. constructor; assumption.
  - inversion HR as [|e2 p2 r2 ps2 HS2 HR2]; subst.
    { split; [intros _; assert (EX : exec OClose s = s) by (unfold exec; rewrite G3; reflexivity); rewrite EX|intros H1 H2; lia].
      constructor; try assumption; try reflexivity; [eexists _, _; split; [exact G3|exact G4]|rewrite G3; exact G5|exists J; exact G6]. }
    assert (HU : [match p with Name _ | Value => 125%N | _ => 93%N end] = [if f_map (e_fl e) then 125%N else 93%N]).
    { destruct p as [|[]|[]|]; cbn [shows] in HS; try (rewrite HS; reflexivity). destruct HS as (_ & _ & ->). reflexivity. }
    pose proof (close_writes e2 e T _ G4 HU) as HW.
    assert (R : (forall x e' b bad, retry (fun e2 m => close e2 e m) e2 (g_buf s) = (x, e', b, bad) -> exec OClose s = mkS (e' :: r2) b (g_err s || is_err x) (g_bad s || bad))).
    { intros x e' b bad E. cbn [exec]. rewrite G3, E. reflexivity. }
    destruct (retry_writes _ _ _ _ _ _ _ HW G6 G8) as [R1 R2]. split.
    + intros HC. destruct (R1 HC) as (n & J' & b' & E & M & X1 & X2 & X3 & X4). rewrite (R _ _ _ _ E).
      pose proof (retry_size (fun e2 m => close e2 e m) e2 (g_buf s) (fun e2 m => proj1 (close_len e2 e m))) as RS. rewrite E in RS. destruct RS as (_ & _ & RS & _).
      pose proof (cap_same _ _ X1 X2 X3 X4 RS) as HK. rewrite HK in X4. constructor; cbn [g_err g_bad g_stack g_buf]; try assumption.
      * rewrite G1. reflexivity.
      * rewrite G2. reflexivity.
      * eexists _, _. split; reflexivity.
      * constructor; assumption.
      * exists J'. exact M.
    + intros HC _. destruct (R2 HC) as (e' & b' & E). rewrite (R _ _ _ _ E). cbn [g_err is_err]. apply Bool.orb_true_r.
Qed.

Lemma call_grows o pls T pls' T' : call o (pls, T) = Some (pls', T') -> List.length T <= List.length T'.
Proof.
  destruct o as [p|m|], pls as [|pl r]; cbn [call]; try (intros [= <- <-]; lia).
  - destruct (next (is_text p) pl); [|discriminate]. destruct (token p); [|discriminate]. intros [= <- <-]. rewrite app_length. lia.
  - destruct (next false pl); [|discriminate]. intros [= <- <-]. rewrite app_length. lia.
  - destruct r as [|pl' r]; intros [= <- <-]; [lia|]. rewrite app_length. lia.
Qed.
Lemma calls_grow l : forall pls T pls' T', calls l (pls, T) = Some (pls', T') -> List.length T <= List.length T'.
Proof.
  induction l as [|o l IH]; intros pls T pls' T'; cbn [calls]; [intros [= <- <-]; lia|].
  destruct (call o (pls, T)) as [[pls1 T1]|] eqn:E; [|discriminate]. intros H. apply call_grows in E. apply IH in H. lia.
Qed.
Lemma exec_all_good l : forall k pls T s, good k pls T s -> List.length T <= k ->
  match calls l (pls, T) with
  | Some (pls', T') => (List.length T' <= k -> good k pls' T' (exec_all l s)) /\ (k < List.length T' -> g_err (exec_all l s) = true)
  | None => g_err (exec_all l s) = true
  end.
Proof.
  induction l as [|o l IH]; intros k pls T s G HT.
  - cbn [calls exec_all fold_left]. split; [intros _; exact G|lia].
  - change (exec_all (o :: l) s) with (exec_all l (exec o s)). cbn [calls]. pose proof (exec_good o _ _ _ _ G) as HG.
    destruct (call o (pls, T)) as [[pls1 T1]|] eqn:E; [|apply exec_all_err; exact HG]. destruct HG as [HG1 HG2].
    destruct (Nat.leb_spec (List.length T1) k) as [H1|H1].
    + exact (IH _ _ _ _ (HG1 H1) H1).
    + pose proof (exec_all_err l _ (HG2 H1 HT)) as HE. destruct (calls l (pls1, T1)) as [[pls' T']|] eqn:EC; [|exact HE].
      pose proof (calls_grow _ _ _ _ _ EC). split; [lia|intros _; exact HE].
Qed.

(** ** The sequence of calls *)
Definition ready (s : est) : Prop := g_stack s = [enc0] /\ g_err s = false /\ g_bad s = false /\ b_size (g_buf s) <= capacity (g_buf s).
Lemma start_fixed_ready mem : ready (start_fixed mem).
Proof. split; [reflexivity|]. split; [reflexivity|]. split; [reflexivity|]. apply Nat.le_refl. Qed.
Lemma start_growing_ready mem max : List.length mem <= max -> ready (start_growing mem max).
Proof. intros H. split; [reflexivity|]. split; [reflexivity|]. split; [reflexivity|]. exact H. Qed.

Lemma good_payload k p T s : good k [p] T s -> payload false s = Some T.
Proof.
  intros [G1 G2 (e & r & G3 & G4) G5 (J & G6) G7 G8]. rewrite G3 in G5. inversion G5 as [|? ? ? ? ? H2]; subst. inversion H2; subst.
  unfold payload, payload_size. rewrite G1, G3. cbn [last]. rewrite G4. cbn [andb option_map]. rewrite G6, firstn_app, firstn_all, Nat.sub_diag, firstn_O, app_nil_r. reflexivity.
Qed.
Lemma good_payload_true k p T s : good k [p] T s ->
  payload true s = Some (if Nat.eqb (List.length T) 2 && match parse_json T with PRep [] => true | _ => false end then [] else T).
Proof.
  intros [G1 G2 (e & r & G3 & G4) G5 (J & G6) G7 G8]. rewrite G3 in G5. inversion G5 as [|? ? ? ? ? H2]; subst. inversion H2; subst. clear H2.
  unfold payload, payload_size. rewrite G1, G3. cbn [last]. rewrite G4. cbn [andb option_map]. rewrite G6.
  assert (F : firstn (List.length T) (T ++ J) = T) by (rewrite firstn_app, firstn_all, Nat.sub_diag, firstn_O, app_nil_r; reflexivity).
  destruct (Nat.eqb_spec (List.length T) 2) as [HL|HL]; cbn [andb option_map]; [|rewrite F; reflexivity].
  rewrite HL in F. rewrite F. destruct (parse_json T) as [| |[|]| | |]; cbn [option_map]; try (rewrite ?HL, F; reflexivity); reflexivity.
Qed.
Lemma ready_good s : ready s -> good (capacity (g_buf s)) [Top] [] s.
Proof.
  intros (H1 & H2 & H3 & H4). constructor; try assumption; try reflexivity.
  - exists enc0, []. rewrite H1. split; reflexivity.
  - rewrite H1. constructor; [|constructor]. cbn. auto.
  - exists (b_mem (g_buf s)). reflexivity.
Qed.
Lemma encodes_true l s p T : ready s -> calls l ([Top], []) = Some ([p], T) -> List.length T <= capacity (g_buf s) ->
  payload true (exec_all l s) = Some (if Nat.eqb (List.length T) 2 && match parse_json T with PRep [] => true | _ => false end then [] else T).
Proof.
  intros HR HC HL. pose proof (exec_all_good l _ _ _ _ (ready_good s HR) (Nat.le_0_l _)) as HG. rewrite HC in HG.
  exact (good_payload_true _ _ _ _ (proj1 HG HL)).
Qed.
Lemma encodes l s : ready s ->
  match calls l ([Top], []) with
  | Some ([p], T) => payload false (exec_all l s) = if Nat.leb (List.length T) (capacity (g_buf s)) then Some T else None
  | Some _ => True
  | None => payload false (exec_all l s) = None
  end.
Proof.
  intros HR. pose proof (ready_good s HR) as G.
  pose proof (exec_all_good l _ _ _ _ G (Nat.le_0_l _)) as HG.
  assert (HE : g_err (exec_all l s) = true -> payload false (exec_all l s) = None) by (intros HX; unfold payload, payload_size; rewrite HX; reflexivity).
  destruct (calls l ([Top], [])) as [[pls T]|]; [|exact (HE HG)]. destruct pls as [|p [|p2 r]]; [exact I| |exact I].
  destruct HG as [HG1 HG2]. destruct (Nat.leb_spec (List.length T) (capacity (g_buf s))) as [H|H]; [exact (good_payload _ _ _ _ (HG1 H))|exact (HE (HG2 H))].
Qed.

(** ** The buffer *)
Lemma retry_bad att e b : (forall e m, x_bad (att e m) = false) -> snd (retry att e b) = false.
Proof.
  intros H. unfold retry. pose proof (H e (b_mem b)) as H1. destruct (att e (b_mem b)) as [x e1 m1 bad]. cbn [x_err x_enc x_mem x_bad] in *. subst bad.
  destruct x; [reflexivity| |reflexivity]. destruct (grow (extra e1) _) as [b2|]; [|reflexivity].
  pose proof (H e (b_mem b2)) as H2. cbn [snd]. rewrite H2. reflexivity.
Qed.
Lemma exec_buffer o s : b_size (g_buf s) <= b_max (g_buf s) ->
  let s' := exec o s in
  b_max (g_buf s') = b_max (g_buf s) /\ b_realloc (g_buf s') = b_realloc (g_buf s) /\
  (b_realloc (g_buf s) = false -> b_size (g_buf s') = b_size (g_buf s)) /\ b_size (g_buf s') <= b_max (g_buf s) /\ g_bad s' = g_bad s.
Proof.
  intros HS.
  assert (K : forall att e, (forall e m, List.length (x_mem (att e m)) = List.length m /\ x_bad (att e m) = false) ->
     let '(x, e', b', bad) := retry att e (g_buf s) in
     b_max b' = b_max (g_buf s) /\ b_realloc b' = b_realloc (g_buf s) /\ (b_realloc (g_buf s) = false -> b_size b' = b_size (g_buf s)) /\ b_size b' <= b_max (g_buf s) /\ g_bad s || bad = g_bad s).
  { intros att e HA. pose proof (retry_size att e (g_buf s) (fun e m => proj1 (HA e m))) as R1. pose proof (retry_bad att e (g_buf s) (fun e m => proj2 (HA e m))) as R2.
    destruct (retry att e (g_buf s)) as [[[x e'] b'] bad]. cbn [snd] in R2. subst bad. destruct R1 as (R1 & R2 & R3 & R4).
    rewrite Bool.orb_false_r. exact (conj R1 (conj R2 (conj R3 (conj (R4 HS) eq_refl)))). }
  assert (I0 : b_max (g_buf s) = b_max (g_buf s) /\ b_realloc (g_buf s) = b_realloc (g_buf s) /\ (b_realloc (g_buf s) = false -> b_size (g_buf s) = b_size (g_buf s)) /\ b_size (g_buf s) <= b_max (g_buf s) /\ g_bad s = g_bad s).
  { exact (conj eq_refl (conj eq_refl (conj (fun _ => eq_refl) (conj HS eq_refl)))). }
  cbn zeta. unfold exec. destruct o as [p|m|], (g_stack s) as [|e [|e2 r]]; try exact I0.
  1,2: specialize (K (encode p) e (encode_len p)); destruct (retry (encode p) e (g_buf s)) as [[[x e'] b'] bad]; exact K.
  1,2: specialize (K (fun e m0 => fst (create m e m0)) e (create_len m)); destruct (retry (fun e m0 => fst (create m e m0)) e (g_buf s)) as [[[x e'] b'] bad]; exact K.
  specialize (K (fun e2 m => close e2 e m) e2 (fun e2 m => close_len e2 e m)). destruct (retry (fun e2 m => close e2 e m) e2 (g_buf s)) as [[[x e'] b'] bad]; exact K.
Qed.
Lemma exec_all_buffer l : forall s, b_size (g_buf s) <= b_max (g_buf s) ->
  let s' := exec_all l s in
  b_max (g_buf s') = b_max (g_buf s) /\ b_realloc (g_buf s') = b_realloc (g_buf s) /\
  (b_realloc (g_buf s) = false -> b_size (g_buf s') = b_size (g_buf s)) /\ b_size (g_buf s') <= b_max (g_buf s) /\ g_bad s' = g_bad s.
Proof.
  induction l as [|o l IH]; intros s HS; cbn zeta in *.
  - cbn [exec_all fold_left]. exact (conj eq_refl (conj eq_refl (conj (fun _ => eq_refl) (conj HS eq_refl)))).
  - change (exec_all (o :: l) s) with (exec_all l (exec o s)). destruct (exec_buffer o s HS) as (H1 & H2 & H3 & H4 & H5).
    destruct (IH (exec o s)) as (K1 & K2 & K3 & K4 & K5); [rewrite H1; exact H4|]. rewrite K1, K2, K5, H1, H2, H5.
    split; [reflexivity|]. split; [reflexivity|]. split; [intros HX; rewrite K3; [exact (H3 HX)|rewrite H2; exact HX]|]. split; [rewrite <- H1; exact K4|reflexivity].
Qed.
