(** Proofs about interfaces, the device filter and the admission of requests. *)
From Verif Require Import Common Query_Model Query_Spec Query_Proofs Ri_Model Ri_Spec Ri_Proofs.
From Coq Require Import String.
Local Open Scope string_scope.
Local Open Scope list_scope.
Local Open Scope N_scope.

(** * Interfaces *)

Lemma mask_of_name v b ms : In (v, b, ms) ifaces -> iface_mask v = 2 ^ b.
Proof.
  unfold ifaces. cbn [In]. intros H.
  repeat (destruct H as [H|H]; [injection H as <- <- <-; vm_compute; reflexivity|]). destruct H.
Qed.

Lemma pow_nz b : (2 ^ b =? 0) = false.
Proof. apply N.eqb_neq. apply N.pow_nonzero. discriminate. Qed.

Lemma name_of_mask v : iface_mask v <> 0 -> exists b ms, In (v, b, ms) ifaces.
Proof.
  unfold iface_mask. destruct (find _ iface_table) as [e|] eqn:E; [|congruence]. intros _.
  apply find_some in E as [E1 E2]. apply list_eqb_spec in E2. subst v.
  unfold iface_table in E1. cbn [In] in E1. unfold ifaces. cbn [In].
  repeat (destruct E1 as [E1|E1]; [rewrite <- E1; cbn [snd]; eauto 20|]). destruct E1.
Qed.

Lemma supports_spec i m : method_ok m ->
  (supports i m = true <-> exists v b ms, In (v, b, ms) ifaces /\ i = 2 ^ b /\ In m ms).
Proof.
  intros Hm. split.
  - unfold supports. intros H.
    assert (E : existsb (fun e => (i =? 2 ^ snd (fst e)) && existsb (N.eqb m) (snd e)) ifaces = true).
    { unfold method_ok in Hm. cbn [In] in Hm.
      destruct Hm as [<-|[<-|[<-|[<-|[]]]]]; revert H;
      repeat match goal with |- context [i =? ?c] => destruct (N.eqb_spec i c); [subst i; vm_compute; try reflexivity; try discriminate|] end;
      cbn; discriminate. }
    apply existsb_exists in E as ([[v b] ms] & E1 & E2). apply andb_true_iff in E2 as [E2 E3].
    apply existsb_exists in E3 as (m' & E3 & E4). apply N.eqb_eq in E2, E4. subst m'. exists v, b, ms. auto.
  - intros (v & b & ms & H1 & -> & H2). unfold ifaces in H1. cbn [In] in H1.
    repeat (destruct H1 as [H1|H1];
      [injection H1 as <- <- <-; cbn [In] in H2; intuition (subst; vm_compute; reflexivity)|]). destruct H1.
Qed.

Lemma ldiff_pow b n : (N.ldiff (2 ^ b) n =? 0) = N.testbit n b.
Proof.
  destruct (N.testbit n b) eqn:E.
  - apply N.eqb_eq. apply N.bits_inj. intros k. rewrite N.ldiff_spec, N.bits_0, N.pow2_bits_eqb.
    destruct (N.eqb_spec b k); [subst; rewrite E; reflexivity|reflexivity].
  - apply N.eqb_neq. intros H. assert (X : N.testbit (N.ldiff (2 ^ b) n) b = true).
    { rewrite N.ldiff_spec, N.pow2_bits_true, E. reflexivity. }
    rewrite H, N.bits_0 in X. discriminate.
Qed.

Lemma fits_spec r i m : method_ok m ->
  ((N.ldiff i (r_ifs r) =? 0) && supports i m = true <-> fits r i m).
Proof.
  intros Hm. rewrite andb_true_iff, (supports_spec i m Hm). unfold fits. split.
  - intros [H (v & b & ms & H1 & -> & H2)]. rewrite ldiff_pow in H. exists v, b, ms. auto.
  - intros (v & b & ms & H1 & -> & H2 & H3). rewrite ldiff_pow. split; [exact H2|]. exists v, b, ms. auto.
Qed.

Lemma same_bit v1 b1 ms1 v2 b2 ms2 : In (v1, b1, ms1) ifaces -> In (v2, b2, ms2) ifaces -> 2 ^ b1 = 2 ^ b2 -> b1 = b2.
Proof. intros _ _ H. apply N.pow_inj_r in H; [exact H|lia]. Qed.

Lemma first_match_fun k ps r1 r2 : first_match k ps r1 -> first_match k ps r2 -> r1 = r2.
Proof.
  intros H. revert r2. induction H as [|p r H|p r v H H' IH]; intros r2 H2.
  - inversion H2; reflexivity.
  - inversion H2; subst; [reflexivity|contradiction].
  - inversion H2; subst; [contradiction|]. apply IH; assumption.
Qed.

Lemma query_mask ps : Forall wf_pair ps ->
  (forall b, asks_for ps b -> iface_query (render ps) = 2 ^ b) /\
  (iface_query (render ps) <> 0 -> exists b, asks_for ps b).
Proof.
  intros Hwf. destruct (first_match_total (str "if") ps) as [x Hx].
  assert (Hq : iface_query (render ps) = match x with Some (Some v) => iface_mask v | _ => 0 end).
  { unfold iface_query. destruct (render ps) as [|c l] eqn:E.
    - destruct ps as [|p ps]; [inversion Hx; reflexivity|]. exfalso. inversion Hwf; subst. eapply render_nonempty; eassumption.
    - rewrite <- E. rewrite (proj1 (get_query_value_spec ps (str "if") x Hwf ltac:(vm_compute; lia) Hx)).
      destruct x as [[v|]|]; reflexivity. }
  rewrite Hq. split.
  - intros b (v & ms & H1 & H2). rewrite <- (first_match_fun _ _ _ _ H1 Hx). eapply mask_of_name; exact H2.
  - destruct x as [[v|]|]; try congruence. intros H. apply name_of_mask in H as (b & ms & H). exists b, v, ms. auto.
Qed.

Lemma uses_spec ps r i : Forall wf_pair ps -> (chosen_iface (render ps) (Some r) = i <-> uses ps r i).
Proof.
  intros Hwf. destruct (query_mask ps Hwf) as [H1 H2]. unfold chosen_iface, uses. split.
  - intros <-. destruct (iface_query (render ps) =? 0) eqn:E.
    + right. split; [|reflexivity]. intros b Hb. rewrite (H1 b Hb), pow_nz in E. discriminate.
    + left. apply N.eqb_neq in E. destruct (H2 E) as [b Hb]. exists b. split; [exact Hb|apply H1; exact Hb].
  - intros [(b & Hb & ->)|[Hn ->]].
    + rewrite (H1 b Hb), pow_nz. reflexivity.
    + destruct (iface_query (render ps) =? 0) eqn:E; [reflexivity|]. apply N.eqb_neq in E. destruct (H2 E) as [b Hb]. destruct (Hn b Hb).
Qed.

Lemma cf_spec cf : cf_supported cf = true <-> In cf formats.
Proof. unfold cf_supported, formats, CF_NONE. rewrite !orb_true_iff, !N.eqb_eq. cbn [In]. intuition. Qed.

Lemma handler_spec r m : has_handler r m = true <->
  (m = GET /\ r_get r = true) \/ (m = POST /\ r_post r = true) \/ (m = PUT /\ r_put r = true) \/ (m = DELETE /\ r_del r = true).
Proof.
  unfold has_handler, GET, POST, PUT, DELETE.
  destruct (N.eqb_spec m 1); [subst; intuition congruence|]. destruct (N.eqb_spec m 2); [subst; intuition congruence|].
  destruct (N.eqb_spec m 3); [subst; intuition congruence|]. destruct (N.eqb_spec m 4); [subst; intuition congruence|].
  intuition congruence.
Qed.

(** * The device filter *)
Lemma rest_render : forall ps fuel k, Forall wf_pair ps -> (List.length (render ps) < fuel)%nat ->
  (forall p, In p ps -> ~ same_ignoring_case k (fst p)) -> lookup_rest fuel (render ps) k = (NotFound, []).
Proof.
  induction ps as [|p ps IH]; intros fuel k Hwf Hf Hn.
  - destruct fuel; reflexivity.
  - inversion Hwf as [|? ? Hp Hps]; subst. destruct fuel as [|f]; [lia|].
    cbn [lookup_rest]. rewrite nth1 by exact Hp.
    destruct (render (p :: ps)) as [|c0 r0] eqn:Er; [exfalso; eapply render_nonempty; eassumption|].
    rewrite <- Er in *.
    destruct (mk_kv_render 0 p ps Hp) as [Hk Hv]. rewrite Hk, Hv, next_pos0, skip_next by exact Hp.
    destruct (Nat.eqb _ _ && ieq k (fst p)) eqn:Ec;
      [exfalso; apply match_cond in Ec; apply (Hn p); [left; reflexivity|exact Ec]|].
    apply IH; [exact Hps| |intros x Hx; apply Hn; right; exact Hx].
    rewrite render_cons, app_length in Hf. pose proof (render_pair_nonempty p Hp).
    destruct (render_pair p); [congruence|]. destruct ps as [|q ps]; cbn [tail_text render List.length] in *; lia.
Qed.

Lemma rest_hit : forall a p b fuel k, Forall wf_pair (a ++ p :: b) -> (List.length (render (a ++ p :: b)) < fuel)%nat ->
  (forall x, In x a -> ~ same_ignoring_case k (fst x)) -> same_ignoring_case k (fst p) ->
  lookup_rest fuel (render (a ++ p :: b)) k = (Found (snd p), tail_text b).
Proof.
  induction a as [|x a IH]; intros p b fuel k Hwf Hf Hn Hs.
  - cbn [app] in *. inversion Hwf as [|? ? Hp Hps]; subst. destruct fuel as [|f]; [lia|].
    cbn [lookup_rest]. rewrite nth1 by exact Hp.
    destruct (render (p :: b)) as [|c0 r0] eqn:Er; [exfalso; eapply render_nonempty; eassumption|].
    rewrite <- Er in *.
    destruct (mk_kv_render 0 p b Hp) as [Hk Hv]. rewrite Hk, Hv, next_pos0 by exact Hp.
    apply match_cond in Hs. rewrite Hs. f_equal.
    replace (List.length (render_pair p) + 1 - 1)%nat with (List.length (render_pair p)) by lia.
    rewrite render_cons, skipn_app, skipn_all2 by lia. rewrite Nat.sub_diag. reflexivity.
  - cbn [app] in *. inversion Hwf as [|? ? Hp Hps]; subst. destruct fuel as [|f]; [lia|].
    cbn [lookup_rest]. rewrite nth1 by exact Hp.
    destruct (render (x :: a ++ p :: b)) as [|c0 r0] eqn:Er; [exfalso; eapply render_nonempty; eassumption|].
    rewrite <- Er in *.
    destruct (mk_kv_render 0 x (a ++ p :: b) Hp) as [Hk Hv]. rewrite Hk, Hv, next_pos0, skip_next by exact Hp.
    destruct (Nat.eqb _ _ && ieq k (fst x)) eqn:Ec;
      [exfalso; apply match_cond in Ec; apply (Hn x); [left; reflexivity|exact Ec]|].
    apply IH; [exact Hps| |intros y Hy; apply Hn; right; exact Hy|exact Hs].
    rewrite render_cons, app_length in Hf. pose proof (render_pair_nonempty x Hp).
    destruct (render_pair x); [congruence|]. destruct (a ++ p :: b) as [|q ps]; cbn [tail_text render List.length] in *; lia.
Qed.

(** an empty pair in front (the separator the loop stops at) is skipped *)
Lemma rest_amp f s k : k <> [] -> lookup_rest (S f) (38 :: s) k = lookup_rest f s k.
Proof.
  intros Hk. cbn [lookup_rest]. unfold nth_key_value. cbn [Nat.sub skip_pairs].
  assert (Hp : pair_at (38 :: s) = (0%nat, None)).
  { unfold pair_at. cbn [find_char]. change (38 =? 61) with false. change (38 =? 38) with true. cbv iota.
    destruct (find_char 61 s); cbn [option_map]; reflexivity. }
  unfold mk_kv. rewrite Hp. cbn [key value next_pos firstn List.length].
  destruct (Nat.eqb 0 (List.length k)) eqn:E; [destruct k; [congruence|discriminate]|]. cbn [andb].
  cbn [Nat.add skipn]. reflexivity.
Qed.

Lemma first_di k (ps : list pair) : (forall p, In p ps -> ~ same_ignoring_case k (fst p)) \/
  exists a p b, ps = a ++ p :: b /\ (forall x, In x a -> ~ same_ignoring_case k (fst x)) /\ same_ignoring_case k (fst p).
Proof.
  induction ps as [|p ps IH]; [left; intros p []|].
  destruct (ieq k (fst p)) eqn:E.
  - right. exists [], p, ps. split; [reflexivity|]. split; [intros x []|]. apply ieq_spec; exact E.
  - assert (Hn : ~ same_ignoring_case k (fst p)) by (intros H; apply ieq_spec in H; congruence).
    destruct IH as [IH|(a & q & b & -> & H1 & H2)].
    + left. intros x [<-|Hx]; [exact Hn|apply IH; exact Hx].
    + right. exists (p :: a), q, b. split; [reflexivity|]. split; [|exact H2]. intros x [<-|Hx]; [exact Hn|apply H1; exact Hx].
Qed.

Definition some_di (ps : list pair) (di : list N) : Prop :=
  exists p, In p ps /\ same_ignoring_case (str "di") (fst p) /\ snd p = Some di.

Lemma tail_len ps : (List.length (render ps) <= List.length (tail_text ps))%nat.
Proof. destruct ps; cbn [tail_text render List.length]; lia. Qed.

Lemma filter_tail : forall n ps fuel di, (List.length ps <= n)%nat -> (List.length (tail_text ps) < fuel)%nat ->
  Forall wf_pair ps -> di_valued ps -> List.length di = 36%nat ->
  (some_di ps di -> filter_loop fuel false (tail_text ps) di = Pass) /\
  (~ some_di ps di -> filter_loop fuel false (tail_text ps) di = Drop).
Proof.
  induction n as [|n IH]; intros ps fuel di Hn Hf Hwf Hv Hd.
  - destruct ps; [|cbn [List.length] in Hn; lia]. split; [intros (p & [] & _)|intros _; destruct fuel; reflexivity].
  - destruct ps as [|p0 ps0]; [split; [intros (p & [] & _)|intros _; destruct fuel; reflexivity]|].
    set (ps := p0 :: ps0) in *.
    destruct fuel as [|f]; [lia|]. change (tail_text ps) with (38 :: render ps) in *. cbn [filter_loop].
    rewrite rest_amp by discriminate. cbn [List.length] in Hf.
    destruct (first_di (str "di") ps) as [Hno|(a & p & b & E & H1 & H2)].
    + rewrite rest_render by (try assumption; cbn [List.length]; lia).
      split; [intros (p & Hp & Hs & _); destruct (Hno p Hp Hs)|reflexivity].
    + rewrite E in *. rewrite (rest_hit a p b _ (str "di") Hwf) by (try assumption; cbn [List.length]; lia).
      destruct (snd p) as [v|] eqn:Es.
      2:{ exfalso. apply (Hv p); [apply in_app_iff; right; left; reflexivity|exact H2|exact Es]. }
      rewrite firstn_all2 by lia.
      destruct (Nat.eqb (List.length v) 36 && list_eqb v di) eqn:Ev.
      * apply andb_true_iff in Ev as [_ Ev]. apply list_eqb_spec in Ev. subst v.
        split; [reflexivity|]. intros X. exfalso. apply X. exists p. split; [apply in_app_iff; right; left; reflexivity|auto].
      * assert (Hne : v <> di).
        { intros ->. rewrite Hd, Nat.eqb_refl, list_eqb_refl in Ev. discriminate. }
        assert (Hiff : some_di (a ++ p :: b) di <-> some_di b di).
        { split.
          - intros (x & Hx & Hs & Hsx). apply in_app_iff in Hx as [Hx|[<-|Hx]]; [destruct (H1 x Hx Hs)|congruence|]. exists x; auto.
          - intros (x & Hx & Hs). exists x. split; [apply in_app_iff; right; right; exact Hx|exact Hs]. }
        rewrite Hiff. apply IH.
        -- rewrite app_length in Hn. cbn [List.length] in Hn. lia.
        -- assert (Hb : (List.length (tail_text b) < List.length (38%N :: render (a ++ p :: b)))%nat).
           { assert (X : exists pre, render (a ++ p :: b) = pre ++ tail_text b).
             { clear. induction a as [|x a IHa]; [exists (render_pair p); apply render_cons|].
               destruct IHa as [pre IHa]. cbn [app]. rewrite render_cons. destruct (a ++ p :: b) as [|y l] eqn:E; [destruct a; discriminate|].
               cbn [tail_text]. rewrite IHa. exists (render_pair x ++ 38%N :: pre). rewrite <- app_assoc. reflexivity. }
             destruct X as [pre X]. rewrite X. cbn [List.length]. rewrite app_length. lia. }
           cbn [List.length] in Hb. lia.
        -- apply Forall_app in Hwf as [_ Hwf]. inversion Hwf; assumption.
        -- intros x Hx. apply Hv. apply in_app_iff; right; right; exact Hx.
        -- exact Hd.
Qed.

Lemma some_di_dec ps di : some_di ps di \/ ~ some_di ps di.
Proof.
  induction ps as [|p ps IH]; [right; intros (p & [] & _)|].
  destruct (ieq (str "di") (fst p)) eqn:E.
  - destruct (snd p) as [v|] eqn:Es.
    + destruct (list_eq_dec N.eq_dec v di) as [->|Hne].
      * left. exists p. split; [left; reflexivity|]. split; [apply ieq_spec; exact E|exact Es].
      * destruct IH as [(x & Hx & H)|IH]; [left; exists x; split; [right; exact Hx|exact H]|].
        right. intros (x & [<-|Hx] & H1 & H2); [congruence|]. apply IH. exists x; auto.
    + destruct IH as [(x & Hx & H)|IH]; [left; exists x; split; [right; exact Hx|exact H]|].
      right. intros (x & [<-|Hx] & H1 & H2); [congruence|]. apply IH. exists x; auto.
  - destruct IH as [(x & Hx & H)|IH]; [left; exists x; split; [right; exact Hx|exact H]|].
    right. intros (x & [<-|Hx] & H1 & H2); [apply ieq_spec in H1; congruence|]. apply IH. exists x; auto.
Qed.

Lemma filter_spec ps di : Forall wf_pair ps -> di_valued ps -> List.length di = 36%nat ->
  (di_ok ps di -> filter_by_di (render ps) di = Pass) /\ (~ di_ok ps di -> filter_by_di (render ps) di = Drop).
Proof.
  intros Hwf Hv Hd. unfold filter_by_di, di_ok.
  destruct ps as [|p0 ps0].
  { split; [reflexivity|]. intros H. exfalso. apply H. left. intros p []. }
  set (ps := p0 :: ps0) in *.
  destruct (render ps) as [|c l] eqn:Er; [exfalso; inversion Hwf; subst; eapply render_nonempty; eassumption|].
  cbn [filter_loop]. rewrite <- Er.
  destruct (first_di (str "di") ps) as [Hno|(a & p & b & E & H1 & H2)].
  - rewrite rest_render by (try assumption; lia). split; [reflexivity|]. intros H; exfalso; apply H; left; exact Hno.
  - clear Er. rewrite E in *. rewrite (rest_hit a p b _ (str "di") Hwf) by (try assumption; lia).
    destruct (snd p) as [v|] eqn:Es.
    2:{ exfalso. apply (Hv p); [apply in_app_iff; right; left; reflexivity|exact H2|exact Es]. }
    rewrite firstn_all2 by lia.
    destruct (Nat.eqb (List.length v) 36 && list_eqb v di) eqn:Ev.
    + apply andb_true_iff in Ev as [_ Ev]. apply list_eqb_spec in Ev. subst v.
      split; [reflexivity|]. intros X. exfalso. apply X. right. exists p. split; [apply in_app_iff; right; left; reflexivity|auto].
    + assert (Hne : v <> di).
      { intros ->. rewrite Hd, Nat.eqb_refl, list_eqb_refl in Ev. discriminate. }
      assert (Hiff : (forall x, In x (a ++ p :: b) -> ~ same_ignoring_case (str "di") (fst x)) \/ some_di (a ++ p :: b) di <-> some_di b di).
      { split.
        - intros [X|(x & Hx & Hs & Hsx)].
          + exfalso. apply (X p); [apply in_app_iff; right; left; reflexivity|exact H2].
          + apply in_app_iff in Hx as [Hx|[<-|Hx]]; [destruct (H1 x Hx Hs)|congruence|]. exists x; auto.
        - intros (x & Hx & Hs). right. exists x. split; [apply in_app_iff; right; right; exact Hx|exact Hs]. }
      unfold some_di in Hiff at 1. rewrite Hiff.
      apply (filter_tail (List.length b)); try assumption; try lia.
      * assert (X : exists pre, render (a ++ p :: b) = pre ++ tail_text b /\ pre <> []).
        { clear - Hwf. induction a as [|x a IHa].
          - exists (render_pair p). split; [apply render_cons|]. apply render_pair_nonempty. inversion Hwf; assumption.
          - destruct IHa as (pre & IHa & Hp); [inversion Hwf; assumption|]. cbn [app]. rewrite render_cons.
            destruct (a ++ p :: b) as [|y l] eqn:E; [destruct a; discriminate|].
            cbn [tail_text]. rewrite IHa. exists (render_pair x ++ 38%N :: pre). rewrite <- app_assoc. split; [reflexivity|]. destruct (render_pair x); discriminate. }
        destruct X as (pre & X & Hp). rewrite X, app_length. destruct pre; [congruence|]. cbn [List.length]. lia.
      * apply Forall_app in Hwf as [_ Hwf]. inversion Hwf; assumption.
      * intros x Hx. apply Hv. apply in_app_iff; right; right; exact Hx.
Qed.
