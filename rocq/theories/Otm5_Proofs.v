(** Proofs about ownership transfer, part 5: the other operations, and whole
    runs. *)

From Coq Require Import List Bool Arith Lia.
From Verif Require Obt_Proofs.
From Verif Require Import Otm_Model Otm_Spec Otm_Proofs Otm2_Proofs Otm3_Proofs Otm4_Proofs.
Import ListNotations.

Lemma uuid_get : forall h s, uuid_of h s = du (get h s).
Proof.
  intros h s. unfold uuid_of, get. destruct (nth_error (heap s) h) eqn:E.
  - apply (nth_error_nth _ _ (mkdev 0 0 Freed)) in E. rewrite E. reflexivity.
  - apply nth_error_None in E. rewrite nth_overflow by exact E. reflexivity.
Qed.

Lemma kept_get : forall h s, kept h s = dl (get h s).
Proof.
  intros h s. unfold kept, get. destruct (nth_error (heap s) h) eqn:E.
  - apply (nth_error_nth _ _ (mkdev 0 0 Freed)) in E. rewrite E. reflexivity.
  - apply nth_error_None in E. rewrite nth_overflow by exact E. reflexivity.
Qed.

Lemma find_cached_some : forall u l i h, find_cached u i l = Some h ->
  exists j, h = i + j /\ du (nth j l (mkdev 0 0 Freed)) = u /\ dl (nth j l (mkdev 0 0 Freed)) = Cached.
Proof.
  induction l as [|d l IH]; intros i h H; [discriminate H|]. cbn [find_cached] in H.
  destruct (is_cached (dl d) && (du d =? u)) eqn:E.
  - injection H as <-. apply andb_true_iff in E. destruct E as [E1 E2]. apply Nat.eqb_eq in E2.
    exists 0. split; [lia|]. cbn [nth]. split; [exact E2|]. destruct (dl d); try discriminate E1. reflexivity.
  - destruct (IH (S i) h H) as [j [A B]]. exists (S j). split; [lia|exact B].
Qed.

Lemma find_cached_none : forall u l i, find_cached u i l = None ->
  forall j, dl (nth j l (mkdev 0 0 Freed)) = Cached -> du (nth j l (mkdev 0 0 Freed)) <> u.
Proof.
  induction l as [|d l IH]; intros i H j E; [destruct j; discriminate E|]. cbn [find_cached] in H.
  destruct (is_cached (dl d) && (du d =? u)) eqn:Q; [discriminate H|].
  destruct j as [|j]; cbn [nth] in *; [|apply (IH (S i) H j E)].
  rewrite E in Q. cbn [is_cached andb] in Q. apply Nat.eqb_neq. exact Q.
Qed.

Lemma handle_some : forall u s h, handle u s = Some h -> dl (get h s) = Cached /\ du (get h s) = u.
Proof.
  intros u s h H. unfold handle in H. destruct (find_cached_some _ _ _ _ H) as [j [A [B C]]].
  cbn [Nat.add] in A. subst j. split; assumption.
Qed.

Lemma handle_none : forall u s, handle u s = None -> forall h, dl (get h s) = Cached -> du (get h s) <> u.
Proof. intros u s H h. apply (find_cached_none u _ 0). exact H. Qed.

(** Nobody transfers a device with the UUID u. *)
Definition idle (u : nat) (s : st) : Prop := forall c h, has c h s -> du (get h s) <> u.
Definition quiet (u : nat) (s : st) : Prop := forall h, In h (gets s) -> du (get h s) <> u.

Lemma drop_cred_G : forall (a f : Prop) u l s, G a f s -> idle u s ->
  (forall p, In p (creds s) -> In p l \/ fst p = u) -> G a f (set_creds l s).
Proof.
  intros a f u l s V I L. apply G_creds; [exact V|]. intros HF x X Z.
  destruct (L _ (g_keys _ _ _ V HF x X Z)) as [Q|Q]; [exact Q|exfalso]. cbn [fst] in Q.
  apply (I (cid x) (hnd x)); [exists x; auto|exact Q].
Qed.

Lemma added_G : forall (a f : Prop) c e u s, inv s -> G a f s -> cid c = next s ->
  named (stg c) = false ->
  dl (get (hnd c) s) = Cached -> du (get (hnd c) s) = u -> idle u s -> (a -> quiet u s) ->
  (forall x, e <> EReport x true) ->
  (forall x h k, e = ECall x h k -> x = next s) -> ugly e = false ->
  G a f (added c e s).
Proof.
  intros a f c e u s V K EC NM DL DU ID QU E1 E2 E3.
  assert (HH : forall d h, has d h (added c e s) -> has d h s \/ (d = cid c /\ h = hnd c)).
  { intros d h [x [A [B C]]]. unfold added, emit in A. cbn [ctxs] in A. apply in_app_or in A.
    destruct A as [A|[<-|[]]]; [left; exists x; auto|right; auto]. }
  assert (NH : forall d, ~ has d (hnd c) s) by (intros d Q; apply (ID _ _ Q); exact DU).
  assert (NR : ~ In (EReport (next s) true) (tr s)).
  { intros Q. apply (in_history (next s)) in Q; [|apply Nat.eqb_refl].
    destruct (i_closed _ V (next s)) as [[_ Z]|[Z _]]; [|rewrite Z in Q; destruct Q|lia].
    intros Z. apply (i_next _ V) in Z. lia. }
  assert (TE : forall y, In y (tr (added c e s)) -> In y (tr s) \/ y = e).
  { intros y Y. unfold added, emit in Y. cbn [tr] in Y. apply in_app_or in Y. destruct Y as [Y|[Y|[]]]; auto. }
  assert (NL : late (stg c) = false) by (destruct (stg c); try reflexivity; discriminate NM).
  split.
  - intros d h Q. destruct (HH d h Q) as [J|[_ ->]]; [apply (g_cached _ _ _ K d h J)|exact DL].
  - intros d d' h Q Q'. destruct (HH d h Q) as [J|[J1 J2]], (HH d' h Q') as [J'|[J1' J2']].
    + apply (g_apart _ _ _ K d d' h); assumption.
    + subst h. destruct (NH _ J).
    + subst h. destruct (NH _ J').
    + congruence.
  - intros d h k X Y Z. destruct (TE _ X) as [X'|X']; [|symmetry in X'; destruct (E1 _ X')].
    destruct (TE _ Y) as [Y'|Y']; [apply (g_owned _ _ _ K d h k); assumption|].
    symmetry in Y'. apply E2 in Y'. subst d. destruct (NR X').
  - intros q x Q X J. unfold added, emit in X, Q. cbn [ctxs reqs] in X, Q. apply in_app_or in X.
    destruct X as [X|[<-|[]]]; [apply (g_req _ _ _ K); assumption|exfalso].
    assert (W : In (rown q) (ids s)) by (apply (i_pre _ V); apply in_map; exact Q).
    apply (i_next _ V) in W. lia.
  - intros x X Z. unfold added, emit in X. cbn [ctxs] in X. apply in_app_or in X.
    destruct X as [X|[<-|[]]]; [apply (g_ru _ _ _ K); assumption|congruence].
  - intros HA h X. destruct (g_gets _ _ _ K HA h X) as [A B]. split; [exact A|].
    intros d Q. destruct (HH d h Q) as [J|[_ ->]]; [exact (B d J)|].
    apply (QU HA (hnd c) X). exact DU.
  - intros HA y Y. destruct (TE y Y) as [Y'| ->]; [apply (g_clean _ _ _ K HA); exact Y'|exact E3].
  - exact (g_uuid _ _ _ K).
  - intros HF x X Z. unfold added, emit in X. cbn [ctxs] in X. apply in_app_or in X.
    destruct X as [X|[<-|[]]]; [apply (g_keys _ _ _ K); assumption|congruence].
Qed.

(** A call with a context. *)
Lemma accept_G : forall (a f : Prop) h k m u s, inv s -> G a f s -> named m = false ->
  dl (get h s) = Cached -> du (get h s) = u -> idle u s -> (a -> quiet u s) ->
  G a f (send (next s) h m (added (mkctx (next s) h k m 0) (ECall (next s) h k) s)).
Proof.
  intros a f h k m u s V K NM DL DU ID QU. set (c := mkctx (next s) h k m 0).
  destruct (added_spec c (ECall (next s) h k) s) as [A [B [C D]]];
    [exact V|reflexivity|intros; apply Nat.eqb_sym|discriminate|].
  assert (K1 : G a f (added c (ECall (next s) h k) s)).
  { apply (added_G a f c _ u); try assumption; try reflexivity; [discriminate|].
    intros x h' k' Q. injection Q as <- _ _. reflexivity. }
  rewrite <- D. apply (send_G a f c); [exact B|apply (o_pre _ _ A)|exact K1| |].
  - cbn [stg c]. intros Q. rewrite NM in Q. discriminate Q.
  - cbn [stg c]. intros _ Q. destruct m; try discriminate Q; discriminate NM.
Qed.

Lemma refuse_G : forall (a f : Prop) up h k m u s, inv s -> G a f s -> named m = false ->
  dl (get h s) = Cached -> du (get h s) = u -> idle u s -> (a -> quiet u s) ->
  G a f (done up (mkctx (next s) h k m 0) false (added (mkctx (next s) h k m 0) (ERefused (next s) h k) s)).
Proof.
  intros a f up h k m u s V K NM DL DU ID QU. set (c := mkctx (next s) h k m 0).
  destruct (added_spec c (ERefused (next s) h k) s) as [A [B [C D]]];
    [exact V|reflexivity|intros; apply Nat.eqb_sym|discriminate|].
  apply done_G; [apply A|exact B|discriminate|].
  apply (added_G a f c _ u); try assumption; try reflexivity; discriminate.
Qed.

Lemma remove_temp_in : forall u p l, In p l -> In p (remove_temp u l) \/ (fst p = u /\ snd p = false).
Proof.
  induction l as [|q l IH]; intros H; [destruct H|]. cbn [remove_temp].
  destruct ((fst q =? u) && negb (snd q)) eqn:E.
  - destruct H as [<-|H]; [right|left; exact H]. apply andb_true_iff in E. destruct E as [E1 E2].
    apply Nat.eqb_eq in E1. apply negb_true_iff in E2. auto.
  - destruct H as [<-|H]; [left; left; reflexivity|].
    destruct (IH H) as [K|K]; [left; right; exact K|right; exact K].
Qed.

Lemma docall_G : forall (a f : Prop) k u l up s, inv s -> G a f s ->
  idle u s -> (a -> quiet u s) -> (a -> k = RandomPin -> l <> NoCred) ->
  G a f (docall k u l up s).
Proof.
  intros a f k u l up s V K ID QU NC.
  assert (NO : forall s, G a f s -> G a f (emit ENo s)).
  { intros s' V'. apply emit_G; [exact V'|discriminate|discriminate|reflexivity]. }
  assert (FO : G a f (if owned u s then forget u s else s)).
  { destruct (owned u s); [|exact K]. apply (drop_cred_G a f u); [exact K|exact ID|].
    intros p P. apply remove_first_in. exact P. }
  assert (VF := forget_if u s V).
  assert (GE : forall h, get h (if owned u s then forget u s else s) = get h s) by (intros; destruct (owned u s); reflexivity).
  assert (HE : forall c h, has c h (if owned u s then forget u s else s) -> has c h s)
    by (intros c h; destruct (owned u s); intros Q; exact Q).
  assert (SE : gets (if owned u s then forget u s else s) = gets s) by (destruct (owned u s); reflexivity).
  unfold docall. cbv zeta. set (s1 := if owned u s then forget u s else s) in *. clearbody s1.
  assert (I1 : idle u s1) by (intros c h Q; rewrite GE; apply (ID c); apply HE; exact Q).
  assert (Q1 : a -> quiet u s1) by (intros HA h Q; rewrite GE; apply (QU HA); rewrite <- SE; exact Q).
  assert (JW : forall k h s, inv s -> G a f s -> dl (get h s) = Cached -> du (get h s) = u ->
    idle u s -> (a -> quiet u s) ->
    G a f (match l with
         | NoContext => emit ENo s
         | AllWell => send (next s) h MGet (added (mkctx (next s) h k MGet 0) (ECall (next s) h k) s)
         | _ => done up (mkctx (next s) h k MGet 0) false
                  (added (mkctx (next s) h k MGet 0) (ERefused (next s) h k) s)
         end)).
  { clear - NO. intros k h s V K A B C D. destruct l.
    - apply NO. exact K.
    - apply (refuse_G a f up h k MGet u); try assumption; reflexivity.
    - apply (refuse_G a f up h k MGet u); try assumption; reflexivity.
    - apply (accept_G a f h k MGet u); try assumption; reflexivity. }
  destruct k.
  - destruct (handle u s) as [h|] eqn:H; [|apply NO; exact K]. destruct (handle_some _ _ _ H) as [A B].
    apply (JW JustWorks); try assumption; rewrite GE; assumption.
  - destruct (handle u s) as [h|] eqn:H; [|apply NO; exact K]. destruct (handle_some _ _ _ H) as [A B].
    destruct l.
    + apply NO. exact FO.
    + apply NO. apply emit_G; [exact FO|discriminate|discriminate|]. intros HA. destruct (NC HA eq_refl eq_refl).
    + set (t := learn u false s1). assert (VT : inv t) by (apply (inv_still s1); [exact VF|apply still_creds]).
      assert (KT : G a f t) by (apply learn_G; exact FO).
      destruct (hangup_frame up (da (get h s1)) t (i_pre _ VT)) as [L F].
      assert (V2 : inv (hangup up (da (get h s1)) t)) by (apply hangup_inv; exact VT).
      assert (K2 : G a f (hangup up (da (get h s1)) t)) by (apply hangup_G; [apply VT|exact KT]).
      set (s2 := hangup up (da (get h s1)) t) in *. clearbody s2.
      assert (C := fr_calm _ _ _ F).
      assert (I2 : idle u s2).
      { intros c i Q. rewrite (k_du _ _ _ C). apply (I1 c). apply (has_keep _ _ _ _ _ (fr_ctxs _ _ _ F) Q). }
      assert (Q2 : a -> quiet u s2).
      { intros HA i Q. rewrite (k_du _ _ _ C). apply (Q1 HA). rewrite (k_gets _ _ _ C) in Q. exact Q. }
      assert (DU : du (get h s2) = u).
      { rewrite (k_du _ _ _ C). change (get h t) with (get h s1). rewrite GE. exact B. }
      assert (DL : dl (get h s2) = Cached).
      { destruct (k_dl _ _ _ C h) as [Q|Q]; [rewrite Q; change (get h t) with (get h s1); rewrite GE; exact A|exfalso].
        destruct (of_one_has _ _ _ Q) as [c [_ J]]. apply (I1 c h); [exact J|]. rewrite GE. exact B. }
      refine (refuse_G a f up h RandomPin MOm u (unlearn u s2) _ _ eq_refl DL DU I2 Q2).
      * apply (inv_still s2); [exact V2|apply still_creds].
      * apply (drop_cred_G a f u); [exact K2|exact I2|]. intros p P.
        destruct (remove_temp_in u p (rev (creds s2))) as [J|[J _]]; [apply in_rev in P; exact P| |right; exact J].
        left. apply -> in_rev. exact J.
    + set (t := learn u false s1). assert (VT : inv t) by (apply (inv_still s1); [exact VF|apply still_creds]).
      assert (KT : G a f t) by (apply learn_G; exact FO).
      destruct (hangup_frame up (da (get h s1)) t (i_pre _ VT)) as [L F].
      assert (V2 : inv (hangup up (da (get h s1)) t)) by (apply hangup_inv; exact VT).
      assert (K2 : G a f (hangup up (da (get h s1)) t)) by (apply hangup_G; [apply VT|exact KT]).
      set (s2 := hangup up (da (get h s1)) t) in *. clearbody s2.
      assert (C := fr_calm _ _ _ F).
      apply (accept_G a f h RandomPin MOm u); try assumption; try reflexivity.
      * destruct (k_dl _ _ _ C h) as [Q|Q]; [rewrite Q; change (get h t) with (get h s1); rewrite GE; exact A|exfalso].
        destruct (of_one_has _ _ _ Q) as [c [_ J]]. apply (I1 c h); [exact J|]. rewrite GE. exact B.
      * rewrite (k_du _ _ _ C). change (get h t) with (get h s1). rewrite GE. exact B.
      * intros c i Q. rewrite (k_du _ _ _ C). apply (I1 c). apply (has_keep _ _ _ _ _ (fr_ctxs _ _ _ F) Q).
      * intros HA i Q. rewrite (k_du _ _ _ C). apply (Q1 HA). rewrite (k_gets _ _ _ C) in Q. exact Q.
  - destruct (handle u s) as [h|] eqn:H; [|apply NO; exact K]. destruct (handle_some _ _ _ H) as [A B].
    apply (JW MfgCert); try assumption; rewrite GE; assumption.
  - destruct (owned u s); [apply NO; exact K|].
    destruct (handle u s) as [h|] eqn:H; [|apply NO; exact K]. destruct (handle_some _ _ _ H) as [A B].
    apply (JW AskPin); try assumption.
Qed.

Lemma in_range : forall h s, dl (get h s) <> Freed -> h < length (heap s).
Proof.
  intros h s D. destruct (Nat.lt_ge_cases h (length (heap s))) as [Q|Q]; [exact Q|].
  exfalso. apply D. unfold get. rewrite nth_overflow by exact Q. reflexivity.
Qed.

Lemma discover_G : forall (a f : Prop) u ad s, G a f s -> (a -> idle u s) -> G a f (discover u ad s).
Proof.
  intros a f u ad s K ID. unfold discover. destruct (handle u s) as [h|] eqn:H.
  - destruct (handle_some _ _ _ H) as [A B].
    set (s' := set_gets (gets s ++ [h]) (set_dev h (mkdev u ad Cached) s)).
    assert (GD : forall i, dl (get i s') = dl (get i s) /\ du (get i s') = du (get i s)).
    { intros i. change (get i s') with (get i (set_dev h (mkdev u ad Cached) s)). rewrite get_put.
      destruct ((i =? h) && _) eqn:E; [|auto]. apply andb_true_iff in E. destruct E as [E _].
      apply Nat.eqb_eq in E. subst i. cbn [dl du]. auto. }
    split.
    + intros c i Q. rewrite (proj1 (GD i)). apply (g_cached _ _ _ K c i). exact Q.
    + exact (g_apart _ _ _ K).
    + intros c i k X Y Z. rewrite (proj1 (GD i)). apply (g_owned _ _ _ K c i k); assumption.
    + exact (g_req _ _ _ K).
    + intros x X Z. rewrite (proj2 (GD _)). apply (g_ru _ _ _ K); assumption.
    + intros HA i X. rewrite (proj1 (GD i)). cbn [gets set_gets s'] in X. apply in_app_or in X.
      destruct X as [X|[<-|[]]]; [exact (g_gets _ _ _ K HA i X)|]. split; [exact A|].
      intros c Q. exact (ID HA c h Q B).
    + exact (g_clean _ _ _ K).
    + intros HF i j. rewrite (proj1 (GD i)), (proj1 (GD j)), (proj2 (GD i)), (proj2 (GD j)). apply (g_uuid _ _ _ K HF).
    + intros HF x X Z. rewrite (proj2 (GD _)). apply (g_keys _ _ _ K); assumption.
  - assert (NO := handle_none _ _ H).
    set (n := length (heap s)).
    set (s' := set_gets (gets s ++ [n]) (set_heap (heap s ++ [mkdev u ad Cached]) s)).
    assert (GN : get n s' = mkdev u ad Cached).
    { unfold get, s', set_gets, set_heap. cbn [heap]. rewrite app_nth2 by (unfold n; lia).
      unfold n. rewrite Nat.sub_diag. reflexivity. }
    assert (GO : forall i, i <> n -> get i s' = get i s).
    { intros i N. unfold get, s', set_gets, set_heap. cbn [heap].
      destruct (Nat.lt_ge_cases i n) as [Q|Q].
      - apply app_nth1. exact Q.
      - rewrite !nth_overflow; [reflexivity|unfold n in *; lia|]. rewrite app_length. cbn [length]. unfold n in *. lia. }
    assert (LT : forall i, dl (get i s) <> Freed -> i <> n).
    { intros i Q. apply in_range in Q. unfold n. lia. }
    assert (GC : forall c i, has c i s -> get i s' = get i s).
    { intros c i Q. apply GO. apply LT. rewrite (g_cached _ _ _ K c i Q). discriminate. }
    split.
    + intros c i Q. change (has c i s) in Q. rewrite (GC c i Q). apply (g_cached _ _ _ K c i). exact Q.
    + exact (g_apart _ _ _ K).
    + intros c i k X Y Z. assert (O := g_owned _ _ _ K c i k X Y Z).
      rewrite GO; [exact O|]. apply LT. rewrite O. discriminate.
    + exact (g_req _ _ _ K).
    + intros x X Z. rewrite (GC (cid x)) by (exists x; auto). apply (g_ru _ _ _ K); assumption.
    + intros HA i X. cbn [gets set_gets s'] in X. apply in_app_or in X. destruct X as [X|[<-|[]]].
      * destruct (g_gets _ _ _ K HA i X) as [P Q]. rewrite GO; [split; assumption|].
        apply LT. rewrite P. discriminate.
      * rewrite GN. split; [reflexivity|]. intros c Q. change (has c n s) in Q.
        assert (D := g_cached _ _ _ K c n Q). apply (LT n); [rewrite D; discriminate|reflexivity].
    + exact (g_clean _ _ _ K).
    + intros HF i j P Q E. destruct (Nat.eq_dec i n) as [->|Ni], (Nat.eq_dec j n) as [->|Nj].
      * reflexivity.
      * rewrite GN, (GO j Nj) in E. rewrite (GO j Nj) in Q. destruct (NO j Q (eq_sym E)).
      * rewrite GN, (GO i Ni) in E. rewrite (GO i Ni) in P. destruct (NO i P E).
      * rewrite (GO i Ni) in P, E. rewrite (GO j Nj) in Q, E. apply (g_uuid _ _ _ K HF); assumption.
    + intros HF x X Z. rewrite (GC (cid x)) by (exists x; auto). apply (g_keys _ _ _ K); assumption.
Qed.

Lemma endpoints_G : forall (a f : Prop) i s, G a f s -> G a f (endpoints i s).
Proof.
  intros a f i s K. unfold endpoints. destruct (nth_error (gets s) i) as [h|] eqn:H; [|exact K].
  set (t := set_gets (firstn i (gets s) ++ skipn (S i) (gets s)) s).
  assert (KT : G a f t).
  { destruct K as [K1 K2 K3 K9 K4 K5 K6 K7 K8]. split; try assumption.
    intros HA x X. apply K5; [exact HA|]. apply (cut_in _ _ i). exact X. }
  assert (Q : a -> touch h t = t).
  { intros HA. apply touch_ok. apply (g_gets _ _ _ K HA). apply (nth_error_In _ _ H). }
  unfold touch in *. destruct (is_freed (dl (get h t))) eqn:E; [|exact KT].
  apply emit_G; [exact KT|discriminate|discriminate|].
  intros HA. specialize (Q HA). exfalso. apply (f_equal (fun s => length (tr s))) in Q.
  unfold emit in Q. cbn [tr] in Q. rewrite app_length in Q. cbn [length] in Q. lia.
Qed.

Lemma step_G : forall (a f : Prop) o s, inv s -> G a f s ->
  (forall k u l up, o = OCall k u l up -> idle u s) ->
  (a -> forall k u l up, o = OCall k u l up -> quiet u s /\ (k = RandomPin -> l <> NoCred)) ->
  (a -> forall u ad, o = ODiscover u ad -> idle u s) ->
  (f -> forall i r x up, o = OAnswer i r x up -> forall q, nth_error (reqs s) i = Some q ->
     rmsg q = MOwner -> forall h, dl (get h s) = Cached -> du (get h s) <> rnd x) ->
  G a f (step s o).
Proof.
  intros a f o s V K H1 H2 H3 H4. destruct o as [u ad|i|k u l up|i r x up|ad up]; cbn [step].
  - apply discover_G; [exact K|]. intros HA. apply (H3 HA u ad eq_refl).
  - apply endpoints_G. exact K.
  - apply docall_G; [exact V|exact K|apply (H1 _ _ _ _ eq_refl)| |].
    + intros HA. apply (H2 HA _ _ _ _ eq_refl).
    + intros HA. apply (H2 HA _ _ _ _ eq_refl).
  - apply answer_G; [exact V|exact K|]. intros HF. apply (H4 HF _ _ _ _ eq_refl).
  - apply hangup_G; [apply V|exact K].
Qed.

Definition pinned (ops : list op) : Prop := forall u up, ~ In (OCall RandomPin u NoCred up) ops.

Lemma init_G : forall a f, G a f init.
Proof.
  intros a f.
  assert (N : forall h, get h init = mkdev 0 0 Freed) by (intros [|h]; reflexivity).
  split.
  - intros c h [x [[] _]].
  - intros c d h [x [[] _]].
  - intros c h k [].
  - intros q x [].
  - intros x [].
  - intros _ h [].
  - intros _ e [].
  - intros _ h i Q. rewrite N in Q. discriminate Q.
  - intros _ x [].
Qed.

Lemma solo_idle : forall ops before after k u l up, solo ops ->
  ops = before ++ OCall k u l up :: after -> idle u (run before).
Proof.
  intros ops before after k u l up S E c h H. rewrite <- uuid_get.
  apply (S before k u l up after c h E). apply has_progress; [apply run_inv|exact H].
Qed.

Lemma run_G : forall (a f : Prop) ops, solo ops -> (a -> apart ops /\ pinned ops) -> (f -> fresh ops) ->
  G a f (run ops).
Proof.
  intros a f. induction ops as [|o ops IH] using rev_ind; intros S A F; [apply init_G|].
  rewrite run_snoc. apply step_G.
  - apply run_inv.
  - apply IH.
    + intros before k u l up after c h E. subst ops. apply (S before k u l up (after ++ [o])).
      rewrite <- app_assoc. reflexivity.
    + intros HA. destruct (A HA) as [[A1 A2] A3]. split; [split|].
      * intros before k u l up after h E. subst ops. apply (A1 before k u l up (after ++ [o])).
        rewrite <- app_assoc. reflexivity.
      * intros before u ad after c h E. subst ops. apply (A2 before u ad (after ++ [o])).
        rewrite <- app_assoc. reflexivity.
      * intros u up Q. apply (A3 u up). apply in_or_app. left. exact Q.
    + intros HF before i r x up after q h E. subst ops. apply (F HF before i r x up (after ++ [o])).
      rewrite <- app_assoc. reflexivity.
  - intros k u l up ->. apply (solo_idle _ ops [] k u l up S eq_refl).
  - intros HA k u l up ->. destruct (A HA) as [[A1 A2] A3]. split.
    + intros h H. rewrite <- uuid_get. apply (A1 ops k u l up [] h eq_refl H).
    + intros -> ->. apply (A3 u up). apply in_or_app. right. left. reflexivity.
  - intros HA u ad ->. destruct (A HA) as [[A1 A2] A3]. intros c h H. rewrite <- uuid_get.
    apply (A2 ops u ad [] c h eq_refl). apply has_progress; [apply run_inv|exact H].
  - intros HF i r x up -> q N M h H. rewrite <- uuid_get. apply (F HF ops i r x up [] q h eq_refl N M).
    rewrite kept_get. exact H.
Qed.
