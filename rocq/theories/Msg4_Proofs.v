(** Order in all runs, and the end of the work. *)

From Coq Require Import List Bool Arith Lia.
From Verif Require Import Msg_Model Msg_Spec Msg_Proofs Msg2_Proofs Msg3_Proofs.
Import ListNotations.

Definition rel (b : bool) (l m : list nat) : Prop := if b then l = m else within l m.

(** When nothing is lost. *)
Definition sure (c : cfg) (n : nat) : Prop :=
  dyn c = true /\ 1 <= n <= 6.

Definition D (c : cfg) (n : nat) (b : bool) (s : st) : Prop :=
  rel b (line c n (tr s) (queue s)) (handed c n (tr s)).

Lemma rel_less : forall b l l' m, rel b l m -> within l' l -> (b = true -> l' = l) -> rel b l' m.
Proof.
  intros [|] l l' m H W E; cbn [rel] in *.
  - rewrite (E eq_refl). exact H.
  - apply (within_trans _ _ _ H). exact W.
Qed.

Lemma rel_snoc : forall b l m k, rel b l m -> rel b (l ++ k) (m ++ k).
Proof.
  intros [|] l m k H; cbn [rel] in *; [rewrite H; reflexivity|].
  apply within_app; [exact H|apply within_refl].
Qed.

Lemma rel_skip : forall l m k, rel false l m -> rel false l (m ++ k).
Proof.
  intros l m k H. cbn [rel] in *. rewrite <- (app_nil_r l). apply within_app; [exact H|apply within_none].
Qed.

Lemma arrived_app : forall c n l m, arrived c n (l ++ m) = arrived c n l ++ arrived c n m.
Proof. intros. apply flat_map_app. Qed.
Lemma handed_app : forall c n l m, handed c n (l ++ m) = handed c n l ++ handed c n m.
Proof. intros. apply flat_map_app. Qed.

Definition neutral (e : ev) : Prop :=
  match e with
  | EFree _ | EDisc _ | EGroup _ | EWrite _ | ENull => True
  | EBorn i => copy i = true
  | _ => False
  end.

Lemma neutral_nil : forall c n e, neutral e -> arrived c n [e] = [] /\ handed c n [e] = [].
Proof.
  intros c n e H. destruct e; cbn [neutral] in H; try contradiction; try (split; reflexivity).
  split; [reflexivity|]. cbn [handed flat_map]. unfold handed. cbn [flat_map]. rewrite H. reflexivity.
Qed.

Lemma D_emit : forall c n b e s, neutral e -> D c n b s -> D c n b (emit e s).
Proof.
  intros c n b e s N H. unfold D in *. cbn [emit tr queue]. destruct (neutral_nil c n e N) as [A B].
  unfold line in *. rewrite arrived_app, handed_app, A, B, !app_nil_r. exact H.
Qed.

Lemma D_misc : forall c n b s, D c n b s -> D c n b (forward c Misc s).
Proof.
  intros c n b s H. unfold forward. destruct (full c s); [exact H|]. unfold D in *. cbn [push tr queue].
  unfold line in *. rewrite !at_snoc. cbn [spot]. rewrite !app_nil_r. exact H.
Qed.

Lemma D_others : forall c n b k s, D c n b s -> D c n b (others c k s).
Proof.
  intros c n b k. induction k as [|k IH]; intros s H; [exact H|]. cbn [others]. apply IH, D_misc. exact H.
Qed.

Lemma D_keep : forall c n b i s, D c n b s -> D c n b (keep i s).
Proof. intros. assumption. Qed.

(** A loss is none for the other lanes. *)
Lemma D_lost : forall c n b w i q t k l,
  D c n b (mkst (Ev w i :: q) t k l) -> (b = true -> lane c i <> n) -> D c n b (mkst q t k l).
Proof.
  intros c n b w i q t k l H L. unfold D in *. cbn [tr queue] in *.
  destruct (line_lost c n l w i q) as [A B]. apply (rel_less b _ _ _ H A).
  intros E. apply B. apply L. exact E.
Qed.

Lemma sure_nz : forall c n, sure c n -> n <> 0.
Proof. intros c n [_ S]. lia. Qed.

Lemma sure_dyn : forall c n s, sure c n -> full c s = false.
Proof. intros c n s [S _]. unfold full. rewrite S. reflexivity. Qed.

Lemma D_hand : forall c n b w f s,
  (b = true -> sure c n) -> fit_all c (queue s) ->
  (forall m, copy (f m) = false /\ fits c w (f m) /\
     (stage w = 1 \/ (org (f m) = Dec /\ (stage w = 2 \/ oscore c = false)))) ->
  D c n b s -> D c n b (hand c w f s) /\ fit_all c (queue (hand c w f s)).
Proof.
  intros c n b w f s SU F H V. destruct (H (next s)) as [A [B E]]. unfold hand, pass. cbv zeta.
  set (x := f (next s)) in *.
  assert (HD : handed c n (tr s ++ [EBorn x]) = handed c n (tr s) ++ one c n x).
  { rewrite handed_app. f_equal. unfold handed. cbn [flat_map]. rewrite A. cbn [negb andb].
    rewrite app_nil_r. reflexivity. }
  assert (AR : arrived c n (tr s ++ [EBorn x]) = arrived c n (tr s)).
  { rewrite arrived_app. cbn [arrived flat_map]. apply app_nil_r. }
  destruct (full c _) eqn:FU.
  - split; [|exact F]. apply D_emit; [exact Logic.I|]. destruct b.
    { rewrite (sure_dyn c n _ (SU eq_refl)) in FU. discriminate FU. }
    unfold D in *. cbn [tr queue]. rewrite HD. apply rel_skip. unfold line in *. rewrite AR. exact V.
  - split.
    + unfold D in *. cbn [push tr queue]. rewrite HD, line_hand by assumption. apply rel_snoc.
      unfold line in *. rewrite AR. exact V.
    + intros v j X. cbn [push queue] in X. apply in_app_or in X. destruct X as [X|[X|[]]]; [apply F; exact X|].
      inversion X. subst v j. exact B.
Qed.

Lemma D_send : forall c n b d s,
  (b = true -> sure c n) -> fit_all c (queue s) -> D c n b s ->
  D c n b (send_message c d s) /\ fit_all c (queue (send_message c d s)).
Proof.
  intros. apply D_hand; try assumption. intros m. split; [reflexivity|]. split; [split; reflexivity|].
  left. reflexivity.
Qed.

Lemma D_sends : forall c n b l s,
  (b = true -> sure c n) -> fit_all c (queue s) -> D c n b s ->
  D c n b (fold_left (fun s d => send_message c d s) l s).
Proof.
  intros c n b l. induction l as [|d l IH]; intros s SU F V; [exact V|]. cbn [fold_left].
  destruct (D_send c n b d s SU F V) as [A B]. apply IH; assumption.
Qed.

Lemma D_sink : forall c n b w i q t k l e,
  D c n b (mkst (Ev w i :: q) t k l) -> fit_all c q -> arrived c n [e] = one c n i -> handed c n [e] = [] ->
  stage w = 3 \/ (stage w = 1 /\ lane c i = 1) -> D c n b (emit e (mkst q t k l)).
Proof.
  intros c n b w i q t k l e V F A HN S. unfold D in *. cbn [emit tr queue] in *.
  rewrite (line_sink c n l w i q e F A S), handed_app, HN, app_nil_r. exact V.
Qed.

Lemma D_push : forall c n b w i w' i' q t k l,
  D c n b (mkst (Ev w i :: q) t k l) -> fit_all c q -> no i' = no i -> lane c i' = lane c i ->
  (stage w = 2 /\ stage w' = 3) \/
  (stage w = 1 /\ (stage w' = 2 \/ (stage w' = 3 /\ lane c i <> 0 /\ (oscore c = false \/ lane c i = 3 \/ lane c i = 5)))) ->
  D c n b (push (Ev w' i') (mkst q t k l)).
Proof.
  intros c n b w i w' i' q t k l V F N L S. unfold D in *. cbn [push tr queue] in *.
  rewrite (line_hop c n l w i w' i' q F N L S). exact V.
Qed.

Lemma D_forward : forall c n b w i w' i' q t k l,
  D c n b (mkst (Ev w i :: q) t k l) -> fit_all c q -> (dyn c = false -> length q < 10) ->
  no i' = no i -> lane c i' = lane c i ->
  (stage w = 2 /\ stage w' = 3) \/
  (stage w = 1 /\ (stage w' = 2 \/ (stage w' = 3 /\ lane c i <> 0 /\ (oscore c = false \/ lane c i = 3 \/ lane c i = 5)))) ->
  D c n b (forward c (Ev w' i') (mkst q t k l)).
Proof.
  intros. unfold forward. rewrite room by assumption. eapply D_push; eassumption.
Qed.

Lemma D_pass : forall c n b w i w' i' q t k l,
  (b = true -> sure c n) ->
  D c n b (mkst (Ev w i :: q) t k l) -> fit_all c q -> no i' = no i -> lane c i' = lane c i ->
  stage w = 2 -> stage w' = 3 -> D c n b (pass c w' i' (mkst q t k l)).
Proof.
  intros c n b w i w' i' q t k l SU V F N L S S'. unfold pass. destruct (full c _) eqn:FU.
  - apply D_emit; [exact Logic.I|]. apply (D_lost c n b w i); [exact V|]. intros E.
    rewrite (sure_dyn c n _ (SU E)) in FU. discriminate FU.
  - apply (D_push c n b w i); auto.
Qed.

Lemma D_handle : forall c n b x w i q t k l,
  (b = true -> sure c n) -> (b = true -> good c n x) -> D c n b (mkst (Ev w i :: q) t k l) -> fit_all c (Ev w i :: q) ->
  (dyn c = false -> length q < 10) -> D c n b (handle c x w i (mkst q t k l)).
Proof.
  intros c n b x w i q t k l SU GO V FA LE. assert (F := FA w i (or_introl eq_refl)).
  apply fit_tail in FA. destruct w; cbn [handle].
  - (* NetIn *)
    unfold net_in. cbn [fits] in F. destruct F as [O [C SE]].
    assert (LN : lane c i = if enc i then 5 else if oscore c && multi i then 4 else 3) by (unfold lane; rewrite O; reflexivity).
    revert LN. destruct (enc i); [|destruct (oscore c && multi i)]; intros LN;
      apply (D_forward c n b NetIn i); try assumption; try reflexivity; right; (split; [reflexivity|]);
      first [left; reflexivity|right; split; [reflexivity|split; [lia|right; lia]]].
  - (* NetOut *)
    unfold net_out. cbn [fits] in F. destruct F as [O C].
    assert (LN : lane c i = if client c && disc i then 0
           else if client c && oscore c && (multi i && sec i) then 0
           else if sec i then 2 else 1) by (unfold lane; rewrite O; reflexivity).
    revert LN. destruct (client c && disc i); [|destruct (client c && oscore c && (multi i && sec i)); [|destruct (sec i); [destruct (oscore c) eqn:OS|]]]; intros LN.
    + apply D_emit; [exact Logic.I|]. apply D_emit; [exact Logic.I|]. apply (D_lost c n b NetOut i); [exact V|].
      intros E. assert (Z := sure_nz _ _ (SU E)). lia.
    + apply (D_forward c n b NetOut i); try assumption; try reflexivity. right. split; [reflexivity|]. left. reflexivity.
    + apply (D_forward c n b NetOut i); try assumption; try reflexivity. right. split; [reflexivity|]. left. reflexivity.
    + apply (D_forward c n b NetOut i); try assumption; try reflexivity. right. split; [reflexivity|]. right.
      split; [reflexivity|]. split; [lia|left; exact OS].
    + apply D_emit; [exact Logic.I|]. apply (D_sink c n b NetOut i); try assumption; try reflexivity.
      * unfold arrived, one. cbn [flat_map]. apply app_nil_r.
      * right. split; [reflexivity|exact LN].
  - (* FromNet *)
    unfold from_net. cbv zeta. apply D_others.
    assert (W : D c n b (emit (ETlsIn i) (mkst q t k l))).
    { apply (D_sink c n b FromNet i); try assumption; try reflexivity;
        [unfold arrived, one; cbn [flat_map]; apply app_nil_r|left; reflexivity]. }
    destruct (x_tls x); [apply D_keep; exact W|apply D_keep; exact W|apply D_emit; [exact Logic.I|exact W]].
  - (* ToTls *)
    unfold to_tls. cbv zeta. apply D_others.
    assert (W : D c n b (emit (ETls i) (mkst q t k l))).
    { apply (D_sink c n b ToTls i); try assumption; try reflexivity;
        [unfold arrived, one; cbn [flat_map]; apply app_nil_r|left; reflexivity]. }
    destruct (x_tls x); [|apply D_keep; exact W|apply D_emit; [exact Logic.I|exact W]].
    apply D_emit; [exact Logic.I|]. apply D_emit; [exact Logic.I|exact W].
  - (* OscIn *)
    unfold osc_in. assert (NO : org i <> Out) by (destruct F as [_ [_ [D|[D _]]]]; congruence).
    destruct (x_osc x) eqn:XO; [destruct (x_ok x) eqn:XK|].
    + apply (D_pass c n b OscIn i); try assumption; try reflexivity.
      unfold lane. cbn [opened org enc multi]. destruct (org i); [reflexivity|destruct (NO eq_refl)|reflexivity].
    + cbv zeta. assert (W : D c n b (mkst q t k l)).
      { apply (D_lost c n b OscIn i); [exact V|]. intros E L. destruct F as [_ [O F]].
        destruct (GO E O) as [G _]. assert (n = 4 \/ n = 6).
        { rewrite <- L. unfold lane. destruct F as [F|[F1 [F2 [F3 _]]]]; [rewrite F; auto|].
          rewrite F1, F2, F3, O. auto. }
        rewrite G in XK by assumption. discriminate XK. }
      apply D_emit; [exact Logic.I|]. destruct (x_err x && negb (multi i)); [|exact W].
      apply D_send; assumption.
    + apply (D_pass c n b OscIn i); try assumption; reflexivity.
  - (* OscOut *)
    assert (W : (x_ctx x = true -> multi i = false -> x_mem x = true -> x_cover x = Fails) -> x_ctx x = true ->
                D c n b (mkst q t k l)).
    { intros XF XC. apply (D_lost c n b OscOut i); [exact V|]. intros E L. destruct F as [_ [OS F]].
      destruct (GO E OS) as [_ G]. rewrite F in L. destruct (G (eq_sym L)) as [G1|[G1 [G2 G3]]]; [congruence|].
      apply G3. apply XF; try assumption. unfold lane in F. rewrite (lane_two_out c i) in F by exact F.
      rewrite G1, OS in F. destruct (disc i); [discriminate F|]. cbn [andb] in F.
      destruct (multi i); [|reflexivity]. destruct (sec i); cbn [andb] in F; discriminate F. }
    assert (W2 : D c n b (mkst (Ev OscOut i :: q) t k ((l ++ [EBorn (clone i)]) ++ [EFree i]))).
    { apply (D_emit c n b (EFree i) (emit (EBorn (clone i)) (mkst (Ev OscOut i :: q) t k l))); [exact Logic.I|].
      apply D_emit; [reflexivity|exact V]. }
    assert (O : org i = Out) by (destruct F as [_ [_ F]]; apply (lane_two_out c i F)).
    assert (LC : lane c (clone i) = lane c i) by (unfold lane; cbn [clone org enc multi disc sec]; rewrite O; reflexivity).
    unfold osc_out. destruct (x_ctx x) eqn:XC; [destruct (multi i) eqn:MU; [|destruct (x_mem x) eqn:XM; [destruct (x_cover x) eqn:XV|]]|].
    + apply D_emit; [exact Logic.I|]. apply W; [intros _ X; discriminate X|reflexivity].
    + apply (D_forward c n b OscOut i _ _ q t k ((l ++ [EBorn (clone i)]) ++ [EFree i])); try assumption; try reflexivity.
      left. split; reflexivity.
    + apply (D_forward c n b OscOut i _ _ q t k ((l ++ [EBorn (clone i)]) ++ [EFree i])); try assumption; try reflexivity.
      left. split; reflexivity.
    + apply D_emit; [exact Logic.I|]. apply D_emit; [exact Logic.I|]. apply D_emit; [reflexivity|].
      apply W; [intros; reflexivity|reflexivity].
    + apply D_emit; [exact Logic.I|]. apply W; [intros _ _ X; discriminate X|reflexivity].
    + apply (D_forward c n b OscOut i); try assumption; try reflexivity. left. split; reflexivity.
  - (* OscGroup *)
    assert (W : D c n b (mkst q t k l)).
    { apply (D_lost c n b OscGroup i); [exact V|]. intros E.
      assert (Z := sure_nz _ _ (SU E)). destruct F as [_ [_ [_ F]]]. congruence. }
    unfold osc_group. destruct (x_ctx x && x_ok x); repeat (apply D_emit; [exact Logic.I|]); exact W.
  - (* CoapIn *)
    unfold coap_in. apply D_emit; [exact Logic.I|]. apply D_sends; [exact SU|exact FA|].
    apply (D_sink c n b CoapIn i); try assumption; try reflexivity;
      [unfold arrived, one; cbn [flat_map]; apply app_nil_r|left; reflexivity].
Qed.

Lemma at_filter : forall c k n f q, within (at_ c k n (filter f q)) (at_ c k n q).
Proof.
  intros c k n f q. induction q as [|e q IH]; [constructor|]. cbn [filter]. rewrite at_cons. destruct (f e).
  - rewrite at_cons. apply within_app; [apply within_refl|exact IH].
  - change (at_ c k n (filter f q)) with ([] ++ at_ c k n (filter f q)). apply within_app; [apply within_none|exact IH].
Qed.

Lemma neutral_frees : forall c n l, arrived c n (map EFree l) = [] /\ handed c n (map EFree l) = [].
Proof. intros c n l. induction l as [|i l IH]; [split; reflexivity|exact IH]. Qed.

Definition no_loss (c : cfg) (n : nat) (o : op) : Prop :=
  match o with ODrop _ => False | OTurn x => good c n x | _ => True end.

Lemma D_step : forall c n b s o,
  (b = true -> sure c n) -> (b = true -> no_loss c n o) -> J c s -> D c n b s -> D c n b (step c s o).
Proof.
  intros c n b s o SU ND [h [V _]] W.
  assert (F : fit_all c (queue s)) by (intros w i X; apply (i_fit _ _ _ V); exact X).
  destruct o as [e en mu|d|e| |e|m r|x]; cbn [step].
  - apply D_hand; try assumption. intros m. split; [reflexivity|]. split; [repeat split; reflexivity|left; reflexivity].
  - apply D_send; assumption.
  - apply D_hand; try assumption. intros m. split; [reflexivity|].
    destruct (oscore c) eqn:O; cbn [fits stage org]; [split; [auto|right; auto]|].
    split; [left; reflexivity|right; auto].
  - apply D_misc. exact W.
  - destruct b; [destruct (ND eq_refl)|].
    unfold D in *. cbn [drop_endpoint tr queue]. destruct (neutral_frees c n (items (filter (dropped e) (queue s)))) as [A B].
    rewrite handed_app, B, app_nil_r. apply (rel_less _ _ _ _ W); [|discriminate].
    unfold line. rewrite arrived_app, A, app_nil_r. apply within_app; [apply within_refl|].
    repeat apply within_app; apply at_filter.
  - unfold release. destruct (nth_error (tls s) m) as [i|]; [|exact W]. cbv zeta.
    apply D_emit; [exact Logic.I|]. destruct (r && _); [apply D_emit; [exact Logic.I|]|]; exact W.
  - unfold turn. destruct s as [q t k l]. cbn [queue tls next tr] in *. destruct q as [|[w i|] q]; cbv zeta; [exact W| |].
    + apply D_handle; try assumption. intros E. assert (Z := i_len _ _ _ V E). cbn [queue length] in Z. lia.
    + apply D_others. exact W.
Qed.

Lemma run_D : forall c n b ops,
  (b = true -> sure c n) -> (b = true -> Forall (no_loss c n) ops) -> D c n b (run c ops).
Proof.
  intros c n b ops SU. induction ops as [|o ops IH] using rev_ind; intros ND.
  - unfold D. cbn. destruct b; constructor.
  - rewrite run_snoc. apply D_step; [exact SU| |apply run_J|].
    + intros E. specialize (ND E). rewrite Forall_app in ND. destruct ND as [_ ND]. inversion ND. assumption.
    + apply IH. intros E. specialize (ND E). rewrite Forall_app in ND. apply ND.
Qed.

(** The work ends. *)
Definition weigh (e : qev) : nat := match e with Ev w _ => 4 - stage w | Misc => 1 end.
Definition weight (q : list qev) : nat := fold_right (fun e k => weigh e + k) 0 q.

Lemma weight_snoc : forall q e, weight (q ++ [e]) = weight q + weigh e.
Proof. intros q e. induction q as [|x q IH]; cbn [weight app fold_right] in *; [lia|]. unfold weight in IH. lia. Qed.

Lemma weigh_pos : forall e, 1 <= weigh e <= 3.
Proof. intros [w i|]; cbn [weigh]; [destruct w; cbn [stage]; lia|lia]. Qed.

Lemma weight_forward : forall c e s, weight (queue (forward c e s)) <= weight (queue s) + weigh e.
Proof. intros c e s. unfold forward. destruct (full c s); [lia|]. cbn [push queue]. rewrite weight_snoc. lia. Qed.

Lemma weight_pass : forall c w i s, weight (queue (pass c w i s)) <= weight (queue s) + weigh (Ev w i).
Proof. intros c w i s. unfold pass. destruct (full c s); cbn [emit push queue]; [lia|]. rewrite weight_snoc. lia. Qed.

Lemma turn_less : forall c x s, quiet x -> queue s <> [] ->
  weight (queue (turn c x s)) < weight (queue s).
Proof.
  intros c x [q t k l] [A [B E]] NE. unfold turn. cbn [queue tls next tr] in *. destruct q as [|e q]; [destruct (NE eq_refl)|].
  cbv zeta. set (s := mkst q t k l). assert (Q : queue s = q) by reflexivity.
  assert (GF : forall w i, weight (queue (forward c (Ev w i) s)) <= weight q + (4 - stage w)).
  { intros w i. apply (weight_forward c (Ev w i) s). }
  assert (GP : forall w i, weight (queue (pass c w i s)) <= weight q + (4 - stage w)).
  { intros w i. apply (weight_pass c w i s). }
  change (weight (e :: q)) with (weigh e + weight q).
  destruct e as [w i|]; cbn [weigh]; [|rewrite E; cbn [others]; rewrite Q; lia].
  destruct w; cbn [handle stage].
  - unfold net_in. destruct (enc i); [|destruct (oscore c && multi i)];
      match goal with |- context [forward c (Ev ?w i) s] => specialize (GF w i); cbn [stage] in GF end; lia.
  - unfold net_out. destruct (client c && disc i); [cbn [emit queue]; rewrite Q; lia|].
    destruct (client c && oscore c && (multi i && sec i)); [|destruct (sec i); [destruct (oscore c)|]];
      try (match goal with |- context [forward c (Ev ?w i) s] => specialize (GF w i); cbn [stage] in GF end; lia).
    cbn [emit queue]. rewrite Q. lia.
  - unfold from_net. cbv zeta. rewrite E. cbn [others]. destruct (x_tls x); cbn [emit keep queue]; rewrite Q; lia.
  - unfold to_tls. cbv zeta. rewrite E. cbn [others]. destruct (x_tls x); cbn [emit keep queue]; rewrite Q; lia.
  - unfold osc_in. destruct (x_osc x); [destruct (x_ok x)|].
    + specialize (GP CoapIn (opened i)). cbn [stage] in GP. lia.
    + rewrite A. cbn [andb emit queue]. rewrite Q. lia.
    + specialize (GP CoapIn i). cbn [stage] in GP. lia.
  - unfold osc_out. destruct (x_ctx x); [destruct (multi i); [|destruct (x_mem x); [destruct (x_cover x)|]]|];
      try (cbn [emit queue]; rewrite Q; lia).
    + cbv zeta. assert (G := weight_forward c (Ev ToTls (protect (clone i))) (emit (EFree i) (emit (EBorn (clone i)) s))).
      cbn [weigh stage emit queue] in G. rewrite Q in G. cbn [emit queue] in *. lia.
    + cbv zeta. assert (G := weight_forward c (Ev ToTls (clone i)) (emit (EFree i) (emit (EBorn (clone i)) s))).
      cbn [weigh stage emit queue] in G. rewrite Q in G. cbn [emit queue] in *. lia.
    + specialize (GF ToTls i). cbn [stage] in GF. lia.
  - unfold osc_group. destruct (x_ctx x && x_ok x); cbn [emit queue]; rewrite Q; lia.
  - unfold coap_in. rewrite B. cbn [fold_left emit queue]. rewrite Q. lia.
Qed.

Lemma weight_len : forall q, weight q <= 3 * length q.
Proof.
  intros q. induction q as [|e q IH]; [auto|]. change (weight (e :: q)) with (weigh e + weight q).
  cbn [length]. assert (W := weigh_pos e). lia.
Qed.

Lemma drains_w : forall c xs s, Forall quiet xs -> weight (queue s) <= length xs ->
  queue (fold_left (step c) (map OTurn xs) s) = [].
Proof.
  intros c xs. induction xs as [|x xs IH]; intros s F L; cbn [map fold_left length] in *.
  - destruct (queue s) as [|e q]; [reflexivity|]. change (weight (e :: q)) with (weigh e + weight q) in L.
    assert (W := weigh_pos e). lia.
  - inversion F; subst. apply IH; [assumption|]. cbn [step].
    destruct (queue s) as [|e q] eqn:Q.
    + unfold turn. rewrite Q, Q. cbn [weight fold_right]. lia.
    + assert (W := turn_less c x s H1). rewrite Q in W. assert (X := W ltac:(discriminate)). lia.
Qed.

Lemma drains : forall c ops xs, Forall quiet xs -> 3 * length (queue (run c ops)) <= length xs ->
  queue (run c (ops ++ map OTurn xs)) = [].
Proof.
  intros c ops xs F L. unfold run. rewrite fold_left_app. apply drains_w; [exact F|].
  assert (W := weight_len (queue (run c ops))). unfold run in *. lia.
Qed.
