(** The invariant holds in all runs. *)

From Coq Require Import List Bool Arith Lia.
From Verif Require Import Msg_Model Msg_Spec Msg_Proofs.
Import ListNotations.

Ltac kins := unfold kin, alike; cbn [clone opened secured protect no copy org ep enc multi sec disc osc];
  repeat split; auto.

Lemma alike_refl : forall i, alike i i.
Proof. intros i. split; reflexivity. Qed.

Lemma net_in_I : forall c i h s,
  I c (i :: h) s -> fits c NetIn i -> rooted (tr s) i -> (dyn c = false -> length (queue s) < 10) ->
  I c h (net_in c i s).
Proof.
  intros c i h s V [A [B D]] RT LE. unfold net_in. destruct (enc i) eqn:E.
  - apply (I_forward c i); try assumption; [apply alike_refl|apply kin_refl|].
    cbn [fits]. unfold lane. rewrite A, E. reflexivity.
  - destruct (oscore c && multi i) eqn:M.
    + apply andb_prop in M. apply (I_forward c i); try assumption; [apply alike_refl|apply kin_refl|].
      cbn [fits]. split; [exact B|]. split; [apply M|]. right. repeat split; try assumption. apply M.
    + apply (I_forward c i); try assumption; [apply alike_refl|apply kin_refl|].
      cbn [fits]. right. split; [exact A|]. split; [exact E|]. intros Z. congruence.
Qed.

Lemma net_out_I : forall c i h s,
  I c (i :: h) s -> fits c NetOut i -> rooted (tr s) i -> (dyn c = false -> length (queue s) < 10) ->
  I c h (net_out c i s).
Proof.
  intros c i h s V [A B] RT LE. unfold net_out. destruct (client c && disc i) eqn:E.
  - apply (I_free c i); [|apply alike_refl|apply kin_refl|apply rooted_app; exact RT].
    apply (I_use c i h (EDisc i) i); try assumption; try reflexivity; try discriminate;
      [apply alike_refl|apply kin_refl|]. cbn [rule]. apply andb_prop in E. tauto.
  - destruct (client c && oscore c && (multi i && sec i)) eqn:M.
    + assert (Y := M). apply andb_prop in M. destruct M as [_ M]. apply andb_prop in M.
      apply (I_forward c i); try assumption; [apply alike_refl|apply kin_refl|]. cbn [fits].
      repeat split; try tauto. unfold lane. rewrite A, E, Y. reflexivity.
    + destruct (sec i) eqn:S; [destruct (oscore c) eqn:O|].
      * apply (I_forward c i); try assumption; [apply alike_refl|apply kin_refl|].
        cbn [fits]. split; [exact B|]. split; [exact O|].
        unfold lane. rewrite A, E, O, S, M. reflexivity.
      * apply (I_forward c i); try assumption; [apply alike_refl|apply kin_refl|].
        cbn [fits]. unfold lane. rewrite A, E, O, S, M. reflexivity.
      * apply (I_free c i); [|apply alike_refl|apply kin_refl|apply rooted_app; exact RT].
        apply (I_use c i h (EClear i) i); try assumption; try reflexivity; try discriminate;
          [apply alike_refl|apply kin_refl|].
        cbn [rule]. unfold lane. rewrite A, E, S, M. reflexivity.
Qed.

Lemma osc_in_I : forall c x i h s,
  I c (i :: h) s -> fits c OscIn i -> rooted (tr s) i -> I c h (osc_in c x i s).
Proof.
  intros c x i h s V [A [B D]] RT. unfold osc_in.
  assert (NO : org i <> Out) by (destruct D as [D|[D _]]; congruence).
  assert (K1 : kin i (opened i)) by (kins; intros Z; destruct (NO Z)).
  assert (K2 : kin i (secured i)) by (kins; intros Z; destruct (NO Z)).
  destruct (x_osc x).
  - destruct (x_ok x).
    + apply (I_pass c i); try assumption; [split; reflexivity|].
      cbn [fits]. destruct D as [D|[D [E [M Z]]]]; [left; exact D|right].
      cbn [opened org enc sec multi osc]. repeat split; assumption.
    + cbv zeta. destruct (x_err x && negb (multi i)).
      * assert (W : I c (i :: h) (send_message c (mkdest (ep i) false true (disc i)) s)) by (apply I_send; exact V).
        apply (I_free c i); [exact W|split; reflexivity|exact K2|].
        unfold send_message, hand, pass. cbv zeta.
        destruct (full c _); cbn [emit push tr]; repeat apply rooted_app; exact RT.
      * apply (I_free c i); [exact V|split; reflexivity|exact K2|exact RT].
  - apply (I_pass c i); try assumption; [apply alike_refl|apply kin_refl|].
    cbn [fits]. destruct D as [D|[D [E [M Z]]]]; [left; exact D|right].
    repeat split; try assumption; congruence.
Qed.

Lemma osc_group_I : forall c x i h s,
  I c (i :: h) s -> fits c OscGroup i -> rooted (tr s) i -> I c h (osc_group x i s).
Proof.
  intros c x i h s V [A [B [D _]]] RT. unfold osc_group. destruct (x_ctx x && x_ok x).
  - apply (I_free c i); [|apply alike_refl|apply kin_refl|apply rooted_app; exact RT].
    apply (I_use c i h (EGroup (protect i)) (protect i)); try assumption; try reflexivity; try discriminate.
    + split; reflexivity.
    + kins.
    + cbn [rule protect org multi sec osc]. repeat split; assumption.
  - apply (I_free c i); [exact V|apply alike_refl|apply kin_refl|exact RT].
Qed.

Lemma lane_two_out : forall c i, lane c i = 2 -> org i = Out.
Proof.
  intros c i H. unfold lane in H. destruct (org i); [|reflexivity|discriminate H].
  destruct (enc i); [discriminate H|]. destruct (oscore c && multi i); discriminate H.
Qed.

Lemma osc_out_I : forall c x i h s,
  I c (i :: h) s -> fits c OscOut i -> rooted (tr s) i -> (dyn c = false -> length (queue s) < 10) ->
  I c h (osc_out c x i s) \/ (I c (i :: h) (osc_out c x i s) /\ In ENull (tr (osc_out c x i s))).
Proof.
  intros c x i h s V [A [B D]] RT LE. assert (O := lane_two_out _ _ D). unfold osc_out.
  destruct (x_ctx x); [destruct (multi i); [|destruct (x_mem x)]|].
  - left. apply (I_free c i); [exact V|apply alike_refl|apply kin_refl|exact RT].
  - left. cbv zeta. destruct (I_clone c i h s V A O RT) as [W RW]. destruct (x_cover x).
    + apply (I_forward c (clone i)); try assumption; [split; reflexivity|kins|].
      cbn [fits]. rewrite <- D. apply kin_lane. kins.
    + apply (I_forward c (clone i)); try assumption; [split; reflexivity|apply kin_refl|].
      cbn [fits]. rewrite <- D. apply kin_lane. kins.
    + apply (I_free c (clone i)); [exact W|split; reflexivity|apply kin_refl|exact RW].
  - right. split; [apply I_null; exact V|]. cbn [emit tr]. apply in_or_app. right. left. reflexivity.
  - left. apply (I_forward c i); try assumption; [apply alike_refl|apply kin_refl].
Qed.

Lemma to_tls_I : forall c x i h s,
  I c (i :: h) s -> fits c ToTls i -> rooted (tr s) i -> I c h (to_tls c x i s).
Proof.
  intros c x i h s V D RT. unfold to_tls. cbv zeta. apply I_others.
  assert (W : I c (i :: h) (emit (ETls i) s)).
  { apply (I_use c i h (ETls i) i); try assumption; try reflexivity; try discriminate;
      [apply alike_refl|apply kin_refl]. }
  assert (RW : rooted (tr (emit (ETls i) s)) i) by (apply rooted_app; exact RT).
  destruct (x_tls x).
  - apply (I_free c i); [|apply alike_refl|apply kin_refl|apply rooted_app; exact RW].
    apply (I_use c i h (EWrite i) i); try assumption; try reflexivity; try discriminate;
      [apply alike_refl|apply kin_refl].
  - apply I_keep; [exact W|exact RW|]. intros _. exact D.
  - apply (I_free c i); [exact W|apply alike_refl|apply kin_refl|exact RW].
Qed.

Lemma lane_five_in : forall c i, lane c i = 5 -> org i = In_.
Proof.
  intros c i H. unfold lane in H. destruct (org i); [reflexivity| |discriminate H].
  destruct (client c && disc i); [discriminate H|].
  destruct (client c && oscore c && (multi i && sec i)); [discriminate H|].
  destruct (sec i); discriminate H.
Qed.

Lemma from_net_I : forall c x i h s,
  I c (i :: h) s -> fits c FromNet i -> rooted (tr s) i -> I c h (from_net c x i s).
Proof.
  intros c x i h s V D RT. unfold from_net. cbv zeta. apply I_others.
  assert (W : I c (i :: h) (emit (ETlsIn i) s)).
  { apply (I_use c i h (ETlsIn i) i); try assumption; try reflexivity; try discriminate;
      [apply alike_refl|apply kin_refl]. }
  assert (RW : rooted (tr (emit (ETlsIn i) s)) i) by (apply rooted_app; exact RT).
  assert (KE : org i = Out -> lane c i = 2) by (rewrite (lane_five_in _ _ D); discriminate).
  destruct (x_tls x); [apply I_keep; assumption|apply I_keep; assumption|].
  apply (I_free c i); [exact W|apply alike_refl|apply kin_refl|exact RW].
Qed.

Lemma sends_I : forall c l h s, I c h s -> I c h (fold_left (fun s d => send_message c d s) l s).
Proof.
  intros c l. induction l as [|d l IH]; intros h s V; [exact V|]. cbn [fold_left]. apply IH.
  apply I_send. exact V.
Qed.

Lemma send_tr : forall c d s, exists l, tr (send_message c d s) = tr s ++ l.
Proof.
  intros c d s. unfold send_message, hand, pass. cbv zeta. destruct (full c _); cbn [emit push tr].
  - rewrite <- app_assoc. eexists. reflexivity.
  - eexists. reflexivity.
Qed.

Lemma sends_tr : forall c l s, exists m, tr (fold_left (fun s d => send_message c d s) l s) = tr s ++ m.
Proof.
  intros c l. induction l as [|d l IH]; intros s; cbn [fold_left].
  - exists []. rewrite app_nil_r. reflexivity.
  - destruct (IH (send_message c d s)) as [m E]. destruct (send_tr c d s) as [k K]. rewrite E, K, <- app_assoc.
    eexists. reflexivity.
Qed.

Lemma coap_in_I : forall c x i h s,
  I c (i :: h) s -> fits c CoapIn i -> rooted (tr s) i -> I c h (coap_in c x i s).
Proof.
  intros c x i h s V D RT. unfold coap_in.
  assert (W : I c (i :: h) (emit (ECoap i) s)).
  { apply (I_use c i h (ECoap i) i); try assumption; try reflexivity; try discriminate;
      [apply alike_refl|apply kin_refl]. }
  apply (I_free c i); [apply sends_I; exact W|apply alike_refl|apply kin_refl|].
  destruct (sends_tr c (x_posts x) (emit (ECoap i) s)) as [m ->]. apply rooted_app, rooted_app. exact RT.
Qed.

Lemma handle_I : forall c x w i h s,
  I c (i :: h) s -> fits c w i -> rooted (tr s) i -> (dyn c = false -> length (queue s) < 10) ->
  I c h (handle c x w i s) \/ (I c (i :: h) (handle c x w i s) /\ In ENull (tr (handle c x w i s))).
Proof.
  intros c x w i h s V F RT LE. destruct w; cbn [handle].
  - left. apply net_in_I; assumption.
  - left. apply net_out_I; assumption.
  - left. apply from_net_I; assumption.
  - left. apply to_tls_I; assumption.
  - left. apply osc_in_I; assumption.
  - apply osc_out_I; assumption.
  - left. apply osc_group_I; assumption.
  - left. apply coap_in_I; assumption.
Qed.

(** Removing messages of an endpoint. *)
Lemma queued_split : forall r (f : qev -> bool) q,
  queued r q = queued r (filter f q) + queued r (filter (fun x => negb (f x)) q).
Proof.
  intros r f q. induction q as [|e q IH]; [reflexivity|]. cbn [filter]. destruct (f e); cbn [negb];
    rewrite !queued_cons, IH; lia.
Qed.

Lemma queued_items : forall r q, queued r q = kept r (items q).
Proof.
  intros r q. induction q as [|e q IH]; [reflexivity|]. rewrite queued_cons, IH.
  destruct e as [w i|]; [|reflexivity]. unfold items. cbn [flat_map app]. rewrite kept_cons. reflexivity.
Qed.

Definition set_queue (q : list qev) (s : st) : st := mkst q (tls s) (next s) (tr s).

Lemma frees_I : forall c l h s,
  I c (l ++ h) s -> (forall i, In i l -> rooted (tr s) i) ->
  I c h (mkst (queue s) (tls s) (next s) (tr s ++ map EFree l)).
Proof.
  intros c l. induction l as [|i l IH]; intros h s V R; cbn [map].
  - rewrite app_nil_r. destruct s. exact V.
  - assert (W : I c (l ++ h) (emit (EFree i) s)).
    { apply (I_free c i); [exact V|apply alike_refl|apply kin_refl|apply R; left; reflexivity]. }
    apply IH in W; [|intros j J; apply rooted_app; apply R; right; exact J].
    cbn [emit queue tls next tr] in W. rewrite <- app_assoc in W. exact W.
Qed.

Lemma kept_app : forall r l m, kept r (l ++ m) = kept r l + kept r m.
Proof. intros. unfold kept. apply len_filter_app. Qed.

Lemma filter_len : forall A (f : A -> bool) l, length (filter f l) <= length l.
Proof.
  intros A f l. induction l as [|x l IH]; [auto|]. cbn [filter]. destruct (f x); cbn [length]; lia.
Qed.

Lemma drop_I : forall c e h s, I c h s -> I c h (drop_endpoint e s).
Proof.
  intros c e h s V. set (q := filter (fun q => negb (dropped e q)) (queue s)).
  set (l := items (filter (dropped e) (queue s))).
  change (I c h (mkst (queue (set_queue q s)) (tls (set_queue q s)) (next (set_queue q s)) (tr (set_queue q s) ++ map EFree l))).
  apply frees_I.
  - destruct V as [V1 V2 V3 V4 V5 V6 V7 V8 V9]. split; cbn [set_queue queue tls next tr]; try assumption.
    + intros r. rewrite kept_app. unfold l, q. rewrite <- queued_items.
      assert (Q := V1 r). rewrite (queued_split r (dropped e) (queue s)) in Q. lia.
    + intros w i J. apply V6. apply filter_In in J. apply J.
    + intros D. assert (Q := V8 D). assert (Z := filter_len _ (fun q => negb (dropped e q)) (queue s)).
      unfold q. lia.
  - intros i J. unfold l, items in J. apply in_flat_map in J. destruct J as [y [Y J]].
    apply filter_In in Y. destruct y as [w j|]; [|destruct J]. destruct J as [<-|[]].
    apply (i_fit _ _ _ V w). apply Y.
Qed.

Lemma kept_cut : forall r l k i, nth_error l k = Some i ->
  kept r l = b2n (same r i) + kept r (firstn k l ++ skipn (S k) l).
Proof.
  intros r l. induction l as [|y l IH]; intros k i H; destruct k; cbn [nth_error] in H; try discriminate H.
  - inversion H. subst y. rewrite kept_cons. reflexivity.
  - change (firstn (S k) (y :: l) ++ skipn (S (S k)) (y :: l)) with (y :: firstn k l ++ skipn (S k) l).
    rewrite !kept_cons, (IH k i H). lia.
Qed.

Lemma release_I : forall c k b h s, I c h s -> I c h (release k b s).
Proof.
  intros c k b h s V. unfold release. destruct (nth_error (tls s) k) as [i|] eqn:N; [|exact V].
  cbv zeta. set (s1 := mkst _ _ _ _).
  assert (II := nth_error_In _ _ N). destruct (i_tls _ _ _ V i II) as [A B].
  assert (W : I c (i :: h) s1).
  { destruct V as [V1 V2 V3 V4 V5 V6 V7 V8 V9]. split; unfold s1; cbn [queue tls next tr]; try assumption.
    - intros r. rewrite kept_cons. assert (Q := V1 r). rewrite (kept_cut r _ k i N) in Q. lia.
    - intros j J. apply V7. apply in_app_or in J. destruct J as [J|J].
      + rewrite <- (firstn_skipn k (tls s)). apply in_or_app. left. exact J.
      + rewrite <- (firstn_skipn (S k) (tls s)). apply in_or_app. right. exact J. }
  destruct (b && _) eqn:E.
  - assert (O : org i = Out) by (destruct b, (org i); try discriminate E; reflexivity).
    apply (I_free c i); [|apply alike_refl|apply kin_refl|apply rooted_app; exact B].
    apply (I_use c i h (EWrite i) i); try assumption; try reflexivity; try discriminate;
      [apply alike_refl|apply kin_refl|]. apply A. exact O.
  - apply (I_free c i); [exact W|apply alike_refl|apply kin_refl|exact B].
Qed.

(** The trace only grows. *)
Definition grows (s s' : st) : Prop := exists l, tr s' = tr s ++ l.

Lemma grows_refl : forall s, grows s s.
Proof. intros s. exists []. rewrite app_nil_r. reflexivity. Qed.
Lemma grows_trans : forall a b d, grows a b -> grows b d -> grows a d.
Proof. intros a b d [l L] [m M]. exists (l ++ m). rewrite M, L, app_assoc. reflexivity. Qed.
Lemma grows_emit : forall e s s', grows s s' -> grows s (emit e s').
Proof. intros e s s' [l L]. exists (l ++ [e]). cbn [emit tr]. rewrite L, app_assoc. reflexivity. Qed.
Lemma grows_same : forall s s' s'', grows s s' -> tr s'' = tr s' -> grows s s''.
Proof. intros s s' s'' [l L] E. exists l. rewrite E. exact L. Qed.
Lemma grows_forward : forall c q s s', grows s s' -> grows s (forward c q s').
Proof.
  intros c q s s' H. apply (grows_same _ s'); [exact H|]. unfold forward.
  destruct (full c s'); reflexivity.
Qed.
Lemma grows_others : forall c n s s', grows s s' -> grows s (others c n s').
Proof.
  intros c n. induction n as [|n IH]; intros s s' H; [exact H|]. cbn [others]. apply IH.
  apply grows_forward. exact H.
Qed.
Lemma grows_pass : forall c w i s s', grows s s' -> grows s (pass c w i s').
Proof.
  intros c w i s s' H. unfold pass. destruct (full c s'); [apply grows_emit; exact H|].
  apply (grows_same _ s'); [exact H|reflexivity].
Qed.
Lemma grows_hand : forall c w f s s', grows s s' -> grows s (hand c w f s').
Proof.
  intros c w f s s' H. unfold hand. cbv zeta. apply grows_pass. destruct H as [l L].
  exists (l ++ [EBorn (f (next s'))]). cbn [tr]. rewrite L, app_assoc. reflexivity.
Qed.
Lemma grows_keep : forall i s s', grows s s' -> grows s (keep i s').
Proof. intros i s s' H. apply (grows_same _ s'); [exact H|reflexivity]. Qed.

Lemma grows_handle : forall c x w i s s', grows s s' -> grows s (handle c x w i s').
Proof.
  intros c x w i s s' H. destruct w; cbn [handle];
    unfold net_in, net_out, from_net, to_tls, osc_in, osc_out, osc_group, coap_in, send_message; cbv zeta;
    repeat match goal with
    | |- grows _ (if ?b then _ else _) => destruct b
    | |- grows _ (match ?b with Protected => _ | Plain => _ | Fails => _ end) => destruct b
    | |- grows _ (match ?b with TWrite => _ | TKeep => _ | TDrop => _ end) => destruct b
    | |- grows _ (emit _ _) => apply grows_emit
    | |- grows _ (forward _ _ _) => apply grows_forward
    | |- grows _ (others _ _ _) => apply grows_others
    | |- grows _ (pass _ _ _ _) => apply grows_pass
    | |- grows _ (hand _ _ _ _) => apply grows_hand
    | |- grows _ (keep _ _) => apply grows_keep
    end; try exact H.
  destruct (sends_tr c (x_posts x) (emit (ECoap i) s')) as [m M]. unfold send_message in M.
  eapply grows_trans; [apply (grows_emit (ECoap i)); exact H|]. exists m. exact M.
Qed.

Lemma grows_step : forall c s o, grows s (step c s o).
Proof.
  intros c s o. destruct o as [e en mu|d|e| |e|k b|x]; cbn [step].
  - apply grows_hand, grows_refl.
  - apply grows_hand, grows_refl.
  - apply grows_hand, grows_refl.
  - apply grows_forward, grows_refl.
  - exists (map EFree (items (filter (dropped e) (queue s)))). reflexivity.
  - unfold release. destruct (nth_error (tls s) k); [|apply grows_refl]. cbv zeta. apply grows_emit.
    destruct (b && _); [apply grows_emit|]; (eapply grows_same; [apply grows_refl|reflexivity]).
  - unfold turn. destruct (queue s) as [|[w i|] q]; [apply grows_refl|cbv zeta|cbv zeta].
    + apply grows_handle. eapply grows_same; [apply grows_refl|reflexivity].
    + apply grows_others. eapply grows_same; [apply grows_refl|reflexivity].
Qed.

Definition J (c : cfg) (s : st) : Prop := exists h, I c h s /\ (h <> [] -> In ENull (tr s)).

Lemma step_I : forall c h s o, I c h s ->
  exists h', I c h' (step c s o) /\ (h' = h \/ In ENull (tr (step c s o))).
Proof.
  intros c h s o V. destruct o as [e en mu|d|e| |e|k b|x]; cbn [step].
  - exists h. split; [|left; reflexivity]. apply I_hand; [exact V|]. intros n. repeat split; reflexivity.
  - exists h. split; [|left; reflexivity]. apply I_send. exact V.
  - exists h. split; [|left; reflexivity]. apply I_hand; [exact V|]. intros n.
    destruct (oscore c) eqn:E; cbn [fits]; repeat split; auto; left; reflexivity.
  - exists h. split; [|left; reflexivity]. apply I_misc. exact V.
  - exists h. split; [|left; reflexivity]. apply drop_I. exact V.
  - exists h. split; [|left; reflexivity]. apply release_I. exact V.
  - unfold turn. destruct s as [q t n l]. cbn [queue tls next tr]. destruct q as [|[w i|] q]; cbv zeta.
    + exists h. split; [exact V|left; reflexivity].
    + destruct (I_take _ _ _ _ _ _ _ _ V) as [W [F [RT LE]]].
      destruct (handle_I c x w i h _ W F RT LE) as [K|[K N]].
      * exists h. split; [exact K|left; reflexivity].
      * exists (i :: h). split; [exact K|right; exact N].
    + exists h. split; [|left; reflexivity]. apply I_others.
      destruct V as [V1 V2 V3 V4 V5 V6 V7 V8 V9]. cbn [queue tls next tr] in *.
      split; cbn [queue tls next tr]; try assumption.
      * intros y j Y. apply V6. right. exact Y.
      * intros D. assert (Q := V8 D). cbn [length] in Q. lia.
Qed.

Lemma step_J : forall c s o, J c s -> J c (step c s o).
Proof.
  intros c s o [h [V N]]. destruct (step_I c h s o V) as [h' [W [->|E]]].
  - exists h. split; [exact W|]. intros H. destruct (grows_step c s o) as [l L]. rewrite L.
    apply in_or_app. left. apply N. exact H.
  - exists h'. split; [exact W|]. intros _. exact E.
Qed.

Lemma run_snoc : forall c ops o, run c (ops ++ [o]) = step c (run c ops) o.
Proof. intros. unfold run. rewrite fold_left_app. reflexivity. Qed.

Lemma run_J : forall c ops, J c (run c ops).
Proof.
  intros c ops. induction ops as [|o ops IH] using rev_ind.
  - exists []. split; [apply init_I|]. intros H. destruct (H eq_refl).
  - rewrite run_snoc. apply step_J. exact IH.
Qed.
