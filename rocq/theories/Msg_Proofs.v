(** References to messages are neither lost nor used after release, and take
    their way by rules. *)

From Coq Require Import List Bool Arith Lia.
From Verif Require Import Msg_Model Msg_Spec.
Import ListNotations.

Definition b2n (b : bool) : nat := if b then 1 else 0.

Lemma len_filter_app : forall A (f : A -> bool) l m,
  length (filter f (l ++ m)) = length (filter f l) + length (filter f m).
Proof. intros. rewrite filter_app, app_length. reflexivity. Qed.

Lemma len_one : forall A (f : A -> bool) x, length (filter f [x]) = b2n (f x).
Proof. intros. cbn [filter]. destruct (f x); reflexivity. Qed.

Definition mk1 (r : item) (e : ev) : nat := match e with EBorn i => b2n (same r i) | _ => 0 end.
Definition fr1 (r : item) (e : ev) : nat := match e with EFree i => b2n (same r i) | _ => 0 end.
Definition qu1 (r : item) (q : qev) : nat := match q with Ev _ i => b2n (same r i) | Misc => 0 end.

Lemma made_snoc : forall r l e, made r (l ++ [e]) = made r l + mk1 r e.
Proof. intros. unfold made. rewrite len_filter_app, len_one. destruct e; reflexivity. Qed.
Lemma freed_snoc : forall r l e, freed r (l ++ [e]) = freed r l + fr1 r e.
Proof. intros. unfold freed. rewrite len_filter_app, len_one. destruct e; reflexivity. Qed.
Lemma queued_snoc : forall r l e, queued r (l ++ [e]) = queued r l + qu1 r e.
Proof. intros. unfold queued. rewrite len_filter_app, len_one. destruct e; reflexivity. Qed.
Lemma queued_cons : forall r l e, queued r (e :: l) = qu1 r e + queued r l.
Proof.
  intros. unfold queued. cbn [filter]. destruct e as [w i|]; cbn [qu1]; [|reflexivity].
  destruct (same r i); reflexivity.
Qed.
Lemma kept_snoc : forall r l i, kept r (l ++ [i]) = kept r l + b2n (same r i).
Proof. intros. unfold kept. rewrite len_filter_app, len_one. reflexivity. Qed.
Lemma kept_cons : forall r l i, kept r (i :: l) = b2n (same r i) + kept r l.
Proof. intros. unfold kept. cbn [filter]. destruct (same r i); reflexivity. Qed.

Definition alike (a b : item) : Prop := no a = no b /\ copy a = copy b.

Lemma same_alike : forall r a b, alike a b -> same r a = same r b.
Proof. intros r a b [A B]. unfold same. rewrite A, B. reflexivity. Qed.

Lemma same_refl : forall a b, alike a b -> same a b = true.
Proof. intros a b [A B]. unfold same. rewrite A, B, Nat.eqb_refl, eqb_reflx. reflexivity. Qed.

Lemma same_true : forall a b, same a b = true -> alike a b.
Proof.
  intros a b H. unfold same in H. apply andb_prop in H. destruct H as [H G].
  split; [apply Nat.eqb_eq; exact H|apply eqb_prop; exact G].
Qed.

Lemma made_alike : forall a b l, alike a b -> made a l = made b l.
Proof.
  intros a b l H. induction l as [|e l IH] using rev_ind; [reflexivity|].
  rewrite !made_snoc, IH. f_equal. destruct e; try reflexivity. cbn [mk1].
  unfold same. destruct H as [H G]. rewrite H, G. reflexivity.
Qed.
Lemma freed_alike : forall a b l, alike a b -> freed a l = freed b l.
Proof.
  intros a b l H. induction l as [|e l IH] using rev_ind; [reflexivity|].
  rewrite !freed_snoc, IH. f_equal. destruct e; try reflexivity. cbn [fr1].
  unfold same. destruct H as [H G]. rewrite H, G. reflexivity.
Qed.

(** The same message, perhaps copied or opened. *)
Definition kin (a b : item) : Prop :=
  no a = no b /\ org a = org b /\ ep a = ep b /\ multi a = multi b /\ disc a = disc b /\
  (org a = Out -> sec a = sec b) /\ (org a = Out \/ enc a = enc b).

Lemma kin_refl : forall a, kin a a.
Proof. intros a. unfold kin. repeat split; auto. Qed.

Lemma kin_trans : forall a b d, kin a b -> kin b d -> kin a d.
Proof.
  unfold kin. intros a b d [A1 [A2 [A3 [A4 [A5 [A6 A7]]]]]] [B1 [B2 [B3 [B4 [B5 [B6 B7]]]]]].
  repeat split; try congruence.
  - intros O. rewrite (A6 O). apply B6. congruence.
  - destruct A7 as [O|E]; [left; exact O|]. destruct B7 as [O|F]; [left; congruence|right; congruence].
Qed.

Lemma kin_lane : forall c a b, kin a b -> lane c a = lane c b.
Proof.
  intros c a b [A1 [A2 [A3 [A4 [A5 [A6 A7]]]]]]. unfold lane. rewrite <- A2.
  destruct (org a) eqn:O.
  - destruct A7 as [X|X]; [discriminate|]. rewrite <- X, <- A4. reflexivity.
  - rewrite <- (A6 eq_refl), <- A4, <- A5. reflexivity.
  - reflexivity.
Qed.

Definition rooted (l : list ev) (i : item) : Prop :=
  exists i0, In (EBorn i0) l /\ copy i0 = false /\ kin i0 i.

Lemma rooted_kin : forall l a b, rooted l a -> kin a b -> rooted l b.
Proof.
  intros l a b [i [A [B D]]] K. exists i. split; [exact A|]. split; [exact B|].
  apply (kin_trans _ a); assumption.
Qed.
Lemma rooted_app : forall l m i, rooted l i -> rooted (l ++ m) i.
Proof. intros l m i [x [A B]]. exists x. split; [apply in_or_app; left; exact A|exact B]. Qed.

(** What the CoAP engine may get. *)
Definition proper (c : cfg) (i : item) : Prop :=
  org i = Dec \/
  (org i = In_ /\ enc i = false /\ (sec i = true -> oscore c = true /\ multi i = true /\ osc i = true)).

Definition rule (c : cfg) (e : ev) : Prop :=
  match e with
  | EClear i => lane c i = 1
  | EDisc i => org i = Out /\ disc i = true
  | EGroup i => org i = Out /\ multi i = true /\ sec i = true /\ osc i = true
  | ETls i | EWrite i => lane c i = 2
  | ETlsIn i => lane c i = 5
  | ECoap i => proper c i
  | _ => True
  end.

Definition fits (c : cfg) (w : what) (i : item) : Prop :=
  match w with
  | NetIn => org i = In_ /\ copy i = false /\ sec i = enc i
  | NetOut => org i = Out /\ copy i = false
  | FromNet => lane c i = 5
  | ToTls => lane c i = 2
  | OscIn => copy i = false /\ oscore c = true /\
             (org i = Dec \/ (org i = In_ /\ enc i = false /\ multi i = true /\ sec i = false))
  | OscOut => copy i = false /\ oscore c = true /\ lane c i = 2
  | OscGroup => org i = Out /\ multi i = true /\ sec i = true /\ lane c i = 0
  | CoapIn => proper c i
  end.

Definition orig (r : item) : item :=
  mkitem (no r) false (org r) (ep r) (enc r) (multi r) (sec r) (disc r) (osc r).

(** [h] are the messages in the hands of the handler that runs, and those
    in its hands when it followed a null pointer. *)
Record I (c : cfg) (h : list item) (s : st) : Prop := {
  i_sum : forall r, made r (tr s) = freed r (tr s) + queued r (queue s) + kept r (tls s) + kept r h;
  i_one : forall r, made r (tr s) <= 1;
  i_new : forall r, next s <= no r -> made r (tr s) = 0;
  i_cop : forall r, copy r = true -> made r (tr s) <= freed (orig r) (tr s);
  i_use : forall p e q i, tr s = p ++ e :: q -> reads e = Some i -> made i p = 1 /\ freed i p = 0;
  i_fit : forall w i, In (Ev w i) (queue s) -> fits c w i /\ rooted (tr s) i;
  i_tls : forall i, In i (tls s) -> (org i = Out -> lane c i = 2) /\ rooted (tr s) i;
  i_len : dyn c = false -> length (queue s) <= 10;
  i_rule : forall e, In e (tr s) -> rule c e /\ (forall i, reads e = Some i -> rooted (tr s) i) }.

Lemma init_I : forall c, I c [] init.
Proof.
  intros c. split; cbn [init queue tls tr next].
  - intros. reflexivity.
  - intros. unfold made. cbn [filter length]. auto.
  - intros. reflexivity.
  - intros. unfold made. cbn [filter length]. apply Nat.le_0_l.
  - intros p e q i H. destruct p; discriminate H.
  - intros w i [].
  - intros i [].
  - intros _. apply Nat.le_0_l.
  - intros e [].
Qed.

(** The holder of a reference may use it. *)
Lemma held_live : forall c i h s, I c (i :: h) s -> made i (tr s) = 1 /\ freed i (tr s) = 0.
Proof.
  intros c i h s V. assert (A := i_sum _ _ _ V i). assert (B := i_one _ _ _ V i).
  rewrite kept_cons, (same_refl i i) in A by (split; reflexivity). cbn [b2n] in A. lia.
Qed.

Lemma use_snoc : forall l e,
  (forall p x q i, l = p ++ x :: q -> reads x = Some i -> made i p = 1 /\ freed i p = 0) ->
  (forall i, reads e = Some i -> made i l = 1 /\ freed i l = 0) ->
  forall p x q i, l ++ [e] = p ++ x :: q -> reads x = Some i -> made i p = 1 /\ freed i p = 0.
Proof.
  intros l e H G p x q i E R. destruct q as [|y q _] using rev_ind.
  - apply app_inj_tail in E. destruct E as [-> ->]. apply G. exact R.
  - rewrite app_comm_cons, app_assoc in E. apply app_inj_tail in E. destruct E as [E _].
    apply (H p x q i); assumption.
Qed.

Lemma I_use : forall c i h e i' s,
  I c (i :: h) s -> reads e = Some i' -> (forall j, e <> EFree j) -> alike i i' -> kin i i' ->
  rooted (tr s) i -> rule c e -> I c (i :: h) (emit e s).
Proof.
  intros c i h e i' s V R NF AL K RT RU. assert (L := held_live _ _ _ _ V).
  assert (ZM : forall r, mk1 r e = 0) by (intros r; destruct e; try reflexivity; discriminate R).
  assert (ZF : forall r, fr1 r e = 0) by (intros r; destruct e as [|j| | | | | | | |]; try reflexivity; destruct (NF j); reflexivity).
  destruct V as [V1 V2 V3 V4 V5 V6 V7 V8 V9]. split; cbn [emit queue tls next tr].
  - intros r. rewrite made_snoc, freed_snoc, ZM, ZF. assert (Q := V1 r). lia.
  - intros r. rewrite made_snoc, ZM. assert (Q := V2 r). lia.
  - intros r H. rewrite made_snoc, ZM, (V3 r H). reflexivity.
  - intros r H. rewrite made_snoc, freed_snoc, ZM, ZF. assert (Q := V4 r H). lia.
  - apply use_snoc; [exact V5|]. intros j J. rewrite R in J. inversion J. subst j.
    rewrite <- (made_alike i i'), <- (freed_alike i i') by exact AL. exact L.
  - intros w j J. destruct (V6 w j J) as [A B]. split; [exact A|apply rooted_app; exact B].
  - intros j J. destruct (V7 j J) as [A B]. split; [exact A|apply rooted_app; exact B].
  - exact V8.
  - intros x X. apply in_app_or in X. destruct X as [X|[<-|[]]].
    + destruct (V9 x X) as [A B]. split; [exact A|]. intros j J. apply rooted_app. apply B. exact J.
    + split; [exact RU|]. intros j J. rewrite R in J. inversion J. subst j.
      apply rooted_app. apply (rooted_kin _ i); assumption.
Qed.

Lemma I_free : forall c i h i' s,
  I c (i :: h) s -> alike i i' -> kin i i' -> rooted (tr s) i -> I c h (emit (EFree i') s).
Proof.
  intros c i h i' s V AL K RT. assert (L := held_live _ _ _ _ V).
  destruct V as [V1 V2 V3 V4 V5 V6 V7 V8 V9]. split; cbn [emit queue tls next tr].
  - intros r. rewrite made_snoc, freed_snoc. cbn [mk1 fr1]. assert (Q := V1 r).
    rewrite kept_cons, (same_alike r i i' AL) in Q. lia.
  - intros r. rewrite made_snoc. cbn [mk1]. assert (Q := V2 r). lia.
  - intros r H. rewrite made_snoc. cbn [mk1]. rewrite (V3 r H). reflexivity.
  - intros r H. rewrite made_snoc, freed_snoc. cbn [mk1]. assert (Q := V4 r H). lia.
  - apply use_snoc; [exact V5|]. intros j J. cbn [reads] in J. inversion J. subst j.
    rewrite <- (made_alike i i'), <- (freed_alike i i') by exact AL. exact L.
  - intros w j J. destruct (V6 w j J) as [A B]. split; [exact A|apply rooted_app; exact B].
  - intros j J. destruct (V7 j J) as [A B]. split; [exact A|apply rooted_app; exact B].
  - exact V8.
  - intros x X. apply in_app_or in X. destruct X as [X|[<-|[]]].
    + destruct (V9 x X) as [A B]. split; [exact A|]. intros j J. apply rooted_app. apply B. exact J.
    + split; [exact Logic.I|]. intros j J. cbn [reads] in J. inversion J. subst j.
      apply rooted_app. apply (rooted_kin _ i); assumption.
Qed.

(** Free at once when nothing else happens between. *)
Lemma I_push : forall c i h w i' s,
  I c (i :: h) s -> alike i i' -> kin i i' -> rooted (tr s) i -> fits c w i' ->
  (dyn c = false -> length (queue s) < 10) -> I c h (push (Ev w i') s).
Proof.
  intros c i h w i' s V AL K RT F LE.
  destruct V as [V1 V2 V3 V4 V5 V6 V7 V8 V9]. split; cbn [push queue tls next tr]; try assumption.
  - intros r. rewrite queued_snoc. cbn [qu1]. assert (Q := V1 r).
    rewrite kept_cons, (same_alike r i i' AL) in Q. lia.
  - intros x j J. apply in_app_or in J. destruct J as [J|[J|[]]]; [apply V6; exact J|].
    inversion J. subst x j. split; [exact F|apply (rooted_kin _ i); assumption].
  - intros D. rewrite app_length. cbn [length]. assert (Q := LE D). lia.
Qed.

Lemma full_false : forall c s, full c s = false -> dyn c = false -> length (queue s) < 10.
Proof.
  intros c s H D. unfold full in H. rewrite D in H. cbn [negb andb] in H.
  apply Nat.leb_gt in H. exact H.
Qed.

Lemma room : forall c s, (dyn c = false -> length (queue s) < 10) -> full c s = false.
Proof.
  intros c s H. unfold full. destruct (dyn c); [reflexivity|]. cbn [negb andb].
  apply Nat.leb_gt. apply H. reflexivity.
Qed.

Lemma I_forward : forall c i h w i' s,
  I c (i :: h) s -> alike i i' -> kin i i' -> rooted (tr s) i -> fits c w i' ->
  (dyn c = false -> length (queue s) < 10) -> I c h (forward c (Ev w i') s).
Proof.
  intros. unfold forward. rewrite room by assumption. apply (I_push c i); assumption.
Qed.

Lemma I_pass : forall c i h w i' s,
  I c (i :: h) s -> alike i i' -> kin i i' -> rooted (tr s) i -> fits c w i' ->
  I c h (pass c w i' s).
Proof.
  intros c i h w i' s V AL K RT F. unfold pass. destruct (full c s) eqn:E.
  - apply (I_free c i); assumption.
  - apply (I_push c i); try assumption. apply full_false. exact E.
Qed.

Lemma I_misc : forall c h s, I c h s -> I c h (forward c Misc s).
Proof.
  intros c h s V. unfold forward. destruct (full c s) eqn:E; [exact V|].
  assert (LE := full_false _ _ E).
  destruct V as [V1 V2 V3 V4 V5 V6 V7 V8 V9]. split; cbn [push queue tls next tr]; try assumption.
  - intros r. rewrite queued_snoc. cbn [qu1]. assert (Q := V1 r). lia.
  - intros x j J. apply in_app_or in J. destruct J as [J|[J|[]]]; [apply V6; exact J|discriminate J].
  - intros D. rewrite app_length. cbn [length]. assert (Q := LE D). lia.
Qed.

Lemma I_others : forall c n h s, I c h s -> I c h (others c n s).
Proof.
  intros c n. induction n as [|n IH]; intros h s V; [exact V|]. cbn [others]. apply IH.
  apply I_misc. exact V.
Qed.

Definition birth (x : item) (s : st) : st :=
  mkst (queue s) (tls s) (S (next s)) (tr s ++ [EBorn x]).

Lemma I_birth : forall c h x s, I c h s -> no x = next s -> copy x = false -> I c (x :: h) (birth x s).
Proof.
  intros c h x s V N CP. destruct V as [V1 V2 V3 V4 V5 V6 V7 V8 V9].
  split; cbn [birth queue tls next tr]; try assumption.
  - intros r. rewrite made_snoc, freed_snoc, kept_cons. cbn [mk1 fr1]. assert (Q := V1 r). lia.
  - intros r. rewrite made_snoc. cbn [mk1]. destruct (same r x) eqn:E.
    + apply same_true in E. destruct E as [E _]. rewrite (V3 r) by lia. cbn [b2n]. lia.
    + cbn [b2n]. assert (Q := V2 r). lia.
  - intros r H. rewrite made_snoc. cbn [mk1]. rewrite (V3 r) by lia. destruct (same r x) eqn:E; [|reflexivity].
    apply same_true in E. destruct E as [E _]. lia.
  - intros r H. rewrite made_snoc, freed_snoc. cbn [mk1 fr1]. destruct (same r x) eqn:E.
    + apply same_true in E. destruct E as [_ E]. congruence.
    + cbn [b2n]. assert (Q := V4 r H). lia.
  - apply use_snoc; [exact V5|]. intros j J. discriminate J.
  - intros w j J. destruct (V6 w j J) as [A B]. split; [exact A|apply rooted_app; exact B].
  - intros j J. destruct (V7 j J) as [A B]. split; [exact A|apply rooted_app; exact B].
  - intros e X. apply in_app_or in X. destruct X as [X|[<-|[]]].
    + destruct (V9 e X) as [A B]. split; [exact A|]. intros j J. apply rooted_app. apply B. exact J.
    + split; [exact Logic.I|]. intros j J. discriminate J.
Qed.

Lemma born_root : forall x s, copy x = false -> rooted (tr (birth x s)) x.
Proof.
  intros x s H. exists x. split; [apply in_or_app; right; left; reflexivity|].
  split; [exact H|apply kin_refl].
Qed.

Lemma I_hand : forall c h w f s,
  I c h s -> (forall n, no (f n) = n /\ copy (f n) = false /\ fits c w (f n)) -> I c h (hand c w f s).
Proof.
  intros c h w f s V H. destruct (H (next s)) as [A [B D]]. unfold hand. cbv zeta.
  change (mkst (queue s) (tls s) (S (next s)) (tr s ++ [EBorn (f (next s))])) with (birth (f (next s)) s).
  apply (I_pass c (f (next s))); [apply I_birth; assumption|split; reflexivity|apply kin_refl| |exact D].
  apply born_root. exact B.
Qed.

Lemma I_send : forall c h d s, I c h s -> I c h (send_message c d s).
Proof.
  intros. apply I_hand; [assumption|]. intros n. repeat split; reflexivity.
Qed.

(** A copy takes the place of the message. *)
Lemma I_clone : forall c i h s,
  I c (i :: h) s -> copy i = false -> org i = Out -> rooted (tr s) i ->
  I c (clone i :: h) (emit (EFree i) (emit (EBorn (clone i)) s)) /\
  rooted (tr (emit (EFree i) (emit (EBorn (clone i)) s))) (clone i).
Proof.
  intros c i h s V CP O RT. assert (L := held_live _ _ _ _ V).
  assert (KC : kin i (clone i)).
  { unfold kin. cbn [clone no org ep multi disc sec enc]. repeat split; auto. }
  assert (RC : rooted ((tr s ++ [EBorn (clone i)]) ++ [EFree i]) (clone i)).
  { apply rooted_app, rooted_app. apply (rooted_kin _ i); assumption. }
  split; [|exact RC].
  assert (ZC : made (clone i) (tr s) = 0).
  { assert (Q := i_cop _ _ _ V (clone i) eq_refl).
    rewrite (freed_alike (orig (clone i)) i) in Q by (split; [reflexivity|symmetry; exact CP]). lia. }
  destruct V as [V1 V2 V3 V4 V5 V6 V7 V8 V9]. split; cbn [emit queue tls next tr].
  - intros r. rewrite !made_snoc, !freed_snoc. cbn [mk1 fr1]. assert (Q := V1 r).
    rewrite kept_cons in Q. rewrite kept_cons. lia.
  - intros r. rewrite !made_snoc. cbn [mk1]. destruct (same r (clone i)) eqn:E.
    + apply same_true in E. rewrite (made_alike _ _ _ E), ZC. cbn [b2n]. lia.
    + cbn [b2n]. assert (Q := V2 r). lia.
  - intros r H. rewrite !made_snoc. cbn [mk1]. rewrite (V3 r H). destruct (same r (clone i)) eqn:E; [|reflexivity].
    apply same_true in E. destruct E as [E _]. cbn [clone no] in E.
    assert (Q := V3 i). rewrite (proj1 L) in Q. lia.
  - intros r H. rewrite !made_snoc, !freed_snoc. cbn [mk1 fr1]. assert (Q := V4 r H).
    destruct (same r (clone i)) eqn:E.
    + apply same_true in E. rewrite (made_alike _ _ _ E), ZC.
      rewrite (same_refl (orig r) i); [cbn [b2n]; lia|].
      destruct E as [E _]. cbn [clone no] in E. split; [exact E|symmetry; exact CP].
    + cbn [b2n]. lia.
  - apply use_snoc; [apply use_snoc; [exact V5|intros j J; discriminate J]|].
    intros j J. cbn [reads] in J. inversion J. subst j. rewrite made_snoc, freed_snoc. cbn [mk1 fr1].
    destruct (same i (clone i)) eqn:E.
    + apply same_true in E. destruct E as [_ E]. cbn [clone copy] in E. congruence.
    + cbn [b2n]. lia.
  - intros w j J. destruct (V6 w j J) as [A B]. split; [exact A|apply rooted_app, rooted_app; exact B].
  - intros j J. destruct (V7 j J) as [A B]. split; [exact A|apply rooted_app, rooted_app; exact B].
  - exact V8.
  - intros e X. apply in_app_or in X. destruct X as [X|[<-|[]]];
      [apply in_app_or in X; destruct X as [X|[<-|[]]]|].
    + destruct (V9 e X) as [A B]. split; [exact A|]. intros j J. apply rooted_app, rooted_app. apply B. exact J.
    + split; [exact Logic.I|]. intros j J. discriminate J.
    + split; [exact Logic.I|]. intros j J. cbn [reads] in J. inversion J. subst j.
      apply rooted_app, rooted_app. exact RT.
Qed.

Lemma I_keep : forall c i h s,
  I c (i :: h) s -> rooted (tr s) i -> (org i = Out -> lane c i = 2) -> I c h (keep i s).
Proof.
  intros c i h s V RT O. destruct V as [V1 V2 V3 V4 V5 V6 V7 V8 V9].
  split; cbn [keep queue tls next tr]; try assumption.
  - intros r. rewrite kept_snoc. assert (Q := V1 r). rewrite kept_cons in Q. lia.
  - intros j J. apply in_app_or in J. destruct J as [J|[<-|[]]]; [apply V7; exact J|split; assumption].
Qed.

Lemma I_null : forall c h s, I c h s -> I c h (emit ENull s).
Proof.
  intros c h s V. destruct V as [V1 V2 V3 V4 V5 V6 V7 V8 V9]. split; cbn [emit queue tls next tr].
  - intros r. rewrite made_snoc, freed_snoc. cbn [mk1 fr1]. assert (Q := V1 r). lia.
  - intros r. rewrite made_snoc. cbn [mk1]. assert (Q := V2 r). lia.
  - intros r H. rewrite made_snoc. cbn [mk1]. rewrite (V3 r H). reflexivity.
  - intros r H. rewrite made_snoc, freed_snoc. cbn [mk1 fr1]. assert (Q := V4 r H). lia.
  - apply use_snoc; [exact V5|]. intros j J. discriminate J.
  - intros w j J. destruct (V6 w j J) as [A B]. split; [exact A|apply rooted_app; exact B].
  - intros j J. destruct (V7 j J) as [A B]. split; [exact A|apply rooted_app; exact B].
  - exact V8.
  - intros x X. apply in_app_or in X. destruct X as [X|[<-|[]]].
    + destruct (V9 x X) as [A B]. split; [exact A|]. intros j J. apply rooted_app. apply B. exact J.
    + split; [exact Logic.I|]. intros j J. discriminate J.
Qed.

Lemma I_take : forall c h w i q t n l,
  I c h (mkst (Ev w i :: q) t n l) -> I c (i :: h) (mkst q t n l) /\ fits c w i /\ rooted l i /\
  (dyn c = false -> length q < 10).
Proof.
  intros c h w i q t n l V. destruct V as [V1 V2 V3 V4 V5 V6 V7 V8 V9].
  cbn [queue tls next tr] in *. destruct (V6 w i (or_introl eq_refl)) as [A B].
  split; [|split; [exact A|split; [exact B|intros D; assert (Q := V8 D); cbn [length] in Q; lia]]].
  split; cbn [queue tls next tr]; try assumption.
  - intros r. rewrite kept_cons. assert (Q := V1 r). rewrite queued_cons in Q. cbn [qu1] in Q. lia.
  - intros x j J. apply V6. right. exact J.
  - intros D. assert (Q := V8 D). cbn [length] in Q. lia.
Qed.
