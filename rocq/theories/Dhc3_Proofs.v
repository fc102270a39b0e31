(* Which chains of certificates are accepted. *)
From Coq Require Import List NArith Bool Lia.
Import ListNotations.
From Verif Require Import Common Dhc_Model Dhc_Spec Dhc_Proofs Dhc2_Proofs.
Local Open Scope N_scope.

Definition mb (md : N) (pin : option (list N)) (x : cert) : bool :=
  match hash x md with Some h => equal_len pin (Some h) | None => false end.

Lemma mb_pinned c x : fp_md c <> 0 -> (mb (fp_md c) (fp_data c) x = true <-> pinned c x).
Proof.
  intros NZ. unfold mb, pinned. destruct (hash x (fp_md c)) as [h|].
  - rewrite equal_len_eq. split; [intros H; split; [exact NZ|exists h; auto]|].
    intros [_ [h' [A B]]]. congruence.
  - split; [discriminate|]. intros [_ [h' [A _]]]. discriminate A.
Qed.

Section pinned_chain.
  Variables (md : N) (pin : option (list N)) (skip : bool).
  Hypothesis NZ : md <> 0.

  Lemma upper_one depth x d : (0 < depth)%nat -> there d = true ->
    (exists h, hash x md = Some h) -> appl x 0 = (true, 0) ->
    tls_verify md pin skip depth x d
    = (true, 0, mkVd true (verified d || mb md pin x) (freed d)).
  Proof.
    intros D T [h H] U. unfold tls_verify, dps_verify. rewrite T. cbn [negb].
    unfold calc. apply N.eqb_neq in NZ. rewrite NZ, H. cbn [negb andb].
    unfold mb. rewrite H. destruct d as [t v f]. cbn [there verified freed] in *. subst t.
    destruct (orig x (flags x)) as [r fl1].
    destruct (r && (fl1 =? 0)) eqn:E.
    - apply andb_true_iff in E. destruct E as [_ E]. apply N.eqb_eq in E. subst fl1.
      rewrite U. cbn [N.eqb]. destruct (equal_len pin (Some h)); [|rewrite orb_false_r; reflexivity].
      rewrite orb_true_r. reflexivity.
    - apply Nat.ltb_lt in D. rewrite D, U. cbn [N.eqb].
      destruct (equal_len pin (Some h)); [|rewrite orb_false_r; reflexivity].
      rewrite orb_true_r. reflexivity.
  Qed.

  Lemma upper_all l : forall depth d, (0 < depth)%nat -> there d = true ->
    Forall (fun x => exists h, hash x md = Some h) l ->
    Forall (fun x => appl x 0 = (true, 0)) l ->
    chain md pin skip depth l d
    = (true, mkVd true (verified d || existsb (mb md pin) l) (freed d)).
  Proof.
    induction l as [|x l IH]; intros depth d D T H U.
    - cbn [chain existsb]. rewrite orb_false_r. destruct d; cbn in *; subst; reflexivity.
    - inversion H; subst. inversion U; subst. cbn [chain existsb].
      rewrite IH; [|lia|assumption..].
      rewrite upper_one by (cbn [there]; auto). cbn [verified freed N.eqb andb].
      rewrite <- orb_assoc, (orb_comm (existsb _ _)). reflexivity.
  Qed.

  Lemma leaf d x : there d = true ->
    (exists h, hash x md = Some h) -> appl x 0 = (true, 0) ->
    (match tls_verify md pin skip 0 x d with (ok, fl, _) => ok && (fl =? 0) end = true
     <-> verified d = true \/ mb md pin x = true \/ orig x (flags x) = (true, 0)).
  Proof.
    intros T [h H] U. unfold tls_verify, dps_verify. rewrite T. cbn [negb].
    unfold calc. apply N.eqb_neq in NZ. rewrite NZ, H. cbn [negb andb].
    unfold mb. rewrite H. destruct d as [t v f]. cbn [there verified freed] in *. subst t.
    destruct (orig x (flags x)) as [r fl1].
    destruct (r && (fl1 =? 0)) eqn:E.
    - apply andb_true_iff in E. destruct E as [-> E]. apply N.eqb_eq in E. subst fl1.
      rewrite U. cbn [N.eqb andb]. split; [intros _; auto|reflexivity].
    - cbn [Nat.ltb Nat.leb].
      assert (ND : (r, fl1) <> (true, 0)).
      { intros Q. injection Q as -> ->. discriminate E. }
      destruct (equal_len pin (Some h)); cbn [verified].
      + rewrite U. cbn [N.eqb andb]. split; [intros _; auto|reflexivity].
      + destruct v.
        * rewrite U. cbn [N.eqb andb]. split; [intros _; auto|reflexivity].
        * cbn [andb]. split; [discriminate|]. intros [Q|[Q|Q]]; congruence.
  Qed.
End pinned_chain.

Lemma pinned_iff c skip x up : fp_md c <> 0 ->
  Forall (hashable c) (x :: up) -> Forall unopposed (x :: up) ->
  (accepted c skip (x :: up) <-> Exists (pinned c) (x :: up) \/ trusted x).
Proof.
  intros NZ H U.
  assert (H2 : Forall (fun y => exists h, hash y (fp_md c) = Some h) (x :: up)).
  { eapply Forall_impl; [|exact H]. intros y [Q|Q]; [destruct (NZ Q)|exact Q]. }
  inversion H2 as [|? ? HX HU]; subst. inversion U as [|? ? UX UU]; subst.
  unfold accepted, handshake. cbn [chain].
  rewrite (upper_all (fp_md c) (fp_data c) skip NZ up 1 vnew); [|lia|reflexivity|exact HU|exact UU].
  cbn [verified freed vnew orb].
  set (d1 := mkVd true (existsb (mb (fp_md c) (fp_data c)) up) 0).
  pose proof (leaf (fp_md c) (fp_data c) skip NZ d1 x eq_refl HX UX) as LF.
  destruct (tls_verify (fp_md c) (fp_data c) skip 0 x d1) as [[ok fl] d2].
  cbn [fst]. rewrite LF. unfold d1. cbn [verified].
  rewrite existsb_exists, Exists_cons, Exists_exists, (mb_pinned c x NZ).
  unfold trusted. split.
  - intros [[y [I M]]|[M|T]]; [|auto|auto]. left. right. exists y.
    split; [exact I|]. apply mb_pinned; assumption.
  - intros [[M|[y [I M]]]|T]; [auto| |auto]. left. exists y.
    split; [exact I|]. apply mb_pinned; assumption.
Qed.

(* Without a pinned fingerprint. *)
Lemma plain_one skip depth x d pin : there d = true ->
  tls_verify 0 pin skip depth x d
  = (let (r, fl1) := orig x (flags x) in
     let (r2, fl2) := if r && (fl1 =? 0) then (true, fl1)
                      else if skip then (true, 0) else (r, fl1) in
     if r2 then let (r3, fl3) := appl x fl2 in (if fl3 =? 0 then r3 else false, fl3, d)
     else (false, fl2, d)).
Proof.
  intros T. unfold tls_verify, dps_verify. rewrite T. cbn [negb calc N.eqb andb].
  destruct (orig x (flags x)) as [r fl1]. destruct (r && (fl1 =? 0)); [reflexivity|].
  destruct skip; [reflexivity|]. destruct r; reflexivity.
Qed.

Lemma plain_chain pin l : forall depth d, there d = true ->
  Forall (fun x => forall fl, appl x fl = (true, fl)) l ->
  snd (chain 0 pin false depth l d) = d
  /\ (fst (chain 0 pin false depth l d) = true <-> Forall trusted l).
Proof.
  induction l as [|x l IH]; intros depth d T U.
  - cbn [chain fst snd]. split; [reflexivity|]. split; [constructor|reflexivity].
  - inversion U as [|? ? UX UU]; subst. cbn [chain].
    destruct (IH (S depth) d T UU) as [A B].
    destruct (chain 0 pin false (S depth) l d) as [ok d1]. cbn [fst snd] in A, B. subst d1.
    destruct ok.
    2:{ cbn [fst snd]. split; [reflexivity|]. split; [discriminate|].
        intros Q. inversion Q as [|? ? _ Q2]; subst. apply B in Q2. discriminate Q2. }
    rewrite (plain_one false depth x d pin T).
    destruct (orig x (flags x)) as [r fl1] eqn:E.
    destruct (r && (fl1 =? 0)) eqn:Q.
    + apply andb_true_iff in Q. destruct Q as [-> Q]. apply N.eqb_eq in Q. subst fl1.
      rewrite UX. cbn [fst snd N.eqb andb]. split; [reflexivity|]. split; [|reflexivity].
      intros _. constructor; [exact E|]. apply B. reflexivity.
    + assert (ND : ~ trusted x).
      { unfold trusted. rewrite E. intros Z. injection Z as -> ->. discriminate Q. }
      destruct r.
      * rewrite UX. cbn [andb] in Q. rewrite Q. cbn [fst snd andb].
        split; [reflexivity|]. split; [discriminate|]. intros Z. inversion Z; contradiction.
      * cbn [fst snd andb]. split; [reflexivity|]. split; [discriminate|].
        intros Z. inversion Z; contradiction.
Qed.

Lemma skip_chain pin l : forall depth d, there d = true -> Forall unopposed l ->
  chain 0 pin true depth l d = (true, d).
Proof.
  induction l as [|x l IH]; intros depth d T U; [reflexivity|].
  inversion U as [|? ? UX UU]; subst. cbn [chain]. rewrite (IH (S depth) d T UU).
  rewrite (plain_one true depth x d pin T). destruct (orig x (flags x)) as [r fl1].
  destruct (r && (fl1 =? 0)) eqn:Q.
  - apply andb_true_iff in Q. destruct Q as [_ Q]. apply N.eqb_eq in Q. subst fl1.
    rewrite UX. reflexivity.
  - rewrite UX. reflexivity.
Qed.

(* What the application refuses is refused. *)
Lemma chain_app md pin skip l : forall depth d,
  fst (chain md pin skip depth l d) = true ->
  Forall (fun x => exists fl, appl x fl = (true, 0)) l
  /\ (md <> 0 -> Forall (fun x => exists h, hash x md = Some h) l).
Proof.
  induction l as [|x l IH]; intros depth d H; [split; [constructor|intros _; constructor]|].
  cbn [chain] in H. specialize (IH (S depth) d).
  destruct (chain md pin skip (S depth) l d) as [ok d1]. destruct ok; [|discriminate H].
  destruct (IH eq_refl) as [A B]. clear IH. unfold tls_verify in H.
  assert (C : fst (fst (dps_verify md pin skip depth x (flags x) d1)) = true ->
              md <> 0 -> exists h, hash x md = Some h).
  { unfold dps_verify, calc. destruct (there d1); [|discriminate].
    cbn [negb]. intros G NZ. apply N.eqb_neq in NZ. rewrite NZ in G.
    destruct (hash x md) as [h|]; [exists h; reflexivity|discriminate G]. }
  destruct (dps_verify md pin skip depth x (flags x) d1) as [[r fl] d2].
  destruct r; [|discriminate H]. cbn [fst] in C.
  destruct (appl x fl) as [r3 fl3] eqn:E. cbn [fst] in H.
  apply andb_true_iff in H. destruct H as [H1 H2]. rewrite H2 in H1.
  apply N.eqb_eq in H2. subst fl3 r3.
  split; [constructor; [exists fl; exact E|exact A]|].
  intros NZ. constructor; [apply C; [reflexivity|exact NZ]|apply B; exact NZ].
Qed.

Definition once (d : vdata) : Prop :=
  (there d = true /\ freed d = 0%nat) \/ (there d = false /\ freed d = 1%nat).

Lemma chain_once md pin skip l : forall depth d, once d ->
  once (snd (chain md pin skip depth l d)).
Proof.
  induction l as [|x l IH]; intros depth d O; [exact O|]. cbn [chain].
  specialize (IH (S depth) d O).
  destruct (chain md pin skip (S depth) l d) as [ok d1]. cbn [snd] in IH.
  destruct ok; [|exact IH].
  assert (C : once (snd (dps_verify md pin skip depth x (flags x) d1))).
  { unfold dps_verify. destruct IH as [[T F]|[T F]]; rewrite T; cbn [negb].
    2:{ right. auto. }
    destruct (calc md x) as [h|]; [|left; auto].
    destruct d1 as [t v f]. cbn [there freed verified] in *. subst t f.
    destruct (orig x (flags x)) as [r fl1].
    destruct (negb (md =? 0)); cbn [andb].
    - destruct (equal_len pin (Some h)).
      + destruct (r && (fl1 =? 0)); [left; auto|].
        destruct (Nat.ltb 0 depth); [left; auto|]. right. auto.
      + destruct (r && (fl1 =? 0)); [left; auto|].
        destruct (Nat.ltb 0 depth); [left; auto|]. cbn [verified].
        destruct v; [right; auto|left; auto].
    - destruct (r && (fl1 =? 0)); [left; auto|].
      destruct skip; left; auto. }
  unfold tls_verify. destruct (dps_verify md pin skip depth x (flags x) d1) as [[r fl] d2].
  cbn [snd] in C. destruct r; [|exact C]. destruct (appl x fl) as [r3 fl3]. exact C.
Qed.

Lemma freed_once c skip l : freed (free_peer (snd (handshake c skip l))) = 1%nat.
Proof.
  unfold handshake.
  pose proof (chain_once (fp_md c) (fp_data c) skip l 0 vnew (or_introl (conj eq_refl eq_refl))) as O.
  unfold free_peer. destruct O as [[T F]|[T F]]; rewrite T; [cbn [freed]; rewrite F; reflexivity|exact F].
Qed.
