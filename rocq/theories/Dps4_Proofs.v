(* Silence after a stop; completion; the observer; a provisioning without end. *)
From Coq Require Import List Bool Arith Lia.
Import ListNotations.
From Verif Require Import Dps_Model Dps_Spec Dps_Proofs Dps2_Proofs Dps3_Proofs.

(* ------------------------------------------------------------------ *)
(* Silence *)

Record quiet (b : bool) (s : ctx) : Prop := {
  Z_mgr : mgr s = false;
  Z_reqs : reqs s = [];
  Z_rnws : rnws s = 0;
  Z_pend : pend s = [];
  Z_sreg : sreg s = false;
  Z_oini : oini s = false;
  Z_only : b = true -> only_ini (st s) = false }.

Lemma quiet_step : forall b e o s, quiet b s -> starts o = false ->
  (b = false -> is_iface o = false) ->
  quiet b (step (e, o) s)
  /\ (tr (step (e, o) s) = tr s
      \/ exists x, acts x = false /\ tr (step (e, o) s) = x :: tr s).
Proof.
  intros b e o s [H1 H2 H3 H4 H5 H6 H7] O I.
  assert (K : quiet b s) by (constructor; assumption).
  unfold step. destruct o; try discriminate O.
  - split; [|left; reflexivity]. constructor; try assumption; try reflexivity.
    change (drop KObs (drop KUuid (drop KRenewR (drop KRenew (drop KNext
    (drop KReprov (drop KRetry (drop KProv (drop KStart
      (drop KMgr (pend s)))))))))) = []). rewrite H4. reflexivity.
  - split; [constructor; assumption|right; exists EForce; auto].
  - split; [|right; exists EFactory; auto].
    constructor; try assumption; try reflexivity.
    change (drop KObs (drop KUuid (drop KRenewR (drop KRenew (drop KNext
    (drop KReprov (drop KRetry (drop KProv (drop KStart
      (drop KObs (pend s)))))))))) = []). rewrite H4. reflexivity.
  - unfold fire. rewrite H4. auto.
  - rewrite H2. auto.
  - rewrite H3. auto.
  - unfold sess_up. rewrite H5. auto.
  - unfold sess_down. rewrite H5. auto.
  - rewrite H5. auto.
  - destruct b; [|specialize (I eq_refl); discriminate].
    rewrite (H7 eq_refl), andb_false_r. auto.
  - rewrite H6. auto.
  - split; [constructor; assumption|left; reflexivity].
  - split; [constructor; assumption|left; reflexivity].
Qed.

Lemma quiet_later : forall b l s, quiet b s ->
  (forall eo, In eo l -> starts (snd eo) = false) ->
  (b = false -> forall eo, In eo l -> is_iface (snd eo) = false) ->
  exists new, adds l s new /\ forall x, In x new -> acts x = false.
Proof.
  intros b l. induction l as [|[e o] l IH]; intros s H A B.
  - exists []. split; [reflexivity|intros x []].
  - destruct (quiet_step b e o s H) as [H2 T].
    + apply (A (e, o)). left. reflexivity.
    + intros E. apply (B E (e, o)). left. reflexivity.
    + destruct (IH (step (e, o) s) H2) as (new & N & F).
      * intros eo I. apply A. right. exact I.
      * intros E eo I. apply B; [exact E|right; exact I].
      * unfold adds in *.
        change (later ((e, o) :: l) s) with (later l (step (e, o) s)).
        destruct T as [T|(x & X1 & T)].
        -- exists new. rewrite N, T. auto.
        -- exists (new ++ [x]). rewrite N, T, <- app_assoc.
           split; [reflexivity|]. intros y Y. apply in_app_or in Y.
           destruct Y as [Y|[<-|[]]]; auto.
Qed.

Lemma pstop_pend : forall s, ~ In KRestart (pend s) -> pend (pstop s) = [].
Proof.
  intros s H.
  change (drop KObs (drop KUuid (drop KRenewR (drop KRenew (drop KNext
    (drop KReprov (drop KRetry (drop KProv (drop KStart
      (drop KMgr (pend s)))))))))) = []).
  set (l := drop KObs (drop KUuid (drop KRenewR (drop KRenew (drop KNext
    (drop KReprov (drop KRetry (drop KProv (drop KStart
      (drop KMgr (pend s))))))))))).
  assert (E : forall x, ~ In x l).
  { intros x A. unfold l in A.
    repeat (apply in_drop in A; destruct A as [A ?]).
    destruct x; congruence || contradiction. }
  clearbody l. destruct l as [|x l]; [reflexivity|].
  exfalso. apply (E x). left. reflexivity.
Qed.

Lemma silent_after_stop : forall e s l,
  reqs s = [] -> rnws s = 0 -> ~ In KRestart (pend s) ->
  (forall eo, In eo l -> starts (snd eo) = false) ->
  (only_ini (st s) = false \/ forall eo, In eo l -> is_iface (snd eo) = false) ->
  exists new, adds l (step (e, OStop) s) new /\ forall x, In x new -> acts x = false.
Proof.
  intros e s l A B C D E.
  assert (Z : exists b, quiet b (step (e, OStop) s)
     /\ (b = false -> forall eo, In eo l -> is_iface (snd eo) = false)).
  { destruct E as [E|E]; [exists true|exists false].
    - split; [|discriminate].
      constructor; try assumption; try reflexivity; [apply pstop_pend, C|].
      intros _. exact E.
    - split; [|intros _; exact E].
      constructor; try assumption; try reflexivity; [apply pstop_pend, C|].
      discriminate. }
  destruct Z as (b & Z & Y). exact (quiet_later b l _ Z D Y).
Qed.

(* ------------------------------------------------------------------ *)
(* Completion *)

Definition next_of (k : step5) : option step5 :=
  match k with
  | ST => Some SO | SO => Some SL | SL => Some SC | SC => Some SA | SA => None
  end.

Lemma trace_prefix : forall t, history t -> must t = false ->
  (forall j k, earlier j k = true -> known t k = true -> known t j = true)
  /\ (forall k, asked t k = true -> known t k = false
        /\ forall j, earlier j k = true -> known t j = true).
Proof.
  induction t as [|e t IH]; intros H M.
  - split; cbn; [intros; discriminate|intros; discriminate].
  - destruct H as [A H].
    assert (same_case : must t = false ->
       (forall k, known (e :: t) k = known t k) ->
       (forall k, asked (e :: t) k = asked t k) ->
       (forall j k, earlier j k = true -> known (e :: t) k = true ->
          known (e :: t) j = true)
       /\ (forall k, asked (e :: t) k = true -> known (e :: t) k = false
        /\ forall j, earlier j k = true -> known (e :: t) j = true)).
    { intros M' K1 K2. destruct (IH H M') as [I1 I2]. split.
      - intros j k B C. rewrite K1 in *. eauto.
      - intros k B. rewrite K2 in B. destruct (I2 k B) as [B1 B2].
        split; [rewrite K1; exact B1|]. intros j C. rewrite K1. auto. }
    destruct e; try (apply same_case; [exact M| |]; reflexivity).
    + (* EReq *)
      destruct A as [A1 A2]. destruct (IH H M) as [I1 I2].
      split; [exact I1|]. intros j B. cbn [asked known] in *.
      destruct (same k j) eqn:S1; [|exact (I2 j B)].
      assert (k = j) by (destruct k, j; cbn in S1; congruence). subst j. auto.
    + (* EDone *)
      destruct A as [A1 A2]. split.
      * intros j i B C. cbn [known] in *. destruct (same k j) eqn:S1; [reflexivity|].
        rewrite A1 in *. destruct (same k i) eqn:S2.
        -- destruct k, j, i; cbn in *; congruence.
        -- destruct k, j, i; cbn in *; congruence.
      * intros j B. cbn [asked] in B. destruct (same k j) eqn:S1; [discriminate|].
        rewrite A2 in B. destruct k, j; cbn in *; congruence.
    + discriminate M.
    + (* ETrans *)
      cbn [must] in M. destruct (Nat.leb 2 (consec t)); [discriminate|].
      apply same_case; [exact M| |]; reflexivity.
    + discriminate M.
    + split; cbn; intros; discriminate.
    + (* EForgetCA *)
      destruct (IH H M) as [I1 I2]. split.
      * intros j i B C. cbn [known] in *.
        destruct (Nat.leb (rank SC) (rank i)) eqn:L1; [discriminate|].
        destruct (Nat.leb (rank SC) (rank j)) eqn:L2;
          [destruct j, i; cbn in *; congruence|]. eauto.
      * intros i B. cbn [asked known] in *.
        destruct (Nat.leb (rank SC) (rank i)) eqn:L1; [discriminate|].
        destruct (I2 i B) as [B1 B2]. split; [exact B1|].
        intros j C. destruct (Nat.leb (rank SC) (rank j)) eqn:L2;
          [destruct j, i; cbn in *; congruence|]. auto.
    + split; cbn; intros; discriminate.
    + split; cbn; intros; discriminate.
    + (* EStart *)
      destruct A as [A1 _]. split; [exact A1|]. cbn. intros; discriminate.
    + discriminate M.
Qed.


Lemma shape : forall l, force (run l) = false ->
  (fall (hass (st (run l))) = true /\ gets (st (run l)) = fnone)
  \/ exists k, hass (st (run l)) = upto k
       /\ (gets (st (run l)) = fnone \/ gets (st (run l)) = fset k true fnone).
Proof.
  intros l F. destruct (I1_run l) as [H1 H2 H3 H4 H5 H6].
  rewrite H4 in F. destruct (trace_prefix _ H1 F) as [T1 T2].
  assert (P1 : forall j k, earlier j k = true ->
     fget k (hass (st (run l))) = true -> fget j (hass (st (run l))) = true).
  { intros j k A B. rewrite H2 in *. eauto. }
  assert (P2 : forall k, fget k (gets (st (run l))) = true ->
     fget k (hass (st (run l))) = false
     /\ forall j, earlier j k = true -> fget j (hass (st (run l))) = true).
  { intros k B. rewrite H3 in B. destruct (T2 k B) as [B1 B2].
    split; [rewrite H2; exact B1|]. intros j C. rewrite H2. auto. }
  clear H1 H2 H3 H4 H5 H6 F T1 T2.
  destruct (hass (st (run l))) as [a1 a2 a3 a4 a5],
    (gets (st (run l))) as [b1 b2 b3 b4 b5].
  pose proof (P1 ST SO eq_refl) as Q1. pose proof (P1 SO SL eq_refl) as Q2.
  pose proof (P1 SL SC eq_refl) as Q3. pose proof (P1 SC SA eq_refl) as Q4.
  pose proof (P2 ST) as R1. pose proof (P2 SO) as R2. pose proof (P2 SL) as R3.
  pose proof (P2 SC) as R4. pose proof (P2 SA) as R5. clear P1 P2.
  cbn [fget fT fO fL fC fA] in *.
  assert (E1 : b1 = true -> a1 = false) by tauto.
  assert (E2 : b2 = true -> a2 = false /\ a1 = true)
    by (intros Z; destruct (R2 Z) as [U V]; split; [exact U|exact (V ST eq_refl)]).
  assert (E3 : b3 = true -> a3 = false /\ a2 = true)
    by (intros Z; destruct (R3 Z) as [U V]; split; [exact U|exact (V SO eq_refl)]).
  assert (E4 : b4 = true -> a4 = false /\ a3 = true)
    by (intros Z; destruct (R4 Z) as [U V]; split; [exact U|exact (V SL eq_refl)]).
  assert (E5 : b5 = true -> a5 = false /\ a4 = true)
    by (intros Z; destruct (R5 Z) as [U V]; split; [exact U|exact (V SC eq_refl)]).
  clear R1 R2 R3 R4 R5.
  assert (N : forall b, b = true \/ b = false) by (intros []; auto).
  destruct a1; [|right; exists ST].
  2:{ destruct a2; [discriminate (Q1 eq_refl)|].
      destruct a3; [discriminate (Q2 eq_refl)|].
      destruct a4; [discriminate (Q3 eq_refl)|].
      destruct a5; [discriminate (Q4 eq_refl)|].
      split; [reflexivity|].
      destruct b2; [destruct (E2 eq_refl); discriminate|].
      destruct b3; [destruct (E3 eq_refl); discriminate|].
      destruct b4; [destruct (E4 eq_refl); discriminate|].
      destruct b5; [destruct (E5 eq_refl); discriminate|].
      destruct b1; auto. }
  destruct b1; [discriminate (E1 eq_refl)|].
  destruct a2; [|right; exists SO].
  2:{ destruct a3; [discriminate (Q2 eq_refl)|].
      destruct a4; [discriminate (Q3 eq_refl)|].
      destruct a5; [discriminate (Q4 eq_refl)|].
      split; [reflexivity|].
      destruct b3; [destruct (E3 eq_refl); discriminate|].
      destruct b4; [destruct (E4 eq_refl); discriminate|].
      destruct b5; [destruct (E5 eq_refl); discriminate|].
      destruct b2; auto. }
  destruct b2; [destruct (E2 eq_refl); discriminate|].
  destruct a3; [|right; exists SL].
  2:{ destruct a4; [discriminate (Q3 eq_refl)|].
      destruct a5; [discriminate (Q4 eq_refl)|].
      split; [reflexivity|].
      destruct b4; [destruct (E4 eq_refl); discriminate|].
      destruct b5; [destruct (E5 eq_refl); discriminate|].
      destruct b3; auto. }
  destruct b3; [destruct (E3 eq_refl); discriminate|].
  destruct a4; [|right; exists SC].
  2:{ destruct a5; [discriminate (Q4 eq_refl)|].
      split; [reflexivity|].
      destruct b5; [destruct (E5 eq_refl); discriminate|].
      destruct b4; auto. }
  destruct b4; [destruct (E4 eq_refl); discriminate|].
  destruct a5; [|right; exists SA].
  2:{ split; [reflexivity|]. destruct b5; auto. }
  destruct b5; [destruct (E5 eq_refl); discriminate|].
  left. auto.
Qed.

Record base (s : ctx) : Prop := {
  B_ini : ini (st s) = true;
  B_cst : cst (st s) = false;
  B_ren : ren (st s) = false;
  B_next : In KNext (pend s);
  B_conn : conn s = false }.

Definition at_step (k : step5) (s : ctx) : Prop :=
  base s /\ hass (st s) = upto k
  /\ (gets (st s) = fnone \/ gets (st s) = fset k true fnone).
Definition at_end (s : ctx) : Prop :=
  base s /\ fall (hass (st s)) = true /\ err (st s) = false.

Lemma at_done : forall k s, ini (st s) = true -> cst (st s) = false ->
  ren (st s) = false -> conn s = false -> hass (st s) = upto k ->
  gets (st s) = fset k true fnone ->
  match next_of k with
  | Some j => at_step j (step_done k s)
  | None => at_end (step_done k s)
  end.
Proof.
  intros k s H1 H2 H3 H4 H5 H6.
  assert (B : base (step_done k s)).
  { unfold step_done. cbv zeta.
    set (s1 := w_trc 0 (noerr (emit (EDone k)
      (upd_st (fun t => u_gets (fset k false (gets t))
                        (u_hass (fset k true (hass t)) t)) s)))).
    assert (GO : goes_on k s1 = true).
    { unfold goes_on. change (conn s1) with (conn s). rewrite H4.
      destruct (step5_eqb k ST); reflexivity. }
    rewrite GO. constructor; try assumption. apply in_add. left. reflexivity. }
  assert (C : hass (st (step_done k s)) = fset k true (upto k)
    /\ gets (st (step_done k s)) = fnone /\ err (st (step_done k s)) = false).
  { unfold step_done. cbv zeta.
    set (s1 := w_trc 0 (noerr (emit (EDone k)
      (upd_st (fun t => u_gets (fset k false (gets t))
                        (u_hass (fset k true (hass t)) t)) s)))).
    assert (E1 : hass (st s1) = fset k true (upto k)) by (cbn; rewrite H5; reflexivity).
    assert (E2 : gets (st s1) = fnone)
      by (cbn; rewrite H6; destruct k; reflexivity).
    assert (E3 : err (st s1) = false) by reflexivity.
    clearbody s1. destruct (goes_on k s1); auto. }
  destruct C as (C1 & C2 & C3).
  destruct k; (split; [exact B|]); rewrite C1; auto.
Qed.

Lemma next_asks : forall k s, hass (st s) = upto k -> next_step fine s = ask fine k s.
Proof. intros k s H. unfold next_step. rewrite H. destruct k; reflexivity. Qed.

Lemma existsb_last : forall k l, existsb (step5_eqb k) (l ++ [k]) = true.
Proof.
  intros k l. apply existsb_exists. exists k. split; [|destruct k; reflexivity].
  apply in_or_app. right. left. reflexivity.
Qed.

Lemma st_sched2 : forall e s, st (schedule_renew e s) = st s
  /\ conn (schedule_renew e s) = conn s.
Proof. intros e s. unfold schedule_renew. destruct (e_sched e); auto. Qed.

Lemma at_next : forall k s, at_step k s ->
  match next_of k with
  | Some j => at_step j (later [(fine, OFire KNext); (fine, OResp k ROk)] s)
  | None => at_end (later [(fine, OFire KNext); (fine, OResp k ROk)] s)
  end.
Proof.
  intros k s ([H1 H2 H3 H4 H5] & H6 & H7).
  assert (A : exists y, step (fine, OFire KNext) s = y
    /\ ini (st y) = true /\ cst (st y) = false /\ ren (st y) = false
    /\ conn y = false /\ hass (st y) = upto k /\ gets (st y) = fset k true fnone
    /\ existsb (step5_eqb k) (reqs y) = true).
  { eexists. split; [reflexivity|].
    unfold step, fire. rewrite (proj2 (mem_in _ _) H4). cbn [negb]. cbv zeta.
    rewrite (next_asks k) by exact H6.
    unfold ask. change (e_send fine) with true. cbn [negb].
    change (e_tcp fine) with false. rewrite andb_false_r.
    assert (E : fset k true (gets (st s)) = fset k true fnone)
      by (destruct H7 as [-> | ->]; destruct k; reflexivity).
    set (z := del KNext s).
    assert (Z : st z = st s /\ conn z = conn s /\ reqs z = reqs s) by (unfold z; auto).
    clearbody z. destruct Z as (Z1 & Z2 & Z3).
    destruct (step5_eqb k SL); cbn -[fset fnone upto existsb];
      rewrite Z1, Z2, Z3, H1, H2, H3, H5, H6, E;
      repeat split; apply existsb_last. }
  destruct A as (y & A & A1 & A2 & A3 & A4 & A5 & A6 & A7).
  assert (W : later [(fine, OFire KNext); (fine, OResp k ROk)] s
    = step (fine, OResp k ROk) y) by (rewrite <- A; reflexivity).
  rewrite W. clear W A H1 H2 H3 H4 H5 H6 H7 s.
  unfold step. rewrite A7. unfold handler.
  change (st (w_reqs (rem_first k (reqs y)) y)) with (st y).
  rewrite A5. assert (F : fget k (upto k) = false) by (destruct k; reflexivity).
  rewrite F. cbn [andb]. cbv zeta.
  set (z := noerr (del KRetry (w_reqs (rem_first k (reqs y)) y))).
  assert (B : ini (st z) = true /\ cst (st z) = false /\ ren (st z) = false
    /\ conn z = false /\ hass (st z) = upto k /\ gets (st z) = fset k true fnone
    /\ tra (st z) = false /\ fai (st z) = false) by (unfold z; auto 10).
  clearbody z. clear A1 A2 A3 A4 A5 A6 A7 F y.
  destruct B as (B1 & B2 & B3 & B4 & B5 & B6 & B7 & B8).
  assert (E : expected k (st z) = true).
  { unfold expected. rewrite B1, B2, B3, B5, B6, B7, B8. destruct k; reflexivity. }
  rewrite E. cbn [negb].
  assert (D : step_payload fine k true z = step_done k z
    \/ step_payload fine k true z = step_done k (schedule_renew fine z)).
  { unfold step_payload, redirect. change (e_redir fine) with false. cbn [andb].
    cbv zeta. destruct k; auto. }
  destruct (st_sched2 fine z) as [S1 S2].
  destruct D as [D|D]; rewrite D; apply at_done; try rewrite S1; try rewrite S2;
    assumption.
Qed.

Lemma end_fires : forall s, at_end s -> pcs (step (fine, OFire KNext) s) = true.
Proof.
  intros s ([H1 H2 H3 H4 H5] & H6 & H7).
  unfold step, fire. rewrite (proj2 (mem_in _ _) H4). cbn [negb]. cbv zeta.
  set (z := del KNext s).
  assert (Z : st z = st s) by (unfold z; auto). clearbody z.
  assert (C : forall y, st y = st s -> pcs (start_cloud fine y) = true).
  { intros y Y. unfold start_cloud. cbv zeta.
    assert (W : forall x, st x = st s -> cmgr x = true -> pcs (cloud_started fine x) = true).
    { intros x X1 X2. unfold cloud_started.
      set (v := noerr (upd_st (u_cst true) (w_trc 0 (emit ECloud x)))).
      assert (V : hass (st v) = hass (st s) /\ tra (st v) = false
        /\ fai (st v) = false /\ cst (st v) = true /\ cmgr v = true)
        by (unfold v; cbn; rewrite X1; auto).
      clearbody v. destruct V as (V1 & V2 & V3 & V4 & V5).
      assert (O : forall u, pcs u = true -> pcs (observe u) = true).
      { intros u U. unfold observe. destruct (Nat.eqb (omax u) 0); [exact U|].
        destruct (mem KObs (pend u)); exact U. }
      assert (U : pcs (ostart fine v) = true).
      { unfold ostart.
        assert (PV : pcs v = true)
          by (unfold pcs, provisioned, err; rewrite V1, V2, V3, V4, V5, H6; reflexivity).
        destruct (oini v); [apply O, PV|].
        change (e_sel fine) with true. cbv iota. apply O. exact PV. }
      set (u := ostart fine v) in *. clearbody u. exact U. }
    destruct (cmgr (del KRetry y)) eqn:M; [apply W; assumption|].
    change (e_cstart fine) with true. cbv iota. apply W; [exact Y|reflexivity]. }
  unfold next_step. cbv zeta. rewrite Z.
  pose proof H6 as A. unfold fall in A. rewrite !andb_true_iff in A.
  destruct A as [[[[-> ->] ->] ->] ->]. cbn [negb].
  assert (P : provisioned (st s) = true)
    by (unfold provisioned; rewrite H6, H7; reflexivity).
  rewrite P. cbn [negb].
  assert (N : pcs z = false)
    by (unfold pcs; rewrite Z, H2, andb_false_r; reflexivity).
  rewrite N. destruct (mem KRenew (pend z)); [apply C, Z|].
  change (e_certs fine) with true. cbv iota. apply C.
  rewrite st_sched. exact Z.
Qed.

Fixpoint script (n : nat) (k : step5) : list (env * op) :=
  match n with
  | 0 => [(fine, OFire KNext)]
  | S m => (fine, OFire KNext) :: (fine, OResp k ROk)
           :: match next_of k with
              | Some j => script m j
              | None => [(fine, OFire KNext)]
              end
  end.

Lemma later_app : forall a b s, later (a ++ b) s = later b (later a s).
Proof. intros. apply fold_left_app. Qed.

Lemma script_done : forall n k s, rank k + n = 4 -> at_step k s ->
  pcs (later (script (S n) k) s) = true.
Proof.
  induction n as [|n IH]; intros k s R H;
    pose proof (at_next k s H) as A; cbn [script];
    change (later ((fine, OFire KNext) :: (fine, OResp k ROk) :: ?l) s)
      with (later l (later [(fine, OFire KNext); (fine, OResp k ROk)] s)).
  - destruct k; cbn in R; try lia. cbn [next_of] in *.
    set (y := later [(fine, OFire KNext); (fine, OResp SA ROk)] s) in *.
    clearbody y.
    exact (end_fires _ A).
  - destruct (next_of k) as [j|] eqn:N.
    + apply IH; [|exact A]. destruct k; cbn in N; inversion N; subst; cbn in *; lia.
    + destruct k; cbn in N, R; try discriminate; lia.
Qed.

Lemma script_helpful : forall n k, forall eo, In eo (script n k) -> helpful eo.
Proof.
  induction n as [|n IH]; intros k eo H.
  - destruct H as [<-|[]]. split; [reflexivity|]. exists KNext. auto.
  - cbn [script] in H. destruct H as [<-|[<-|H]].
    + split; [reflexivity|]. exists KNext. auto.
    + split; [reflexivity|]. exists KNext. right. exists k. reflexivity.
    + destruct (next_of k); [exact (IH _ _ H)|].
      destruct H as [<-|[]]. split; [reflexivity|]. exists KNext. auto.
Qed.

Lemma script_length : forall n k, length (script n k) <= 2 * n + 1.
Proof.
  induction n as [|n IH]; intros k; [cbn; lia|]. cbn [script length].
  destruct (next_of k) as [j|]; [pose proof (IH j); lia|cbn; lia].
Qed.

Lemma from_start : forall k s, at_step k s ->
  exists l, length l <= 11 /\ (forall eo, In eo l -> helpful eo)
    /\ pcs (later l s) = true.
Proof.
  intros k s H. exists (script (S (4 - rank k)) k). split; [|split].
  - pose proof (script_length (S (4 - rank k)) k).
    assert (4 - rank k <= 4) by lia. lia.
  - apply script_helpful.
  - apply script_done; [destruct k; reflexivity|exact H].
Qed.

(* The two callbacks before the first step. *)
Lemma attempt_begins : forall c s, c = KRetry \/ (c = KProv /\ conn s = false) ->
  In c (pend s) -> ini (st s) = true -> cst (st s) = false -> ren (st s) = false ->
  let y := later [(fine, OFire c); (fine, OFire KStart)] s in
  base y
  /\ (force s = true -> hass (st y) = fnone /\ gets (st y) = fnone)
  /\ (force s = false -> hass (st y) = hass (st s) /\ gets (st y) = gets (st s)
        /\ err (st y) = err (st s)).
Proof.
  intros c s0 HC HP H1 H2 H3.
  set (z := match c with KRetry => disconnect (del c s0) | _ => del c s0 end).
  assert (F0 : step (fine, OFire c) s0 = prov_async fine z).
  { unfold step, fire. rewrite (proj2 (mem_in _ _) HP). cbn [negb]. cbv zeta.
    unfold z. destruct HC as [-> | [-> _]]; reflexivity. }
  assert (Z : st z = st s0 /\ conn z = false /\ force z = force s0).
  { unfold z. destruct HC as [-> | [-> HC]]; auto. }
  clearbody z. destruct Z as (Z1 & Z2 & Z3).
  cbv zeta. change (later [(fine, OFire c); (fine, OFire KStart)] s0)
    with (step (fine, OFire KStart) (step (fine, OFire c) s0)).
  rewrite F0. unfold prov_async. cbv zeta.
  set (y := emit EAttempt (forget z)).
  assert (Y : ini (st y) = true /\ cst (st y) = false /\ ren (st y) = false
    /\ conn y = false
    /\ (force s0 = true -> hass (st y) = fnone /\ gets (st y) = fnone)
    /\ (force s0 = false -> hass (st y) = hass (st s0)
          /\ gets (st y) = gets (st s0) /\ err (st y) = err (st s0))).
  { unfold y, forget. rewrite Z3. destruct (force s0).
    - cbn. rewrite Z1. repeat split; auto; discriminate.
    - cbn. rewrite Z1. repeat split; auto; discriminate. }
  clearbody y. destruct Y as (Y1 & Y2 & Y3 & Y4 & Y5 & Y6).
  assert (N : pcs y = false)
    by (unfold pcs; rewrite Y2, andb_false_r; reflexivity).
  rewrite N, Y1. cbn [negb].
  change (e_ep fine) with true. change (e_epinit fine) with true.
  change (e_own fine) with true. rewrite orb_true_r. cbn [negb].
  set (x := w_epset true y).
  assert (X : st x = st y /\ conn x = conn y) by (unfold x; auto).
  clearbody x. destruct X as (X1 & X2).
  unfold step, fire.
  assert (M : mem KStart (pend (add KStart x)) = true)
    by (apply mem_in, in_add; left; reflexivity).
  rewrite M. cbn [negb]. cbv zeta. unfold start_async.
  change (e_wait fine) with false. cbv iota.
  set (v := del KStart (add KStart x)).
  assert (V : st v = st y /\ conn v = false)
    by (unfold v; cbn; rewrite X1, X2; auto).
  clearbody v. destruct V as (V1 & V2).
  assert (U : st (add KNext v) = st y) by exact V1.
  split; [|rewrite U; auto].
  constructor; try (rewrite U; assumption); [|exact V2].
  apply in_add. left. reflexivity.
Qed.

Lemma completes : forall l c, let s := run l in
  c = KRetry \/ (c = KProv /\ conn s = false) -> In c (pend s) ->
  ini (st s) = true -> cst (st s) = false -> ren (st s) = false ->
  ~ In ERej (tr s) -> ~ In EMoved (tr s) ->
  exists l', length l' <= 13 /\ (forall eo, In eo l' -> helpful eo)
    /\ pcs (later l' s) = true.
Proof.
  intros l c s HC HP H1 H2 H3 NR NM.
  destruct (attempt_begins c s HC HP H1 H2 H3) as (B & F1 & F2).
  set (y := later [(fine, OFire c); (fine, OFire KStart)] s) in *.
  assert (E : exists l2, length l2 <= 11 /\ (forall eo, In eo l2 -> helpful eo)
    /\ pcs (later l2 y) = true).
  { destruct (force s) eqn:F.
    - destruct (F1 eq_refl) as [A1 A2]. apply (from_start ST).
      split; [exact B|]. auto.
    - destruct (F2 eq_refl) as (A1 & A2 & A3).
      destruct (shape l F) as [[S1 S2]|(k & S1 & S2)].
      + exists [(fine, OFire KNext)]. split; [cbn; lia|]. split.
        * intros eo [<-|[]]. split; [reflexivity|]. exists KNext. auto.
        * apply end_fires. split; [exact B|]. rewrite A1, A3.
          split; [exact S1|].
          destruct (err (st s)) eqn:E; [|reflexivity].
          destruct (I3_run l) as [[X1|X1]|[_ X1]];
            [contradiction|contradiction|].
          destruct (X1 H1 S1 E) as [X2 _]. fold s in X2. congruence.
      + apply (from_start k). split; [exact B|]. rewrite A1, A2.
        split; [exact S1|exact S2]. }
  destruct E as (l2 & L1 & L2 & L3).
  exists ([(fine, OFire c); (fine, OFire KStart)] ++ l2).
  split; [rewrite app_length; cbn [length]; lia|]. split.
  - intros eo A. apply in_app_or in A. destruct A as [A|A]; [|auto].
    destruct A as [<-|[<-|[]]]; (split; [reflexivity|]).
    + exists c. auto.
    + exists KStart. auto.
  - rewrite later_app. exact L3.
Qed.
