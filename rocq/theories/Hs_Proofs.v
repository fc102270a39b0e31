(** Proofs about setting up secured connections. *)
From Verif Require Import Common Hs_Model Hs_Spec.
From Coq Require Import String.
Local Open Scope string_scope.
Local Open Scope list_scope.
Local Open Scope N_scope.

(** ** PSK *)
Lemma find_psk_ok id l : List.length id = 16%nat ->
  (exists k, find_psk id l = Some (Some k) /\ psk_for id k /\
     exists pre post, l = pre ++ k :: post /\ forall x, In x pre -> ~ psk_for id x) \/
  (find_psk id l = Some None /\ forall x, In x l -> ~ psk_for id x).
Proof.
  intros L. induction l as [|k l IH]; cbn [find_psk]; [right; split; [reflexivity|contradiction]|].
  assert (F : firstn 16 id = id) by (rewrite <- L; apply firstn_all).
  assert (LT : (List.length id <? 16)%nat = false) by (rewrite L; reflexivity).
  assert (D : ((k_type k =? PSK) && (k_use k =? USE_NONE)) && list_eqb (k_sub k) id = true <-> psk_for id k).
  { unfold psk_for, PSK, USE_NONE. rewrite !andb_true_iff, !N.eqb_eq, list_eqb_spec. tauto. }
  assert (NX : find_psk id l = (if (k_type k =? PSK) && (k_use k =? USE_NONE) then if (List.length id <? 16)%nat then None
      else if list_eqb (k_sub k) (firstn 16 id) then Some (Some k) else find_psk id l else find_psk id l) -> ~ psk_for id k ->
     (exists k0, find_psk id l = Some (Some k0) /\ psk_for id k0 /\
     exists pre post, k :: l = pre ++ k0 :: post /\ forall x, In x pre -> ~ psk_for id x) \/
  (find_psk id l = Some None /\ forall x, In x (k :: l) -> ~ psk_for id x)).
  { intros _ NP. destruct IH as [(k0 & E & P & pre & post & -> & A)|[E A]].
    - left. exists k0. split; [exact E|]. split; [exact P|]. exists (k :: pre), post. split; [reflexivity|].
      intros x [<-|I]; auto.
    - right. split; [exact E|]. intros x [<-|I]; auto. }
  rewrite F, LT in *. destruct ((k_type k =? PSK) && (k_use k =? USE_NONE)) eqn:T.
  - destruct (list_eqb (k_sub k) id) eqn:S.
    + left. exists k. split; [reflexivity|]. split; [now apply D|]. exists [], l. split; [reflexivity|contradiction].
    + apply NX; [reflexivity|]. intros P. apply D in P. discriminate.
  - apply NX; [reflexivity|]. intros P. apply D in P. discriminate.
Qed.

(** With any identity of 16 or more bytes only the first 16 matter. *)
Lemma find_psk_long identity l : (16 <= List.length identity)%nat -> find_psk identity l = find_psk (firstn 16 identity) l.
Proof.
  intros L. assert (L2 : List.length (firstn 16 identity) = 16%nat) by (apply firstn_length_le; exact L).
  induction l as [|k l IH]; cbn [find_psk]; [reflexivity|]. rewrite IH, L2.
  assert (E : (List.length identity <? 16)%nat = false) by (apply Nat.ltb_ge; exact L).
  rewrite E. cbn [Nat.ltb Nat.leb]. rewrite firstn_firstn. reflexivity.
Qed.

Lemma find_psk_short identity l k : (List.length identity < 16)%nat -> find_psk identity l <> Some (Some k).
Proof.
  intros L. induction l as [|x l IH]; cbn [find_psk]; [discriminate|].
  destruct (_ && _); [|exact IH]. assert (E : (List.length identity <? 16)%nat = true) by (apply Nat.ltb_lt; exact L). rewrite E. discriminate.
Qed.

Lemma strip_16 dos id : List.length id = 16%nat -> strip dos id = id.
Proof. intros L. unfold strip. rewrite L. cbn [Nat.ltb Nat.leb]. rewrite andb_false_r. reflexivity. Qed.

Lemma strip_prefix id : strip RFNOP (str "oic.sec.doxm.rdp:" ++ id) = id.
Proof. unfold strip. rewrite app_length. reflexivity. Qed.

Lemma stands_strip v identity id : stands_for v identity id -> strip (v_dos v) identity = id.
Proof.
  intros [L [->|[E ->]]]; [now apply strip_16|]. rewrite E. apply strip_prefix.
Qed.

(** A stripped identity is the identity or what follows the prefix. *)
Lemma strip_cases dos identity : strip dos identity = identity \/
  (dos = 3 /\ identity = str "oic.sec.doxm.rdp:" ++ strip dos identity).
Proof.
  unfold strip. destruct (_ && _) eqn:E; [|now left]. right. rewrite !andb_true_iff, N.eqb_eq, list_eqb_spec in E.
  destruct E as [[E1 _] E2]. split; [exact E1|]. rewrite <- E2. symmetry. apply firstn_skipn.
Qed.

Section Psk.
Variable kdf : list N -> list N -> list N.

Lemma first_key_split v id key : List.length id = 16%nat -> first_key v id key ->
  exists k, find_psk id (v_creds v) = Some (Some k) /\ k_key k = key.
Proof.
  intros L (pre & k & post & E & P & K & A). destruct (find_psk_ok id (v_creds v) L) as [(k0 & F & P0 & pre0 & post0 & E0 & A0)|[_ N]].
  - exists k0. split; [exact F|]. rewrite <- K. f_equal. rewrite E in E0. clear -E0 P P0 A A0.
    revert pre0 E0 A0. induction pre as [|x pre IH]; intros pre0 E0 A0.
    + destruct pre0 as [|y pre0]; cbn [app] in E0; injection E0 as <- _; [reflexivity|]. exfalso. apply (A0 k); [now left|exact P].
    + destruct pre0 as [|y pre0]; cbn [app] in E0; injection E0 as <- E0.
      * exfalso. apply (A x); [now left|exact P0].
      * apply (IH (fun z I => A z (or_intror I)) pre0 E0). intros z I. apply A0. now right.
  - exfalso. apply (N k); [rewrite E; apply in_or_app; right; now left|exact P].
Qed.

Lemma psk_known v identity id key : stands_for v identity id -> first_key v id key ->
  get_psk kdf v identity = PskKey key id.
Proof.
  intros S K. unfold get_psk. rewrite (stands_strip _ _ _ S). destruct S as [L _].
  destruct (first_key_split v id key L K) as (k & -> & <-). rewrite <- L at 1. now rewrite firstn_all.
Qed.

Lemma psk_refused v identity id : stands_for v identity id -> no_key v id ->
  ~ (pin_otm v /\ identity = str "oic.sec.doxm.rdp") -> get_psk kdf v identity = PskNo.
Proof.
  intros S K NP. assert (SS := stands_strip _ _ _ S). unfold get_psk. rewrite SS. destruct S as [L X].
  destruct (find_psk_ok id (v_creds v) L) as [(k0 & F & P0 & pre0 & post0 & E0 & _)|[-> _]].
  - exfalso. apply (K k0); [rewrite E0; apply in_or_app; right; now left|exact P0].
  - destruct ((v_dos v =? RFOTM) && (v_oxm v =? OXM_RDP)) eqn:D; [|reflexivity].
    rewrite L. cbn [Nat.eqb negb orb]. destruct (list_eqb id RDP) eqn:R; [|reflexivity]. exfalso.
    apply list_eqb_spec in R. unfold RFOTM, OXM_RDP in D. apply NP. split; [split; lia|].
    destruct X as [->|[X _]]; [exact R|lia].
Qed.

Lemma psk_pin v : pin_otm v -> no_key v (str "oic.sec.doxm.rdp") ->
  get_psk kdf v (str "oic.sec.doxm.rdp") = PskKey (kdf (v_pin v) (v_uuid v)) (str "oic.sec.doxm.rdp").
Proof.
  intros [D O] K. unfold get_psk. rewrite strip_16 by reflexivity.
  destruct (find_psk_ok (str "oic.sec.doxm.rdp") (v_creds v) eq_refl) as [(k0 & F & P0 & pre0 & post0 & E0 & _)|[-> _]].
  - exfalso. apply (K k0); [rewrite E0; apply in_or_app; right; now left|exact P0].
  - rewrite D, O. reflexivity.
Qed.

Lemma psk_only v identity key u : get_psk kdf v identity = PskKey key u ->
  (exists rest, first_key v u key /\ List.length u = 16%nat /\
     (identity = u ++ rest \/ v_dos v = 3 /\ identity = str "oic.sec.doxm.rdp:" ++ u ++ rest)) \/
  (pin_otm v /\ identity = str "oic.sec.doxm.rdp" /\ u = identity /\ key = kdf (v_pin v) (v_uuid v)).
Proof.
  unfold get_psk. set (id := strip (v_dos v) identity) in *.
  assert (SC := strip_cases (v_dos v) identity). fold id in SC.
  destruct (find_psk id (v_creds v)) as [[k|]|] eqn:F; [| |discriminate].
  - intros HP. assert (HK : k_key k = key) by congruence. assert (HU : firstn 16 id = u) by congruence. clear HP. subst key u.
    left. destruct (Nat.lt_ge_cases (List.length id) 16) as [L|L].
    { exfalso. eapply find_psk_short; eauto. }
    assert (L2 : List.length (firstn 16 id) = 16%nat) by (apply firstn_length_le; exact L).
    rewrite find_psk_long in F by exact L.
    destruct (find_psk_ok (firstn 16 id) (v_creds v) L2) as [(k0 & F0 & P0 & pre & post & E & A)|[F0 _]]; [|congruence].
    rewrite F in F0. injection F0 as <-. exists (skipn 16 id). split.
    { exists pre, k, post. repeat split; auto; apply P0. }
    split; [exact L2|]. rewrite !firstn_skipn. destruct SC as [SC|[S1 S2]]; [left; now symmetry|right; auto].
  - destruct ((v_dos v =? RFOTM) && (v_oxm v =? OXM_RDP)) eqn:D; [|discriminate].
    destruct (_ || _) eqn:O; [discriminate|]. intros [= <- <-]. right.
    apply orb_false_iff in O. destruct O as [O1 O2]. apply negb_false_iff in O1, O2. apply list_eqb_spec in O2.
    unfold RFOTM, OXM_RDP in D. destruct SC as [SC|[S1 _]]; [|lia].
    split; [split; lia|]. rewrite <- SC, O2. repeat split.
Qed.
End Psk.

(** Devices find each other by the identity they show. *)
Lemma own_identity_stands v w client : List.length (v_uuid v) = 16%nat ->
  (pin_otm v -> v_dos w = 3) -> stands_for w (own_identity v client false) (v_uuid v).
Proof.
  intros L P. split; [exact L|]. unfold own_identity. rewrite andb_false_r.
  destruct ((v_dos v =? RFOTM) && (v_oxm v =? OXM_RDP)) eqn:E; [|now left]. right. split; [|reflexivity].
  apply P. unfold RFOTM, OXM_RDP in E. split; lia.
Qed.

(** ** Connections *)
Lemma run_snoc s l o : run s (l ++ [o]) = step (run s l) o.
Proof. revert s. induction l as [|x l IH]; intros s; [reflexivity|]. cbn [app run]. apply IH. Qed.

Lemma of_dev_nil s d : Nat.eqb (List.length (of_dev d (peers s))) 0 = true <-> forall p, In p (peers s) -> p_dev p <> d.
Proof.
  rewrite Nat.eqb_eq, length_zero_iff_nil. unfold of_dev. split.
  - intros E p I Ep. assert (In p []); [|contradiction]. rewrite <- E. apply filter_In. split; [exact I|now apply Nat.eqb_eq].
  - intros H. destruct (filter _ _) as [|p l] eqn:E; [reflexivity|]. exfalso.
    assert (I : In p (p :: l)) by now left. rewrite <- E in I. apply filter_In in I. destruct I as [I Ep]. apply Nat.eqb_eq in Ep. exact (H p I Ep).
Qed.

(** The two outcomes of a message for an endpoint. *)
Lemma open_cases s d ep client di :
  (step s (Open d ep client di) = s /\
   ((exists p, In p (peers s) /\ p_ep p = ep) \/
    v_dos (devs s d) = 1 /\ (v_oxm (devs s d) = 4 \/ exists p, In p (peers s) /\ p_dev p = d))) \/
  (exists p, opened s p (step s (Open d ep client di)) /\ (forall q, In q (peers s) -> p_ep q <> ep) /\
     (v_dos (devs s d) = 1 -> v_oxm (devs s d) <> 4 /\ forall q, In q (peers s) -> p_dev q <> d) /\
     devs (step s (Open d ep client di)) = devs s /\ cnt (step s (Open d ep client di)) = S (cnt s) /\
     gl (step s (Open d ep client di)) = Sel None (-1) (-1) (if client then false else g_pin (gl s)) /\
     p_n p = cnt s /\ p_dev p = d /\ p_ep p = ep /\ p_client p = client /\ p_doc p = (v_dos (devs s d) =? RFOTM) /\
     p_cert p = load_chain (devs s d) (gl s) /\
     p_suites p = choose (devs s d) client (g_ciphers (gl s)) (match p_cert p with Some _ => true | None => false end) di /\
     p_required p = ((RFOTM <? v_dos (devs s d)) || client)%bool /\
     p_cloud p = (match g_ciphers (gl s) with Some SCloud => true | _ => false end) /\
     p_identity p = own_identity (devs s d) client (g_pin (gl s))).
Proof.
  cbn [step]. unfold add_or_get, get_peer.
  destruct (find _ (peers s)) as [p|] eqn:F.
  - left. split; [reflexivity|]. left. apply find_some in F. exists p. split; [apply F|]. now apply Nat.eqb_eq.
  - unfold new_peer. cbv zeta. destruct ((v_dos (devs s d) =? RFOTM) && negb (valid_doc s d)) eqn:V.
    + left. split; [reflexivity|]. right. apply andb_true_iff in V. destruct V as [V1 V2]. apply N.eqb_eq in V1.
      split; [exact V1|]. unfold valid_doc in V2. apply negb_true_iff, andb_false_iff in V2. destruct V2 as [V2|V2].
      * left. apply negb_false_iff, N.eqb_eq in V2. exact V2.
      * right. apply Nat.eqb_neq in V2. unfold of_dev in V2. destruct (filter _ (peers s)) as [|p l] eqn:E; [contradiction|].
        assert (I : In p (p :: l)) by now left. rewrite <- E in I. apply filter_In in I. exists p. split; [apply I|now apply Nat.eqb_eq].
    + right. eexists. split; [reflexivity|]. split.
      { intros q I E. assert (X := find_none _ _ F q I). cbv beta in X. apply Nat.eqb_neq in X. contradiction. }
      split.
      { intros D. rewrite D in V. cbn in V. apply negb_false_iff in V. unfold valid_doc in V. apply andb_true_iff in V.
        destruct V as [V1 V2]. apply negb_true_iff, N.eqb_neq in V1. split; [exact V1|]. now apply of_dev_nil. }
      repeat split.
Qed.

Record inv (s : st) : Prop := {
  i_eps : NoDup (map p_ep (peers s));
  i_nums : NoDup (map p_n (peers s));
  i_lt : forall p, In p (peers s) -> (p_n p < cnt s)%nat;
  i_doc : forall d, (List.length (docs s d) <= 1)%nat }.

Lemma filter_nodup A B (f : A -> B) (q : A -> bool) l : NoDup (map f l) -> NoDup (map f (filter q l)).
Proof.
  induction l as [|x l IH]; intros ND; [exact ND|]. cbn [map] in ND. inversion ND as [|? ? N1 N2]; subst. cbn [filter].
  destruct (q x); [|auto]. cbn [map]. constructor; [|auto]. intros I. apply N1. apply in_map_iff in I. destruct I as (y & E & I).
  apply filter_In in I. rewrite <- E. apply in_map. apply I.
Qed.

Lemma filter_length_le A (p q : A -> bool) l : (List.length (filter p (filter q l)) <= List.length (filter p l))%nat.
Proof.
  induction l as [|x l IH]; [auto|]. cbn [filter]. destruct (q x), (p x) eqn:P; cbn [filter]; rewrite ?P; cbn [List.length]; lia.
Qed.

Lemma inv_step s o : inv s -> inv (step s o).
Proof.
  intros [E N L D].
  assert (SAME : forall s', peers s' = peers s -> cnt s' = cnt s -> inv s').
  { intros s' P C. constructor; unfold docs in *; rewrite ?P, ?C; auto. }
  destruct o as [x| |z|z| |d ep client di|n fr|d v]; try (apply SAME; reflexivity).
  - destruct (open_cases s d ep client di) as [[-> _]|(p & O & NE & RF & ED & EC & EG & P1 & P2 & P3 & P4 & P5 & _)]; [constructor; auto|].
    unfold opened in O. constructor; unfold docs; rewrite ?O, ?EC.
    + rewrite map_app. apply NoDup_app_snoc; [exact E|]. intros I. apply in_map_iff in I. destruct I as (q & Q & I).
      apply (NE q I). congruence.
    + rewrite map_app. apply NoDup_app_snoc; [exact N|]. intros I. apply in_map_iff in I. destruct I as (q & Q & I).
      specialize (L q I). lia.
    + intros q I. apply in_app_iff in I. destruct I as [I|[<-|[]]]; [specialize (L q I); lia|lia].
    + intros d'. rewrite filter_app, app_length. cbn [filter]. destruct (p_doc p && Nat.eqb (p_dev p) d') eqn:PD; cbn [List.length].
      * apply andb_true_iff in PD. destruct PD as [PD1 PD2]. apply Nat.eqb_eq in PD2. rewrite P5 in PD1. apply N.eqb_eq in PD1.
        destruct (RF PD1) as [_ AL]. assert (Z : filter (fun q => p_doc q && Nat.eqb (p_dev q) d') (peers s) = []).
        { destruct (filter _ (peers s)) as [|q l] eqn:F; [reflexivity|]. exfalso. assert (I : In q (q :: l)) by now left.
          rewrite <- F in I. apply filter_In in I. destruct I as [I Q]. apply andb_true_iff in Q. destruct Q as [_ Q]. apply Nat.eqb_eq in Q.
          apply (AL q I). congruence. }
        rewrite Z. cbn [List.length]. lia.
      * specialize (D d'). unfold docs in D. lia.
  - cbn [step]. unfold free_peer. destruct (find _ (peers s)) as [p|]; [|apply SAME; reflexivity].
    cbn [fst]. constructor; unfold docs in *; cbn [peers cnt].
    + now apply filter_nodup.
    + now apply filter_nodup.
    + intros q I. apply filter_In in I. apply L, I.
    + intros d. etransitivity; [apply filter_length_le|apply D].
Qed.

Lemma inv_run dv ops : inv (run (init dv) ops).
Proof.
  induction ops as [|o ops IH] using rev_ind; [|rewrite run_snoc; now apply inv_step].
  constructor; cbn; try constructor; try contradiction. auto.
Qed.

Lemma pick_ok v use z k : pick (v_certs v) use z = Some k -> first_cert v use z k.
Proof.
  unfold pick, first_cert. generalize (v_certs v) as l. induction l as [|x l IH]; cbn [find]; [discriminate|].
  destruct ((k_use x =? use) && (Z.eqb z (-1) || Z.eqb (k_id x) z)) eqn:E.
  - intros [= <-]. exists [], l. split; [reflexivity|]. rewrite andb_true_iff, orb_true_iff, N.eqb_eq, !Z.eqb_eq in E.
    destruct E as [E1 E2]. split; [exact E1|]. split; [exact E2|contradiction].
  - intros H. destruct (IH H) as (pre & post & -> & U & S & A). exists (x :: pre), post. split; [reflexivity|].
    split; [exact U|]. split; [exact S|]. intros y [<-|I] Ey; [|auto].
    rewrite Ey, N.eqb_refl in E. cbn [andb] in E. apply orb_false_iff in E. rewrite !Z.eqb_neq in E. exact E.
Qed.

Lemma pick_none v use z : pick (v_certs v) use z = None -> forall k, ~ first_cert v use z k.
Proof.
  unfold pick. intros F k (pre & post & E & U & S & _). assert (I : In k (v_certs v)) by (rewrite E; apply in_or_app; right; now left).
  assert (X := find_none _ _ F k I). cbv beta in X. rewrite U, N.eqb_refl in X. cbn [andb] in X. apply orb_false_iff in X.
  rewrite !Z.eqb_neq in X. tauto.
Qed.
