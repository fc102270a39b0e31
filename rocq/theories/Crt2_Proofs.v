(** Proofs about the authorisation of peers with certificates. *)
From Verif Require Import Common Hex_Model Hex_Spec Hex_Proofs Acl_Model Crt_Model Crt_Spec Crt_Proofs.
Local Open Scope nat_scope.

Lemma usage_eqb_spec a b : usage_eqb a b = true <-> a = b.
Proof. destruct a, b; split; intros H; first [reflexivity|discriminate]. Qed.

(** ** What one certificate changes *)

(** The owned certificate [o'] is [o], but for a root of [roots] remembered for the session. *)
Definition noted (s : st) (oid : option nat) (roots : list cert) (o o' : own) : Prop :=
  o_id o' = o_id o /\ o_dev o' = o_dev o /\ o_use o' = o_use o /\
  (o_ctx o' = o_ctx o \/
   exists a c, oid = Some (o_id o) /\ o_use o = UIdentity /\ In a (cas s) /\ a_dev a = o_dev o /\
     a_use a = UTrustca /\ In c roots /\ c_raw c = a_raw a /\ o_ctx o' = Some (a_id a)).

Definition moved (s : st) (oid : option nat) (roots : list cert) (s' : st) : Prop :=
  cas s' = cas s /\ next s' = next s /\ Forall2 (noted s oid roots) (owns s) (owns s').

Lemma noted_refl s oid roots o : noted s oid roots o o.
Proof. unfold noted. auto. Qed.

Lemma moved_refl s oid roots : moved s oid roots s.
Proof. split; [reflexivity|]. split; [reflexivity|]. induction (owns s); constructor; auto using noted_refl. Qed.

Lemma noted_trans s s1 oid r1 r2 o1 o2 o3 : cas s1 = cas s -> noted s oid r1 o1 o2 -> noted s1 oid r2 o2 o3 ->
  noted s oid (r1 ++ r2) o1 o3.
Proof.
  intros C (I1 & D1 & U1 & X1) (I2 & D2 & U2 & X2). unfold noted. rewrite C in X2.
  split; [congruence|]. split; [congruence|]. split; [congruence|].
  destruct X2 as [X2|(a & c & E1 & E2 & E3 & E4 & E5 & E6 & E7 & E8)].
  - destruct X1 as [X1|(a & c & E1 & E2 & E3 & E4 & E5 & E6 & E7 & E8)]; [left; congruence|].
    right. exists a, c. repeat split; auto; [apply in_or_app; auto|congruence].
  - right. exists a, c. repeat split; auto; try congruence. apply in_or_app; auto.
Qed.

Lemma forall2_trans A (P Q R : A -> A -> Prop) (T : forall x y z, P x y -> Q y z -> R x z) l1 l2 l3 :
  Forall2 P l1 l2 -> Forall2 Q l2 l3 -> Forall2 R l1 l3.
Proof.
  intros H. revert l3. induction H as [|x y l l' Hxy H IH]; intros l3 H2; inversion H2; subst; constructor; eauto.
Qed.

Lemma moved_trans s s1 s2 oid r1 r2 : moved s oid r1 s1 -> moved s1 oid r2 s2 -> moved s oid (r1 ++ r2) s2.
Proof.
  intros (C1 & N1 & F1) (C2 & N2 & F2). split; [congruence|]. split; [congruence|].
  eapply forall2_trans; [|exact F1|exact F2]. intros x y z. now apply noted_trans.
Qed.

Lemma note_root_moved s o c : find_own s (o_id o) = Some o -> NoDup (map o_id (owns s)) -> o_use o = UIdentity ->
  moved s (Some (o_id o)) [c] (note_root s o c).
Proof.
  intros F ND U. unfold note_root.
  destruct (find _ (cas s)) as [a|] eqn:E; [|apply moved_refl].
  apply find_some in E. destruct E as [IA E]. apply andb_true_iff in E. destruct E as [E R]. apply andb_true_iff in E. destruct E as [D T].
  apply Nat.eqb_eq in D. apply usage_eqb_spec in T. apply list_eqb_spec in R.
  split; [reflexivity|]. split; [reflexivity|]. cbn [set_ctx owns].
  unfold find_own in F. assert (U' : forall w, In w (owns s) -> o_id w = o_id o -> w = o).
  { apply find_some in F. destruct F as [IO _]. intros w IW EW.
    clear -ND IO IW EW. induction (owns s) as [|x l IH]; [contradiction|]. cbn [map] in ND. inversion ND as [|? ? N1 N2]; subst.
    destruct IO as [->|IO], IW as [->|IW]; auto.
    - exfalso. apply N1. rewrite <- EW. now apply in_map.
    - exfalso. apply N1. rewrite EW. now apply in_map. }
  revert U'. generalize (owns s) as l. induction l as [|w l IH]; intros U'; cbn [map]; constructor.
  - destruct (Nat.eqb_spec (o_id w) (o_id o)) as [EW|EW]; [|apply noted_refl].
    assert (w = o) as -> by (apply U'; [left; reflexivity|exact EW]).
    split; [reflexivity|]. split; [reflexivity|]. split; [reflexivity|]. right. exists a, c.
    repeat split; auto. now left.
  - apply IH. intros w' I'. apply U'. now right.
Qed.

Lemma verify1_moved g s oid otm d c u : NoDup (map o_id (owns s)) ->
  moved s oid (match d with O => [] | S _ => [c] end) (fst (verify1 g s oid otm d c u)).
Proof.
  intros ND. unfold verify1, with_flags. destruct d as [|d].
  - destruct (validate_end g c); [|apply moved_refl].
    destruct (match cn_uuid c with Some _ => _ | None => _ end); [|apply moved_refl].
    destruct (negb (c_key c)); [apply moved_refl|].
    destruct oid as [i|]; [|apply moved_refl]. destruct (find_own s i) as [o|]; [|apply moved_refl].
    destruct (usage_eqb (o_use o) UMfg); [apply moved_refl|]. destruct (o_ctx o) as [k|]; [|apply moved_refl].
    destruct (find_ca s k); [|apply moved_refl]. destruct (search _ _ _ _); apply moved_refl.
  - destruct (validate_ca g c true otm _).
    + cbn [fst]. destruct oid as [i|]; [|apply moved_refl]. destruct (find_own s i) as [o|] eqn:F; [|apply moved_refl].
      destruct (usage_eqb (o_use o) UIdentity) eqn:UI; [|apply moved_refl].
      apply usage_eqb_spec in UI. assert (EI : o_id o = i).
      { apply find_some in F. now apply Nat.eqb_eq. }
      subst i. now apply note_root_moved.
    + destruct (validate_ca g c false otm _); apply moved_refl.
Qed.

Lemma moved_ids s oid r s' : moved s oid r s' -> map o_id (owns s') = map o_id (owns s).
Proof.
  intros (_ & _ & F). induction F as [|x y l l' (H & _) F IH]; [reflexivity|]. cbn [map]. now rewrite H, IH.
Qed.

(** ** Whole chains *)
Lemma verify_moved g otm oid chain : forall s u, NoDup (map o_id (owns s)) ->
  moved s oid (removelast chain) (fst (verify g s oid otm chain u)).
Proof.
  induction chain as [|c r IH]; intros s u ND; cbn [verify]; [apply moved_refl|].
  assert (M := verify1_moved g s oid otm (List.length r) c u ND).
  destruct (verify1 g s oid otm (List.length r) c u) as [s1 v]. cbn [fst] in M.
  destruct r as [|c' r].
  - cbn [List.length removelast] in *. destruct v; exact M.
  - cbn [List.length] in M. change (removelast (c :: c' :: r)) with ([c] ++ removelast (c' :: r)).
    destruct v as [|u1|].
    + eapply moved_trans; [exact M|apply moved_refl].
    + eapply moved_trans; [exact M|]. apply IH. rewrite (moved_ids _ _ _ _ M). exact ND.
    + eapply moved_trans; [exact M|apply moved_refl].
Qed.

(** Certificates above the end entity leave the uuid alone and never go wrong. *)
Lemma verify1_above g s oid otm d c u s' v : verify1 g s oid otm (S d) c u = (s', v) ->
  v = VNo \/ (v = VYes u /\ exists root, validate_ca g c root otm (N.of_nat (S d)) = Some false /\ c_bad c = false /\
              s' = (match (match oid with Some i => find_own s i | None => None end) with
                    | Some o => if (root && usage_eqb (o_use o) UIdentity)%bool then note_root s o c else s
                    | None => s end)).
Proof.
  unfold verify1, with_flags. cbv zeta.
  destruct (validate_ca g c true otm _) as [f|] eqn:A.
  - intros [= <- <-]. destruct (c_bad c || f)%bool eqn:B; [now left|]. right. split; [reflexivity|]. exists true.
    apply orb_false_iff in B. destruct B as [B ->]. repeat split; auto.
  - destruct (validate_ca g c false otm _) as [f|] eqn:A2; intros [= <- <-]; [|now left].
    destruct (c_bad c || f)%bool eqn:B; [now left|]. right. split; [reflexivity|]. exists false.
    apply orb_false_iff in B. destruct B as [B ->]. repeat split; auto.
    destruct (match oid with Some i => find_own s i | None => None end); reflexivity.
Qed.

(** An answer other than a refusal comes from the end entity. *)
Lemma verify_last g otm oid chain : forall s u s' v, NoDup (map o_id (owns s)) ->
  verify g s oid otm chain u = (s', v) -> v <> VNo ->
  exists pre leaf s1, chain = pre ++ [leaf] /\ moved s oid pre s1 /\
    verify1 g s1 oid otm 0 leaf u = (s', v).
Proof.
  induction chain as [|c r IH]; intros s u s' v ND H NV; cbn [verify] in H; [congruence|].
  assert (M := verify1_moved g s oid otm (List.length r) c u ND).
  destruct (verify1 g s oid otm (List.length r) c u) as [s1 v1] eqn:E. cbn [fst] in M.
  destruct r as [|c' r].
  - exists [], c, s. split; [reflexivity|]. split; [apply moved_refl|]. cbn [List.length] in E. rewrite E.
    destruct v1; congruence.
  - cbn [List.length] in E. apply verify1_above in E. destruct E as [->|(-> & _)]; [congruence|].
    apply IH in H; [|rewrite (moved_ids _ _ _ _ M); exact ND|exact NV].
    destruct H as (pre & leaf & s2 & -> & M2 & V). exists (c :: pre), leaf, s2. split; [reflexivity|].
    split; [|exact V]. change (c :: pre) with ([c] ++ pre). eapply moved_trans; [exact M|exact M2].
Qed.

Lemma removelast_snoc A (l : list A) x : removelast (l ++ [x]) = l.
Proof. rewrite removelast_app by discriminate. cbn [removelast]. apply app_nil_r. Qed.

(** ** The search *)
Lemma search_ok o root u l : (forall a, In a l -> a_dev a = o_dev o /\ a_use a = UTrustca) ->
  (search o root u l = true <-> exists a, In a l /\ a_raw a = root /\ (a_sub a = u \/ a_sub a = wildcard)).
Proof.
  induction l as [|a l IH]; intros H; cbn [search].
  - split; [discriminate|]. intros (a & [] & _).
  - destruct (H a (or_introl eq_refl)) as [D U]. rewrite D, U, Nat.eqb_refl. cbn [andb usage_eqb].
    assert (IH' := IH (fun a I => H a (or_intror I))). clear IH.
    destruct (list_eqb root (a_raw a)) eqn:R.
    + apply list_eqb_spec in R. destruct (list_eqb (a_sub a) u) eqn:S1.
      * apply list_eqb_spec in S1. split; [|reflexivity]. intros _. exists a. repeat split; auto. now left.
      * destruct (list_eqb (a_sub a) wildcard) eqn:S2.
        { apply list_eqb_spec in S2. split; [|reflexivity]. intros _. exists a. repeat split; auto. now left. }
        rewrite IH'. split; [intros (b & I & X); exists b; split; [now right|exact X]|].
        intros (b & [->|I] & X1 & X2); [|exists b; auto]. exfalso.
        destruct X2 as [X2|X2]; rewrite X2, list_eqb_refl in *; discriminate.
    + rewrite IH'. split; [intros (b & I & X); exists b; split; [now right|exact X]|].
      intros (b & [->|I] & X1 & X2); [|exists b; auto]. exfalso. rewrite X1, list_eqb_refl in R. discriminate.
Qed.

(** Whatever else is listed, an authorising trust anchor is enough. *)
Lemma search_enough o root u l a : In a l -> a_raw a = root -> (a_sub a = u \/ a_sub a = wildcard) ->
  search o root u l = true.
Proof.
  induction l as [|b l IH]; intros I R S; [contradiction|]. cbn [search].
  destruct (_ && _)%bool; [|reflexivity]. destruct I as [->|I].
  - rewrite R, list_eqb_refl. destruct S as [S|S]; rewrite S, ?list_eqb_refl; [reflexivity|]. destruct (list_eqb wildcard u); reflexivity.
  - specialize (IH I R S). destruct (list_eqb root (a_raw b)); [|exact IH].
    destruct (list_eqb (a_sub b) u); [reflexivity|]. destruct (list_eqb (a_sub b) wildcard); [reflexivity|exact IH].
Qed.

(** ** The end entity *)
Lemma verify1_leaf g s oid otm c u s' v : verify1 g s oid otm 0 c u = (s', v) -> v <> VNo ->
  s' = s /\ end_profile g c identity_mark role_mark /\ c_key c = true /\
  (forall u', v = VYes u' -> in_time c /\ c_bad c = false /\
     (cn_uuid c = None /\ u' = 42%N :: tl u \/ exists t, cn_uuid c = Some t /\ u' = set_uuid u t)) /\
  (forall i o, oid = Some i -> find_own s i = Some o -> o_use o <> UMfg ->
     (o_use o = UIdentity -> cn_uuid c <> None) /\
     exists k, o_ctx o = Some k /\
     (v = VUb /\ find_ca s k = None \/
      exists root u', find_ca s k = Some root /\ v = VYes u' /\ search o (a_raw root) u' (cas s) = true)) /\
  (v = VUb -> exists i o, oid = Some i /\ find_own s i = Some o /\ o_use o <> UMfg).
Proof.
  unfold verify1, with_flags. cbv zeta. intros H NV.
  destruct (validate_end g c) as [f|] eqn:E; [|congruence].
  apply validate_end_ok in E. destruct E as [P Ef].
  set (oc := match oid with Some i => find_own s i | None => None end) in *.
  assert (OC : forall i o, oid = Some i -> find_own s i = Some o -> oc = Some o) by (intros i o -> F; exact F).
  assert (OC2 : forall o, oc = Some o -> exists i, oid = Some i /\ find_own s i = Some o).
  { intros o F. unfold oc in F. destruct oid as [i|]; [|discriminate]. exists i. auto. }
  clearbody oc.
  assert (NM : forall x, (match cn_uuid c with
       | Some t => Some (set_uuid u t)
       | None => match oc with
                 | Some o => if usage_eqb (o_use o) UIdentity then None else Some (42%N :: tl u)
                 | None => Some (42%N :: tl u) end end) = Some x ->
     (cn_uuid c = None /\ x = 42%N :: tl u \/ exists t, cn_uuid c = Some t /\ x = set_uuid u t) /\
     (forall o, oc = Some o -> o_use o = UIdentity -> cn_uuid c <> None)).
  { intros x. destruct (cn_uuid c) as [t|].
    - intros [= <-]. split; [right; eauto|]. discriminate.
    - destruct oc as [o|].
      + destruct (usage_eqb (o_use o) UIdentity) eqn:UI; [discriminate|]. intros [= <-]. split; [now left|].
        intros o' [= <-] E. rewrite E in UI. discriminate.
      + intros [= <-]. split; [now left|]. discriminate. }
  destruct (match cn_uuid c with Some _ => _ | None => _ end) as [x|]; [|congruence].
  destruct (NM x eq_refl) as [NX NI]. clear NM.
  destruct (c_key c) eqn:K; cbn [negb] in H; [|congruence].
  assert (FL : forall s0 w, (s0, (if (c_bad c || f)%bool then VNo else VYes x)) = (s', w) -> w <> VNo ->
     s0 = s' /\ w = VYes x /\ in_time c /\ c_bad c = false).
  { intros s0 w [= <- <-] NW. destruct (c_bad c || f)%bool eqn:B; [congruence|]. apply orb_false_iff in B. destruct B as [B ->].
    symmetry in Ef. apply orb_false_iff in Ef. destruct Ef as [T1 T2]. repeat split; auto. }
  destruct oc as [o|].
  - destruct (usage_eqb (o_use o) UMfg) eqn:M.
    + apply usage_eqb_spec in M. apply FL in H; [|exact NV]. destruct H as (<- & -> & T & B).
      split; [reflexivity|]. split; [exact P|]. split; [reflexivity|]. split; [intros u' [= <-]; auto|].
      split; [|discriminate]. intros i o' E1 E2 NM. assert (E3 := OC i o' E1 E2). injection E3 as <-. contradiction.
    + destruct (o_ctx o) as [k|] eqn:CX; [|congruence].
      destruct (find_ca s k) as [root|] eqn:FC.
      * destruct (search o (a_raw root) x (cas s)) eqn:SR; [|congruence]. apply FL in H; [|exact NV].
        destruct H as (<- & -> & T & B). split; [reflexivity|]. split; [exact P|]. split; [reflexivity|]. split; [intros u' [= <-]; auto|].
        split; [|discriminate]. intros i o' E1 E2 _. assert (E3 := OC i o' E1 E2). injection E3 as <-.
        split; [now apply NI|]. exists k. split; [exact CX|]. right. exists root, x. auto.
      * injection H as <- <-. split; [reflexivity|]. split; [exact P|]. split; [reflexivity|]. split; [discriminate|].
        split.
        { intros i o' E1 E2 _. assert (E3 := OC i o' E1 E2). injection E3 as <-. split; [now apply NI|].
          exists k. split; [exact CX|]. left. auto. }
        intros _. destruct (OC2 o eq_refl) as (i & A1 & A2). exists i, o. split; [exact A1|]. split; [exact A2|]. intros E. rewrite E in M. discriminate.
  - apply FL in H; [|exact NV]. destruct H as (<- & -> & T & B).
    split; [reflexivity|]. split; [exact P|]. split; [reflexivity|]. split; [intros u' [= <-]; auto|].
    split; [|discriminate]. intros i o' E1 E2 _. assert (E3 := OC i o' E1 E2). discriminate.
Qed.

(** Every certificate of an accepted chain meets its profile. *)
Lemma verify_chain_ok g otm oid chain : forall s u s' u', NoDup (map o_id (owns s)) ->
  verify g s oid otm chain u = (s', VYes u') -> chain <> [] /\ chain_ok g otm chain.
Proof.
  induction chain as [|c r IH]; intros s u s' u' ND H; cbn [verify] in H; [discriminate|].
  split; [discriminate|].
  assert (M := verify1_moved g s oid otm (List.length r) c u ND).
  destruct (verify1 g s oid otm (List.length r) c u) as [s1 v1] eqn:E. cbn [fst] in M.
  destruct r as [|c' r].
  - cbn [List.length] in E. destruct v1 as [|u1|]; try discriminate. apply verify1_leaf in E; [|discriminate].
    destruct E as (_ & P & K & T & _). destruct (T u1 eq_refl) as (T1 & T2 & _). cbn [chain_ok]. auto.
  - cbn [List.length] in E. apply verify1_above in E. destruct E as [->|(-> & root & VC & B & _)]; [discriminate|].
    apply IH in H; [|rewrite (moved_ids _ _ _ _ M); exact ND]. destruct H as [_ H].
    apply validate_ca_ok in VC. destruct VC as (P & _ & _ & T). symmetry in T. apply orb_false_iff in T.
    change (ca_profile g c otm (N.of_nat (List.length (c' :: r))) /\ in_time c /\ c_bad c = false /\ chain_ok g otm (c' :: r)).
    split; [exact P|]. split; [exact T|]. auto.
Qed.

Lemma find_own_moved s oid roots s' i o : moved s oid roots s' -> find_own s i = Some o ->
  exists o', find_own s' i = Some o' /\ noted s oid roots o o'.
Proof.
  intros (_ & _ & F) H. unfold find_own in *.
  induction F as [|x y l l' Hxy F IH]; [discriminate|]. cbn [find] in *.
  assert (E : o_id y = o_id x) by apply Hxy. rewrite E. destruct (Nat.eqb (o_id x) i).
  - injection H as <-. exists y. auto.
  - auto.
Qed.

Lemma find_own_moved_back s oid roots s' i o' : moved s oid roots s' -> find_own s' i = Some o' ->
  exists o, find_own s i = Some o /\ noted s oid roots o o'.
Proof.
  intros (_ & _ & F) H. unfold find_own in *.
  induction F as [|x y l l' Hxy F IH]; [discriminate|]. cbn [find] in *.
  assert (E : o_id y = o_id x) by apply Hxy. rewrite E in H. destruct (Nat.eqb (o_id x) i).
  - injection H as <-. exists x. auto.
  - auto.
Qed.

Lemma nodup_find (l : list ca) a : NoDup (map a_id l) -> In a l -> find (fun b => Nat.eqb (a_id b) (a_id a)) l = Some a.
Proof.
  induction l as [|b l IH]; intros ND I; [contradiction|]. cbn [map] in ND. inversion ND as [|? ? N1 N2]; subst. cbn [find].
  destruct I as [->|I]; [rewrite Nat.eqb_refl; reflexivity|].
  destruct (Nat.eqb_spec (a_id b) (a_id a)) as [E|E]; [|auto]. exfalso. apply N1. rewrite E. now apply in_map.
Qed.

(** ** Authorisation *)
Lemma only g s i o otm chain u s' u' :
  NoDup (map o_id (owns s)) -> NoDup (map a_id (cas s)) ->
  find_own s i = Some o -> o_use o = UIdentity -> o_ctx o = None ->
  (forall a, In a (cas s) -> a_dev a = o_dev o /\ a_use a = UTrustca) ->
  verify g s (Some i) otm chain u = (s', VYes u') -> anchored s (o_dev o) chain u'.
Proof.
  intros ND NC F U CX AL H. apply verify_last in H; [|exact ND|discriminate].
  destruct H as (pre & leaf & s1 & -> & M & V). apply verify1_leaf in V; [|discriminate].
  destruct V as (_ & _ & _ & _ & V & _).
  destruct (find_own_moved _ _ _ _ _ _ M F) as (o1 & F1 & N1). assert (N1' := N1). destruct N1 as (Ei & Ed & Eu & Ec).
  destruct (V i o1 eq_refl F1) as (_ & k & K & X); [congruence|].
  destruct Ec as [Ec|(a & c & _ & _ & IA & AD & AU & IC & CR & CK)]; [congruence|].
  assert (k = a_id a) by congruence. subst k.
  assert (FC : find_ca s1 (a_id a) = Some a). { unfold find_ca. destruct M as (-> & _). now apply nodup_find. }
  destruct X as [(X & _)|(root & u1 & X1 & X2 & X3)]; [discriminate|]. injection X2 as <-.
  rewrite FC in X1. injection X1 as <-.
  assert (EC : cas s1 = cas s) by apply M. rewrite EC in X3.
  apply search_ok in X3; [|intros b Ib; destruct (AL b Ib); split; congruence].
  destruct X3 as (b & Ib & Rb & Sb). destruct (AL b Ib) as [D1 D2].
  exists b, c. rewrite removelast_snoc. repeat split; auto; congruence.
Qed.

(** The conditions under which a chain is not refused: the root is a trust anchor of the device
    for this peer, the others are authorities that are not roots. *)
Lemma verify_pre g s oid otm pre leaf u :
  NoDup (map o_id (owns s)) ->
  (forall n c, nth_error pre n = Some c -> validate_ca g c false otm (N.of_nat (List.length pre - n)) = Some false /\ c_bad c = false) ->
  verify g s oid otm (pre ++ [leaf]) u = verify g s oid otm [leaf] u.
Proof.
  intros ND. induction pre as [|c r IH]; intros H; [reflexivity|].
  cbn [app verify]. destruct (H 0 c eq_refl) as [V B]. cbn [List.length Nat.sub] in V.
  assert (L : List.length (r ++ [leaf]) = S (List.length r)) by (rewrite app_length; cbn [List.length]; lia).
  rewrite L. unfold verify1 at 1. cbv zeta.
  assert (VT : validate_ca g c true otm (N.of_nat (S (List.length r))) = None).
  { destruct (validate_ca g c true otm _) as [f|] eqn:E; [|reflexivity]. apply validate_ca_ok in E, V.
    destruct E as (_ & E & _), V as (_ & V & _). congruence. }
  rewrite VT, V. unfold with_flags. rewrite B. cbn [orb].
  assert (IH' : verify g s oid otm (r ++ [leaf]) u = verify g s oid otm [leaf] u).
  { apply IH. intros n x E. apply (H (S n) x E). }
  destruct (r ++ [leaf]) eqn:Z; [destruct r; discriminate|exact IH'].
Qed.

Lemma admitted g s i o otm root pre leaf a u t :
  NoDup (map o_id (owns s)) -> NoDup (map a_id (cas s)) ->
  find_own s i = Some o -> o_use o = UIdentity ->
  In a (cas s) -> a_dev a = o_dev o -> a_use a = UTrustca -> a_raw a = c_raw root ->
  cn_uuid leaf = Some t -> (a_sub a = set_uuid u t \/ a_sub a = wildcard) ->
  validate_ca g root true otm (N.of_nat (S (List.length pre))) = Some false -> c_bad root = false ->
  (forall n c, nth_error pre n = Some c -> validate_ca g c false otm (N.of_nat (List.length pre - n)) = Some false /\ c_bad c = false) ->
  validate_end g leaf = Some false -> c_bad leaf = false -> c_key leaf = true ->
  snd (verify g s (Some i) otm (root :: pre ++ [leaf]) u) = VYes (set_uuid u t).
Proof.
  intros ND NC F U IA AD AU AR CN SB VR BR VP VE BL KL.
  cbn [verify]. assert (L : List.length (pre ++ [leaf]) = S (List.length pre)) by (rewrite app_length; cbn [List.length]; lia).
  rewrite L. unfold verify1 at 1. cbv zeta. rewrite VR, F, U. cbn [usage_eqb]. unfold with_flags. rewrite BR. cbn [orb].
  assert (EI : o_id o = i) by (apply find_some in F; now apply Nat.eqb_eq).
  assert (M := note_root_moved s o root ltac:(now rewrite EI) ND U). rewrite EI in M. apply moved_ids in M.
  assert (NR : exists b, In b (cas s) /\ a_raw b = c_raw root /\ note_root s o root = set_ctx s (o_id o) (a_id b)).
  { unfold note_root. destruct (find _ (cas s)) as [b|] eqn:E.
    - apply find_some in E. destruct E as [IB E]. rewrite !andb_true_iff, list_eqb_spec in E. exists b. repeat split; auto. symmetry. apply E.
    - exfalso. assert (X := find_none _ _ E a IA). cbv beta in X. rewrite AD, AU, AR, Nat.eqb_refl, list_eqb_refl in X. discriminate. }
  destruct NR as (b & IB & RB & ER). rewrite ER in *.
  set (s1 := set_ctx s (o_id o) (a_id b)) in *.
  assert (ND1 : NoDup (map o_id (owns s1))) by (rewrite M; exact ND).
  assert (F1 : find_own s1 i = Some (Own (o_id o) (o_dev o) (o_use o) (Some (a_id b)))).
  { unfold find_own, s1, set_ctx. cbn [owns]. unfold find_own in F. rewrite EI. clear -F. induction (owns s) as [|x l IH]; [discriminate|].
    cbn [find map] in *. destruct (Nat.eqb (o_id x) i) eqn:E; cbn [o_id]; rewrite E.
    - injection F as ->. apply Nat.eqb_eq in E. rewrite E. reflexivity.
    - auto. }
  assert (Q : verify g s1 (Some i) otm (pre ++ [leaf]) u = verify g s1 (Some i) otm [leaf] u) by now apply verify_pre.
  destruct (pre ++ [leaf]) as [|x y] eqn:Z; [destruct pre; discriminate|]. rewrite Q. clear Q.
  cbn [verify List.length]. unfold verify1. cbv zeta. rewrite VE, CN, KL, F1. cbn [negb o_use o_ctx]. rewrite U. cbn [usage_eqb].
  assert (FC : find_ca s1 (a_id b) = Some b) by (unfold find_ca, s1, set_ctx; cbn [cas]; now apply nodup_find).
  rewrite FC. change (cas s1) with (cas s).
  rewrite (search_enough _ (a_raw b) _ (cas s) a) by (auto; congruence).
  unfold with_flags. rewrite BL. reflexivity.
Qed.

(** ** All histories *)
Definition presented (ops : list op) (i : nat) (raw : list N) : Prop :=
  exists otm chain c, In (Shake (Some i) otm chain) ops /\ In c (removelast chain) /\ c_raw c = raw.

Definition no_removal (ops : list op) : Prop := forall k, ~ In (DelCa k) ops.

Record inv (ops : list op) (s : st) : Prop := {
  i_oids : NoDup (map o_id (owns s));
  i_aids : NoDup (map a_id (cas s));
  i_olt : forall o, In o (owns s) -> o_id o < next s;
  i_alt : forall a, In a (cas s) -> a_id a < next s;
  i_added : forall a, In a (cas s) -> In (AddCa (a_dev a) (a_use a) (a_raw a) (a_sub a)) ops;
  i_ctx : forall o k, In o (owns s) -> o_ctx o = Some k -> k < next s /\
    (exists raw sub, In (AddCa (o_dev o) UTrustca raw sub) ops /\ presented ops (o_id o) raw) /\
    (no_removal ops -> exists a, In a (cas s) /\ a_id a = k) }.

Lemma forall2_in_r A B (R : A -> B -> Prop) l l' y : Forall2 R l l' -> In y l' -> exists x, In x l /\ R x y.
Proof. induction 1 as [|a b l l' H F IH]; intros I; [contradiction|]. destruct I as [<-|I]; [exists a; split; [now left|exact H]|]. destruct (IH I) as (x & I' & H'). exists x. split; [now right|exact H']. Qed.

Lemma presented_more ops o i raw : presented ops i raw -> presented (ops ++ [o]) i raw.
Proof. intros (otm & chain & c & I & X). exists otm, chain, c. split; [apply in_or_app; auto|exact X]. Qed.

Lemma no_removal_less ops o : no_removal (ops ++ [o]) -> no_removal ops.
Proof. intros H k I. apply (H k). apply in_or_app. auto. Qed.

Lemma filter_nodup A B (f : A -> B) (p : A -> bool) l : NoDup (map f l) -> NoDup (map f (filter p l)).
Proof.
  induction l as [|x l IH]; intros ND; [exact ND|]. cbn [map] in ND. inversion ND as [|? ? N1 N2]; subst. cbn [filter].
  destruct (p x); [|auto]. cbn [map]. constructor; [|auto]. intros I. apply N1. apply in_map_iff in I. destruct I as (y & E & I).
  apply filter_In in I. rewrite <- E. apply in_map. apply I.
Qed.

Lemma snoc_nodup A (f : A -> nat) l x n : NoDup (map f l) -> (forall y, In y l -> f y < n) -> f x = n -> NoDup (map f (l ++ [x])).
Proof.
  intros ND LT E. rewrite map_app. cbn [map]. apply NoDup_app_snoc; [exact ND|]. intros I. apply in_map_iff in I.
  destruct I as (y & E' & I). specialize (LT y I). lia.
Qed.

Lemma inv_step g ops s o : inv ops s -> inv (ops ++ [o]) (fst (step g s o)).
Proof.
  intros [NO NA LO LA AD CX].
  assert (AD' : forall a, In a (cas s) -> In (AddCa (a_dev a) (a_use a) (a_raw a) (a_sub a)) (ops ++ [o])).
  { intros a I. apply in_or_app. left. auto. }
  assert (CX' : forall w k, In w (owns s) -> o_ctx w = Some k -> k < next s /\
    (exists raw sub, In (AddCa (o_dev w) UTrustca raw sub) (ops ++ [o]) /\ presented (ops ++ [o]) (o_id w) raw) /\
    (no_removal ops -> exists a, In a (cas s) /\ a_id a = k)).
  { intros w k I E. destruct (CX w k I E) as (A1 & (raw & sub & A2 & A3) & A4). split; [exact A1|]. split; [|exact A4].
    exists raw, sub. split; [apply in_or_app; auto|now apply presented_more]. }
  destruct o as [dev u raw sub|i|dev u|i|oid otm chain]; cbn [step fst].
  - constructor; cbn [cas owns next]; auto.
    + eapply snoc_nodup; eauto.
    + intros w I. specialize (LO w I). lia.
    + intros a I. apply in_app_iff in I. destruct I as [I|[<-|[]]]; [specialize (LA a I); lia|cbn [a_id]; lia].
    + intros a I. apply in_app_iff in I. destruct I as [I|[<-|[]]]; [auto|]. apply in_or_app. right. now left.
    + intros w k I E. destruct (CX' w k I E) as (A1 & A2 & A3). split; [lia|]. split; [exact A2|].
      intros NR. destruct (A3 (no_removal_less _ _ NR)) as (a & Ia & Ea). exists a. split; [apply in_or_app; auto|exact Ea].
  - constructor; cbn [cas owns next]; auto.
    + now apply filter_nodup.
    + intros a I. apply filter_In in I. apply LA, I.
    + intros a I. apply filter_In in I. apply AD', I.
    + intros w k I E. destruct (CX' w k I E) as (A1 & A2 & A3). split; [exact A1|]. split; [exact A2|].
      intros NR. exfalso. apply (NR i). apply in_or_app. right. now left.
  - constructor; cbn [cas owns next]; auto.
    + eapply snoc_nodup; eauto.
    + intros w I. apply in_app_iff in I. destruct I as [I|[<-|[]]]; [specialize (LO w I); lia|cbn [o_id]; lia].
    + intros a I. specialize (LA a I). lia.
    + intros w k I E. apply in_app_iff in I. destruct I as [I|[<-|[]]]; [|discriminate].
      destruct (CX' w k I E) as (A1 & A2 & A3). split; [lia|]. split; [exact A2|]. intros NR. exact (A3 (no_removal_less _ _ NR)).
  - constructor; cbn [cas owns next]; auto.
    + now apply filter_nodup.
    + intros w I. apply filter_In in I. apply LO, I.
    + intros w k I E. apply filter_In in I. destruct (CX' w k (proj1 I) E) as (A1 & A2 & A3). split; [exact A1|].
      split; [exact A2|]. intros NR. exact (A3 (no_removal_less _ _ NR)).
  - assert (M := verify_moved g otm oid chain s (repeat 0%N 16) NO).
    set (s' := fst (verify g s oid otm chain (repeat 0%N 16))) in *. clearbody s'.
    assert (EI := moved_ids _ _ _ _ M). destruct M as (EC & EN & F).
    constructor; rewrite ?EC, ?EN, ?EI; auto.
    + intros w I. assert (J : In (o_id w) (map o_id (owns s))) by (rewrite <- EI; now apply in_map).
      apply in_map_iff in J. destruct J as (x & E & J). rewrite <- E. auto.
    + intros w k I E. destruct (forall2_in_r _ _ _ _ _ _ F I) as (x & Ix & (X1 & X2 & X3 & X4)).
      destruct X4 as [X4|(a & c & Y1 & Y2 & Y3 & Y4 & Y5 & Y6 & Y7 & Y8)].
      * rewrite X1, X2. rewrite X4 in E. destruct (CX' x k Ix E) as (A1 & A2 & A3). split; [exact A1|]. split; [exact A2|].
        intros NR. exact (A3 (no_removal_less _ _ NR)).
      * assert (k = a_id a) by congruence. subst k. split; [auto|]. split.
        { exists (a_raw a), (a_sub a). rewrite X1, X2, <- Y4, <- Y5. split; [auto|].
          exists otm, chain, c. split; [|auto]. apply in_or_app. right. left. now rewrite Y1. }
        intros _. exists a. auto.
Qed.

Lemma inv_empty : inv [] empty.
Proof.
  constructor; cbn [empty owns cas next map]; try constructor; contradiction.
Qed.

Lemma run_snoc g s l o : run g s (l ++ [o]) = fst (step g (run g s l) o).
Proof. revert s. induction l as [|x l IH]; intros s; [reflexivity|]. cbn [app run]. apply IH. Qed.

Lemma inv_run g ops : inv ops (run g empty ops).
Proof.
  induction ops as [|o ops IH] using rev_ind; [exact inv_empty|]. rewrite run_snoc. now apply inv_step.
Qed.

(** An own identity certificate admits nobody before a root of its device has been presented. *)
Lemma floor g ops i o otm chain s' u :
  find_own (run g empty ops) i = Some o -> o_use o = UIdentity ->
  step g (run g empty ops) (Shake (Some i) otm chain) = (s', VYes u) ->
  exists raw sub, In (AddCa (o_dev o) UTrustca raw sub) ops /\ presented (ops ++ [Shake (Some i) otm chain]) i raw.
Proof.
  intros F U H. set (s := run g empty ops) in *. assert (IV := inv_run g ops). fold s in IV. clearbody s.
  cbn [step] in H. assert (H' := H). apply verify_last in H'; [|apply IV|discriminate].
  destruct H' as (pre & leaf & s1 & -> & M & V). apply verify1_leaf in V; [|discriminate].
  destruct V as (_ & _ & _ & _ & V & _).
  destruct (find_own_moved _ _ _ _ _ _ M F) as (o1 & F1 & (Ei & Ed & Eu & Ec)).
  destruct (V i o1 eq_refl F1) as (_ & k & K & _); [congruence|].
  apply find_some in F. destruct F as [IO EI]. apply Nat.eqb_eq in EI.
  destruct Ec as [Ec|(a & c & Y1 & Y2 & Y3 & Y4 & Y5 & Y6 & Y7 & Y8)].
  - rewrite Ec in K. destruct (i_ctx _ _ IV o k IO K) as (_ & (raw & sub & A & P) & _). exists raw, sub.
    split; [exact A|]. rewrite EI in P. now apply presented_more.
  - exists (a_raw a), (a_sub a). rewrite <- Y4, <- Y5. split; [now apply (i_added _ _ IV)|].
    exists otm, (pre ++ [leaf]), c. split; [apply in_or_app; right; now left|]. rewrite removelast_snoc. auto.
Qed.

Lemma never_freed g ops oid otm chain s' : no_removal ops ->
  step g (run g empty ops) (Shake oid otm chain) <> (s', VUb).
Proof.
  intros NR H. set (s := run g empty ops) in *. assert (IV := inv_run g ops). fold s in IV. clearbody s.
  cbn [step] in H. apply verify_last in H; [|apply IV|discriminate].
  destruct H as (pre & leaf & s1 & -> & M & V). apply verify1_leaf in V; [|discriminate].
  destruct V as (_ & _ & _ & _ & V & W). destruct (W eq_refl) as (i & o1 & -> & F1 & NM).
  destruct (find_own_moved_back _ _ _ _ _ _ M F1) as (o & F & (Ei & Ed & Eu & Ec)).
  destruct (V i o1 eq_refl F1 NM) as (_ & k & K & X).
    assert (E : exists a, In a (cas s) /\ a_id a = k).
    { destruct Ec as [Ec|(a & c & Y1 & Y2 & Y3 & Y4 & Y5 & Y6 & Y7 & Y8)].
      - apply find_some in F. rewrite Ec in K. exact (proj2 (proj2 (i_ctx _ _ IV o k (proj1 F) K)) NR).
      - exists a. split; [exact Y3|congruence]. }
    destruct E as (a & Ia & <-). assert (FC : find_ca s1 (a_id a) = Some a).
    { unfold find_ca. destruct M as (-> & _). apply nodup_find; [apply IV|exact Ia]. }
    destruct X as [(_ & X)|(root & u1 & _ & X & _)]; congruence.
Qed.

(** The same for a session that has remembered a root before, when the root of this chain is a
    trust anchor of the device. *)
Lemma only_again g s i o otm root rest u s' u' :
  NoDup (map o_id (owns s)) -> NoDup (map a_id (cas s)) ->
  find_own s i = Some o -> o_use o = UIdentity ->
  (forall a, In a (cas s) -> a_dev a = o_dev o /\ a_use a = UTrustca) ->
  self_issued root = true -> (exists a, In a (cas s) /\ a_raw a = c_raw root) -> rest <> [] ->
  verify g s (Some i) otm (root :: rest) u = (s', VYes u') -> anchored s (o_dev o) (root :: rest) u'.
Proof.
  intros ND NC F U AL SI (a & IA & RA) NE H. cbn [verify] in H.
  destruct rest as [|c rest]; [contradiction|]. clear NE.
  destruct (verify1 g s (Some i) otm (List.length (c :: rest)) root u) as [s1 v1] eqn:E. cbn [List.length] in E.
  apply verify1_above in E. destruct E as [->|(-> & b & VC & _ & ES)]; [discriminate|].
  assert (b = true) as -> by (apply validate_ca_ok in VC; destruct VC as (_ & VC & _); congruence).
  rewrite F, U in ES. cbn [usage_eqb andb] in ES.
  assert (EI : o_id o = i) by (apply find_some in F; now apply Nat.eqb_eq).
  assert (M := note_root_moved s o root ltac:(now rewrite EI) ND U). rewrite EI in M. rewrite <- ES in M.
  assert (NR : exists b, In b (cas s) /\ a_raw b = c_raw root /\ s1 = set_ctx s (o_id o) (a_id b)).
  { rewrite ES. unfold note_root. destruct (find _ (cas s)) as [b|] eqn:E.
    - apply find_some in E. destruct E as [IB E]. rewrite !andb_true_iff, list_eqb_spec in E. exists b. repeat split; auto. symmetry. apply E.
    - exfalso. assert (X := find_none _ _ E a IA). cbv beta in X. destruct (AL a IA) as [AD AU].
      rewrite AD, AU, RA, Nat.eqb_refl, list_eqb_refl in X. discriminate. }
  destruct NR as (b & IB & RB & ER).
  assert (F1 : find_own s1 i = Some (Own (o_id o) (o_dev o) (o_use o) (Some (a_id b)))).
  { rewrite ER. unfold find_own, set_ctx. cbn [owns]. unfold find_own in F. rewrite EI. clear -F. induction (owns s) as [|x l IH]; [discriminate|].
    cbn [find map] in *. destruct (Nat.eqb (o_id x) i) eqn:E; cbn [o_id]; rewrite E.
    - injection F as ->. apply Nat.eqb_eq in E. rewrite E. reflexivity.
    - auto. }
  assert (ND1 : NoDup (map o_id (owns s1))) by (rewrite (moved_ids _ _ _ _ M); exact ND).
  assert (EC1 : cas s1 = cas s) by apply M. clear ER ES M.
  apply verify_last in H; [|exact ND1|discriminate].
  destruct H as (pre & leaf & s2 & -> & M & V). apply verify1_leaf in V; [|discriminate].
  destruct V as (_ & _ & _ & _ & V & _).
  destruct (find_own_moved _ _ _ _ _ _ M F1) as (o1 & F2 & (Ei & Ed & Eu & Ec)). cbn [o_id o_dev o_use o_ctx] in *.
  destruct (V i o1 eq_refl F2) as (_ & k & K & X); [congruence|].
  assert (EC : cas s2 = cas s) by (destruct M as (-> & _); exact EC1).
  assert (G : exists a c0, In a (cas s) /\ k = a_id a /\ In c0 (root :: pre) /\ c_raw c0 = a_raw a).
  { destruct Ec as [Ec|(x & c0 & _ & _ & Ix & _ & _ & Ic & Cr & Ck)].
    - exists b, root. repeat split; auto; [congruence|now left].
    - exists x, c0. rewrite EC1 in Ix. repeat split; auto; [congruence|now right]. }
  destruct G as (x & c0 & Ix & -> & Ic & Cr).
  assert (FC : find_ca s2 (a_id x) = Some x). { unfold find_ca. rewrite EC. now apply nodup_find. }
  destruct X as [(X & _)|(rt & u1 & X1 & X2 & X3)]; [discriminate|]. injection X2 as <-.
  rewrite FC in X1. injection X1 as <-. rewrite EC in X3.
  apply search_ok in X3; [|intros y Iy; destruct (AL y Iy); split; congruence].
  destruct X3 as (y & Iy & Ry & Sy). destruct (AL y Iy) as [D1 D2].
  exists y, c0. change (root :: pre ++ [leaf]) with ((root :: pre) ++ [leaf]). rewrite removelast_snoc.
  repeat split; auto; congruence.
Qed.

(** Where the name of an accepted peer comes from. *)
Lemma named g s oid otm chain s' u : NoDup (map o_id (owns s)) ->
  verify g s oid otm chain (repeat 0%N 16) = (s', VYes u) ->
  exists pre leaf, chain = pre ++ [leaf] /\
    ((cn_uuid leaf = None /\ u = wildcard /\
      forall i o, oid = Some i -> find_own s i = Some o -> o_use o <> UIdentity) \/
     exists t, cn_uuid leaf = Some t /\ u = set_uuid (repeat 0%N 16) t).
Proof.
  intros ND H. apply verify_last in H; [|exact ND|discriminate].
  destruct H as (pre & leaf & s1 & -> & M & V). exists pre, leaf. split; [reflexivity|].
  apply verify1_leaf in V; [|discriminate]. destruct V as (_ & _ & _ & T & V & _).
  destruct (T u eq_refl) as (_ & _ & [[C E]|X]); [|now right]. left. split; [exact C|]. split; [exact E|].
  intros i o -> F UI. destruct (find_own_moved _ _ _ _ _ _ M F) as (o1 & F1 & (_ & _ & Eu & _)).
  destruct (V i o1 eq_refl F1) as (X & _); [congruence|]. apply X; congruence.
Qed.
