(** Proofs about the entries of the provisioning server. *)
From Verif Require Import Common Rep_Model Hex_Model Acl_Model Acl_Spec Acl_Proofs Acl2_Proofs Tag_Model Tag_Spec.
From Coq Require Import String.
Local Open Scope string_scope.
Local Open Scope list_scope.
Local Open Scope N_scope.

Lemma has_tag_spec a t : has_tag a t = true <-> a_tag a = Some t.
Proof.
  unfold has_tag. destruct (a_tag a) as [u|]; [|split; intros H; discriminate H].
  rewrite list_eqb_spec. split; [intros ->; reflexivity|intros H; injection H as H; exact H].
Qed.

Lemma has_tag_false a t : has_tag a t = false <-> a_tag a <> Some t.
Proof. rewrite <- not_true_iff_false, has_tag_spec. tauto. Qed.

Lemma dps_stale : DPS <> STALE.
Proof. vm_compute. intros H. discriminate H. Qed.

Lemma match_subject_meant a s : match_subject a s = true <-> meant (a_subj a) s.
Proof.
  unfold meant. destruct s as [u|r au|c].
  - rewrite match_subject_uuid. split; [auto|]. intros [H|(r & au & _ & H)]; [exact H|discriminate H].
  - rewrite match_subject_role. split.
    + intros (au' & E & [F|F]); subst au'; [right; exists r, au; auto|left; exact E].
    + intros [E|(r' & au' & E & F)]; [exists au; auto|]. injection F as F1 F2. subst r' au'. exists []. auto.
  - rewrite match_subject_conn. split; [auto|]. intros [H|(r & au & _ & H)]; [exact H|discriminate H].
Qed.

Lemma match_tag_eq a t : match_tag a t = true <-> a_tag a = t.
Proof.
  unfold match_tag. destruct t as [t|], (a_tag a) as [u|]; try (split; intros H; (reflexivity || discriminate H)).
  rewrite list_eqb_spec. split; [intros ->; reflexivity|intros H; injection H as H; auto].
Qed.

Lemma subj_sel_true s i p t a : subj_sel s i p t a = true ->
  (p = 0 \/ p = a_perm a) /\ a_tag a = t /\ meant (a_subj a) s.
Proof.
  unfold subj_sel. rewrite !andb_true_iff, !orb_true_iff, match_tag_eq, match_subject_meant, !N.eqb_eq.
  intros [[[_ H] H1] H2]. split; [destruct H as [H|H]; auto|auto].
Qed.

Lemma untouched_sel o a d : untouched o a -> named o d ->
  subj_sel (ad_subj d) (ad_id d) (ad_perm d) (ad_tag d) a = false /\ a_id a <> ad_id d.
Proof.
  intros U Nd. destruct (U d Nd) as [A B]. split; [|exact A].
  destruct (subj_sel (ad_subj d) (ad_id d) (ad_perm d) (ad_tag d) a) eqn:E; [|reflexivity]. exfalso.
  destruct (subj_sel_true _ _ _ _ _ E) as (P & T & M).
  unfold subj_sel in E. rewrite !andb_true_iff, orb_true_iff, !Z.eqb_eq in E. destruct E as [[[[E|E] _] _] _].
  - destruct (B E) as [F|[F|[F G]]]; [exact (F T)|exact (F M)|destruct P; [exact (F H)|exact (G H)]].
  - exact (A E).
Qed.

(** The frame of a whole answer. *)
Lemma decode_props_frame x : forall o a rnd,
  (forall d, named o d -> subj_sel (ad_subj d) (ad_id d) (ad_perm d) (ad_tag d) x = false /\ a_id x <> ad_id d) ->
  match decode_props a rnd o with AOk a' _ | AErr a' _ => In x (l_aces a') <-> In x (l_aces a) | AStuck => True end.
Proof.
  induction o as [|r t IH]; intros a rnd H; cbn [decode_props]; [tauto|].
  assert (H' : forall d, named t d -> subj_sel (ad_subj d) (ad_id d) (ad_perm d) (ad_tag d) x = false /\ a_id x <> ad_id d).
  { intros d (r' & aces & y & A & B). apply H. exists r', aces, y. split; [right; exact A|exact B]. }
  destruct (snd r) eqn:Er; try (exact (IH a rnd H')).
  - destruct (is_prop r (str "rowneruuid")); [|exact (IH a rnd H')].
    match goal with |- context[mk_acl (l_aces a) ?z] => exact (IH (mk_acl (l_aces a) z) rnd H') end.
  - assert (F := decode_aces_frame x l (l_aces a) rnd).
    assert (G : forall y d, In y l -> decode_ace dec0 y = Some d -> subj_sel (ad_subj d) (ad_id d) (ad_perm d) (ad_tag d) x = false /\ a_id x <> ad_id d).
    { intros y d Iy Dy. apply H. exists r, l, y. split; [left; reflexivity|]. auto. }
    specialize (F G). destruct (decode_aces (l_aces a) rnd l) as [l' r'|l' r'|]; [|exact F|exact I].
    specialize (IH (mk_acl l' (l_owner a)) r' H'). cbn [l_aces] in IH. destruct (decode_props _ r' t); tauto.
Qed.

Lemma decode_acl_frame x o a rnd :
  (forall d, named o d -> subj_sel (ad_subj d) (ad_id d) (ad_perm d) (ad_tag d) x = false /\ a_id x <> ad_id d) ->
  match decode_acl RFPRO false a rnd o with AOk a' _ | AErr a' _ => In x (l_aces a') <-> In x (l_aces a) | AStuck => True end.
Proof.
  intros H. unfold decode_acl. destruct (precheck RFPRO false o); [apply decode_props_frame; exact H|tauto].
Qed.

(** Entries with a tag come from the answer. *)
Section Source.
Variable o : list rep.
Variable T : list N.

Definition sourced (l : list ace) : Prop := forall a, In a l -> a_tag a = Some T -> accounts_for o a.

Lemma sourced_sub l l' : (forall a, In a l' -> In a l) -> sourced l -> sourced l'.
Proof. intros H S a I E. exact (S a (H a I) E). Qed.

Lemma new_res_has d x href w e : In x (ad_res d) -> decode_res x None NoWc = Some (href, w) -> new_res href w = Some e -> has_res d e.
Proof.
  intros I D E. exists x, href, w. split; [exact I|]. split; [exact D|]. unfold new_res in E.
  destruct href as [h|]; [injection E as E; auto|]. destruct w; try discriminate E; injection E as E; split; (discriminate || auto).
Qed.

Lemma get_or_add_in l href w l' e : get_or_add_res l href w = Some l' -> In e l' -> In e l \/ new_res href w = Some e.
Proof.
  unfold get_or_add_res. destruct (find_res l href (wc_code w)); [intros H; injection H as <-; auto|].
  destruct (new_res href w) as [r|]; [|intros H; discriminate H]. intros H; injection H as <-.
  rewrite in_app_iff. intros [I|[<-|[]]]; auto.
Qed.

Lemma update_sourced l rnd d x href w : named o d -> In x (ad_res d) -> decode_res x None NoWc = Some (href, w) -> sourced l ->
  match update_res l rnd (ad_subj d) (ad_id d) (ad_perm d) (ad_tag d) href w with UOk l' _ | UFail l' _ => sourced l' | UStuck => True end.
Proof.
  intros Nd Ix Dx S. unfold update_res.
  destruct (find (subj_sel (ad_subj d) (ad_id d) (ad_perm d) (ad_tag d)) l) as [b|] eqn:Ef.
  - assert (Ef0 := Ef). apply find_some in Ef. destruct Ef as [Ib Eb].
    destruct (get_or_add_res (a_res b) href w) as [rs|] eqn:G; [|apply (sourced_sub l); [apply upd_first_rm|exact S]].
    assert (First : forall l0, In b l0 -> sourced l0 -> find (subj_sel (ad_subj d) (ad_id d) (ad_perm d) (ad_tag d)) l0 = Some b ->
      sourced (upd_first (subj_sel (ad_subj d) (ad_id d) (ad_perm d) (ad_tag d)) (fun a => Some (mk_ace (a_id a) (a_subj a) (a_perm a) (a_tag a) rs)) l0)).
    { induction l0 as [|c t IH]; intros Ib0 S0 F; [destruct Ib0|]. cbn [find] in F. cbn [upd_first].
      destruct (subj_sel (ad_subj d) (ad_id d) (ad_perm d) (ad_tag d) c) eqn:Ec.
      - injection F as F. subst c. intros a [<-|I] E; [|exact (S0 a (or_intror I) E)].
        cbn [a_tag] in E. destruct (S0 b (or_introl eq_refl) E) as [A B]. destruct (subj_sel_true _ _ _ _ _ Ec) as (P & Tg & M).
        split; cbn [a_tag a_subj a_perm a_res]; [exact A|]. intros e He.
        destruct (get_or_add_in _ _ _ _ _ G He) as [K|K]; [exact (B e K)|].
        exists d. split; [exact Nd|]. split; [symmetry; exact Tg|]. split; [exact P|]. split; [exact M|]. exact (new_res_has _ _ _ _ _ Ix Dx K).
      - intros a [<-|I] E; [exact (S0 c (or_introl eq_refl) E)|].
        assert (It : In b t) by (apply find_some in F; exact (proj1 F)).
        exact (IH It (fun y Iy => S0 y (or_intror Iy)) F a I E). }
    exact (First l Ib S Ef0).
  - destruct (if (ad_id d =? -1)%Z then new_aceid l rnd else Some (ad_id d, rnd)) as [[i rnd']|]; [|exact I].
    destruct (get_or_add_res [] href w) as [rs|] eqn:G; [|exact S].
    intros a Ia E. apply in_app_iff in Ia. destruct Ia as [Ia|[<-|[]]]; [exact (S a Ia E)|].
    split; cbn [a_tag a_subj a_perm a_res] in *; [exists d; auto|]. intros e He.
    destruct (get_or_add_in _ _ _ _ _ G He) as [[]|K]. exists d. split; [exact Nd|]. split; [reflexivity|]. split; [auto|].
    split; [left; reflexivity|]. exact (new_res_has _ _ _ _ _ Ix Dx K).
Qed.

Lemma decode_resources_sourced d : named o d -> forall rs l rnd, (forall x, In x rs -> In x (ad_res d)) -> sourced l ->
  match decode_resources l rnd d rs with DOk l' _ | DErr l' _ => sourced l' | DStuck => True end.
Proof.
  intros Nd. induction rs as [|x t IH]; intros l rnd H S; cbn [decode_resources]; [exact S|].
  destruct (decode_res x None NoWc) as [[href w]|] eqn:D; [|exact S].
  pose proof (update_sourced l rnd d x href w Nd (H x (or_introl eq_refl)) D S) as U.
  destruct (update_res l rnd (ad_subj d) (ad_id d) (ad_perm d) (ad_tag d) href w) as [l' r'|l' r'|]; [| |exact I];
  exact (IH l' r' (fun y Iy => H y (or_intror Iy)) U).
Qed.

Lemma decode_aces_sourced : forall aces l rnd, (forall x d, In x aces -> decode_ace dec0 x = Some d -> named o d) -> sourced l ->
  match decode_aces l rnd aces with DOk l' _ | DErr l' _ => sourced l' | DStuck => True end.
Proof.
  induction aces as [|x t IH]; intros l rnd H S; cbn [decode_aces]; [exact S|].
  destruct (decode_ace dec0 x) as [d|] eqn:Ed; [|exact S].
  set (l1 := if negb (ad_id d =? -1)%Z && negb (unique_aceid l (ad_id d)) then remove_id l (ad_id d) else l).
  assert (S1 : sourced l1) by (unfold l1; destruct (_ && _); [apply (sourced_sub l); [apply upd_first_rm|exact S]|exact S]).
  clearbody l1.
  pose proof (decode_resources_sourced d (H x d (or_introl eq_refl) Ed) (ad_res d) l1 rnd (fun y Iy => Iy) S1) as R.
  destruct (decode_resources l1 rnd d (ad_res d)) as [l2 r2|l2 r2|]; [|exact R|exact I].
  exact (IH l2 r2 (fun y e Iy => H y e (or_intror Iy)) R).
Qed.

Lemma decode_props_sourced : forall o' a rnd, (forall d, named o' d -> named o d) -> sourced (l_aces a) ->
  match decode_props a rnd o' with AOk a' _ | AErr a' _ => sourced (l_aces a') | AStuck => True end.
Proof.
  induction o' as [|r t IH]; intros a rnd H S; cbn [decode_props]; [exact S|].
  assert (H' : forall d, named t d -> named o d).
  { intros d (r' & aces & y & A & B). apply H. exists r', aces, y. split; [right; exact A|exact B]. }
  destruct (snd r) eqn:Er; try (exact (IH a rnd H' S)).
  - destruct (is_prop r (str "rowneruuid")); [|exact (IH a rnd H' S)].
    match goal with |- context[mk_acl (l_aces a) ?z] => exact (IH (mk_acl (l_aces a) z) rnd H' S) end.
  - assert (G : forall y d, In y l -> decode_ace dec0 y = Some d -> named o d).
    { intros y d Iy Dy. apply H. exists r, l, y. split; [left; reflexivity|]. auto. }
    pose proof (decode_aces_sourced l (l_aces a) rnd G S) as F.
    destruct (decode_aces (l_aces a) rnd l) as [l' r'|l' r'|]; [|exact F|exact I].
    exact (IH (mk_acl l' (l_owner a)) r' H' F).
Qed.
End Source.

Lemma decode_acl_sourced o T a rnd : sourced o T (l_aces a) ->
  match decode_acl RFPRO false a rnd o with AOk a' _ | AErr a' _ => sourced o T (l_aces a') | AStuck => True end.
Proof.
  intros S. unfold decode_acl. destruct (precheck RFPRO false o); [|exact S].
  apply decode_props_sourced; [auto|exact S].
Qed.

(** The owner. *)
Lemma decode_props_owner : forall o a rnd, precheck RFPRO false o = true ->
  match decode_props a rnd o with AOk a' _ | AErr a' _ => l_owner a' = l_owner a | AStuck => True end.
Proof.
  induction o as [|r t IH]; intros a rnd P; cbn [decode_props]; [reflexivity|].
  unfold precheck in P. cbn [forallb] in P. apply andb_true_iff in P. destruct P as [P1 P2]. fold (precheck RFPRO false t) in P2.
  destruct (snd r) eqn:Er; try (exact (IH a rnd P2)).
  - destruct (is_prop r (str "rowneruuid")); [discriminate P1|exact (IH a rnd P2)].
  - destruct (decode_aces (l_aces a) rnd l) as [l' r'|l' r'|]; [|reflexivity|exact I].
    exact (IH (mk_acl l' (l_owner a)) r' P2).
Qed.

Lemma decode_acl_owner o a rnd :
  match decode_acl RFPRO false a rnd o with AOk a' _ | AErr a' _ => l_owner a' = l_owner a | AStuck => True end.
Proof.
  unfold decode_acl. destruct (precheck RFPRO false o) eqn:P; [apply decode_props_owner; exact P|reflexivity].
Qed.

(** Tags. *)
Definition other (x : ace) : Prop := a_tag x <> Some DPS /\ a_tag x <> Some STALE.

Lemma in_set_stale x l : other x -> In x (set_stale l) <-> In x l.
Proof.
  intros [A B]. unfold set_stale. rewrite in_map_iff. split.
  - intros (y & E & I). destruct (has_tag y DPS); [|congruence]. subst x. destruct B. reflexivity.
  - intros I. exists x. split; [|exact I]. apply has_tag_false in A. rewrite A. reflexivity.
Qed.

Lemma in_unset_stale x l : other x -> In x (unset_stale l) <-> In x l.
Proof.
  intros [A B]. unfold unset_stale. rewrite in_map_iff. split.
  - intros (y & E & I). destruct (has_tag y STALE); [|congruence]. subst x. destruct A. reflexivity.
  - intros I. exists x. split; [|exact I]. apply has_tag_false in B. rewrite B. reflexivity.
Qed.

Lemma in_remove_stale x l : In x (remove_stale l) <-> In x l /\ a_tag x <> Some STALE.
Proof. unfold remove_stale. rewrite filter_In, negb_true_iff, has_tag_false. tauto. Qed.

Lemma set_stale_none x l : In x (set_stale l) -> a_tag x <> Some DPS.
Proof.
  unfold set_stale. rewrite in_map_iff. intros (y & E & I). destruct (has_tag y DPS) eqn:H; subst x.
  - change (Some STALE <> Some DPS). intros K. apply dps_stale. congruence.
  - apply has_tag_false. exact H.
Qed.

Lemma unset_stale_none x l : In x (unset_stale l) -> a_tag x <> Some STALE.
Proof.
  unfold unset_stale. rewrite in_map_iff. intros (y & E & I). destruct (has_tag y STALE) eqn:H; subst x.
  - change (Some DPS <> Some STALE). intros K. apply dps_stale. congruence.
  - apply has_tag_false. exact H.
Qed.

Lemma unset_set l : (forall x, In x l -> a_tag x <> Some STALE) -> unset_stale (set_stale l) = l.
Proof.
  intros H. unfold unset_stale, set_stale. rewrite map_map. rewrite <- (map_id l) at 2. apply map_ext_in.
  intros x I. destruct (has_tag x DPS) eqn:E.
  - apply has_tag_spec in E. change (has_tag (with_tag STALE x) STALE) with (list_eqb STALE STALE). rewrite list_eqb_refl.
    destruct x as [i s p t r]. cbn in *. rewrite E. reflexivity.
  - assert (F := H x I). apply has_tag_false in F. rewrite F. reflexivity.
Qed.

Lemma untouched_frame o x : untouched o x ->
  forall d, named o d -> subj_sel (ad_subj d) (ad_id d) (ad_perm d) (ad_tag d) x = false /\ a_id x <> ad_id d.
Proof. intros U d Nd. exact (untouched_sel o x d U Nd). Qed.

Lemma handle_other o x a rnd b a' : handle a rnd o = Some (b, a') -> other x -> untouched o x ->
  In x (l_aces a') <-> In x (l_aces a).
Proof.
  unfold handle. intros H O U.
  pose proof (decode_acl_frame x o (mk_acl (set_stale (l_aces a)) (l_owner a)) rnd (untouched_frame o x U)) as F.
  destruct (decode_acl RFPRO false (mk_acl (set_stale (l_aces a)) (l_owner a)) rnd o) as [c r|c r|]; [| |discriminate H];
    injection H as H1 H2; subst b a'; cbn [l_aces] in *.
  - rewrite in_remove_stale, F, in_set_stale by exact O. destruct O. tauto.
  - rewrite in_unset_stale, F, in_set_stale by exact O. tauto.
Qed.

Lemma handle_success_tags o a rnd a' x : handle a rnd o = Some (true, a') -> In x (l_aces a') ->
  a_tag x <> Some STALE /\ (a_tag x = Some DPS -> accounts_for o x).
Proof.
  unfold handle. intros H I.
  pose proof (decode_acl_sourced o DPS (mk_acl (set_stale (l_aces a)) (l_owner a)) rnd) as F.
  destruct (decode_acl RFPRO false (mk_acl (set_stale (l_aces a)) (l_owner a)) rnd o) as [c r|c r|]; [|discriminate H|discriminate H].
  injection H as H; subst a'. cbn [l_aces] in *. apply in_remove_stale in I. destruct I as [I N]. split; [exact N|].
  intros E. apply F; [|exact I|exact E]. intros y Iy Ey. destruct (set_stale_none _ _ Iy Ey).
Qed.

Lemma spared_frame o x : spared o x -> forall d, named o d ->
  subj_sel (ad_subj d) (ad_id d) (ad_perm d) (ad_tag d) (with_tag STALE x) = false /\ a_id (with_tag STALE x) <> ad_id d.
Proof.
  intros S d Nd. destruct (S d Nd) as [A B]. split; [|exact A].
  destruct (subj_sel (ad_subj d) (ad_id d) (ad_perm d) (ad_tag d) (with_tag STALE x)) eqn:E; [|reflexivity].
  destruct (subj_sel_true _ _ _ _ _ E) as (_ & T & _). destruct B. symmetry. exact T.
Qed.

Lemma handle_failure_keeps o a rnd a' x : handle a rnd o = Some (false, a') -> spared o x -> a_tag x = Some DPS ->
  In x (l_aces a) -> In x (l_aces a').
Proof.
  unfold handle. intros H S E I.
  pose proof (decode_acl_frame (with_tag STALE x) o (mk_acl (set_stale (l_aces a)) (l_owner a)) rnd (spared_frame o x S)) as F.
  destruct (decode_acl RFPRO false (mk_acl (set_stale (l_aces a)) (l_owner a)) rnd o) as [c r|c r|]; [discriminate H| |discriminate H].
  injection H as H; subst a'. cbn [l_aces] in *.
  assert (J : In (with_tag STALE x) (set_stale (l_aces a))).
  { unfold set_stale. apply in_map_iff. exists x. apply has_tag_spec in E. rewrite E. auto. }
  apply F in J. unfold unset_stale. apply in_map_iff. exists (with_tag STALE x). split; [|exact J].
  change (has_tag (with_tag STALE x) STALE) with (list_eqb STALE STALE). rewrite list_eqb_refl.
  destruct x as [i s p t r0]. cbn in *. rewrite E. reflexivity.
Qed.

Lemma handle_owner o a rnd b a' : handle a rnd o = Some (b, a') -> l_owner a' = l_owner a.
Proof.
  unfold handle. intros H.
  pose proof (decode_acl_owner o (mk_acl (set_stale (l_aces a)) (l_owner a)) rnd) as F.
  destruct (decode_acl RFPRO false (mk_acl (set_stale (l_aces a)) (l_owner a)) rnd o) as [c r|c r|]; [| |discriminate H];
    injection H as H1 H2; subst b a'; exact F.
Qed.

Lemma handle_no_stale o a rnd b a' x : handle a rnd o = Some (b, a') -> In x (l_aces a') -> a_tag x <> Some STALE.
Proof.
  unfold handle. intros H I.
  destruct (decode_acl RFPRO false (mk_acl (set_stale (l_aces a)) (l_owner a)) rnd o) as [c r|c r|]; [| |discriminate H];
    injection H as H1 H2; subst b a'; cbn [l_aces] in I.
  - apply in_remove_stale in I. exact (proj2 I).
  - exact (unset_stale_none _ _ I).
Qed.
