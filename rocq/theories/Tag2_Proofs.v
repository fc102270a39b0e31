(** An answer that is taken is carried out. *)
From Verif Require Import Common Rep_Model Hex_Model Acl_Model Acl_Spec Acl_Proofs Acl2_Proofs Tag_Model Tag_Spec Tag_Proofs.
From Coq Require Import String.
Local Open Scope string_scope.
Local Open Scope list_scope.
Local Open Scope N_scope.

Definition below (l l' : list ace) : Prop :=
  forall a, In a l -> exists a', In a' l' /\ a_subj a' = a_subj a /\ a_perm a' = a_perm a /\ a_tag a' = a_tag a /\ incl (a_res a) (a_res a').

Lemma below_refl l : below l l.
Proof. intros a I. exists a. repeat split; auto. apply incl_refl. Qed.

Lemma below_trans l1 l2 l3 : below l1 l2 -> below l2 l3 -> below l1 l3.
Proof.
  intros H K a I. destruct (H a I) as (b & Ib & B1 & B2 & B3 & B4). destruct (K b Ib) as (c & Ic & C1 & C2 & C3 & C4).
  exists c. repeat split; try congruence; try exact Ic. exact (incl_tran B4 C4).
Qed.

Lemma grants_below d href w l l' : below l l' -> (exists a, In a l /\ grants d href w a) -> exists a, In a l' /\ grants d href w a.
Proof.
  intros H (a & I & A & B & C & e & Ie & E). destruct (H a I) as (b & Ib & B1 & B2 & B3 & B4).
  exists b. split; [exact Ib|]. unfold grants. rewrite B1, B2, B3. split; [exact A|]. split; [exact B|]. split; [exact C|].
  exists e. split; [exact (B4 e Ie)|exact E].
Qed.

Definition fits (href : option (list N)) (w : wc) (e : ace_res) : Prop :=
  match href with Some h => ar_href e = h | None => ar_wc e = w \/ ar_wc e = WcAll end.

Lemma res_match_fits e href w : one_way href w -> res_match e href (wc_code w) = true -> fits href w e.
Proof.
  unfold one_way, fits, res_match. destruct href as [h|].
  - intros [R ->]. change (wc_code NoWc =? 0) with true. cbn [negb andb].
    destruct (ar_href e) as [|c t] eqn:E; [intros H; discriminate H|].
    destruct (match_uri (c :: t) h) eqn:M; [|intros H; discriminate H]. intros _.
    unfold match_uri in M. destruct h as [|c' t']; [discriminate R|]. injection R as R. subst c'. cbn in M.
    apply list_eqb_spec in M. symmetry. exact M.
  - intros Hw. destruct w; [destruct Hw; reflexivity| | |]; destruct (ar_wc e); cbn; intros H; auto; discriminate H.
Qed.

Lemma find_res_fits href w : one_way href w -> forall l z, find_res l href (wc_code w) = Some z -> exists e, In e l /\ fits href w e.
Proof.
  intros O. induction l as [|r t IH]; intros z H; cbn [find_res] in H; [discriminate H|].
  destruct (res_match r href (wc_code w)) eqn:M.
  - exists r. split; [left; reflexivity|]. exact (res_match_fits _ _ _ O M).
  - destruct (IH _ H) as (e & I & F). exists e. split; [right; exact I|exact F].
Qed.

Lemma get_or_add_fits l href w : one_way href w ->
  exists l', get_or_add_res l href w = Some l' /\ incl l l' /\ exists e, In e l' /\ fits href w e.
Proof.
  intros O. unfold get_or_add_res. destruct (find_res l href (wc_code w)) as [z|] eqn:F.
  - exists l. split; [reflexivity|]. split; [apply incl_refl|]. exact (find_res_fits _ _ O _ _ F).
  - assert (K : exists r, new_res href w = Some r /\ fits href w r).
    { unfold new_res, fits, one_way in *. destruct href as [h|]; [eexists; split; reflexivity|].
      destruct w; [destruct O; reflexivity| | |]; (eexists; split; [reflexivity|left; reflexivity]). }
    destruct K as (r & E & Fr). rewrite E. exists (l ++ [r]). split; [reflexivity|]. split; [apply incl_appl, incl_refl|].
    exists r. split; [apply in_or_app; right; left; reflexivity|exact Fr].
Qed.

Lemma upd_first_grow p (rs : list ace_res) b : forall l, find p l = Some b -> incl (a_res b) rs ->
  below l (upd_first p (fun a => Some (mk_ace (a_id a) (a_subj a) (a_perm a) (a_tag a) rs)) l) /\
  In (mk_ace (a_id b) (a_subj b) (a_perm b) (a_tag b) rs) (upd_first p (fun a => Some (mk_ace (a_id a) (a_subj a) (a_perm a) (a_tag a) rs)) l).
Proof.
  induction l as [|c t IH]; cbn [find upd_first]; intros F G; [discriminate F|].
  destruct (p c) eqn:E.
  - injection F as ->. split; [|left; reflexivity]. intros a [<-|I].
    + eexists. split; [left; reflexivity|]. repeat split. exact G.
    + exists a. split; [right; exact I|]. repeat split. apply incl_refl.
  - destruct (IH F G) as [A B]. split; [|right; exact B]. intros a [<-|I].
    + exists c. split; [left; reflexivity|]. repeat split. apply incl_refl.
    + destruct (A a I) as (a' & I' & R). exists a'. split; [right; exact I'|exact R].
Qed.

Lemma update_grants l rnd d href w : one_way href w ->
  match update_res l rnd (ad_subj d) (ad_id d) (ad_perm d) (ad_tag d) href w with
  | UOk l' _ => below l l' /\ exists a, In a l' /\ grants d href w a
  | UFail _ _ => False | UStuck => True end.
Proof.
  intros O. unfold update_res.
  destruct (find (subj_sel (ad_subj d) (ad_id d) (ad_perm d) (ad_tag d)) l) as [b|] eqn:Ef.
  - destruct (get_or_add_fits (a_res b) href w O) as (rs & E & G & e & Ie & Fe). rewrite E.
    destruct (upd_first_grow _ rs b l Ef G) as [A B]. split; [exact A|].
    eexists. split; [exact B|]. apply find_some in Ef. destruct Ef as [_ Ef].
    destruct (subj_sel_true _ _ _ _ _ Ef) as (P & T & M). unfold grants. cbn [a_tag a_subj a_perm a_res].
    split; [exact T|]. split; [exact P|]. split; [exact M|]. exists e. split; [exact Ie|exact Fe].
  - destruct (if (ad_id d =? -1)%Z then new_aceid l rnd else Some (ad_id d, rnd)) as [[i rnd']|]; [|exact I].
    destruct (get_or_add_fits [] href w O) as (rs & E & G & e & Ie & Fe). rewrite E. split.
    + intros a Ia. exists a. split; [apply in_or_app; left; exact Ia|]. repeat split. apply incl_refl.
    + eexists. split; [apply in_or_app; right; left; reflexivity|]. unfold grants. cbn [a_tag a_subj a_perm a_res].
      split; [reflexivity|]. split; [auto|]. split; [left; reflexivity|]. exists e. split; [exact Ie|exact Fe].
Qed.

Lemma decode_resources_grants d : forall rs l rnd l' r',
  (forall x, In x rs -> forall href w, decode_res x None NoWc = Some (href, w) -> one_way href w) ->
  decode_resources l rnd d rs = DOk l' r' ->
  below l l' /\ forall x href w, In x rs -> decode_res x None NoWc = Some (href, w) -> exists a, In a l' /\ grants d href w a.
Proof.
  induction rs as [|x t IH]; intros l rnd l' r' H E; cbn [decode_resources] in E.
  - injection E as <- _. split; [apply below_refl|intros x href w []].
  - destruct (decode_res x None NoWc) as [[href w]|] eqn:D; [|discriminate E].
    pose proof (update_grants l rnd d href w (H x (or_introl eq_refl) href w D)) as U.
    destruct (update_res l rnd (ad_subj d) (ad_id d) (ad_perm d) (ad_tag d) href w) as [l1 r1|l1 r1|]; [|destruct U|discriminate E].
    destruct U as [U1 U2]. destruct (IH l1 r1 l' r' (fun y Iy => H y (or_intror Iy)) E) as [A B].
    split; [exact (below_trans _ _ _ U1 A)|]. intros y h v [<-|Iy] Dy; [|exact (B y h v Iy Dy)].
    rewrite D in Dy. injection Dy as <- <-. exact (grants_below _ _ _ _ _ A U2).
Qed.

Lemma decode_aces_grants : forall aces l rnd l' r',
  (forall y d, In y aces -> decode_ace dec0 y = Some d -> ad_id d = (-1)%Z /\
     forall x, In x (ad_res d) -> forall href w, decode_res x None NoWc = Some (href, w) -> one_way href w) ->
  decode_aces l rnd aces = DOk l' r' ->
  below l l' /\ forall y d x href w, In y aces -> decode_ace dec0 y = Some d -> In x (ad_res d) -> decode_res x None NoWc = Some (href, w) ->
    exists a, In a l' /\ grants d href w a.
Proof.
  induction aces as [|y t IH]; intros l rnd l' r' H E; cbn [decode_aces] in E.
  - injection E as <- _. split; [apply below_refl|intros y d x href w []].
  - destruct (decode_ace dec0 y) as [d|] eqn:D; [|discriminate E].
    destruct (H y d (or_introl eq_refl) D) as [Hi Hr]. rewrite Hi in E. change (negb (-1 =? -1)%Z) with false in E. cbn [andb] in E.
    destruct (decode_resources l rnd d (ad_res d)) as [l1 r1|l1 r1|] eqn:R; [|discriminate E|discriminate E].
    destruct (decode_resources_grants d _ _ _ _ _ Hr R) as [R1 R2].
    destruct (IH l1 r1 l' r' (fun z e Iz => H z e (or_intror Iz)) E) as [A B].
    split; [exact (below_trans _ _ _ R1 A)|]. intros z e x href w [<-|Iz] Dz Ix Dx; [|exact (B z e x href w Iz Dz Ix Dx)].
    rewrite D in Dz. injection Dz as <-. exact (grants_below _ _ _ _ _ A (R2 x href w Ix Dx)).
Qed.

Lemma decode_props_grants : forall o a rnd a' r', regular o -> decode_props a rnd o = AOk a' r' ->
  below (l_aces a) (l_aces a') /\ forall d x href w, named o d -> In x (ad_res d) -> decode_res x None NoWc = Some (href, w) ->
    exists b, In b (l_aces a') /\ grants d href w b.
Proof.
  induction o as [|r t IH]; intros a rnd a' r' H E; cbn [decode_props] in E.
  - injection E as <- _. split; [apply below_refl|]. intros d x href w (z & aces & y & [] & _).
  - assert (H' : regular t).
    { intros d (z & aces & y & A & B). apply H. exists z, aces, y. split; [right; exact A|exact B]. }
    assert (Skip : (forall aces, snd r <> RObjArr aces) -> forall a1, l_aces a1 = l_aces a -> decode_props a1 rnd t = AOk a' r' ->
      below (l_aces a) (l_aces a') /\ forall d x href w, named (r :: t) d -> In x (ad_res d) -> decode_res x None NoWc = Some (href, w) ->
      exists b, In b (l_aces a') /\ grants d href w b).
    { intros Ns a1 Ea E1. destruct (IH a1 rnd a' r' H' E1) as [A B]. rewrite Ea in A. split; [exact A|].
      intros d x href w (z & aces & y & Iz & Sz & R) Ix Dx. destruct Iz as [<-|Iz]; [destruct (Ns aces Sz)|].
      apply (B d x href w); [exists z, aces, y; auto|exact Ix|exact Dx]. }
    destruct (snd r) eqn:Er; try (apply (Skip ltac:(intros ?; discriminate) a eq_refl E)).
    + destruct (is_prop r (str "rowneruuid")); [|apply (Skip ltac:(intros ?; discriminate) a eq_refl E)].
      refine (Skip ltac:(intros ?; discriminate) _ _ E). reflexivity.
    + clear Skip. destruct (decode_aces (l_aces a) rnd l) as [l1 r1|l1 r1|] eqn:D; [|discriminate E|discriminate E].
      assert (G : forall y d, In y l -> decode_ace dec0 y = Some d -> ad_id d = (-1)%Z /\
        forall x, In x (ad_res d) -> forall href w, decode_res x None NoWc = Some (href, w) -> one_way href w).
      { intros y d Iy Dy. apply H. exists r, l, y. split; [left; reflexivity|]. auto. }
      destruct (decode_aces_grants _ _ _ _ _ G D) as [A B].
      destruct (IH (mk_acl l1 (l_owner a)) r1 a' r' H' E) as [A' B']. cbn [l_aces] in A'.
      split; [exact (below_trans _ _ _ A A')|].
      intros d x href w (z & aces & y & Iz & Sz & Iy & Dy) Ix Dx. destruct Iz as [<-|Iz].
      * rewrite Er in Sz. injection Sz as <-. exact (grants_below _ _ _ _ _ A' (B y d x href w Iy Dy Ix Dx)).
      * apply (B' d x href w); [exists z, aces, y; auto|exact Ix|exact Dx].
Qed.

Lemma handle_grants o a rnd a' : regular o -> handle a rnd o = Some (true, a') ->
  forall d x href w, named o d -> In x (ad_res d) -> decode_res x None NoWc = Some (href, w) -> ad_tag d <> Some STALE ->
  exists b, In b (l_aces a') /\ grants d href w b.
Proof.
  unfold handle, decode_acl. intros R H d x href w Nd Ix Dx Nt.
  destruct (precheck RFPRO false o); [|discriminate H].
  destruct (decode_props (mk_acl (set_stale (l_aces a)) (l_owner a)) rnd o) as [c r|c r|] eqn:D; [|discriminate H|discriminate H].
  injection H as <-. destruct (decode_props_grants _ _ _ _ _ R D) as [_ B].
  destruct (B d x href w Nd Ix Dx) as (b & Ib & Gb). exists b. split; [|exact Gb]. cbn [l_aces]. apply in_remove_stale.
  split; [exact Ib|]. rewrite (proj1 Gb). exact Nt.
Qed.
