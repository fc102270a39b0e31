(** The answers of the server as a whole. *)
From Verif Require Import Common Rep_Model Hex_Model Base64_Model Acl_Model Ob_Model Cred_Model Ptag_Model Ptag_Spec Ptag_Proofs.
From Coq Require Import String.
Local Open Scope string_scope.
Local Open Scope list_scope.
Local Open Scope N_scope.

Definition other (x : cred) : Prop := c_tag x <> Some DPS /\ c_tag x <> Some STALE.

Lemma in_set_stale x l : other x -> In x (set_stale l) <-> In x l.
Proof.
  intros [A B]. unfold set_stale. rewrite in_map_iff. split.
  - intros (y & E & I). destruct (tagged y DPS); [|congruence]. subst x. destruct B. reflexivity.
  - intros I. exists x. split; [|exact I]. apply tagged_false in A. rewrite A. reflexivity.
Qed.

Lemma in_unset_stale x l : other x -> In x (unset_stale l) <-> In x l.
Proof.
  intros [A B]. unfold unset_stale. rewrite in_map_iff. split.
  - intros (y & E & I). destruct (tagged y STALE); [|congruence]. subst x. destruct A. reflexivity.
  - intros I. exists x. split; [|exact I]. apply tagged_false in B. rewrite B. reflexivity.
Qed.

Lemma in_remove_stale x l : In x (remove_stale l) <-> In x l /\ c_tag x <> Some STALE.
Proof. unfold remove_stale. rewrite filter_In, negb_true_iff, tagged_false. tauto. Qed.

Lemma set_stale_none x l : In x (set_stale l) -> c_tag x <> Some DPS.
Proof.
  unfold set_stale. rewrite in_map_iff. intros (y & E & I). destruct (tagged y DPS) eqn:H; subst x.
  - change (Some STALE <> Some DPS). intros K. apply dps_stale. congruence.
  - apply tagged_false. exact H.
Qed.

Lemma unset_stale_none x l : In x (unset_stale l) -> c_tag x <> Some STALE.
Proof.
  unfold unset_stale. rewrite in_map_iff. intros (y & E & I). destruct (tagged y STALE) eqn:H; subst x.
  - change (Some DPS <> Some STALE). intros K. apply dps_stale. congruence.
  - apply tagged_false. exact H.
Qed.

Lemma other_bare x y : bare x = bare y -> other x -> other y.
Proof. intros E. unfold other. rewrite (bare_tag _ _ E). auto. Qed.

Definition left_by (r : outcome) (s' : cs) : Prop := r = Taken s' \/ r = Refused s'.

Lemma rfpro E : ce_state (in_rfpro E) = S_RFPRO.
Proof. reflexivity. Qed.

Lemma replace_defined E o s : certificates o -> replace E o s <> Freed.
Proof.
  intros C. unfold replace. pose proof (apply_cred_steps (in_rfpro E) o (with_creds s (set_stale (s_creds s))) C (rfpro E)) as K.
  destruct (apply_cred _ _ _ _); try discriminate. destruct K.
Qed.

Lemma replace_other E o s s' x : certificates o -> left_by (replace E o s) s' -> other x -> spared o x -> In x (s_creds s) ->
  exists y, In y (s_creds s') /\ bare y = bare x.
Proof.
  intros C L O Sp Ix. unfold left_by, replace in L.
  pose proof (apply_cred_steps (in_rfpro E) o (with_creds s (set_stale (s_creds s))) C (rfpro E)) as K.
  assert (J : In x (set_stale (s_creds s))) by exact (proj2 (in_set_stale x (s_creds s) O) Ix).
  destruct (apply_cred _ _ _ _) as [t|t| |]; [| |destruct L; discriminate|destruct K]; destruct K as [[_ B] _];
    destruct (B x J Sp) as (y & Iy & Ey); exists y; (split; [|exact Ey]);
    pose proof (other_bare _ _ (eq_sym Ey) O) as Oy; destruct L as [L|L]; try discriminate L; injection L as <-; cbn [with_creds s_creds].
  - exact (proj2 (in_unset_stale y (s_creds t) Oy) Iy).
  - apply in_remove_stale. split; [exact Iy|exact (proj2 Oy)].
Qed.

Lemma replace_source E o s s' y : certificates o -> left_by (replace E o s) s' -> other y -> In y (s_creds s') ->
  (exists x, In x (s_creds s) /\ bare x = bare y) \/ exists it, sent o it /\ made_of it y.
Proof.
  intros C L O Iy. unfold left_by, replace in L.
  pose proof (apply_cred_steps (in_rfpro E) o (with_creds s (set_stale (s_creds s))) C (rfpro E)) as K.
  assert (G : exists t, steps (sent o) (set_stale (s_creds s)) (s_creds t) /\ In y (s_creds t)).
  { destruct (apply_cred _ _ _ _) as [t|t| |]; [| |destruct L; discriminate|destruct K]; exists t; destruct K as [K _]; (split; [exact K|]);
      destruct L as [L|L]; try discriminate L; injection L as <-; cbn [with_creds s_creds] in Iy.
    - exact (proj1 (in_unset_stale y (s_creds t) O) Iy).
    - apply in_remove_stale in Iy. exact (proj1 Iy). }
  destruct G as (t & [A _] & It). destruct (A y It) as [(d & Id & Ed)|M]; [left|right; exact M].
  exists d. split; [|exact Ed]. exact (proj1 (in_set_stale d (s_creds s) (other_bare _ _ (eq_sym Ed) O)) Id).
Qed.

Lemma replace_taken_tags E o s s' y : certificates o -> replace E o s = Taken s' -> In y (s_creds s') -> c_tag y = Some DPS ->
  exists it, sent o it /\ made_of it y.
Proof.
  intros C L Iy T. unfold replace in L.
  pose proof (apply_cred_steps (in_rfpro E) o (with_creds s (set_stale (s_creds s))) C (rfpro E)) as K.
  destruct (apply_cred _ _ _ _) as [t|t| |]; try discriminate L. injection L as <-. cbn [with_creds s_creds] in *.
  apply in_remove_stale in Iy. destruct K as [[A _] _]. destruct (A y (proj1 Iy)) as [(d & Id & Ed)|M]; [|exact M].
  destruct (set_stale_none _ _ Id). rewrite (bare_tag _ _ Ed). exact T.
Qed.

Lemma replace_refused_keeps E o s s' x : certificates o -> replace E o s = Refused s' -> spared o x -> c_tag x = Some DPS -> In x (s_creds s) ->
  exists y, In y (s_creds s') /\ bare y = bare x.
Proof.
  intros C L Sp T Ix. unfold replace in L.
  pose proof (apply_cred_steps (in_rfpro E) o (with_creds s (set_stale (s_creds s))) C (rfpro E)) as K.
  destruct (apply_cred _ _ _ _) as [t|t| |]; try discriminate L. injection L as <-. cbn [with_creds s_creds] in *.
  assert (J : In (with_tag STALE x) (set_stale (s_creds s))).
  { unfold set_stale. apply in_map_iff. exists x. apply tagged_spec in T. rewrite T. auto. }
  destruct K as [[_ B] _]. destruct (B (with_tag STALE x) J Sp) as (y & Iy & Ey).
  exists (with_tag DPS y). split.
  - unfold unset_stale. apply in_map_iff. exists y. split; [|exact Iy].
    assert (Ty : tagged y STALE = true) by (apply tagged_spec; rewrite (bare_tag _ _ Ey); reflexivity).
    rewrite Ty. reflexivity.
  - destruct x as [x1 x2 x3 x4 x5 x6 x7 x8 x9 x10 x11 x12], y as [y1 y2 y3 y4 y5 y6 y7 y8 y9 y10 y11 y12]. unfold bare, with_tag in *. cbn [c_name c_id c_type c_usage c_subject c_priv c_pub c_role c_auth c_tag] in *.
    rewrite T. injection Ey. intros. subst. reflexivity.
Qed.

Lemma replace_owner E o s s' : certificates o -> left_by (replace E o s) s' -> s_owner s' = s_owner s.
Proof.
  intros C L. unfold left_by, replace in L.
  pose proof (apply_cred_steps (in_rfpro E) o (with_creds s (set_stale (s_creds s))) C (rfpro E)) as K.
  destruct (apply_cred _ _ _ _) as [t|t| |]; [| |destruct L; discriminate|destruct K]; destruct K as [_ K];
    destruct L as [L|L]; try discriminate L; injection L as <-; exact K.
Qed.

Lemma replace_no_stale E o s s' x : left_by (replace E o s) s' -> In x (s_creds s') -> c_tag x <> Some STALE.
Proof.
  intros L Ix. unfold left_by, replace in L.
  destruct (apply_cred _ _ _ _) as [t|t| |]; destruct L as [L|L]; try discriminate L; injection L as <-; cbn [with_creds s_creds] in Ix.
  - exact (unset_stale_none _ _ Ix).
  - apply in_remove_stale in Ix. exact (proj2 Ix).
Qed.

(** What was sent is there. *)

Definition noid (l : list cred) : Prop := forall c, In c l -> c_id c <> (-1)%Z.

Lemma by_id_none l : noid l -> by_id (-1) l = None.
Proof.
  intros H. unfold by_id. destruct (find (fun c => (c_id c =? -1)%Z) l) as [c|] eqn:F; [|reflexivity].
  apply find_some in F. destruct F as [Ic Ec]. apply Z.eqb_eq in Ec. destruct (H c Ic Ec).
Qed.

Lemma made_serves it c : made_of it c -> serves it c.
Proof. intros (A & B & C & D & F). unfold serves. rewrite C. auto. Qed.

Lemma serves_bare it c d : bare c = bare d -> serves it c -> serves it d.
Proof. destruct c, d. unfold bare, serves. cbn. intros E. injection E. intros. subst. assumption. Qed.

Lemma same_serves it subj c : set_subject (i_subject it) (i_usage it) = Some subj -> sd_enc (i_pub it) = E_PEM -> same_cert it subj c = true -> serves it c.
Proof.
  intros Sj Pe H. unfold same_cert, data_eq, has_tag in H. rewrite !andb_true_iff, !N.eqb_eq, !list_eqb_spec in H.
  destruct H as [[[[[[H1 H2] _] H4] _] [H5 H6]] H7]. rewrite H5, Pe, N.eqb_refl in H6. apply list_eqb_spec in H6.
  unfold serves. rewrite H1. auto.
Qed.

Lemma create_there E it subj kp rep s id s' rp cr : set_subject (i_subject it) (i_usage it) = Some subj -> noid (s_creds s) ->
  create E false it subj kp (-1) rep s = AOk id s' rp cr -> noid (s_creds s') /\ exists c, In c (s_creds s') /\ made_of it c.
Proof.
  intros Sj Nd. unfold create. cbn [andb negb orb].
  destruct (negb (ce_alloc E (s_next s)) || false); [intros H; discriminate H|].
  match goal with |- context[match ?x with Some _ => _ | None => AFail s end] => destruct x as [[r0 a0]|] end; [|intros H; discriminate H].
  change (-1 =? -1)%Z with true. cbv iota.
  match goal with |- context[match new_id ?l ?r with Some _ => _ | None => ALoop end] => destruct (new_id l r) as [cid|] eqn:Ni end; [|intros H; discriminate H].
  match goal with |- context[match ?x with Some _ => _ | None => AFail s end] => destruct x as [pr|] end; [|intros H; discriminate H].
  intros H. injection H as _ <- _ _. cbn [s_creds].
  assert (Pos : cid <> (-1)%Z).
  { unfold new_id in Ni. destruct (find _ (ce_rand E)) as [v|]; [|discriminate Ni]. injection Ni as <-. lia. }
  split.
  - intros c Ic. apply in_app_iff in Ic. destruct Ic as [Ic|[<-|[]]]; [exact (Nd c Ic)|exact Pos].
  - eexists. split; [apply in_or_app; right; left; reflexivity|]. unfold made_of.
    cbn [c_type c_usage c_tag c_subject c_pub]. repeat split; [exact Sj|].
    destruct (sd_data (i_pub it)) as [[|n t]|]; reflexivity.
Qed.

Lemma add_there E it s id s' rp cr : i_id it = (-1)%Z -> sd_enc (i_pub it) = E_PEM -> noid (s_creds s) ->
  add_cred E false it s = AOk id s' rp cr -> noid (s_creds s') /\ exists c, In c (s_creds s') /\ serves it c.
Proof.
  intros Ei Pe Nd. unfold add_cred. destruct (if i_type it =? CERT then _ else _) as [key|]; [|intros H; discriminate H]. cbn [andb].
  destruct (set_subject (i_subject it) (i_usage it)) as [subj|] eqn:Sj; [|intros H; discriminate H].
  match goal with |- context[match ?x with Some _ => _ | None => AFail s end] => destruct x as [kp|] end; [|intros H; discriminate H].
  rewrite Ei, (by_id_none _ Nd).
  destruct (find (same_cert it subj) (s_creds s)) as [d|] eqn:F.
  - intros H. injection H as _ <- _ _. split; [exact Nd|]. apply find_some in F. exists d. split; [exact (proj1 F)|].
    exact (same_serves _ _ _ Sj Pe (proj2 F)).
  - intros H. destruct (create_there _ _ _ _ _ _ _ _ _ _ Sj Nd H) as [A (c & Ic & M)]. split; [exact A|].
    exists c. split; [exact Ic|exact (made_serves _ _ M)].
Qed.

Lemma upd_sub i f l c : (forall d, bare (f d) = bare d) -> In c (upd i f l) -> exists d, In d l /\ bare d = bare c.
Proof.
  intros H. induction l as [|d t IH]; [intros []|]. unfold upd. fold (upd i f). destruct (c_id d =? i)%Z; intros [<-|Ic].
  - exists d. split; [left; reflexivity|symmetry; apply H].
  - exists c. split; [right; exact Ic|reflexivity].
  - exists d. split; [left; reflexivity|reflexivity].
  - destruct (IH Ic) as (e & Ie & Ee). exists e. split; [right; exact Ie|exact Ee].
Qed.

Lemma apply_item_there E it s owner s' o' : i_type it = CERT -> i_id it = (-1)%Z -> sd_enc (i_pub it) = E_PEM -> noid (s_creds s) ->
  apply_item E false false it s owner = DOk s' o' -> noid (s_creds s') /\ exists c, In c (s_creds s') /\ serves it c.
Proof.
  intros Ct Ei Pe Nd. unfold apply_item. destruct (add_cred E false it s) as [s1|id s1 rp cr|] eqn:A; [intros H; discriminate H| |intros H; discriminate H].
  destruct (add_there _ _ _ _ _ _ _ Ei Pe Nd A) as [N1 (c & Ic & Sc)].
  destruct (id =? -1)%Z; [intros H; discriminate H|]. destruct (by_id id (s_creds s1)) as [b|].
  - cbv zeta. rewrite Ct. change (CERT =? PSK) with false. cbn [negb andb].
    destruct ((some (i_sid it) || some (i_rid it)) && negb (ce_octx E)); [intros H; discriminate H|].
    intros H. injection H as <- _. cbn [with_creds s_creds].
    match goal with |- context[upd id ?f (s_creds s1)] =>
      assert (Hf : forall d, bare (f d) = bare d) by (intros d; reflexivity);
      pose proof (upd_step it id f (s_creds s1) Hf) as [_ U]; pose proof (fun d => upd_sub id f (s_creds s1) d Hf) as V end.
    split.
    + intros d Id. destruct (V d Id) as (e & Ie & Ee). rewrite <- (bare_id _ _ Ee). exact (N1 e Ie).
    + assert (Q : c_id c <> i_id it) by (rewrite Ei; exact (N1 c Ic)). destruct (U c Ic Q) as (e & Ie & Ee).
      exists e. split; [exact Ie|exact (serves_bare _ _ _ (eq_sym Ee) Sc)].
  - intros H. injection H as <- _. split; [exact N1|exists c; auto].
Qed.

Definition fine (P : item -> Prop) : Prop := forall it, P it -> i_type it = CERT /\ i_id it = (-1)%Z /\ sd_enc (i_pub it) = E_PEM.

Lemma steps_serves P it l l' : fine P -> noid l -> steps P l l' -> (exists c, In c l /\ serves it c) -> exists c, In c l' /\ serves it c.
Proof.
  intros F Nd [_ B] (c & Ic & Sc). destruct (B c Ic) as (d & Id & Ed).
  - intros i Hi. destruct (F i Hi) as (_ & -> & _). exact (Nd c Ic).
  - exists d. split; [exact Id|exact (serves_bare _ _ _ (eq_sym Ed) Sc)].
Qed.

Lemma apply_items_there E P : fine P -> forall l s owner s' o',
  (forall x it, In x l -> parse_props false item0 x = Some it -> P it) -> noid (s_creds s) ->
  apply_items E false false l s owner = DOk s' o' ->
  noid (s_creds s') /\ forall x it, In x l -> x <> [] -> parse_props false item0 x = Some it -> exists c, In c (s_creds s') /\ serves it c.
Proof.
  intros F. induction l as [|x t IH]; intros s owner s' o' H Nd A; cbn [apply_items] in A.
  - injection A as <- _. split; [exact Nd|intros x it []].
  - destruct (parse_props false item0 x) as [it|] eqn:Px; [|discriminate A].
    destruct (F it (H x it (or_introl eq_refl) Px)) as (Ct & Ei & Pe).
    assert (H' : forall y i, In y t -> parse_props false item0 y = Some i -> P i) by (intros y i Iy; exact (H y i (or_intror Iy))).
    destruct (osc_ok it); [|discriminate A]. destruct x as [|r x'].
    + destruct (IH s owner s' o' H' Nd A) as [A1 A2]. split; [exact A1|].
      intros y i [<-|Iy] Ny; [destruct Ny; reflexivity|exact (A2 y i Iy Ny)].
    + destruct (apply_item E false false it s owner) as [s1 o1|s1 o1|] eqn:Ai; [discriminate A| |discriminate A].
      destruct (apply_item_there _ _ _ _ _ _ Ct Ei Pe Nd Ai) as [N1 S1].
      destruct (IH s1 o1 s' o' H' N1 A) as [A1 A2]. split; [exact A1|].
      intros y i [<-|Iy] Ny Py; [|exact (A2 y i Iy Ny Py)]. rewrite Px in Py. injection Py as <-.
      pose proof (apply_items_steps E P (fun i Hi => proj1 (F i Hi)) t s1 o1 H') as St. rewrite A in St.
      exact (steps_serves P it _ _ F N1 (proj1 St) S1).
Qed.

Lemma decode_props_there E P : fine P -> forall o s owner s' o',
  (forall it, sent o it -> P it) -> (forall v, ~ In (str "rowneruuid", RStr v) o) -> noid (s_creds s) ->
  decode_props E false false o s owner = DOk s' o' ->
  noid (s_creds s') /\ forall a x it, In (str "creds", RObjArr a) o -> In x a -> x <> [] -> parse_props false item0 x = Some it ->
    exists c, In c (s_creds s') /\ serves it c.
Proof.
  intros F. induction o as [|r t IH]; intros s owner s' o' H R Nd A; cbn [decode_props] in A.
  - injection A as <- _. split; [exact Nd|intros a x it []].
  - assert (H' : forall it, sent t it -> P it).
    { intros it (z & a & x & A' & B). apply H. exists z, a, x. split; [right; exact A'|exact B]. }
    assert (R' : forall v, ~ In (str "rowneruuid", RStr v) t) by (intros v I; exact (R v (or_intror I))).
    assert (Skip : (forall a, r <> (str "creds", RObjArr a)) -> decode_props E false false t s owner = DOk s' o' ->
      noid (s_creds s') /\ forall a x it, In (str "creds", RObjArr a) (r :: t) -> In x a -> x <> [] -> parse_props false item0 x = Some it ->
      exists c, In c (s_creds s') /\ serves it c).
    { intros Ns A1. destruct (IH s owner s' o' H' R' Nd A1) as [B1 B2]. split; [exact B1|].
      intros a x it [E1|I1]; [destruct (Ns a E1)|exact (B2 a x it I1)]. }
    destruct r as [nm v]. cbn [snd fst] in A. destruct v eqn:Ev; try (apply Skip; [intros a E1; discriminate E1|exact A]).
    + destruct (list_eqb nm (str "rowneruuid")) eqn:En; [|apply Skip; [intros a E1; discriminate E1|exact A]].
      apply list_eqb_spec in En. exfalso. eapply R. left. rewrite En. reflexivity.
    + destruct (list_eqb nm (str "creds") || list_eqb nm (str "roles")) eqn:En.
      * clear Skip. destruct (apply_items E false false l s owner) as [s1 o1|s1 o1|] eqn:Ai; [discriminate A| |discriminate A].
        assert (G : forall x it, In x l -> parse_props false item0 x = Some it -> P it).
        { intros x it Ix Px. apply H. exists (nm, RObjArr l), l, x. split; [left; reflexivity|auto]. }
        destruct (apply_items_there E P F l s owner s1 o1 G Nd Ai) as [N1 S1].
        destruct (IH s1 o1 s' o' H' R' N1 A) as [B1 B2]. split; [exact B1|].
        intros a x it [E1|I1] Ix Nx Px; [|exact (B2 a x it I1 Ix Nx Px)]. injection E1 as _ <-.
        pose proof (decode_props_steps E P (fun i Hi => proj1 (F i Hi)) t s1 o1 H' R') as St. rewrite A in St.
        exact (steps_serves P it _ _ F N1 (proj1 St) (S1 x it Ix Nx Px)).
      * apply Skip; [|exact A]. intros a E1. injection E1 as -> _. rewrite list_eqb_refl in En. discriminate En.
Qed.

Lemma replace_there E o s s' a x it : certificates o -> regular o -> noid (s_creds s) -> replace E o s = Taken s' ->
  In (str "creds", RObjArr a) o -> In x a -> x <> [] -> parse_props false item0 x = Some it -> i_tag it <> Some STALE ->
  exists c, In c (s_creds s') /\ serves it c.
Proof.
  intros C Rg Nd L Io Ix Nx Px Nt. unfold replace, apply_cred, decode_cred in L. cbn [orb] in L.
  destruct (forallb (state_ok (ce_state (in_rfpro E))) o) eqn:Fb; [|discriminate L].
  assert (R : forall v, ~ In (str "rowneruuid", RStr v) o).
  { intros v I. rewrite forallb_forall in Fb. specialize (Fb _ I). vm_compute in Fb. discriminate Fb. }
  assert (F : fine (sent o)) by (intros i Hi; split; [exact (C i Hi)|exact (Rg i Hi)]).
  assert (N0 : noid (s_creds (with_creds s (set_stale (s_creds s))))).
  { cbn [with_creds s_creds]. intros c Ic. unfold set_stale in Ic. apply in_map_iff in Ic. destruct Ic as (d & <- & Id).
    destruct (tagged d DPS); exact (Nd d Id). }
  pose proof (decode_props_steps (in_rfpro E) (sent o) C o (with_creds s (set_stale (s_creds s))) None (fun i Hi => Hi) R) as K.
  destruct (decode_props (in_rfpro E) false false o (with_creds s (set_stale (s_creds s))) None) as [s1 o1|s1 o1|] eqn:D.
  - destruct K as (_ & _ & ->). discriminate L.
  - destruct K as (_ & _ & ->). injection L as <-.
    destruct (decode_props_there _ _ F _ _ _ _ _ (fun i Hi => Hi) R N0 D) as [_ B].
    destruct (B a x it Io Ix Nx Px) as (c & Ic & Sc). exists c. split; [|exact Sc]. cbn [with_creds s_creds].
    apply in_remove_stale. split; [exact Ic|]. intros T. destruct Sc as (_ & _ & Sc & _). rewrite T in Sc.
    destruct (i_tag it) as [u|]; [cbn [od] in Sc; apply Nt; congruence|vm_compute in Sc; discriminate Sc].
  - discriminate L.
Qed.
