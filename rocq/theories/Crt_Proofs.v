(** Proofs about the certificate profile. *)
From Verif Require Import Common Hex_Model Hex_Spec Hex_Proofs Acl_Model Crt_Model Crt_Spec.
From Coq Require Import String.
Local Open Scope string_scope.
Local Open Scope list_scope.
Local Open Scope N_scope.

Lemma land_sub n m : N.land n m = m <-> forall i, N.testbit m i = true -> N.testbit n i = true.
Proof.
  split.
  - intros H i Hi. rewrite <- H, N.land_spec in Hi. now apply andb_true_iff in Hi.
  - intros H. apply N.bits_inj. intros i. rewrite N.land_spec.
    destruct (N.testbit m i) eqn:E; [rewrite (H i E); reflexivity|apply andb_false_r].
Qed.

Lemma ldiff_zero n m : N.ldiff n m = 0 <-> forall i, N.testbit n i = true -> N.testbit m i = true.
Proof.
  split.
  - intros H i Hi. assert (E : N.testbit (N.ldiff n m) i = false) by (rewrite H; apply N.bits_0).
    rewrite N.ldiff_spec, Hi in E. cbn in E. now apply negb_false_iff in E.
  - intros H. apply N.bits_inj. intros i. rewrite N.ldiff_spec, N.bits_0.
    destruct (N.testbit n i) eqn:E; [rewrite (H i E); reflexivity|reflexivity].
Qed.

(** The bits of a number below 256. *)
Lemma small_bits m (P : N -> Prop) : m < 256 ->
  (forall i, i < 8 -> N.testbit m i = true -> P i) -> forall i, N.testbit m i = true -> P i.
Proof.
  intros B H i Hi. destruct (N.lt_ge_cases i 8) as [L|L]; [auto|].
  exfalso. destruct (N.eq_dec m 0) as [->|Z]; [rewrite N.bits_0 in Hi; discriminate|].
  rewrite N.bits_above_log2 in Hi; [discriminate|].
  assert (N.log2 m < 8); [|lia]. apply N.log2_lt_pow2; [lia|]. exact B.
Qed.

Definition mask_list (m : N) (l : list N) : bool :=
  (m <? 256) && forallb (fun i => Bool.eqb (N.testbit m i) (existsb (N.eqb i) l)) (below 8) && forallb (fun i => i <? 8) l.

Lemma mask_list_ok m l i : mask_list m l = true -> (N.testbit m i = true <-> In i l).
Proof.
  intros H. apply andb_true_iff in H. destruct H as [H H3]. apply andb_true_iff in H. destruct H as [H1 H2].
  assert (E : i < 8 -> N.testbit m i = existsb (N.eqb i) l).
  { intros L. apply Bool.eqb_prop. refine (sweep_below 8 (fun i => Bool.eqb (N.testbit m i) (existsb (N.eqb i) l)) H2 i _). lia. }
  rewrite forallb_forall in H3. split.
  - intros Hi. assert (L : i < 8).
    { revert i Hi E. intros i Hi _. apply (small_bits m (fun i => i < 8)); [lia|auto|exact Hi]. }
    rewrite (E L) in Hi. apply existsb_exists in Hi. destruct Hi as (x & Ix & Ex). apply N.eqb_eq in Ex. now subst.
  - intros Hi. assert (L := H3 i Hi). rewrite E by lia. apply existsb_exists. exists i. split; [exact Hi|apply N.eqb_refl].
Qed.

Lemma bits_masks n mm am must may : mask_list mm must = true -> mask_list am (must ++ may) = true ->
  ((N.land n mm =? mm) && (N.ldiff n am =? 0) = true <-> bits n must may).
Proof.
  intros M A. rewrite andb_true_iff, !N.eqb_eq, land_sub, ldiff_zero. unfold bits. split; intros [H1 H2]; split; intros i Hi.
  - apply H1. now apply (mask_list_ok _ _ _ M).
  - specialize (H2 i Hi). apply (mask_list_ok _ _ _ A) in H2. now apply in_app_or in H2.
  - apply H1. now apply (mask_list_ok _ _ _ M).
  - apply (mask_list_ok _ _ _ A). apply in_or_app. auto.
Qed.

Lemma id_allowed_ok m v : id_allowed m v = true <-> member m v.
Proof.
  unfold id_allowed, member. rewrite negb_true_iff, N.eqb_neq.
  destruct ((0 <? v) && (v <? 32)) eqn:E.
  - assert (B : 0 < v < 32) by lia. rewrite N.shiftl_1_l. split.
    + intros H. split; [exact B|]. destruct (N.testbit m (v - 1)) eqn:T; [reflexivity|]. exfalso. apply H.
      apply N.bits_inj. intros i. rewrite N.land_spec, N.bits_0.
      destruct (N.eq_dec i (v - 1)) as [->|Hn]; [rewrite T; apply andb_false_r|].
      rewrite N.pow2_bits_false by congruence. reflexivity.
    + intros [_ T] H. assert (F : N.testbit (N.land (2 ^ (v - 1)) m) (v - 1) = false) by (rewrite H; apply N.bits_0).
      rewrite N.land_spec, N.pow2_bits_true, T in F. discriminate.
  - rewrite N.land_0_l. split; [congruence|]. intros [B _]. lia.
Qed.

Lemma v1_ok g c f : validate_v1 g c = Some f <-> common g c /\ f = (c_future c || c_past c)%bool.
Proof.
  unfold validate_v1, common. rewrite <- !id_allowed_ok.
  destruct (id_allowed (allowed_mds g) (c_md c)); cbn [negb]; [|split; [discriminate|intros [[H _] _]; discriminate]].
  destruct (c_version c =? 3) eqn:V; cbn [negb]; [|split; [discriminate|intros [[_ [H _]] _]; lia]].
  unfold PK_ECDSA. destruct (c_pk c =? 4) eqn:K; cbn [negb]; [|split; [discriminate|intros [[_ [_ [H _]]] _]; lia]].
  destruct (id_allowed (allowed_grps g) (c_grp c)); cbn [negb]; [|split; [discriminate|intros [[_ [_ [_ H]]] _]; discriminate]].
  split; [intros [= <-]; repeat split; lia|intros [_ ->]; reflexivity].
Qed.

Lemma ca_bits n (otm : bool) :
  let opt := if otm then KU_DIGITAL_SIGNATURE else N.lor KU_DIGITAL_SIGNATURE KU_CRL_SIGN in
  let ku := if otm then N.lor KU_KEY_CERT_SIGN KU_CRL_SIGN else KU_KEY_CERT_SIGN in
  ((N.land n ku =? ku) && (N.ldiff n (N.lor opt ku) =? 0) = true) <->
  (if otm then bits n [2; 1] [7] else bits n [2] [7; 1]).
Proof. destruct otm; apply bits_masks; reflexivity. Qed.

Lemma validate_ca_ok g c root otm depth f : validate_ca g c root otm depth = Some f <->
  ca_profile g c otm depth /\ self_issued c = root /\ (root = false -> otm = true -> c_pathlen c = 1) /\
  f = (c_future c || c_past c)%bool.
Proof.
  unfold validate_ca, ca_profile. rewrite <- ca_bits. cbv zeta.
  set (ku := if otm then N.lor KU_KEY_CERT_SIGN KU_CRL_SIGN else KU_KEY_CERT_SIGN).
  set (am := N.lor _ ku). clearbody am ku.
  assert (V := v1_ok g c). destruct (validate_v1 g c) as [f0|].
  2:{ split; [discriminate|]. intros [[C _] _]. exfalso.
      assert (H : None = Some (c_future c || c_past c)%bool) by (apply V; split; [exact C|reflexivity]). discriminate. }
  destruct (proj1 (V f0) eq_refl) as [C ->]. clear V.
  destruct (N.land (c_ku c) ku =? ku); cbn [andb negb];
    [|split; [destruct root, (self_issued c); cbn [andb negb]; discriminate|intros [(_ & H & _) _]; discriminate]].
  destruct (N.ldiff (c_ku c) am =? 0); cbn [andb negb];
    [|split; [destruct root, (self_issued c); cbn [andb negb]; discriminate|intros [(_ & H & _) _]; discriminate]].
  destruct (c_ca c); cbn [andb negb];
    [|split; [destruct root, (self_issued c); cbn [andb negb]; discriminate|intros [(_ & _ & H & _) _]; discriminate]].
  destruct (negb (c_pathlen c =? 0) && (c_pathlen c <? depth)) eqn:P.
  { split; [destruct root, (self_issued c); cbn [andb negb]; discriminate|intros [(_ & _ & _ & H) _]; lia]. }
  destruct root, (self_issued c); cbn [andb negb];
    try (split; [discriminate|intros (_ & H & _); discriminate H]).
  - rewrite andb_false_r. cbn [andb]. split.
    + intros [= <-]. split; [|split; [reflexivity|split; [discriminate|reflexivity]]]. split; [exact C|]. split; [reflexivity|]. split; [reflexivity|lia].
    + intros (_ & _ & _ & ->). reflexivity.
  - rewrite andb_true_r. destruct (otm && negb (c_pathlen c =? 1)) eqn:O.
    + split; [discriminate|]. intros (_ & _ & H & _). destruct otm; [|discriminate]. specialize (H eq_refl eq_refl). cbn in O. lia.
    + split.
      * intros [= <-]. split; [|split; [reflexivity|split; [|reflexivity]]].
        { split; [exact C|]. split; [reflexivity|]. split; [reflexivity|lia]. }
        intros _ ->. cbn in O. lia.
      * intros (_ & _ & _ & ->). reflexivity.
Qed.

(** ** Names *)
Lemma der_length_inj n m a b : n < 65536 -> m < 65536 ->
  der_length n ++ a = der_length m ++ b -> n = m.
Proof.
  unfold der_length. intros Hn Hm.
  destruct (n <? 128) eqn:A; destruct (m <? 128) eqn:B; cbn [app]; intros H.
  - now injection H.
  - destruct (m <? 256); injection H; intros; lia.
  - destruct (n <? 256); injection H; intros; lia.
  - destruct (n <? 256) eqn:C; destruct (m <? 256) eqn:D; cbn [app] in H; injection H; intros; try lia; subst; lia.
Qed.

Lemma der_same_length a b rest : der_name a -> der_name b ->
  a = firstn (List.length a) (b ++ rest) -> List.length a = List.length b.
Proof.
  intros (x & Bx & Ea) (y & By & Eb) H.
  assert (E : exists t, a ++ t = b ++ rest).
  { exists (skipn (List.length a) (b ++ rest)). rewrite H at 1. apply firstn_skipn. }
  rewrite Ea, Eb in *. clear H Ea Eb.
  destruct E as [t E]. cbn [app] in E. injection E as E. rewrite <- !app_assoc in E.
  apply der_length_inj in E; [|assumption..]. rewrite E. cbn [List.length]. rewrite !app_length. lia.
Qed.

Lemma self_issued_der c : der_name (c_issuer c) -> der_name (c_subject c) ->
  (self_issued c = true <-> List.length (c_issuer c) = List.length (c_subject c)).
Proof.
  intros A B. unfold self_issued. rewrite orb_true_iff, Nat.eqb_eq, list_eqb_spec. split; [|auto].
  intros [H|H]; [exact H|]. now apply (der_same_length _ _ _ A B H).
Qed.

Lemma self_issued_eq c : c_issuer c = c_subject c -> self_issued c = true.
Proof. intros E. unfold self_issued. rewrite E, Nat.eqb_refl. reflexivity. Qed.

(** ** End entities *)
Lemma end_bits n : ((N.land n (N.lor KU_DIGITAL_SIGNATURE KU_KEY_AGREEMENT) =? N.lor KU_DIGITAL_SIGNATURE KU_KEY_AGREEMENT) &&
  (N.ldiff n (N.lor KU_DIGITAL_SIGNATURE KU_KEY_AGREEMENT) =? 0) = true) <-> bits n [7; 3] [].
Proof. apply bits_masks; reflexivity. Qed.

Lemma eku_some l c oid : c_eku c = Some l -> ~ In OID_ANY l -> (eku_ok c oid = true <-> In oid l).
Proof.
  intros E A. unfold eku_ok. rewrite E, existsb_exists. split.
  - intros (o & I & H). apply orb_true_iff in H. rewrite !list_eqb_spec in H. destruct H as [->| ->]; [exact I|contradiction].
  - intros I. exists oid. split; [exact I|]. rewrite list_eqb_refl. reflexivity.
Qed.

Lemma eku_any c oid : (c_eku c = None \/ exists l, c_eku c = Some l /\ In OID_ANY l) -> eku_ok c oid = true.
Proof.
  unfold eku_ok. intros [->|(l & -> & I)]; [reflexivity|]. apply existsb_exists. exists OID_ANY. split; [exact I|].
  rewrite list_eqb_refl. apply orb_true_r.
Qed.

Lemma eku_cases c : (c_eku c = None \/ exists l, c_eku c = Some l /\ In OID_ANY l) \/ (exists l, c_eku c = Some l /\ ~ In OID_ANY l).
Proof.
  destruct (c_eku c) as [l|]; [|auto]. destruct (in_dec (list_eq_dec N.eq_dec) OID_ANY l) as [I|I].
  - left. right. exists l. auto.
  - right. exists l. auto.
Qed.

Definition marked (c : cert) (kind other : list N) : bool :=
  end_fields c && eku_ok c kind && negb (eku_ok c other) && negb (eku_ok c OID_ANY).

Lemma marked_ok c kind other : marked c kind other = true <->
  bits (c_ku c) [7; 3] [] /\ c_ca c = false /\ c_pathlen c = 0 /\
  exists l, c_eku c = Some l /\ In [43; 6; 1; 5; 5; 7; 3; 1] l /\ In [43; 6; 1; 5; 5; 7; 3; 2] l /\
    In kind l /\ ~ In other l /\ ~ In [85; 29; 37; 0] l.
Proof.
  unfold marked, end_fields. rewrite <- end_bits. cbv zeta.
  change [43; 6; 1; 5; 5; 7; 3; 1] with OID_SERVER_AUTH. change [43; 6; 1; 5; 5; 7; 3; 2] with OID_CLIENT_AUTH.
  change [85; 29; 37; 0] with OID_ANY. rewrite !andb_true_iff, !negb_true_iff.
  destruct (eku_cases c) as [A|(l & E & A)].
  - rewrite !(eku_any c) by exact A. split; [intros (_ & H); discriminate|].
    intros (_ & _ & _ & l & E & _ & _ & _ & _ & H). destruct A as [A|(l' & A & I)]; congruence.
  - rewrite <- !not_true_iff_false. rewrite !(eku_some l c) by assumption. rewrite !N.eqb_eq.
    split.
    + intros H. split; [tauto|]. split; [tauto|]. split; [tauto|]. exists l. tauto.
    + intros (B & C & P & l' & E' & S & K & I & O & _). rewrite E in E'. injection E' as <-. tauto.
Qed.

Lemma validate_end_marked g c : validate_end g c =
  match validate_v1 g c with Some f => if marked c OID_IDENTITY OID_ROLE then Some f else None | None => None end.
Proof.
  unfold validate_end, marked. destruct (validate_v1 g c); [|reflexivity].
  destruct (end_fields c), (eku_ok c OID_IDENTITY), (eku_ok c OID_ROLE), (eku_ok c OID_ANY); reflexivity.
Qed.
Lemma validate_role_marked g c : validate_role g c =
  match validate_v1 g c with Some f => if marked c OID_ROLE OID_IDENTITY then Some f else None | None => None end.
Proof.
  unfold validate_role, marked. destruct (validate_v1 g c); [|reflexivity].
  destruct (end_fields c), (eku_ok c OID_IDENTITY), (eku_ok c OID_ROLE), (eku_ok c OID_ANY); reflexivity.
Qed.

Lemma marked_profile g c kind other f :
  match validate_v1 g c with Some f => if marked c kind other then Some f else None | None => None end = Some f <->
  end_profile g c kind other /\ f = (c_future c || c_past c)%bool.
Proof.
  unfold end_profile. rewrite <- marked_ok. assert (V := v1_ok g c f).
  destruct (validate_v1 g c) as [f0|].
  - destruct (marked c kind other).
    + rewrite V. tauto.
    + split; [discriminate|]. intros [[_ H] _]. discriminate.
  - split; [discriminate|]. intros [[C _] E]. assert (H := proj2 V (conj C E)). discriminate.
Qed.

Lemma validate_end_ok g c f : validate_end g c = Some f <->
  end_profile g c identity_mark role_mark /\ f = (c_future c || c_past c)%bool.
Proof. rewrite validate_end_marked. apply marked_profile. Qed.
Lemma validate_role_ok g c f : validate_role g c = Some f <->
  end_profile g c role_mark identity_mark /\ f = (c_future c || c_past c)%bool.
Proof. rewrite validate_role_marked. apply marked_profile. Qed.

(** ** Names of peers *)
Lemma hex_text_length s l : hex_text s l -> List.length s = (2 * List.length l)%nat.
Proof. induction 1; cbn [List.length]; lia. Qed.

Lemma uuid_text_length t u : uuid_text t u -> List.length t = 36%nat.
Proof.
  intros (s1 & s2 & s3 & s4 & s5 & u1 & u2 & u3 & u4 & u5 & -> & _ & H1 & H2 & H3 & H4 & H5 & L1 & L2 & L3 & L4 & L5).
  apply hex_text_length in H1, H2, H3, H4, H5. rewrite !app_length. cbn [List.length]. lia.
Qed.

Lemma hex_text_nonzero s l : hex_text s l -> ~ In 0 s.
Proof.
  assert (R : forall c v, reads_as c v -> c <> 0).
  { intros c v [B D] ->. revert D.
    assert (K : forallb (fun v => negb (nth (N.to_nat v) hexdigits 0 =? 0) && negb (nth (N.to_nat v) HEXDIGITS 0 =? 0)) (below 16) = true) by reflexivity.
    assert (X := sweep_below 16 _ K v). cbv beta in X. specialize (X ltac:(lia)). lia. }
  induction 1 as [|c d hi lo s l A B H IH]; [auto|]. cbn [In]. intros [E|[E|E]].
  - exact (R _ _ A E).
  - exact (R _ _ B E).
  - auto.
Qed.

Lemma uuid_text_nonzero t u : uuid_text t u -> ~ In 0 t.
Proof.
  intros (s1 & s2 & s3 & s4 & s5 & u1 & u2 & u3 & u4 & u5 & -> & _ & H1 & H2 & H3 & H4 & H5 & _).
  apply hex_text_nonzero in H1, H2, H3, H4, H5. rewrite !in_app_iff. cbn [In].
  intros [H|[[H|[]]|[H|[[H|[]]|[H|[[H|[]]|[H|[[H|[]]|H]]]]]]]]; first [contradiction|lia].
Qed.

Lemma cstr_nonzero t : ~ In 0 t -> cstr t = t.
Proof.
  induction t as [|x t IH]; intros H; [reflexivity|]. cbn [cstr].
  destruct (x =? 0) eqn:E; [exfalso; apply H; left; lia|]. rewrite IH; [reflexivity|]. intros I. apply H. now right.
Qed.

Lemma says_uuid c u old : says c u -> exists t, cn_uuid c = Some t /\ set_uuid old t = u.
Proof.
  intros (t & T & E). exists t. assert (L := uuid_text_length _ _ T). split.
  - unfold cn_uuid. rewrite E. assert (L2 : (5 <? List.length (str "uuid:" ++ t) = true)%nat).
    { rewrite app_length, L. reflexivity. }
    rewrite L2. assert (F : find_prefix (str "uuid:" ++ t) = Some t) by reflexivity. rewrite F, L.
    cbn [Nat.ltb Nat.leb]. rewrite <- L at 1. now rewrite firstn_all.
  - unfold set_uuid. rewrite cstr_nonzero by exact (uuid_text_nonzero _ _ T).
    rewrite (str_to_uuid_text _ _ T). reflexivity.
Qed.
