(** Proofs about the storage of the security domain, and about the security profile. *)
From Verif Require Import Common Hex_Model Hex_Spec Hex_Proofs Rep_Model Repd_Model Repd_Spec Repd_Proofs Acl_Model Acl_Spec Acl2_Proofs Ob_Model Ob_Proofs Ael2_Proofs Sd_Model Sd_Spec Sd_Proofs.
From Coq Require Import String.
Notation rep := Rep_Model.rep.
Local Open Scope string_scope.
Local Open Scope list_scope.
Local Open Scope N_scope.

(** * The stored domain *)
Lemma sdi_parse s : parse (sdi_dump s) = Ok (PRep (sdi_encode false s)).
Proof.
  unfold sdi_dump, enc_root. cbn [parse]. rewrite (members_reads _ (sdi_encode false s)); [reflexivity|].
  unfold sdi_encode. cbn [app]. constructor; [apply reads_writable; constructor|]. constructor; [apply reads_writable; constructor|].
  constructor; [apply reads_writable; constructor|constructor].
Qed.
Lemma sdi_stored s : stored (Some (sdi_dump s)) = Some (Some (sdi_encode false s)).
Proof. unfold stored. rewrite sdi_parse. reflexivity. Qed.
Lemma sdi_back st s s0 : typed_uuid (s_uuid s) -> s_uuid s <> wildcard -> sdi_decode st true (sdi_encode false s) s0 = Some s.
Proof.
  intros T W. destruct (uuid_to_str_spec (s_uuid s) 37 (proj1 T) (proj2 T) W) as (t & E & U & _); [lia|]. destruct (uuid_text_nz _ _ U) as [_ L].
  assert (Eu : uuid_str (s_uuid s) = t) by (unfold uuid_str; rewrite E; reflexivity).
  unfold sdi_decode. rewrite sdi_props_spec. unfold sdi_encode. rewrite Eu. cbn [app forallb].
  assert (P : prop_ok st true (str "uuid", RStr t) = true).
  { unfold prop_ok. rewrite (proj2 (text_sel_spec (str "uuid") _ t) eq_refl). cbn [orb andb]. rewrite L. reflexivity. }
  rewrite P. change (prop_ok st true (str "name", RStr (s_name s))) with true. change (prop_ok st true (str "priv", RBool (s_priv s))) with true. cbn [andb x_uuid x_name x_priv].
  unfold upd. cbn [fold_left]. rewrite (proj2 (text_sel_spec (str "uuid") _ t) eq_refl).
  change (text_sel (str "uuid") (str "name", RStr (s_name s))) with (@None (list N)).
  change (text_sel (str "uuid") (str "priv", RBool (s_priv s))) with (@None (list N)).
  change (text_sel (str "name") (str "uuid", RStr t)) with (@None (list N)).
  change (text_sel (str "name") (str "name", RStr (s_name s))) with (Some (s_name s)).
  change (text_sel (str "name") (str "priv", RBool (s_priv s))) with (@None (list N)).
  change (flag_sel (str "priv") (str "uuid", RStr t)) with (@None bool).
  change (flag_sel (str "priv") (str "name", RStr (s_name s))) with (@None bool).
  change (flag_sel (str "priv") (str "priv", RBool (s_priv s))) with (Some (s_priv s)).
  cbv iota. cbn [x_uuid x_name x_priv]. rewrite (uuid_of_text _ _ (s_uuid s0) U). destruct s; reflexivity.
Qed.

Definition kept (d : dev) : Prop := f_sdi d = Some (sdi_dump (d_sdi d)) /\ typed_uuid (s_uuid (d_sdi d)).
Lemma nil_typed : typed_uuid (s_uuid sdi0).
Proof. split; [|reflexivity]. cbn [s_uuid sdi0]. unfold nil_uuid, bytes_ok. repeat constructor. Qed.
Lemma default_kept d : kept (sdi_default d).
Proof. split; [reflexivity|exact nil_typed]. Qed.
Lemma decode_typed st fs l s s' : typed_uuid (s_uuid s) -> sdi_decode st fs l s = Some s' -> typed_uuid (s_uuid s').
Proof.
  intros T H. unfold sdi_decode in H. destruct (sdi_props st fs (mkData None None None) l) as [[u n p]|]; [|discriminate].
  assert (G : forall u, typed_uuid (match u with Some t => uuid_of t (s_uuid s) | None => s_uuid s end)) by (intros [t|]; [apply uuid_of_typed, T|exact T]).
  destruct u, n, p; try discriminate H;
    match type of H with Some ?x = Some _ => assert (s' = x) by congruence end; subst s'; cbn [s_uuid x_uuid]; first [apply (G (Some _))|apply (G None)].
Qed.

Lemma load_sp_keeps d : d_sdi (load_sp d) = d_sdi d /\ f_sdi (load_sp d) = f_sdi d /\ d_state (load_sp d) = d_state d /\ d_owned (load_sp d) = d_owned d.
Proof.
  unfold load_sp. destruct (stored (f_sp d)) as [[l|]|]; [|auto|auto]. destruct (sp_decode_for (d_state d) l (d_sp d)) as [[] p]; auto.
Qed.
Lemma load_sdi_sp d : d_sp (load_sdi d) = d_sp d /\ f_sp (load_sdi d) = f_sp d.
Proof. unfold load_sdi. destruct (stored (f_sdi d)) as [[l|]|]; [|auto|auto]. destruct (sdi_decode _ _ _ _); auto. Qed.

Lemma load_kept d s : f_sdi d = Some (sdi_dump s) -> typed_uuid (s_uuid s) -> kept (load_sdi d) /\ (s_uuid s <> wildcard -> d_sdi (load_sdi d) = s).
Proof.
  intros F T. unfold load_sdi. rewrite F, sdi_stored.
  destruct (list_eqb (s_uuid s) wildcard) eqn:E.
  - apply list_eqb_spec in E. split; [|contradiction].
    assert (N : sdi_decode (d_state d) true (sdi_encode false s) (d_sdi d) = None).
    { unfold sdi_decode. rewrite sdi_props_spec. unfold sdi_encode. cbn [app forallb]. rewrite E.
      change (prop_ok (d_state d) true (str "uuid", RStr (uuid_str wildcard))) with false. reflexivity. }
    rewrite N. apply default_kept.
  - assert (W : s_uuid s <> wildcard) by (intros H; rewrite H, list_eqb_refl in E; discriminate).
    rewrite sdi_back by assumption. split; [|reflexivity]. split; [reflexivity|exact T].
Qed.

Lemma set_profile_sdi d x : d_sdi (set_profile d x) = d_sdi d /\ f_sdi (set_profile d x) = f_sdi d.
Proof. split; reflexivity. Qed.
Lemma reset_sdi pre d : d_sdi (reset pre d) = sdi0 /\ f_sdi (reset pre d) = Some (sdi_dump sdi0).
Proof. unfold reset. destruct pre; split; reflexivity. Qed.

Lemma boot_unowned pre d : d_owned d = false -> d_sdi (boot pre d) = sdi0 /\ kept (boot pre d).
Proof.
  intros O. unfold boot. rewrite O. set (d2 := reset pre _). destruct (reset_sdi pre (mkDev false (d_state d) sdi0 (mkSp 0 0) sp_init None None)) as [_ F]. fold d2 in F.
  destruct (load_sp_keeps d2) as (_ & F2 & _). destruct (load_kept (load_sp d2) sdi0) as [K E]; [rewrite F2; exact F|exact nil_typed|].
  split; [apply E; discriminate|exact K].
Qed.
Lemma boot_owned pre d : d_owned d = true -> kept d -> kept (boot pre d) /\ (s_uuid (d_sdi d) <> wildcard -> d_sdi (boot pre d) = d_sdi d).
Proof.
  intros O [F T]. unfold boot. rewrite O. set (d1 := mkDev _ _ _ _ _ _ _). destruct (load_sp_keeps d1) as (_ & F2 & _).
  apply load_kept; [rewrite F2; exact F|exact T].
Qed.
Lemma boot_kept pre d : d_owned d = false \/ kept d -> kept (boot pre d).
Proof. intros H. destruct (d_owned d) eqn:O; [destruct H as [H|H]; [discriminate|]; exact (proj1 (boot_owned pre d O H))|exact (proj2 (boot_unowned pre d O))]. Qed.

Lemma step_kept pre d o : kept d -> written_op o -> kept (fst (step pre d o)).
Proof.
  intros K W. destruct o as [i|w l|i|w l|ow st| |x|u n| |]; cbn [step].
  - exact K.
  - cbn [written_op] in W. subst w. destruct (sdi_decode (d_state d) false l (d_sdi d)) as [s|] eqn:E; [|exact K]. split; [reflexivity|]. exact (decode_typed _ _ _ _ _ (proj2 K) E).
  - exact K.
  - destruct (sp_decode_for (d_state d) l (d_sp d)) as [[] p]; exact K.
  - exact K.
  - destruct (reset_sdi pre d) as [A B]. split; [cbn [fst]; rewrite A; exact B|cbn [fst]; rewrite A; exact nil_typed].
  - exact K.
  - split; [reflexivity|exact W].
  - apply default_kept.
  - apply boot_kept. right. exact K.
Qed.
Lemma run_kept pre l : forall d, kept d -> Forall written_op l -> kept (run pre d l).
Proof. induction l as [|o l IH]; intros d K H; [exact K|]. inversion H; subst. cbn [run]. apply IH; [apply step_kept; assumption|assumption]. Qed.

(** * Profiles *)
Lemma oids : oid 1 = str "1.3.6.1.4.1.51414.0.0.1.0" /\ oid 2 = str "1.3.6.1.4.1.51414.0.0.2.0" /\ oid 3 = str "1.3.6.1.4.1.51414.0.0.3.0" /\ oid 4 = str "1.3.6.1.4.1.51414.0.0.4.0".
Proof. repeat split. Qed.
Lemma index4 i : 1 <= i <= 4 -> i = 1 \/ i = 2 \/ i = 3 \/ i = 4.
Proof. lia. Qed.
Lemma sp_of_oid i : 1 <= i <= 4 -> sp_of (oid i) = 2 ^ i.
Proof. intros H. destruct (index4 i H) as [->|[->|[->| ->]]]; reflexivity. Qed.
Lemma sp_str_oid i : 1 <= i <= 4 -> sp_str (2 ^ i) = oid i.
Proof. intros H. destruct (index4 i H) as [->|[->|[->| ->]]]; reflexivity. Qed.
Lemma sp_of_cases s : (exists i, profile s i /\ sp_of s = 2 ^ i) \/ ((forall i, ~ profile s i) /\ sp_of s = 0).
Proof.
  destruct oids as (E1 & E2 & E3 & E4). unfold sp_of. rewrite <- E1, <- E2, <- E3, <- E4.
  destruct (list_eqb s (oid 1)) eqn:A1; [apply list_eqb_spec in A1; left; exists 1; repeat split; auto; lia|].
  destruct (list_eqb s (oid 2)) eqn:A2; [apply list_eqb_spec in A2; left; exists 2; repeat split; auto; lia|].
  destruct (list_eqb s (oid 3)) eqn:A3; [apply list_eqb_spec in A3; left; exists 3; repeat split; auto; lia|].
  destruct (list_eqb s (oid 4)) eqn:A4; [apply list_eqb_spec in A4; left; exists 4; repeat split; auto; lia|].
  right. split; [|reflexivity]. intros i [Hi ->].
  destruct (index4 i Hi) as [->|[->|[->| ->]]]; rewrite list_eqb_refl in *; discriminate.
Qed.
Lemma profile_sp s i : profile s i -> sp_of s = 2 ^ i.
Proof. intros [H ->]. apply sp_of_oid, H. Qed.
Lemma oid_inj i j : 1 <= i <= 4 -> 1 <= j <= 4 -> oid i = oid j -> i = j.
Proof. intros A B E. apply (f_equal sp_of) in E. rewrite !sp_of_oid in E by assumption. apply N.pow_inj_r in E; [exact E|lia]. Qed.
Lemma oid_nz i : 1 <= i <= 4 -> ~ In 0 (oid i).
Proof. intros H. destruct (index4 i H) as [->|[->|[->| ->]]]; vm_compute; intros X; repeat (destruct X as [X|X]; [discriminate|]); destruct X. Qed.

Lemma reads_cstr s t : reads_text s t <-> cstr s = t.
Proof.
  split.
  - intros [Z (r & -> & E)]. destruct E as [-> | (r' & ->)].
    + rewrite app_nil_r. apply cstr_nz. apply Forall_forall. intros c Hc ->. contradiction.
    + induction t as [|c t IH]; [reflexivity|]. cbn [app cstr]. destruct (N.eqb_spec c 0) as [->|]; [destruct Z; left; reflexivity|].
      rewrite IH; [reflexivity|]. intros H. apply Z. right. exact H.
  - intros <-. split.
    + induction s as [|c s IH]; [intros []|]. cbn [cstr]. destruct (N.eqb_spec c 0) as [->|Hc]; [intros []|]. intros [H|H]; [contradiction|exact (IH H)].
    + induction s as [|c s IH]; [exists []; auto|]. cbn [cstr]. destruct (N.eqb_spec c 0) as [->|Hc]; [exists (0 :: s); split; [reflexivity|right; eauto]|].
      destruct IH as (r & E & F). exists r. split; [cbn [app]; congruence|exact F].
Qed.

Lemma land_pow m i : N.land m (2 ^ i) = 0 <-> N.testbit m i = false.
Proof.
  split.
  - intros H. assert (E : N.testbit (N.land m (2 ^ i)) i = false) by (rewrite H; apply N.bits_0). rewrite N.land_spec, N.pow2_bits_true, andb_true_r in E. exact E.
  - intros H. apply N.bits_inj. intros j. rewrite N.land_spec, N.bits_0, N.pow2_bits_eqb. destruct (N.eqb_spec i j) as [->|]; [rewrite H; reflexivity|apply andb_false_r].
Qed.

Lemma items_spec l : forall m,
  (Forall (fun s => exists t i, reads_text s t /\ profile t i) l /\
   exists m', sp_items m l = Some m' /\ forall i, N.testbit m' i = true <-> N.testbit m i = true \/ (1 <= i <= 4 /\ exists s, In s l /\ reads_text s (oid i))) \/
  (~ Forall (fun s => exists t i, reads_text s t /\ profile t i) l /\ sp_items m l = None).
Proof.
  induction l as [|s l IH]; intros m.
  - left. split; [constructor|]. exists m. split; [reflexivity|]. intros i. split; [auto|]. intros [H|(_ & x & [] & _)]. exact H.
  - cbn [sp_items]. destruct (sp_of_cases (cstr s)) as [(i & P & E)|[P E]].
    + rewrite E. destruct (N.eqb_spec (2 ^ i) 0) as [Z|_]; [pose proof (N.pow_nonzero 2 i); lia|].
      assert (R : reads_text s (cstr s)) by (apply reads_cstr; reflexivity).
      destruct (IH (N.lor m (2 ^ i))) as [(F & m' & Em & Hm)|(F & Em)].
      * left. split; [constructor; [exists (cstr s), i; auto|exact F]|]. exists m'. split; [exact Em|]. intros j. rewrite Hm, N.lor_spec, orb_true_iff, N.pow2_bits_eqb, N.eqb_eq. split.
        -- intros [[H| ->]|(A & x & B & C)]; [auto| |right; split; [exact A|exists x; split; [right; exact B|exact C]]].
           right. destruct P as [Hi Ei]. split; [exact Hi|]. exists s. split; [left; reflexivity|]. rewrite <- Ei. exact R.
        -- intros [H|(A & x & [<-|B] & C)]; [auto| |right; split; [exact A|exists x; auto]].
           left. right. destruct P as [Hi Ei]. apply reads_cstr in C. apply (oid_inj i j Hi A). congruence.
      * right. split; [|exact Em]. intros H. inversion H; subst. contradiction.
    + rewrite E. right. split; [|reflexivity]. intros H. inversion H as [|a b (t & i & R & Q) _]; subst. apply reads_cstr in R. subst t. exact (P i Q).
Qed.

(** * Decoding a profile *)
Definition known (r : rep) : bool := match text_sel (str "currentprofile") r with Some _ => true | None => match texts_sel (str "supportedprofiles") r with Some _ => true | None => false end end.
Lemma upd_cons {A} (f : rep -> option A) acc r l : upd f acc (r :: l) = upd f (match f r with Some v => Some v | None => acc end) l.
Proof. reflexivity. Qed.
Lemma sp_props_spec l : forall cur sup,
  sp_props cur sup l = if forallb known l then Some (upd (text_sel (str "currentprofile")) cur l, upd (texts_sel (str "supportedprofiles")) sup l) else None.
Proof.
  induction l as [|[n v] l IH]; intros cur sup; [reflexivity|]. cbn [sp_props forallb]. rewrite !upd_cons. unfold known at 1.
  destruct v; cbn [text_sel texts_sel fst snd]; try reflexivity.
  - destruct (list_eqb n (str "currentprofile")); [|reflexivity]. rewrite IH. reflexivity.
  - destruct (list_eqb n (str "supportedprofiles")); [|reflexivity]. rewrite IH. reflexivity.
Qed.
Lemma known_spec l : forallb known l = true <->
  (forall n v, In (n, v) l -> (n = str "currentprofile" /\ exists s, v = RStr s) \/ (n = str "supportedprofiles" /\ exists a, v = RStrArr a)).
Proof.
  rewrite forallb_forall. split.
  - intros H n v Hi. specialize (H _ Hi). unfold known in H. destruct (text_sel (str "currentprofile") (n, v)) eqn:E.
    + apply text_sel_spec in E. left. assert (n = str "currentprofile" /\ v = RStr l0) as [-> ->] by (split; congruence). eauto.
    + destruct (texts_sel (str "supportedprofiles") (n, v)) eqn:E2; [|discriminate]. apply texts_sel_spec in E2. right.
      assert (n = str "supportedprofiles" /\ v = RStrArr l0) as [-> ->] by (split; congruence). eauto.
  - intros H [n v] Hi. unfold known. destruct (H n v Hi) as [(-> & s & ->)|(-> & s & ->)].
    + rewrite (proj2 (text_sel_spec (str "currentprofile") _ s) eq_refl). reflexivity.
    + rewrite (proj2 (texts_sel_spec (str "supportedprofiles") _ s) eq_refl). destruct (text_sel _ _); reflexivity.
Qed.

Lemma last_det {A} (f : rep -> option A) l v w : last_by f l v -> last_by f l w -> v = w.
Proof. intros A1 A2. apply (upd_last f None) in A1, A2. congruence. Qed.
Lemma last_none {A} (f : rep -> option A) l v : last_by f l v -> Forall (fun x => f x = None) l -> False.
Proof. intros A1 A2. apply (upd_last f None) in A1. rewrite (upd_none f l A2) in A1. discriminate. Qed.


(** What a list of properties does to a profile. *)
Lemma sp_decode_spec l p :
  (may_profile p l /\ exists m c, sp_decode l p = (true, mkSp m c) /\ mask_of l p m /\
     (no_text l (str "currentprofile") -> c = p_cur p) /\ (forall s i, last_text l (str "currentprofile") s -> profile s i -> c = 2 ^ i)) \/
  (~ may_profile p l /\ exists m, sp_decode l p = (false, mkSp m (p_cur p)) /\ (m = p_sup p \/ mask_of l p m)).
Proof.
  assert (P0 : p = mkSp (p_sup p) (p_cur p)) by (destruct p; reflexivity).
  unfold sp_decode. rewrite sp_props_spec. destruct (forallb known l) eqn:K.
  2:{ right. split; [|exists (p_sup p); split; [rewrite <- P0; reflexivity|auto]]. intros (A & _). apply known_spec in A. congruence. }
  pose proof (proj1 (known_spec l) K) as K'.
  assert (S : (exists m, (match upd (texts_sel (str "supportedprofiles")) None l with None => Some p | Some a => match sp_items 0 a with Some m => Some (mkSp m (p_cur p)) | None => None end end) = Some (mkSp m (p_cur p)) /\
                mask_of l p m /\ (forall a, last_texts l (str "supportedprofiles") a -> Forall (fun s => exists t i, reads_text s t /\ profile t i) a)) \/
              ((match upd (texts_sel (str "supportedprofiles")) None l with None => Some p | Some a => match sp_items 0 a with Some m => Some (mkSp m (p_cur p)) | None => None end end) = None /\
                ~ (forall a, last_texts l (str "supportedprofiles") a -> Forall (fun s => exists t i, reads_text s t /\ profile t i) a))).
  { destruct (upd_cases (texts_sel (str "supportedprofiles")) l) as [(a & L)|N].
    - rewrite (upd_last _ None _ _ L). destruct (items_spec a 0) as [(F & m & E & Hm)|(F & E)]; rewrite E.
      + left. exists m. split; [reflexivity|]. split.
        * split; [intros H; apply no_texts_by in H; destruct (last_none _ _ _ L H)|]. intros b Lb i. apply last_texts_by in Lb. rewrite <- (last_det _ _ _ _ L Lb). rewrite Hm, N.bits_0.
          split; [intros [X|X]; [discriminate|exact X]|auto].
        * intros b Lb. apply last_texts_by in Lb. rewrite <- (last_det _ _ _ _ L Lb). exact F.
      + right. split; [reflexivity|]. intros H. apply F, H, last_texts_by, L.
    - rewrite (upd_none _ _ N). left. exists (p_sup p). split; [rewrite <- P0; reflexivity|]. split; [split; [reflexivity|]|];
        intros b Lb; apply last_texts_by in Lb; destruct (last_none _ _ _ Lb N). }
  destruct S as [(m & -> & M & F)|(-> & F)].
  2:{ right. split; [intros (_ & A & _); exact (F A)|]. exists (p_sup p). split; [rewrite <- P0; reflexivity|auto]. }
  cbn [p_sup p_cur].
  assert (SUP : forall i, 1 <= i <= 4 -> supports p l i <-> N.testbit m i = true).
  { intros i Hi. destruct M as [M1 M2]. unfold supports. split.
    - intros [[H B]|(a & H & B)]; [rewrite (M1 H); exact B|apply (M2 a H); auto].
    - intros B. destruct (upd_cases (texts_sel (str "supportedprofiles")) l) as [(a & L)|N].
      + apply last_texts_by in L. right. exists a. split; [exact L|]. apply (M2 a L), B.
      + apply no_texts_by in N. left. split; [exact N|]. rewrite <- (M1 N). exact B. }
  destruct (upd_cases (text_sel (str "currentprofile")) l) as [(s & L)|N].
  - rewrite (upd_last _ None _ _ L). destruct (sp_of_cases s) as [(i & P & E)|[P E]]; rewrite E.
    + destruct (N.eqb_spec (2 ^ i) 0) as [Z|_]; [pose proof (N.pow_nonzero 2 i); lia|]. rewrite N.land_comm.
      destruct (N.eqb_spec (N.land m (2 ^ i)) 0) as [Z|Z].
      * right. apply land_pow in Z. split; [|exists m; auto]. intros (_ & _ & C). destruct (C s) as (j & Q & S); [apply last_text_by, L|].
        assert (j = i) by (apply (oid_inj j i); [apply Q|apply P|destruct Q, P; congruence]). subst j. apply SUP in S; [congruence|apply P].
      * left. assert (B : N.testbit m i = true) by (destruct (N.testbit m i) eqn:B; [reflexivity|]; apply land_pow in B; contradiction). split.
        -- split; [exact K'|]. split; [exact F|]. intros s' L'. apply last_text_by in L'. rewrite <- (last_det _ _ _ _ L L'). exists i. split; [exact P|]. apply SUP; [apply P|exact B].
        -- exists m, (2 ^ i). split; [reflexivity|]. split; [exact M|]. split.
           ++ intros H. apply no_text_by in H. destruct (last_none _ _ _ L H).
           ++ intros s' j L' Q. apply last_text_by in L'. rewrite <- (last_det _ _ _ _ L L') in Q. f_equal. apply (oid_inj i j); [apply P|apply Q|destruct P, Q; congruence].
    + right. split; [|exists m; cbn [N.eqb]; auto]. intros (_ & _ & C). destruct (C s) as (j & Q & _); [apply last_text_by, L|]. exact (P j Q).
  - rewrite (upd_none _ _ N). left. split.
    + split; [exact K'|]. split; [exact F|]. intros s L. apply last_text_by in L. destruct (last_none _ _ _ L N).
    + exists m, (p_cur p). split; [reflexivity|]. split; [exact M|]. split; [reflexivity|]. intros s i L. apply last_text_by in L. destruct (last_none _ _ _ L N).
Qed.

(** * The stored profile *)

Lemma names_spec m : (forall i, 1 <= i <= 4 -> (In (oid i) (sp_names m) <-> N.testbit m i = true)) /\ (forall s, In s (sp_names m) -> exists i, profile s i) /\ NoDup (sp_names m).
Proof.
  unfold sp_names. split; [|split].
  - intros i Hi. rewrite in_map_iff. split.
    + intros (p & E & H). apply filter_In in H. destruct H as [H T]. apply negb_true_iff, N.eqb_neq in T.
      assert (p = 2 ^ i).
      { cbn [In] in H. destruct oids as (E1 & E2 & E3 & E4). destruct H as [<-|[<-|[<-|[<-|[]]]]].
        - change (sp_str 2) with (oid 1) in E. apply oid_inj in E; [subst i; reflexivity|lia|exact Hi].
        - change (sp_str 4) with (oid 2) in E. apply oid_inj in E; [subst i; reflexivity|lia|exact Hi].
        - change (sp_str 8) with (oid 3) in E. apply oid_inj in E; [subst i; reflexivity|lia|exact Hi].
        - change (sp_str 16) with (oid 4) in E. apply oid_inj in E; [subst i; reflexivity|lia|exact Hi]. }
      subst p. destruct (N.testbit m i) eqn:B; [reflexivity|]. apply land_pow in B. contradiction.
    + intros B. exists (2 ^ i). split; [apply sp_str_oid, Hi|]. apply filter_In. split; [destruct (index4 i Hi) as [->|[->|[->| ->]]]; cbn; auto|].
      apply negb_true_iff, N.eqb_neq. intros Z. apply land_pow in Z. congruence.
  - intros s H. apply in_map_iff in H. destruct H as (p & <- & H). apply filter_In in H. destruct H as [H _]. cbn [In] in H.
    destruct H as [<-|[<-|[<-|[<-|[]]]]]; [exists 1|exists 2|exists 3|exists 4]; (split; [lia|reflexivity]).
  - assert (A : NoDup (map sp_str [2; 4; 8; 16])).
    { repeat constructor; cbn [In map]; intros H; repeat (destruct H as [H|H]; [discriminate|]); destruct H. }
    cbn [map filter] in A |- *. destruct (negb (N.land m 2 =? 0)), (negb (N.land m 4 =? 0)), (negb (N.land m 8 =? 0)), (negb (N.land m 16 =? 0)); cbn [map];
      repeat constructor; cbn [In]; intros H; repeat (destruct H as [H|H]; [discriminate|]); destruct H.
Qed.

Lemma sp_parse p : p_sup p <> 0 -> sp_names (p_sup p) <> [] -> parse (sp_dump p) = Ok (PRep (sp_encode false p)).
Proof.
  intros _ NE. unfold sp_dump, enc_root. cbn [parse]. rewrite (members_reads _ (sp_encode false p)); [reflexivity|].
  unfold sp_encode. cbn [app]. constructor; [apply reads_writable; constructor|]. constructor; [|constructor]. apply reads_writable. constructor; [exact NE|].
  apply Forall_forall. intros s H. destruct (names_spec (p_sup p)) as (_ & A & _). destruct (A s H) as (i & Hi & ->). unfold short.
  destruct (index4 i Hi) as [->|[->|[->| ->]]]; vm_compute; lia.
Qed.

Lemma sp_stored p : p_sup p <> 0 -> sp_names (p_sup p) <> [] -> stored (Some (sp_dump p)) = Some (Some (sp_encode false p)).
Proof. intros A B. unfold stored. rewrite sp_parse by assumption. reflexivity. Qed.

Lemma last_of_encode p :
  last_text (sp_encode false p) (str "currentprofile") (sp_str (p_cur p)) /\ last_texts (sp_encode false p) (str "supportedprofiles") (sp_names (p_sup p)).
Proof.
  unfold sp_encode. cbn [app]. split.
  - eexists [], _. split; [reflexivity|]. intros s [H|[]]. discriminate H.
  - exists [(str "currentprofile", RStr (sp_str (p_cur p)))], []. split; [reflexivity|]. intros s [].
Qed.

Lemma sp_back p p0 : well p -> sp_decode (sp_encode false p) p0 = (true, p).
Proof.
  intros (i & Hi & C & B & S). destruct (last_of_encode p) as [L1 L2]. rewrite C, (sp_str_oid i Hi) in L1. destruct (names_spec (p_sup p)) as (N1 & N2 & _).
  assert (Pi : profile (oid i) i) by (split; [exact Hi|reflexivity]).
  assert (RO : forall j, 1 <= j <= 4 -> reads_text (oid j) (oid j)).
  { intros j Hj. split; [apply oid_nz, Hj|]. exists []. split; [rewrite app_nil_r; reflexivity|auto]. }
  destruct (sp_decode_spec (sp_encode false p) p0) as [(_ & m & c & E & (_ & M) & _ & Hc)|(H & _)].
  - rewrite E. assert (c = p_cur p) by (rewrite C; exact (Hc _ _ L1 Pi)).
    assert (m = p_sup p).
    { apply N.bits_inj. intros j. destruct (N.testbit (p_sup p) j) eqn:T.
      - apply (M _ L2). pose proof (S j T) as Hj. split; [exact Hj|]. exists (oid j). split; [apply (N1 j Hj), T|apply RO, Hj].
      - destruct (N.testbit m j) eqn:T2; [|reflexivity]. apply (M _ L2) in T2. destruct T2 as (Hj & s & Hs & R).
        destruct (N2 s Hs) as (k & Hk & ->). assert (k = j) by (apply (oid_inj k j Hk Hj); apply reads_cstr in R; rewrite <- R; symmetry; apply reads_cstr, RO, Hk).
        subst k. apply (N1 j Hj) in Hs. congruence. }
    subst. destruct p; reflexivity.
  - exfalso. apply H. split; [|split].
    + intros n v Hin. unfold sp_encode in Hin. cbn [app In] in Hin. destruct Hin as [Hin|[Hin|[]]].
      * left. split; [congruence|]. exists (sp_str (p_cur p)). congruence.
      * right. split; [congruence|]. exists (sp_names (p_sup p)). congruence.
    + intros a La. assert (a = sp_names (p_sup p)) by (apply last_texts_by in La, L2; exact (last_det _ _ _ _ La L2)). subst a. apply Forall_forall.
      intros s Hs. destruct (N2 s Hs) as (k & Hk & ->). exists (oid k), k. split; [apply RO, Hk|split; [exact Hk|reflexivity]].
    + intros s Ls. assert (s = oid i) by (apply last_text_by in Ls, L1; exact (last_det _ _ _ _ Ls L1)). subst s. exists i. split; [exact Pi|].
      right. exists (sp_names (p_sup p)). split; [exact L2|]. exists (oid i). split; [apply (N1 i Hi), B|apply RO, Hi].
Qed.

Lemma sp_reload pre d : d_owned d = true -> d_state d <> 3 -> well (d_sp d) -> f_sp d = Some (sp_dump (d_sp d)) -> d_sp (boot pre d) = d_sp d.
Proof.
  intros O S W F. unfold boot. rewrite O. rewrite (proj1 (load_sdi_sp _)). unfold load_sp. cbn [f_sp]. rewrite F.
  pose proof W as (i & Hi & C & B & _). destruct (names_spec (p_sup (d_sp d))) as (N1 & _).
  rewrite sp_stored; [|intros Z; rewrite Z, N.bits_0 in B; discriminate|intros Z; pose proof (proj2 (N1 i Hi) B) as X; rewrite Z in X; destruct X].
  unfold sp_decode_for. cbn [d_state d_sp]. unfold RFNOP. destruct (N.eqb_spec (d_state d) 3); [contradiction|]. rewrite (sp_back _ _ W). reflexivity.
Qed.
