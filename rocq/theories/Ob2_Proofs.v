From Verif Require Import Common Rep_Model Hex_Model Hex_Spec Hex_Proofs Acl_Model Acl_Spec Acl_Proofs Acl2_Proofs Ob_Model Ob_Spec Ob_Proofs.
From Coq Require Import String.
Local Open Scope string_scope.
Local Open Scope list_scope.
Local Open Scope N_scope.

(** * Updates of the ownership resource *)

Lemma last_value_app name l1 l2 : last_value name (l1 ++ l2) = match last_value name l2 with Some v => Some v | None => last_value name l1 end.
Proof.
  induction l1 as [|r t IH]; cbn [app last_value]; [destruct (last_value name l2); reflexivity|]. rewrite IH. destruct (last_value name l2); reflexivity.
Qed.

Lemma name_ne (a b : list N) x : list_eqb a b = false -> x = b -> list_eqb x a = false.
Proof. intros H ->. destruct (list_eqb b a) eqn:E; [|reflexivity]. apply list_eqb_spec in E. subst. rewrite list_eqb_refl in H. discriminate. Qed.

Ltac names := repeat match goal with |- context[list_eqb (str ?a) (str ?b)] =>
  let v := eval vm_compute in (list_eqb (str a) (str b)) in replace (list_eqb (str a) (str b)) with v by (vm_compute; reflexivity) end.

(** The state of the decoder after a prefix. *)
Record seen (l : list rep) (d : doxm_dec) : Prop := {
  se_owned : dd_owned d = match last_value (str "owned") l with Some (RBool b) => Some b | _ => None end;
  se_oxmsel : dd_oxmsel d = match last_value (str "oxmsel") l with Some (RInt z) => Some (to_int z) | _ => None end;
  se_sct : dd_sct d = match last_value (str "sct") l with Some (RInt z) => Some (to_int z) | _ => None end;
  se_device : dd_device d = match last_value (str "deviceuuid") l with Some (RStr v) => Some v | _ => None end;
  se_devowner : dd_devowner d = match last_value (str "devowneruuid") l with Some (RStr v) => Some v | _ => None end;
  se_owner : dd_owner d = match last_value (str "rowneruuid") l with Some (RStr v) => Some v | _ => None end }.

Lemma decode_doxm_prop_spec oxms doc s d r e : ev_oxms e = oxms ->
  match decode_doxm_prop oxms false doc s d r with
  | None => ~ may_write e doc s r
  | Some d' => may_write e doc s r /\ forall l, seen l d -> seen (l ++ [r]) d'
  end.
Proof.
  intros He. destruct r as [nm v]. unfold decode_doxm_prop, may_write. cbn [fst snd andb negb].
  assert (Sn : forall l n, last_value n (l ++ [(nm, v)]) = if list_eqb nm n then Some v else last_value n l).
  { intros l n. rewrite last_value_app. cbn [last_value fst snd]. destruct (list_eqb nm n); reflexivity. }
  destruct v; try (intros [(_ & (x & [=]) & _)|[(_ & (x & [=] & _) & _)|[(_ & (x & [=]) & _)|[(_ & (x & [=]) & _)|(_ & (x & [=]) & _)]]]]).
  - destruct (list_eqb nm (str "oxmsel")) eqn:E1.
    + apply list_eqb_spec in E1. subst nm.
      destruct (N.eqb_spec s S_RFOTM) as [Es|Es]; cbn [negb orb]; [destruct doc; cbn [orb]; [|destruct (existsb (fun x => (x =? to_int z)%Z) oxms) eqn:Ex; cbn [negb]]|].
      * intros [([=] & _)|[(_ & _ & _ & [=])|[([=] & _)|[([=] & _)|([=] & _)]]]].
      * split.
        { right; left. split; [reflexivity|]. split; [|auto]. exists z. split; [reflexivity|]. apply existsb_exists in Ex. destruct Ex as (x & Hin & Hx). apply Z.eqb_eq in Hx. subst. exact Hin. }
        intros l S. constructor; rewrite Sn; names; cbv iota; cbn [dd_owned dd_oxmsel dd_sct dd_device dd_devowner dd_owner]; destruct S; try assumption; reflexivity.
      * intros [([=] & _)|[(_ & (x & [= <-] & Hin) & _ & _)|[([=] & _)|[([=] & _)|([=] & _)]]]].
        assert (X : existsb (fun x => (x =? to_int z)%Z) oxms = true) by (apply existsb_exists; exists (to_int z); split; [rewrite <- He; exact Hin|apply Z.eqb_refl]). congruence.
      * intros [([=] & _)|[(_ & _ & H & _)|[([=] & _)|[([=] & _)|([=] & _)]]]]. contradiction.
    + assert (N1 : nm <> str "oxmsel") by (intros ->; rewrite list_eqb_refl in E1; discriminate).
      destruct (list_eqb nm (str "sct")); intros [(_ & (x & [=]) & _)|[(H & _)|[(_ & (x & [=]) & _)|[(_ & (x & [=]) & _)|(_ & (x & [=]) & _)]]]]; contradiction.
  - destruct (list_eqb nm (str "owned")) eqn:E1.
    + apply list_eqb_spec in E1. subst nm.
      destruct (N.eqb_spec s S_RFOTM) as [Es|Es]; cbn [negb orb]; [destruct doc; cbn [negb]|].
      * split; [left; repeat split; auto; exists b; reflexivity|].
        intros l S. constructor; rewrite Sn; names; cbv iota; cbn [dd_owned dd_oxmsel dd_sct dd_device dd_devowner dd_owner]; destruct S; try assumption; reflexivity.
      * intros [(_ & _ & _ & [=])|[([=] & _)|[([=] & _)|[([=] & _)|([=] & _)]]]].
      * intros [(_ & _ & H & _)|[([=] & _)|[([=] & _)|[([=] & _)|([=] & _)]]]]. contradiction.
    + assert (N1 : nm <> str "owned") by (intros ->; rewrite list_eqb_refl in E1; discriminate).
      intros [(H & _)|[(_ & (x & [=] & _) & _)|[(_ & (x & [=]) & _)|[(_ & (x & [=]) & _)|(_ & (x & [=]) & _)]]]]; contradiction.
  - destruct (list_eqb nm (str "deviceuuid")) eqn:E1; [|destruct (list_eqb nm (str "devowneruuid")) eqn:E2; [|destruct (list_eqb nm (str "rowneruuid")) eqn:E3]].
    + apply list_eqb_spec in E1. subst nm. unfold string_writable. destruct (N.eqb_spec s S_RFOTM) as [Es|Es]; cbn [negb]; [destruct doc|].
      * split; [right; right; left; repeat split; auto; exists s0; reflexivity|].
        intros l S. constructor; rewrite Sn; names; cbv iota; cbn [dd_owned dd_oxmsel dd_sct dd_device dd_devowner dd_owner]; destruct S; try assumption; reflexivity.
      * intros [([=] & _)|[([=] & _)|[(_ & _ & _ & [=])|[([=] & _)|([=] & _)]]]].
      * intros [([=] & _)|[([=] & _)|[(_ & _ & H & _)|[([=] & _)|([=] & _)]]]]. contradiction.
    + apply list_eqb_spec in E2. subst nm. unfold string_writable. destruct (N.eqb_spec s S_RFOTM) as [Es|Es]; cbn [negb]; [destruct doc|].
      * split; [right; right; right; left; repeat split; auto; exists s0; reflexivity|].
        intros l S. constructor; rewrite Sn; names; cbv iota; cbn [dd_owned dd_oxmsel dd_sct dd_device dd_devowner dd_owner]; destruct S; try assumption; reflexivity.
      * intros [([=] & _)|[([=] & _)|[([=] & _)|[(_ & _ & _ & [=])|([=] & _)]]]].
      * intros [([=] & _)|[([=] & _)|[([=] & _)|[(_ & _ & H & _)|([=] & _)]]]]. contradiction.
    + apply list_eqb_spec in E3. subst nm. unfold string_writable.
      destruct ((s =? S_RFOTM) || (s =? S_SRESET)) eqn:Es; cbn [negb]; [destruct doc|].
      * apply orb_true_iff in Es. rewrite !N.eqb_eq in Es. split; [right; right; right; right; repeat split; auto; exists s0; reflexivity|].
        intros l S. constructor; rewrite Sn; names; cbv iota; cbn [dd_owned dd_oxmsel dd_sct dd_device dd_devowner dd_owner]; destruct S; try assumption; reflexivity.
      * intros [([=] & _)|[([=] & _)|[([=] & _)|[([=] & _)|(_ & _ & _ & [=])]]]].
      * apply orb_false_iff in Es. rewrite !N.eqb_neq in Es. intros [([=] & _)|[([=] & _)|[([=] & _)|[([=] & _)|(_ & _ & H & _)]]]]. tauto.
    + assert (N1 : nm <> str "deviceuuid") by (intros ->; rewrite list_eqb_refl in E1; discriminate).
      assert (N2 : nm <> str "devowneruuid") by (intros ->; rewrite list_eqb_refl in E2; discriminate).
      assert (N3 : nm <> str "rowneruuid") by (intros ->; rewrite list_eqb_refl in E3; discriminate).
      intros [(_ & (x & [=]) & _)|[(_ & (x & [=] & _) & _)|[(H & _)|[(H & _)|(H & _)]]]]; contradiction.
Qed.

Lemma decode_doxm_props_spec e doc s : forall l2 l1 d, seen l1 d ->
  match decode_doxm_props (ev_oxms e) false doc s d l2 with
  | None => ~ Forall (may_write e doc s) l2
  | Some d' => Forall (may_write e doc s) l2 /\ seen (l1 ++ l2) d'
  end.
Proof.
  induction l2 as [|r t IH]; intros l1 d S; cbn [decode_doxm_props]; [rewrite app_nil_r; auto|].
  pose proof (decode_doxm_prop_spec (ev_oxms e) doc s d r e eq_refl) as H. destruct (decode_doxm_prop _ false doc s d r) as [d1|].
  - destruct H as [H1 H2]. specialize (IH (l1 ++ [r]) d1 (H2 _ S)). rewrite <- app_assoc in IH. cbn [app] in IH.
    destruct (decode_doxm_props _ false doc s d1 t); [destruct IH; split; [constructor; assumption|assumption]|]. intros K. apply IH. inversion K; assumption.
  - intros K. apply H. inversion K; assumption.
Qed.

Definition after (l : list rep) (d : doxm) : doxm :=
  mk_dx (match last_value (str "oxmsel") l with Some (RInt z) => to_int z | _ => dx_oxmsel d end) (dx_sct d)
        (match last_value (str "owned") l with Some (RBool b) => b | _ => dx_owned d end)
        (written (dx_devowner d) (last_value (str "devowneruuid") l)) (written (dx_device d) (last_value (str "deviceuuid") l))
        (written (dx_owner d) (last_value (str "rowneruuid") l)).

Lemma no_sct e doc s l : Forall (may_write e doc s) l -> last_value (str "sct") l = None.
Proof.
  induction 1 as [|r t H _ IH]; [reflexivity|]. cbn [last_value]. rewrite IH. destruct (list_eqb (fst r) (str "sct")) eqn:E; [|reflexivity].
  apply list_eqb_spec in E. exfalso. unfold may_write in H. rewrite E in H. destruct H as [([=] & _)|[([=] & _)|[([=] & _)|[([=] & _)|([=] & _)]]]].
Qed.

Lemma decode_doxm_spec e doc o l :
  (fst (decode_doxm e false doc o l) = true <-> Forall (may_write e doc (ps_s (o_ps o))) l) /\
  (fst (decode_doxm e false doc o l) = false -> snd (decode_doxm e false doc o l) = o) /\
  (fst (decode_doxm e false doc o l) = true -> o_di o = dx_device (o_dx o) ->
   snd (decode_doxm e false doc o l) = mk_ob (o_ps o) (after l (o_dx o)) (o_aclown o) (o_credown o) (o_creds o) (dx_device (after l (o_dx o))) (o_pending o) (o_log o) (o_sps o) (o_sdx o)).
Proof.
  unfold decode_doxm. pose proof (decode_doxm_props_spec e doc (ps_s (o_ps o)) l [] dd0) as H.
  destruct (decode_doxm_props (ev_oxms e) false doc (ps_s (o_ps o)) dd0 l) as [d|]; cbn [fst snd].
  - destruct H as [H1 H2]; [constructor; reflexivity|]. cbn [app] in H2. split; [tauto|]. split; [discriminate|]. intros _ Hdi.
    assert (E : copy_doxm d (o_dx o) = after l (o_dx o)).
    { unfold copy_doxm, after. destruct H2 as [A1 A2 A3 A4 A5 A6]. rewrite A1, A2, A3, A4, A5, A6, (no_sct _ _ _ _ H1). unfold opt, opt_uuid, written.
      f_equal; repeat match goal with |- context[match last_value ?n l with _ => _ end] => destruct (last_value n l) as [[]|] end; reflexivity. }
    rewrite E. f_equal. destruct H2 as [_ _ _ A4 _ _]. rewrite A4. unfold after, written. cbn [dx_device]. destruct (last_value (str "deviceuuid") l) as [[]|]; auto.
  - split; [split; [discriminate|intros K; destruct H; [constructor; reflexivity|exact K]]|]. split; [reflexivity|discriminate].
Qed.

(** * Storage *)

Lemma to_u32_id n : n < 4294967296 -> to_u32 (Z.of_N n) = n.
Proof. intros H. unfold to_u32. rewrite Z.mod_small by lia. apply N2Z.id. Qed.

Lemma reload_props q p : typed_ps p ->
  decode_pstat_props true (q, false, false) (encode_pstat p) =
  Some (mk_ps (ps_s p) (ps_p q) (ps_isop p) (ps_cm p) (ps_tm p) (ps_om p) (ps_sm p) (ps_owner p) (ps_busy q), true, true).
Proof.
  intros (H1 & H2 & H3 & H4 & H5 & H6). destruct p as [s pp isop cm tm om sm ow bz]. cbn [ps_s ps_isop ps_cm ps_tm ps_om ps_sm ps_owner] in *.
  transitivity (Some (mk_ps (to_u32 (Z.of_N s)) (ps_p q) isop (to_u32 (Z.of_N cm)) (to_u32 (Z.of_N tm)) (to_int om) (to_int sm) (uuid_of (uuid_str ow) (ps_owner q)) (ps_busy q), true, true)); [reflexivity|].
  rewrite !to_u32_id, !to_int_id, uuid_of_str by assumption. reflexivity.
Qed.

Lemma reload_pstat e o p : typed_ps p -> ps_tm p <> 256 -> ps_tm p <> 64 -> ps_tm p <> 128 ->
  decode_pstat e true o (encode_pstat p) = (true, set_ps o (mk_ps (ps_s p) (ps_p (o_ps o)) (ps_isop p) (ps_cm p) (ps_tm p) (ps_om p) (ps_sm p) (ps_owner p) (ps_busy (o_ps o)))).
Proof.
  intros H A B C. unfold decode_pstat. rewrite reload_props by assumption. cbv iota. unfold target_mode. cbn [ps_tm].
  destruct (N.eqb_spec (ps_tm p) 256); [contradiction|]. destruct (N.eqb_spec (ps_tm p) 64); [contradiction|]. destruct (N.eqb_spec (ps_tm p) 128); [contradiction|]. reflexivity.
Qed.

Lemma reload_doxm e o d : typed_dx d -> snd (decode_doxm e true false o (encode_doxm d)) = mk_ob (o_ps o) d (o_aclown o) (o_credown o) (o_creds o) (dx_device d) (o_pending o) (o_log o) (o_sps o) (o_sdx o) /\
  fst (decode_doxm e true false o (encode_doxm d)) = true.
Proof.
  intros (H1 & H2 & H3 & H4 & H5). split; [|reflexivity].
  transitivity (mk_ob (o_ps o) (mk_dx (to_int (dx_oxmsel d)) (to_int (dx_sct d)) (dx_owned d) (uuid_of (uuid_str (dx_devowner d)) (dx_devowner (o_dx o))) (uuid_of (uuid_str (dx_device d)) (dx_device (o_dx o))) (uuid_of (uuid_str (dx_owner d)) (dx_owner (o_dx o))))
     (o_aclown o) (o_credown o) (o_creds o) (uuid_of (uuid_str (dx_device d)) (dx_device (o_dx o))) (o_pending o) (o_log o) (o_sps o) (o_sdx o)); [reflexivity|].
  rewrite !to_int_id, !uuid_of_str by assumption. destruct d; reflexivity.
Qed.

(** * Histories *)

(** [b]: what is in storage is part of the claim. *)
Record good (b : bool) (o : ob) : Prop := {
  g_busy : ps_busy (o_ps o) = false;
  g_s : ps_s (o_ps o) <= 4;
  g_isop : ps_isop (o_ps o) = true <-> ps_s (o_ps o) = S_RFNOP;
  g_complete : ps_s (o_ps o) = S_RFNOP -> complete o;
  g_di : o_di o = dx_device (o_dx o);
  g_dx : typed_dx (o_dx o);
  g_own : typed_ps (o_ps o);
  g_sown : b = true -> typed_ps (o_sps o);
  g_sdx : b = true -> o_sdx o = o_dx o;
  g_ss : b = true -> ps_s (o_sps o) = ps_s (o_ps o);
  g_si : b = true -> ps_isop (o_sps o) = ps_isop (o_ps o);
  g_so : b = true -> ps_owner (o_sps o) = ps_owner (o_ps o) }.

Lemma typed_new : typed_ps (mk_ps S_RFOTM false false 2 0 3 4 nil_uuid false).
Proof. unfold typed_ps, typed_int. cbn [ps_s ps_cm ps_tm ps_om ps_sm ps_owner]. unfold S_RFOTM. repeat (split; [lia|]). apply nil_typed. Qed.
Lemma typed_delayed : typed_ps delayed_reset_ps.
Proof. unfold typed_ps, typed_int, delayed_reset_ps. cbn [ps_s ps_cm ps_tm ps_om ps_sm ps_owner]. unfold S_RESET. repeat (split; [lia|]). apply nil_typed. Qed.

Lemma as_new_good b e o : as_new e o -> typed_uuid (ev_uuid e) -> good b o.
Proof.
  intros (A & B & C & D & E & F & G & H & I) Hu. constructor; rewrite ?H, ?I, ?A, ?B, ?F; try reflexivity; try (intros _; reflexivity); try (unfold S_RFOTM, S_RESET; cbn [ps_s]; lia); try discriminate.
  - split; discriminate.
  - unfold typed_dx, typed_int. cbn [dx_oxmsel dx_sct dx_devowner dx_device dx_owner]. pose proof nil_typed. repeat split; try lia; try apply nil_typed; apply Hu.
  - apply typed_new.
  - intros _. apply typed_new.
Qed.

Lemma good_log b o a : good b o -> good b (set_log o a).
Proof. intros []. constructor; assumption. Qed.

Lemma post_good b e o l : good b o -> good b (snd (post_pstat e o l)).
Proof.
  intros G. unfold post_pstat. pose proof (post_outcome e o l (g_busy _ o G) (g_s _ o G)) as H.
  destruct (decode_pstat e false o l) as [r o']. cbn [fst snd] in *. destruct H as [a|Hp a|a p H1 H2 H3 H4 H5 H6 H7 H8|a p lc H0 H1 H2 H3 H4 H5 H6 H7|a p H1 H2 H3 H4 H5 H6]; cbn [fst snd].
  - apply good_log. exact G.
  - destruct G. constructor; try assumption; try reflexivity; try (intros _; reflexivity); try (unfold S_RFOTM, S_RESET; cbn [ps_s]; lia); try discriminate; [split; discriminate|apply typed_delayed|intros _; apply typed_delayed].
  - destruct G as [B1 B2 B3 B4 B5 B6 B7 B7' B8 B9 B10 B11]. constructor; try assumption; try reflexivity; try (intros _; reflexivity); cbn [dump_ps o_ps o_dx o_di set_ps set_log]; try (rewrite H1; assumption); try (rewrite H3, H1; assumption).
    + rewrite H1. intros E. specialize (B4 E). unfold complete in *. cbn [dump_ps o_ps o_dx o_aclown o_credown o_creds set_ps set_log]. rewrite H7 by (right; exact E). exact B4.
    + exact (H8 B7).
    + intros _. exact (H8 B7).
  - destruct G as [B1 B2 B3 B4 B5 B6 B7 B7' B8 B9 B10 B11]. constructor; try assumption; try reflexivity; try (intros _; reflexivity); cbn [dump_ps o_ps o_dx o_di set_ps set_log set_creds].
    + rewrite H2. unfold S_RFOTM. lia.
    + rewrite H3, H2. split; discriminate.
    + rewrite H2. discriminate.
    + exact (H7 B7).
    + intros _. exact (H7 B7).
  - destruct G as [B1 B2 B3 B4 B5 B6 B7 B7' B8 B9 B10 B11]. constructor; try assumption; try reflexivity; try (intros _; reflexivity); cbn [dump_ps o_ps o_dx o_di set_ps set_log].
    + destruct H2 as [->|[->| ->]]; unfold S_RFPRO, S_RFNOP, S_SRESET; lia.
    + intros _. exact H5.
    + exact (H6 B7).
    + intros _. exact (H6 B7).
Qed.

Lemma reset_good b e o : ps_busy (o_ps o) = false -> ev_key e = true -> typed_uuid (ev_uuid e) -> good b (snd (reset_device e o)).
Proof. intros Hb Hk Hu. apply (as_new_good b e); [apply reset_as_new; assumption|exact Hu]. Qed.

Lemma written_typed old v : typed_uuid old -> typed_uuid (written old v).
Proof. intros H. destruct v as [[]|]; try exact H. apply uuid_of_typed. exact H. Qed.

Lemma after_typed l d : typed_dx d -> typed_dx (after l d).
Proof.
  intros (H1 & H2 & H3 & H4 & H5). unfold after, typed_dx. cbn [dx_oxmsel dx_sct dx_devowner dx_device dx_owner].
  split; [destruct (last_value (str "oxmsel") l) as [[]|]; try exact H1; apply to_int_typed|]. split; [exact H2|]. auto using written_typed.
Qed.

Lemma dpost_good b e doc o l : good b o -> good b (snd (post_doxm e doc o l)).
Proof.
  intros G. unfold post_doxm. destruct (decode_doxm_spec e doc o l) as (H1 & H2 & H3). destruct (decode_doxm e false doc o l) as [r o']. cbn [fst snd] in *.
  destruct r; cbn [fst snd]; [|rewrite (H2 eq_refl); exact G].
  rewrite (H3 eq_refl (g_di _ o G)). destruct H1 as [H1 _]. specialize (H1 eq_refl). destruct G as [B1 B2 B3 B4 B5 B6 B7 B7' B8 B9 B10 B11].
  constructor; try assumption; try reflexivity; try (intros _; reflexivity); cbn [dump_dx o_ps o_dx o_di].
  - intros E. destruct l as [|r t].
    + specialize (B4 E). unfold complete in *. cbn [dump_dx o_ps o_dx o_aclown o_credown o_creds]. unfold after. cbn [last_value written dx_owned dx_devowner dx_device dx_owner]. exact B4.
    + inversion H1; subst. exfalso. unfold may_write in H4. rewrite E in H4. destruct H4 as [(_ & _ & [=] & _)|[(_ & _ & [=] & _)|[(_ & _ & [=] & _)|[(_ & _ & [=] & _)|(_ & _ & [[=]|[=]] & _)]]]].
  - apply after_typed. exact B6.
Qed.

Lemma restart_good b e o : good true o -> ev_key e = true -> typed_uuid (ev_uuid e) -> good b (restart e o).
Proof.
  intros G Hk Hu. pose proof (g_sown _ o G eq_refl) as Ht. unfold restart.
  set (o0 := mk_ob reset_ps zero_dx nil_uuid nil_uuid [] nil_uuid false (o_log o) (o_sps o) (o_sdx o)).
  assert (Td : typed_dx (o_sdx o)) by (rewrite (g_sdx _ o G eq_refl); exact (g_dx _ o G)).
  destruct (reload_doxm e o0 (o_sdx o) Td) as [E1 E2].
  destruct (decode_doxm e true false o0 (encode_doxm (o_sdx o))) as [ok o1]. cbn [fst snd] in *. subst ok o1.
  cbn [o_dx]. rewrite (g_sdx _ o G eq_refl) at 1.
  destruct (dx_owned (o_dx o)) eqn:Eo.
  - unfold decode_pstat. rewrite (reload_props _ _ Ht). cbv iota.
    set (q := mk_ps (ps_s (o_sps o)) _ _ _ _ _ _ _ _). destruct (target_mode_spec q (mk_ob (o_ps o0) (o_sdx o) (o_aclown o0) (o_credown o0) (o_creds o0) (dx_device (o_sdx o)) (o_pending o0) (o_log o0) (o_sps o0) (o_sdx o0))) as (q1 & a & -> & Q1 & Q2 & Q3 & Q4 & Q5 & Q6 & Q7 & Q8 & Q9).
    assert (Tq : typed_ps q1) by (apply Q9; unfold q; typed Ht).
    cbn [orb negb andb]. destruct G as [B1 B2 B3 B4 B5 B6 B7 B7' B8 B9 B10 B11]. specialize (B7' eq_refl). specialize (B8 eq_refl). specialize (B9 eq_refl). specialize (B10 eq_refl). specialize (B11 eq_refl).
    constructor; cbn [o_ps o_dx o_di o_sps o_sdx o_aclown o_credown o_creds set_ps set_log o0]; rewrite ?Q1, ?Q3, ?Q7, ?Q8; unfold q; cbn [ps_s ps_isop ps_owner ps_busy o_ps o0 reset_ps]; rewrite ?B8, ?B9, ?B10, ?B11; try assumption; try reflexivity; try (intros _; first [assumption|reflexivity]).
    intros E. specialize (B4 E). unfold complete in *. cbn [o_ps o_dx o_aclown o_credown o_creds set_ps set_log o0]. rewrite Q7. unfold q. cbn [ps_owner]. rewrite B11, ?B8. exact B4.
  - apply reset_good; [reflexivity|exact Hk|exact Hu].
Qed.

(** * Steps *)

Lemma set_pending_good b o x : good b o -> good b (set_pending o x).
Proof. intros []. constructor; assumption. Qed.

Lemma step_good b e o op : ordinary b (e, op) -> good b o -> good b (ostep e o op).
Proof.
  intros (Hk & Hu & Hop) G. cbn [fst snd] in *. unfold ostep. cbv zeta. destruct op as [l|doc l|u|u|l| | | | |cm|].
  - apply post_good. exact G.
  - apply dpost_good. exact G.
  - destruct (N.eqb_spec (ps_s (o_ps o)) S_RFNOP) as [E|E]; cbn [orb]; [exact G|]. destruct (ps_s (o_ps o) =? S_RFPRO); [exact G|].
    destruct G. constructor; try assumption. intros X. exfalso. exact (E X).
  - destruct ((ps_s (o_ps o) =? S_RFOTM) || (ps_s (o_ps o) =? S_SRESET)) eqn:E; [|exact G].
    destruct G. constructor; try assumption. intros X. cbn [o_ps] in X. rewrite X in E. discriminate E.
  - destruct (N.eqb_spec (ps_s (o_ps o)) S_RFNOP) as [E|E]; [exact G|]. destruct G. constructor; try assumption. intros X. exfalso. exact (E X).
  - apply reset_good; [exact (g_busy _ _ G)|exact Hk|exact Hu].
  - unfold set_delayed_reset. destruct (ps_busy (o_ps o) || o_pending o); [exact G|]. cbn [snd]. subst b. destruct G.
    constructor; try assumption; try reflexivity; try discriminate; [split; discriminate|apply typed_delayed].
  - destruct (o_pending o); [|exact G]. apply reset_good; [exact (g_busy _ _ G)|exact Hk|exact Hu].
  - destruct (ps_s (o_ps o) =? S_RFOTM); [|exact G]. apply reset_good; [exact (g_busy _ _ G)|exact Hk|exact Hu].
  - destruct G as [B1 B2 B3 B4 B5 B6 B7 B7' B8 B9 B10 B11]. constructor; try assumption. cbn [o_ps set_ps]. typed B7.
  - subst b. apply restart_good; assumption.
Qed.

Lemma first_good b e : ev_key e = true -> typed_uuid (ev_uuid e) -> good b (first_start e).
Proof. intros Hk Hu. apply reset_good; [reflexivity|exact Hk|exact Hu]. Qed.

Lemma run_good b : forall l o, Forall (ordinary b) l -> good b o -> good b (orun o l).
Proof.
  induction l as [|[e op] t IH]; intros o H G; cbn [orun]; [exact G|]. inversion H; subst. apply IH; [assumption|]. apply step_good; assumption.
Qed.

(** * Changes of state *)

Lemma step_change b e o op : ordinary b (e, op) -> good b o -> change e o op (ostep e o op).
Proof.
  intros (Hk & Hu & Hop) G. cbn [fst snd] in *. unfold change, ostep. cbv zeta. destruct op as [l|doc l|u|u|l| | | | |cm|].
  - unfold post_pstat. pose proof (post_outcome e o l (g_busy _ o G) (g_s _ o G)) as H.
    destruct (decode_pstat e false o l) as [r o']. cbn [fst snd] in *. destruct H as [a|Hp a|a p H1 H2 H3 H4 H5 H6 H7 H8|a p lc H0 H1 H2 H3 H4 H5 H6 H7|a p H1 H2 H3 H4 H5 H6]; cbn [fst snd].
    + left. reflexivity.
    + right. right. left. split; [left; exists l; reflexivity|]. split; reflexivity.
    + left. exact H1.
    + cbn [o_ps dump_ps set_ps set_creds set_log]. destruct H0 as [E|E].
      * right. left. split; [exists l; reflexivity|]. split; [|left; exact H2]. rewrite E, H2. unfold move. cbn [In]. tauto.
      * left. rewrite E, H2. reflexivity.
    + cbn [o_ps dump_ps set_ps set_creds set_log]. destruct H1 as [E|[E|E]]; [left; exact E| |exfalso; pose proof (g_s _ o G); lia].
      right. left. split; [exists l; reflexivity|]. split; [exact E|]. right. exact H5.
  - left. unfold post_doxm. destruct (decode_doxm_spec e doc o l) as (H1 & H2 & H3). destruct (decode_doxm e false doc o l) as [r o']. cbn [fst snd] in *.
    destruct r; cbn [fst snd]; [|rewrite (H2 eq_refl); reflexivity]. rewrite (H3 eq_refl (g_di _ o G)). reflexivity.
  - left. destruct (_ || _); reflexivity.
  - left. destruct (_ || _); reflexivity.
  - left. destruct (_ =? _); reflexivity.
  - right. right. right. split; [tauto|]. apply reset_as_new; [exact (g_busy _ _ G)|exact Hk].
  - unfold set_delayed_reset. destruct (ps_busy (o_ps o) || o_pending o); [left; reflexivity|]. right. right. left. split; [tauto|]. split; reflexivity.
  - destruct (o_pending o); [|left; reflexivity]. right. right. right. split; [tauto|]. apply reset_as_new; [exact (g_busy _ _ G)|exact Hk].
  - destruct (N.eqb_spec (ps_s (o_ps o)) S_RFOTM); [|left; reflexivity]. right. right. right. split; [tauto|]. apply reset_as_new; [exact (g_busy _ _ G)|exact Hk].
  - left. reflexivity.
  - subst b. pose proof (g_sown _ o G eq_refl) as Ht. unfold restart.
    set (o0 := mk_ob reset_ps zero_dx nil_uuid nil_uuid [] nil_uuid false (o_log o) (o_sps o) (o_sdx o)).
    assert (Td : typed_dx (o_sdx o)) by (rewrite (g_sdx _ o G eq_refl); exact (g_dx _ o G)).
    destruct (reload_doxm e o0 (o_sdx o) Td) as [E1 E2].
    destruct (decode_doxm e true false o0 (encode_doxm (o_sdx o))) as [ok o1]. cbn [fst snd] in *. subst ok o1.
    cbn [o_dx]. replace (dx_owned (o_sdx o)) with (dx_owned (o_dx o)) by (rewrite (g_sdx _ o G eq_refl); reflexivity).
    destruct (dx_owned (o_dx o)) eqn:Eo.
    + left. unfold decode_pstat. rewrite (reload_props _ _ Ht). cbv iota.
      set (q := mk_ps (ps_s (o_sps o)) _ _ _ _ _ _ _ _). destruct (target_mode_spec q (mk_ob (o_ps o0) (o_sdx o) (o_aclown o0) (o_credown o0) (o_creds o0) (dx_device (o_sdx o)) (o_pending o0) (o_log o0) (o_sps o0) (o_sdx o0))) as (q1 & a & -> & Q1 & _).
      cbn [orb negb andb o_ps set_ps]. rewrite Q1. exact (g_ss _ o G eq_refl).
    + right. right. right. split; [tauto|]. apply reset_as_new; [reflexivity|exact Hk].
Qed.

Lemma restart_keeps e o : good true o -> dx_owned (o_dx o) = true ->
  let o' := restart e o in
  o_dx o' = o_dx o /\ o_di o' = o_di o /\ ps_s (o_ps o') = ps_s (o_ps o) /\ ps_isop (o_ps o') = ps_isop (o_ps o) /\ ps_owner (o_ps o') = ps_owner (o_ps o) /\
  o_creds o' = o_creds o /\ o_aclown o' = o_aclown o /\ o_credown o' = o_credown o.
Proof.
  intros G Eo. cbv zeta. pose proof (g_sown _ o G eq_refl) as Ht. unfold restart.
  set (o0 := mk_ob reset_ps zero_dx nil_uuid nil_uuid [] nil_uuid false (o_log o) (o_sps o) (o_sdx o)).
  assert (Td : typed_dx (o_sdx o)) by (rewrite (g_sdx _ o G eq_refl); exact (g_dx _ o G)).
  destruct (reload_doxm e o0 (o_sdx o) Td) as [E1 E2].
  destruct (decode_doxm e true false o0 (encode_doxm (o_sdx o))) as [ok o1]. cbn [fst snd] in *. subst ok o1.
  cbn [o_dx]. replace (dx_owned (o_sdx o)) with (dx_owned (o_dx o)) by (rewrite (g_sdx _ o G eq_refl); reflexivity). rewrite Eo.
  unfold decode_pstat. rewrite (reload_props _ _ Ht). cbv iota.
  set (q := mk_ps (ps_s (o_sps o)) _ _ _ _ _ _ _ _). destruct (target_mode_spec q (mk_ob (o_ps o0) (o_sdx o) (o_aclown o0) (o_credown o0) (o_creds o0) (dx_device (o_sdx o)) (o_pending o0) (o_log o0) (o_sps o0) (o_sdx o0))) as (q1 & a & -> & Q1 & _ & Q3 & _ & _ & _ & Q7 & _).
  cbn [orb negb andb o_ps set_ps o_dx o_di o_creds o_aclown o_credown set_log]. rewrite Q1, Q3, Q7. unfold q. cbn [ps_s ps_isop ps_owner].
  rewrite (g_ss _ o G eq_refl), (g_si _ o G eq_refl), (g_so _ o G eq_refl), (g_sdx _ o G eq_refl), (g_di _ o G). repeat split.
Qed.

Lemma restart_unowned e o : good true o -> ev_key e = true -> dx_owned (o_dx o) = false -> as_new e (restart e o).
Proof.
  intros G Hk Eo. unfold restart.
  set (o0 := mk_ob reset_ps zero_dx nil_uuid nil_uuid [] nil_uuid false (o_log o) (o_sps o) (o_sdx o)).
  assert (Td : typed_dx (o_sdx o)) by (rewrite (g_sdx _ o G eq_refl); exact (g_dx _ o G)).
  destruct (reload_doxm e o0 (o_sdx o) Td) as [E1 E2].
  destruct (decode_doxm e true false o0 (encode_doxm (o_sdx o))) as [ok o1]. cbn [fst snd] in *. subst ok o1.
  cbn [o_dx]. replace (dx_owned (o_sdx o)) with (dx_owned (o_dx o)) by (rewrite (g_sdx _ o G eq_refl); reflexivity). rewrite Eo.
  apply reset_as_new; [reflexivity|exact Hk].
Qed.

Lemma reach_good b o : reach b o -> good b o.
Proof. intros (e0 & l & Hk & Hu & Hl & ->). apply run_good; [exact Hl|]. apply first_good; assumption. Qed.

(** * Requests without a change of state *)

Lemma props_no_dos : forall l p tr tg p' tr' tg', Forall (fun r => fst r <> str "dos") l -> decode_pstat_props false (p, tr, tg) l = Some (p', tr', tg') -> tr' = tr.
Proof.
  induction l as [|r t IH]; intros p tr tg p' tr' tg' Hn H; cbn [decode_pstat_props] in H; [injection H as <- <- <-; reflexivity|]. inversion Hn as [|? ? Hr Ht]; subst.
  destruct (decode_pstat_prop false (p, tr, tg) r) as [[[q tq] gq]|] eqn:E; [|discriminate]. rewrite (IH _ _ _ _ _ _ Ht H). clear - E Hr.
  unfold decode_pstat_prop in E. destruct (snd r); cbn [andb] in E; try discriminate E;
  try (destruct (list_eqb (fst r) (str "rt") || list_eqb (fst r) (str "if")); [injection E as <- <- <-; reflexivity|discriminate]).
  - destruct (prefix2 r 116 109); [injection E as <- <- <-; reflexivity|]. destruct (prefix2 r 111 109); [injection E as <- <- <-; reflexivity|discriminate E].
  - match type of E with (if ?c then _ else _) = _ => destruct c; [|discriminate E] end. injection E as <- <- <-. reflexivity.
  - destruct (list_eqb (fst r) (str "dos")) eqn:X; [|discriminate]. apply list_eqb_spec in X. contradiction.
Qed.

Lemma prefix2_firstn r : prefix2 r 116 109 = true -> firstn 2 (fst r) = str "tm".
Proof.
  unfold prefix2. destruct (fst r) as [|a [|b t]]; try discriminate. intros H. apply andb_true_iff in H. destruct H as [Ha Hb]. apply N.eqb_eq in Ha, Hb. subst. reflexivity.
Qed.

Lemma props_no_tm : forall l p tr tg p' tr' tg', Forall (fun r => firstn 2 (fst r) <> str "tm") l -> decode_pstat_props false (p, tr, tg) l = Some (p', tr', tg') -> tg' = tg.
Proof.
  induction l as [|r t IH]; intros p tr tg p' tr' tg' Hn H; cbn [decode_pstat_props] in H; [injection H as <- <- <-; reflexivity|]. inversion Hn as [|? ? Hr Ht]; subst.
  destruct (decode_pstat_prop false (p, tr, tg) r) as [[[q tq] gq]|] eqn:E; [|discriminate]. rewrite (IH _ _ _ _ _ _ Ht H). clear - E Hr.
  unfold decode_pstat_prop in E. destruct (snd r); cbn [andb] in E; try discriminate E;
  try (destruct (list_eqb (fst r) (str "rt") || list_eqb (fst r) (str "if")); [injection E as <- <- <-; reflexivity|discriminate]).
  - destruct (prefix2 r 116 109) eqn:X; [apply prefix2_firstn in X; contradiction|]. destruct (prefix2 r 111 109); [injection E as <- <- <-; reflexivity|discriminate E].
  - match type of E with (if ?c then _ else _) = _ => destruct c; [|discriminate E] end. injection E as <- <- <-. reflexivity.
  - destruct (list_eqb (fst r) (str "dos")) eqn:X; [|discriminate]. destruct (decode_dos false p tr l) as [[q' tq']|]; [|discriminate]. injection E as <- <- <-. reflexivity.
Qed.

Lemma rejected_spec b o e l : good b o -> fst (post_pstat e o l) = false ->
  snd (post_pstat e o l) = set_log o (o_log (snd (post_pstat e o l))) /\
  (Forall (fun r => firstn 2 (fst r) <> str "tm") l -> snd (post_pstat e o l) = o).
Proof.
  intros G. unfold post_pstat. pose proof (post_outcome e o l (g_busy _ o G) (g_s _ o G)) as H. destruct (decode_pstat e false o l) as [r o'] eqn:D. cbn [fst snd] in *.
  destruct H; cbn [fst snd]; try discriminate. intros _. split; [reflexivity|]. intros Hn.
  unfold decode_pstat in D. destruct (decode_pstat_props false (o_ps o, false, false) l) as [[[p tr] tg]|] eqn:E; [|injection D as D; symmetry; exact D].
  rewrite (props_no_tm _ _ _ _ _ _ _ Hn E) in D.
  assert (X : (false, set_log o a) = (false, o) -> set_log o a = o) by congruence.
  cbn [orb negb andb] in D. destruct (valid_transition _ _); [|injection D as D; symmetry; exact D].
  destruct tr; cbn [andb] in D; [|discriminate D].
  destruct (ps_s p =? S_RESET) eqn:E0.
  - unfold set_delayed_reset in D. destruct (_ || _); [injection D as D; symmetry; exact D|discriminate D].
  - unfold handle_state in D. rewrite E0 in D. unfold enter_rfotm in D.
    destruct (ps_s p =? S_RFOTM).
    + destruct (dx_owned (o_dx o) || _ || _); [|discriminate D]. rewrite set_busy_id in D by exact (g_busy _ o G). injection D as D; symmetry; exact D.
    + destruct (ps_s p =? S_RFPRO); [|destruct (ps_s p =? S_RFNOP); [|destruct (ps_s p =? S_SRESET); [|injection D as D; symmetry; exact D]]];
      (destruct (check_state _ o); [discriminate D|injection D as D; symmetry; exact D]).
Qed.

Lemma plain_spec b o e l : good b o -> Forall (fun r => fst r <> str "dos") l -> fst (post_pstat e o l) = true ->
  exists tm om own, snd (post_pstat e o l) =
    dump_ps (set_ps (set_log o (o_log (snd (post_pstat e o l)))) (mk_ps (ps_s (o_ps o)) (ps_p (o_ps o)) (ps_isop (o_ps o)) (ps_cm (o_ps o)) tm om (ps_sm (o_ps o)) own false)) /\
    (ps_s (o_ps o) = S_RFPRO \/ ps_s (o_ps o) = S_RFNOP -> own = ps_owner (o_ps o)).
Proof.
  intros G Hn. unfold post_pstat, decode_pstat.
  destruct (decode_pstat_props false (o_ps o, false, false) l) as [[[p tr] tg]|] eqn:E; [|discriminate].
  pose proof (props_no_dos _ _ _ _ _ _ _ Hn E). subst tr.
  pose proof (decode_props_keep _ _ _ _ _ _ _ _ (kept_refl (o_ps o)) E) as K.
  assert (T : exists p1 a, (if tg then target_mode p o else (p, o)) = (p1, set_log o a) /\ ps_s p1 = ps_s p /\ ps_p p1 = ps_p p /\ ps_isop p1 = ps_isop p /\ ps_cm p1 = ps_cm p /\ ps_om p1 = ps_om p /\ ps_sm p1 = ps_sm p /\ ps_owner p1 = ps_owner p /\ ps_busy p1 = ps_busy p /\ (typed_ps p -> typed_ps p1)).
  { destruct tg; [apply target_mode_spec|]. exists p, (o_log o). split; [destruct o; reflexivity|repeat (split; [reflexivity|]); auto]. }
  destruct T as (p1 & a & -> & T1 & T2 & T3 & T4 & T5 & T6 & T7 & T8 & _). cbn [orb negb andb].
  destruct (valid_transition _ _); [|discriminate]. cbn [fst snd]. intros _. destruct K as [K1 K2 K3 K4 K5 K6 K7 K8 K9].
  exists (ps_tm p1), (ps_om p1), (ps_owner p1). split; [|rewrite T7; auto].
  replace (mk_ps (ps_s (o_ps o)) _ _ _ _ _ _ _ _) with p1; [reflexivity|].
  assert (Hb : ps_busy p1 = false) by (rewrite T8, K5; exact (g_busy _ o G)). rewrite <- K1, <- K2, <- K3, <- K4, <- (K6 eq_refl), <- T1, <- T2, <- T3, <- T4, <- T6, <- Hb. destruct p1; reflexivity.
Qed.

Lemma firstn_prefix2 r : firstn 2 (fst r) = str "tm" -> prefix2 r 116 109 = true.
Proof. unfold prefix2. destruct (fst r) as [|a [|b t]]; try discriminate. cbn [firstn]. intros H. injection H as -> ->. reflexivity. Qed.

Lemma props_app l1 : forall x l2, decode_pstat_props false x (l1 ++ l2) = match decode_pstat_props false x l1 with Some y => decode_pstat_props false y l2 | None => None end.
Proof. induction l1 as [|r t IH]; intros x l2; [reflexivity|]. cbn [app decode_pstat_props]. destruct (decode_pstat_prop false x r); [apply IH|reflexivity]. Qed.

Lemma props_no_tm_same : forall l p tr tg p' tr' tg', Forall (fun r => firstn 2 (fst r) <> str "tm") l -> decode_pstat_props false (p, tr, tg) l = Some (p', tr', tg') -> tg' = tg /\ ps_tm p' = ps_tm p.
Proof.
  induction l as [|r t IH]; intros p tr tg p' tr' tg' Hn H; cbn [decode_pstat_props] in H; [injection H as <- <- <-; auto|]. inversion Hn as [|? ? Hr Ht]; subst.
  destruct (decode_pstat_prop false (p, tr, tg) r) as [[[q tq] gq]|] eqn:E; [|discriminate]. destruct (IH _ _ _ _ _ _ Ht H) as [-> ->]. clear - E Hr.
  unfold decode_pstat_prop in E. destruct (snd r); cbn [andb] in E; try discriminate E;
  try (destruct (list_eqb (fst r) (str "rt") || list_eqb (fst r) (str "if")); [injection E as <- <- <-; auto|discriminate]).
  - destruct (prefix2 r 116 109) eqn:X; [apply prefix2_firstn in X; contradiction|]. destruct (prefix2 r 111 109); [injection E as <- <- <-; auto|discriminate E].
  - match type of E with (if ?c then _ else _) = _ => destruct c; [|discriminate E] end. injection E as <- <- <-. auto.
  - destruct (list_eqb (fst r) (str "dos")) eqn:X; [|discriminate]. destruct (decode_dos false p tr l) as [[q' tq']|] eqn:D; [|discriminate]. injection E as <- <- <-. split; [reflexivity|].
    clear - D. revert p tr D. induction l as [|[k v] t IH]; intros p tr D; cbn [decode_dos] in D; [injection D as <- <-; reflexivity|].
    cbn [snd fst] in D. destruct v; try (destruct (negb false && _); [discriminate|]; exact (IH _ _ D)).
    destruct (list_eqb k (str "s")); [|discriminate]. exact (IH _ _ D).
Qed.

Lemma target_started b o e l z : good b o -> Forall (fun r => fst r <> str "dos") l -> fst (post_pstat e o l) = true -> last_target l z ->
  let m := (z mod 2 ^ 32)%Z in
  o_log (snd (post_pstat e o l)) = o_log o ++ starts m /\ Z.of_N (ps_tm (o_ps (snd (post_pstat e o l)))) = match starts m with [] => m | _ => 0%Z end.
Proof.
  intros G Hn Hok (a & k & t & -> & Hk & Ht). cbv zeta. revert Hok. unfold post_pstat, decode_pstat.
  destruct (decode_pstat_props false (o_ps o, false, false) (a ++ (k, RInt z) :: t)) as [[[p tr] tg]|] eqn:E; [|discriminate].
  pose proof (props_no_dos _ _ _ _ _ _ _ Hn E). subst tr. rewrite props_app in E.
  destruct (decode_pstat_props false (o_ps o, false, false) a) as [[[q tq] gq]|]; [|discriminate]. cbn [decode_pstat_props] in E.
  unfold decode_pstat_prop in E at 1. cbn [snd andb fst] in E. rewrite (firstn_prefix2 (k, RInt z)) in E by exact Hk.
  destruct (props_no_tm_same _ _ _ _ _ _ _ Ht E) as [-> Htm]. cbn [ps_tm] in Htm.
  assert (Hm : Z.of_N (ps_tm p) = (z mod 2 ^ 32)%Z).
  { rewrite Htm. unfold to_u32. rewrite Z2N.id; [reflexivity|]. apply Z.mod_pos_bound. reflexivity. }
  rewrite <- Hm. clear. unfold target_mode, starts.
  destruct (N.eqb_spec (ps_tm p) 256) as [->|N1]; [|destruct (N.eqb_spec (ps_tm p) 64) as [->|N2]; [|destruct (N.eqb_spec (ps_tm p) 128) as [->|N3]]];
    cbn [orb negb andb]; (destruct (valid_transition _ _); [|discriminate]); cbn [fst snd]; intros _.
  1-3: split; reflexivity.
  destruct (Z.eqb_spec (Z.of_N (ps_tm p)) 256); [exfalso; lia|]. destruct (Z.eqb_spec (Z.of_N (ps_tm p)) 64); [exfalso; lia|]. destruct (Z.eqb_spec (Z.of_N (ps_tm p)) 128); [exfalso; lia|].
  rewrite app_nil_r. split; reflexivity.
Qed.

Lemma no_target_none b o e l : good b o -> Forall (fun r => fst r <> str "dos") l -> fst (post_pstat e o l) = true -> Forall (fun r => firstn 2 (fst r) <> str "tm") l ->
  o_log (snd (post_pstat e o l)) = o_log o /\ ps_tm (o_ps (snd (post_pstat e o l))) = ps_tm (o_ps o).
Proof.
  intros G Hn Hok Ht. revert Hok. unfold post_pstat, decode_pstat.
  destruct (decode_pstat_props false (o_ps o, false, false) l) as [[[p tr] tg]|] eqn:E; [|discriminate].
  pose proof (props_no_dos _ _ _ _ _ _ _ Hn E). subst tr. destruct (props_no_tm_same _ _ _ _ _ _ _ Ht E) as [-> Htm].
  cbn [orb negb andb]. destruct (valid_transition _ _); [|discriminate]. intros _. split; [reflexivity|exact Htm].
Qed.
