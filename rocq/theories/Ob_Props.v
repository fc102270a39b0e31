(** C28, C29, C48: provisioning state, ownership, and their storage. *)
From Verif Require Import Common Rep_Model Hex_Model Acl_Model Acl_Spec Acl2_Proofs Ob_Model Ob_Spec Ob_Proofs Ob2_Proofs.
From Coq Require Import String.
Local Open Scope string_scope.
Local Open Scope list_scope.
Local Open Scope N_scope.

(** Sample data: a device, an owner O, an onboarding as a tool performs it. *)
Definition devid : list N := repeat 17 16.
Definition ownerid : list N := repeat 34 16.
Definition en : env := mk_env devid true None [0%Z; 4%Z].
Definition otxt : list N := str "22222222-2222-2222-2222-222222222222".
Definition dtxt : list N := str "33333333-3333-3333-3333-333333333333".
Definition dos_s (s : Z) : rep := (str "dos", RObj [(str "s", RInt s)]).
Definition owner_prop : rep := (str "rowneruuid", RStr otxt).
Definition prepare : list (env * oop) :=
  [ (en, DPost false [(str "oxmsel", RInt 0)]); (en, Creds [ownerid]); (en, AclOwner ownerid); (en, CredOwner ownerid);
    (en, DPost true [(str "devowneruuid", RStr otxt); (str "deviceuuid", RStr dtxt); owner_prop; (str "owned", RBool true)]) ].
Definition onboard : list (env * oop) := prepare ++ [(en, PPost [owner_prop; dos_s 2]); (en, PPost [dos_s 3])].
Definition owned_dev : ob := orun (first_start en) onboard.
Definition prepared : ob := orun (first_start en) prepare.

Lemma reach_run b l : forallb (fun x => ev_key (fst x) && list_eqb (ev_uuid (fst x)) devid && match snd x with ResetLater => negb b | Reboot => b | Mode cm => cm <? 4294967296 | _ => true end) l = true ->
  reach b (orun (first_start en) l).
Proof.
  intros H. exists en, l. split; [reflexivity|]. split; [split; [repeat constructor|reflexivity]|]. split; [|reflexivity].
  rewrite forallb_forall in H. apply Forall_forall. intros [e op] Hx. apply H in Hx. cbn [fst snd] in Hx. apply andb_true_iff in Hx. destruct Hx as [Hx H3]. apply andb_true_iff in Hx. destruct Hx as [H1 H2].
  apply list_eqb_spec in H2. split; [exact H1|]. cbn [fst snd]. split; [rewrite H2; split; [repeat constructor|reflexivity]|].
  destruct op; auto; try (destruct b; [reflexivity || discriminate H3|reflexivity || discriminate H3]). apply N.ltb_lt. exact H3.
Qed.

(** * C28 *)

(** The state changes only along the listed transitions, by an accepted update, by a reset that is announced
    (RESET, reset scheduled) or by a reset that makes the device as new; every transition into RFPRO, RFNOP or
    SRESET leaves a completely provisioned device. *)
Theorem C28_state_moves_only_as_specified :
  forall b o e op, reach b o -> ordinary b (e, op) -> change e o op (ostep e o op).
Proof. intros b o e op R H. exact (step_change b e o op H (reach_good b o R)). Qed.
Print Assumptions C28_state_moves_only_as_specified.

Example C28_moves_case :
  reach true owned_dev /\ reach false owned_dev /\ ps_s (o_ps owned_dev) = S_RFNOP /\
  ps_s (o_ps (ostep en owned_dev (PPost [dos_s 4]))) = S_SRESET /\
  ps_s (o_ps (ostep en owned_dev (PPost [dos_s 1]))) = S_RFNOP /\
  ps_s (o_ps (ostep en owned_dev (PPost [dos_s 0]))) = S_RESET /\
  ps_s (o_ps (orun owned_dev [(en, PPost [dos_s 0]); (en, Fire)])) = S_RFOTM.
Proof. split; [apply reach_run; vm_compute; reflexivity|]. split; [apply reach_run; vm_compute; reflexivity|]. vm_compute. repeat split. Qed.

(** In every reachable state: the device is operational exactly in RFNOP, and in RFNOP it has an owner, an
    identity, and a credential for the owner of each security resource; its identifier is the one the
    ownership resource names; with storage in the picture ([b = true]: histories with restarts) the stored
    resources agree. *)
Theorem C28_normal_operation_means_provisioned :
  forall b o, reach b o ->
  (ps_isop (o_ps o) = true <-> ps_s (o_ps o) = S_RFNOP) /\ (ps_s (o_ps o) = S_RFNOP -> complete o) /\ ps_s (o_ps o) <= 4 /\
  o_di o = dx_device (o_dx o) /\
  (b = true -> o_sdx o = o_dx o /\ ps_s (o_sps o) = ps_s (o_ps o) /\ ps_isop (o_sps o) = ps_isop (o_ps o) /\ ps_owner (o_sps o) = ps_owner (o_ps o)).
Proof.
  intros b o R. destruct (reach_good b o R) as [B1 B2 B3 B4 B5 B6 B7 B7' B8 B9 B10 B11]. repeat (split; [assumption|]). intros Hb. auto.
Qed.
Print Assumptions C28_normal_operation_means_provisioned.

Example C28_normal_operation_case :
  ps_isop (o_ps owned_dev) = true /\ dx_owner (o_dx owned_dev) = ownerid /\ In ownerid (o_creds owned_dev) /\ o_di owned_dev = repeat 51 16 /\
  (let o := orun (first_start en) (onboard ++ [(en, Reboot)]) in reach true o /\ ps_isop (o_ps o) = true /\ o_di o = repeat 51 16).
Proof.
  split; [vm_compute; reflexivity|]. split; [vm_compute; reflexivity|]. split; [vm_compute; auto|]. split; [vm_compute; reflexivity|].
  cbv zeta. split; [apply reach_run; vm_compute; reflexivity|]. vm_compute. auto.
Qed.

(** Resets: forced, or when the scheduled one runs, the device is as new. *)
Theorem C28_reset_makes_the_device_as_new :
  forall b o e, reach b o -> ev_key e = true ->
  as_new e (ostep e o Forced) /\ (o_pending o = true -> as_new e (ostep e o Fire)).
Proof.
  intros b o e R Hk. pose proof (g_busy _ _ (reach_good b o R)) as Hb. split; [apply reset_as_new; assumption|]. intros Hp. cbn [ostep]. rewrite Hp. apply reset_as_new; assumption.
Qed.
Print Assumptions C28_reset_makes_the_device_as_new.

Example C28_reset_case :
  let o := ostep en owned_dev (PPost [dos_s 0]) in
  o_pending o = true /\ o_creds o = [ownerid] /\ o_creds (ostep en o Fire) = [] /\ dx_owned (o_dx (ostep en o Fire)) = false.
Proof. vm_compute. repeat split. Qed.

(** A rejected update changes nothing but the software update actions; without a target mode property
    nothing at all. *)
Theorem C28_rejected_update_changes_nothing :
  forall b o e l, reach b o -> fst (post_pstat e o l) = false ->
  snd (post_pstat e o l) = set_log o (o_log (snd (post_pstat e o l))) /\
  (Forall (fun r => firstn 2 (fst r) <> str "tm") l -> snd (post_pstat e o l) = o).
Proof. intros b o e l R. exact (rejected_spec b o e l (reach_good b o R)). Qed.
Print Assumptions C28_rejected_update_changes_nothing.

Example C28_rejected_case :
  fst (post_pstat en owned_dev [(str "om", RInt 4); dos_s 1]) = false /\ fst (post_pstat en owned_dev [(str "isop", RBool false)]) = false /\
  fst (post_pstat en prepared [dos_s 3]) = false.
Proof. vm_compute. repeat split. Qed.

(** An accepted update without the state property changes only the target mode, the operational mode and,
    outside RFPRO and RFNOP, the owner of the resource. *)
Theorem C28_update_without_state :
  forall b o e l, reach b o -> Forall (fun r => fst r <> str "dos") l -> fst (post_pstat e o l) = true ->
  exists tm om own, snd (post_pstat e o l) =
    dump_ps (set_ps (set_log o (o_log (snd (post_pstat e o l)))) (mk_ps (ps_s (o_ps o)) (ps_p (o_ps o)) (ps_isop (o_ps o)) (ps_cm (o_ps o)) tm om (ps_sm (o_ps o)) own false)) /\
    (ps_s (o_ps o) = S_RFPRO \/ ps_s (o_ps o) = S_RFNOP -> own = ps_owner (o_ps o)).
Proof. intros b o e l R. exact (plain_spec b o e l (reach_good b o R)). Qed.
Print Assumptions C28_update_without_state.

Example C28_without_state_case :
  fst (post_pstat en owned_dev [(str "om", RInt 2)]) = true /\ ps_om (o_ps (snd (post_pstat en owned_dev [(str "om", RInt 2)]))) = 2%Z /\
  fst (post_pstat en owned_dev [owner_prop]) = false /\ fst (post_pstat en prepared [owner_prop]) = true.
Proof. vm_compute. repeat split. Qed.

(** The target mode of an accepted update starts the action it stands for, once, and no update without one starts any. *)
Theorem C28_target_mode_starts_its_action :
  forall b o e l, reach b o -> Forall (fun r => fst r <> str "dos") l -> fst (post_pstat e o l) = true ->
  (forall z, last_target l z -> let m := (z mod 2 ^ 32)%Z in
     o_log (snd (post_pstat e o l)) = o_log o ++ starts m /\ Z.of_N (ps_tm (o_ps (snd (post_pstat e o l)))) = match starts m with [] => m | _ => 0%Z end) /\
  (Forall (fun r => firstn 2 (fst r) <> str "tm") l ->
     o_log (snd (post_pstat e o l)) = o_log o /\ ps_tm (o_ps (snd (post_pstat e o l))) = ps_tm (o_ps o)).
Proof. intros b o e l R Hn Hok. split; [intros z; exact (target_started b o e l z (reach_good b o R) Hn Hok)|exact (no_target_none b o e l (reach_good b o R) Hn Hok)]. Qed.
Print Assumptions C28_target_mode_starts_its_action.

Example C28_target_mode_case :
  let l := [(str "om", RInt 2); (str "tm", RInt 128)] in
  last_target l 128 /\ fst (post_pstat en owned_dev l) = true /\ o_log (snd (post_pstat en owned_dev l)) = o_log owned_dev ++ [UPGRADE].
Proof.
  cbv zeta. split; [|vm_compute; split; reflexivity]. exists [(str "om", RInt 2)], (str "tm"), []. split; [reflexivity|]. split; [reflexivity|constructor].
Qed.

(** Not so: a reset that was accepted always happens.  While it is pending, an update that names the owner
    and state RFNOP is accepted and the device is back in normal operation (the reset still follows). *)
Theorem C28_no_operation_before_a_pending_reset_refuted :
  exists o, reach true o /\ ps_s (o_ps o) = S_RESET /\ o_pending o = true /\
  ps_s (o_ps (ostep en o (PPost [owner_prop; dos_s 3]))) = S_RFNOP /\ o_pending (ostep en o (PPost [owner_prop; dos_s 3])) = true.
Proof. exists (orun (first_start en) (onboard ++ [(en, PPost [dos_s 0])])). split; [apply reach_run; vm_compute; reflexivity|]. vm_compute. repeat split. Qed.
Print Assumptions C28_no_operation_before_a_pending_reset_refuted.

(** Not so: an accepted reset survives a restart.  After a restart inside the delay the device sits in RESET
    with its owner and credentials, and no reset is scheduled. *)
Theorem C28_accepted_reset_survives_restart_refuted :
  exists o, reach true o /\ o_pending o = true /\
  let o' := ostep en o Reboot in ps_s (o_ps o') = S_RESET /\ o_pending o' = false /\ dx_owned (o_dx o') = true /\ o_creds o' = [ownerid].
Proof. exists (orun (first_start en) (onboard ++ [(en, PPost [dos_s 0])])). split; [apply reach_run; vm_compute; reflexivity|]. vm_compute. repeat split. Qed.
Print Assumptions C28_accepted_reset_survives_restart_refuted.

(** Not so: the order of the properties in a payload does not matter.  The same two properties are
    accepted in one order and refused in the other; and the owner, which cannot be written in RFNOP, can be
    written when it follows a change to SRESET. *)
Theorem C28_property_order_does_not_matter_refuted :
  fst (post_pstat en prepared [owner_prop; dos_s 2]) = true /\ fst (post_pstat en prepared [dos_s 2; owner_prop]) = false /\
  exists t u, let o := orun (first_start en) (prepare ++ [(en, Creds [ownerid; u]); (en, PPost [owner_prop; dos_s 2]); (en, PPost [dos_s 3])]) in
  reach true o /\ ps_s (o_ps o) = S_RFNOP /\ fst (post_pstat en o [(str "rowneruuid", RStr t)]) = false /\
  fst (post_pstat en o [dos_s 4; (str "rowneruuid", RStr t)]) = true /\ ps_owner (o_ps (snd (post_pstat en o [dos_s 4; (str "rowneruuid", RStr t)]))) = u /\ u <> ownerid.
Proof.
  split; [vm_compute; reflexivity|]. split; [vm_compute; reflexivity|]. exists dtxt, (repeat 51 16). cbv zeta. split; [apply reach_run; vm_compute; reflexivity|].
  vm_compute. repeat split. discriminate.
Qed.
Print Assumptions C28_property_order_does_not_matter_refuted.

(** Not so: a rejected update has no effect.  This one is refused for its state and still starts a software
    update check. *)
Theorem C28_rejected_update_has_no_effect_refuted :
  exists o l, reach true o /\ fst (post_pstat en o l) = false /\ o_log (snd (post_pstat en o l)) = o_log o ++ [ISAC].
Proof. exists owned_dev, [(str "tm", RInt 256); dos_s 1]. split; [apply reach_run; vm_compute; reflexivity|]. vm_compute. repeat split. Qed.
Print Assumptions C28_rejected_update_has_no_effect_refuted.

(** Not so: unknown properties are refused.  Only the first two characters of these names are compared. *)
Theorem C28_unknown_property_refused_refuted :
  exists o, reach true o /\ fst (post_pstat en o [(str "tmp", RInt 5)]) = true /\ ps_tm (o_ps (snd (post_pstat en o [(str "tmp", RInt 5)]))) = 5.
Proof. exists owned_dev. split; [apply reach_run; vm_compute; reflexivity|]. vm_compute. repeat split. Qed.
Print Assumptions C28_unknown_property_refused_refuted.

(** Not so: RFNOP means provisioned, when key generation fails.  The reset then stops half way: still
    RFNOP and operational, without owner and without credentials. *)
Theorem C28_failed_key_generation_refuted :
  exists o e, reach true o /\ ev_key e = false /\ ps_s (o_ps (ostep e o Forced)) = S_RFNOP /\ ps_isop (o_ps (ostep e o Forced)) = true /\
  dx_owned (o_dx (ostep e o Forced)) = false /\ o_creds (ostep e o Forced) = [].
Proof. exists owned_dev, (mk_env devid false None []). split; [apply reach_run; vm_compute; reflexivity|]. vm_compute. repeat split. Qed.
Print Assumptions C28_failed_key_generation_refuted.

(** Not so: RFNOP means provisioned, when a reset asked for by the application is cut short by a restart: the
    announced RESET is not stored, credentials can be deleted in it, and the restart returns to RFNOP. *)
Theorem C28_application_reset_cut_short_refuted :
  exists o, reach false o /\ ps_s (o_ps o) = S_RESET /\
  let o' := ostep en o Reboot in ps_s (o_ps o') = S_RFNOP /\ ps_isop (o_ps o') = true /\ o_creds o' = [] /\ ~ complete o'.
Proof.
  exists (orun (first_start en) (onboard ++ [(en, ResetLater); (en, Creds [])])). split; [apply reach_run; vm_compute; reflexivity|]. split; [vm_compute; reflexivity|].
  cbv zeta. split; [vm_compute; reflexivity|]. split; [vm_compute; reflexivity|].
  assert (E : o_creds (ostep en (orun (first_start en) (onboard ++ [(en, ResetLater); (en, Creds [])])) Reboot) = []) by (vm_compute; reflexivity). split; [exact E|].
  intros (_ & _ & _ & H). rewrite E in H. destruct (H _ (or_introl eq_refl)) as [_ []].
Qed.
Print Assumptions C28_application_reset_cut_short_refuted.

(** * C29 *)

(** An update of the ownership resource is accepted exactly when every one of its properties may be written
    in this state over this session; then each property has the last value the payload gives it and the
    others are as before; otherwise nothing at all has changed. *)
Theorem C29_ownership_update :
  forall b o e doc l, reach b o ->
  let r := post_doxm e doc o l in
  (fst r = true <-> Forall (may_write e doc (ps_s (o_ps o))) l) /\
  (fst r = false -> snd r = o) /\
  (fst r = true -> let d := o_dx o in let d' := o_dx (snd r) in
     dx_sct d' = dx_sct d /\
     dx_oxmsel d' = match last_value (str "oxmsel") l with Some (RInt z) => to_int z | _ => dx_oxmsel d end /\
     dx_owned d' = match last_value (str "owned") l with Some (RBool x) => x | _ => dx_owned d end /\
     dx_devowner d' = written (dx_devowner d) (last_value (str "devowneruuid") l) /\
     dx_device d' = written (dx_device d) (last_value (str "deviceuuid") l) /\
     dx_owner d' = written (dx_owner d) (last_value (str "rowneruuid") l) /\
     o_di (snd r) = dx_device d' /\ o_sdx (snd r) = d' /\
     o_ps (snd r) = o_ps o /\ o_aclown (snd r) = o_aclown o /\ o_credown (snd r) = o_credown o /\ o_creds (snd r) = o_creds o /\
     o_pending (snd r) = o_pending o /\ o_log (snd r) = o_log o /\ o_sps (snd r) = o_sps o).
Proof.
  intros b o e doc l R. pose proof (reach_good b o R) as G. unfold post_doxm. destruct (decode_doxm_spec e doc o l) as (H1 & H2 & H3).
  destruct (decode_doxm e false doc o l) as [r o']. cbn [fst snd] in *. destruct r; cbn [fst snd].
  - split; [exact H1|]. split; [discriminate|]. intros _. rewrite (H3 eq_refl (g_di _ o G)). cbv zeta. repeat split.
  - split; [exact H1|]. split; [exact H2|]. discriminate.
Qed.
Print Assumptions C29_ownership_update.

Example C29_update_case :
  let o := first_start en in
  fst (post_doxm en false o [(str "oxmsel", RInt 0)]) = true /\ fst (post_doxm en true o [(str "oxmsel", RInt 0)]) = false /\
  fst (post_doxm en true o [(str "devowneruuid", RStr otxt); (str "owned", RBool true)]) = true /\
  dx_devowner (o_dx (snd (post_doxm en true o [(str "devowneruuid", RStr otxt); (str "owned", RBool true)]))) = ownerid /\
  fst (post_doxm en false o [(str "owned", RBool true)]) = false /\
  fst (post_doxm en true o [(str "owned", RBool true); (str "sct", RInt 1)]) = false /\
  fst (post_doxm en true owned_dev [(str "owned", RBool false)]) = false.
Proof. vm_compute. repeat split. Qed.

(** In normal operation and while being provisioned nothing about the ownership can be changed. *)
Theorem C29_ownership_fixed_in_operation :
  forall b o e doc r l, reach b o -> ps_s (o_ps o) = S_RFNOP \/ ps_s (o_ps o) = S_RFPRO \/ ps_s (o_ps o) = S_RESET -> post_doxm e doc o (r :: l) = (false, o).
Proof.
  intros b o e doc r l R Hs. destruct (C29_ownership_update b o e doc (r :: l) R) as (H1 & H2 & _). destruct (post_doxm e doc o (r :: l)) as [[] o']; cbn [fst snd] in *.
  - exfalso. destruct H1 as [H1 _]. specialize (H1 eq_refl). inversion H1 as [|? ? H _]; subst. unfold may_write in H.
    unfold S_RFNOP, S_RFPRO, S_RESET, S_RFOTM, S_SRESET in *.
    destruct Hs as [Hs|[Hs|Hs]]; rewrite Hs in H; destruct H as [(_ & _ & [=] & _)|[(_ & _ & [=] & _)|[(_ & _ & [=] & _)|[(_ & _ & [=] & _)|(_ & _ & [[=]|[=]] & _)]]]].
  - rewrite (H2 eq_refl). reflexivity.
Qed.
Print Assumptions C29_ownership_fixed_in_operation.

Example C29_fixed_case : ps_s (o_ps owned_dev) = S_RFNOP /\ post_doxm en true owned_dev [(str "rowneruuid", RStr dtxt)] = (false, owned_dev).
Proof. vm_compute. repeat split. Qed.

(** Not so: the values written are validated.  Text that is no UUID is accepted and becomes some UUID; an
    owner transfer method outside 32 bits is accepted as its remainder; owned without an owner is accepted. *)
Theorem C29_values_are_validated_refuted :
  exists o, reach true o /\
  (fst (post_doxm en true o [(str "devowneruuid", RStr (str "hello, world"))]) = true /\
   dx_devowner (o_dx (snd (post_doxm en true o [(str "devowneruuid", RStr (str "hello, world"))]))) <> dx_devowner (o_dx o)) /\
  (fst (post_doxm en false o [(str "oxmsel", RInt 4294967296)]) = true /\ dx_oxmsel (o_dx (snd (post_doxm en false o [(str "oxmsel", RInt 4294967296)]))) = 0%Z) /\
  (fst (post_doxm en true o [(str "owned", RBool true)]) = true /\ dx_owned (o_dx (snd (post_doxm en true o [(str "owned", RBool true)]))) = true /\
   dx_devowner (o_dx (snd (post_doxm en true o [(str "owned", RBool true)]))) = nil_uuid).
Proof. exists (first_start en). split; [apply (reach_run true []); reflexivity|]. vm_compute. repeat split. discriminate. Qed.
Print Assumptions C29_values_are_validated_refuted.

(** * C48 *)

(** Reading back what was stored gives the same ownership resource, and the same device identifier. *)
Theorem C48_ownership_read_back :
  forall e o d, typed_dx d ->
  let r := decode_doxm e true false o (encode_doxm d) in fst r = true /\ o_dx (snd r) = d /\ o_di (snd r) = dx_device d.
Proof. intros e o d H. destruct (reload_doxm e o d H) as [E1 E2]. cbv zeta. rewrite E1. auto. Qed.
Print Assumptions C48_ownership_read_back.

(** And the same provisioning status, except for the pending flag and target modes that start an action. *)
Theorem C48_provisioning_status_read_back :
  forall e o p, typed_ps p -> ~ In (ps_tm p) [256; 64; 128] ->
  decode_pstat e true o (encode_pstat p) = (true, set_ps o (mk_ps (ps_s p) (ps_p (o_ps o)) (ps_isop p) (ps_cm p) (ps_tm p) (ps_om p) (ps_sm p) (ps_owner p) (ps_busy (o_ps o)))).
Proof. intros e o p H Hn. cbn [In] in Hn. apply reload_pstat; [exact H| | |]; intros E; apply Hn; rewrite E; tauto. Qed.
Print Assumptions C48_provisioning_status_read_back.

Example C48_read_back_case :
  encode_doxm (o_dx owned_dev) = [(str "oxmsel", RInt 0); (str "sct", RInt 457); (str "owned", RBool true); (str "devowneruuid", RStr otxt); (str "deviceuuid", RStr dtxt); (str "rowneruuid", RStr otxt)] /\
  o_dx (snd (decode_doxm en true false (first_start en) (encode_doxm (o_dx owned_dev)))) = o_dx owned_dev /\
  o_ps (snd (decode_pstat en true (first_start en) (encode_pstat (o_ps owned_dev)))) = o_ps owned_dev.
Proof. vm_compute. repeat split. Qed.

(** A restart keeps owner, identity, state and credentials of an owned device. *)
Theorem C48_restart_keeps_an_owned_device :
  forall o e, reach true o -> ev_key e = true -> typed_uuid (ev_uuid e) -> dx_owned (o_dx o) = true ->
  let o' := ostep e o Reboot in
  o_dx o' = o_dx o /\ o_di o' = o_di o /\ ps_s (o_ps o') = ps_s (o_ps o) /\ ps_isop (o_ps o') = ps_isop (o_ps o) /\ ps_owner (o_ps o') = ps_owner (o_ps o) /\
  o_creds o' = o_creds o /\ o_aclown o' = o_aclown o /\ o_credown o' = o_credown o.
Proof. intros o e R Hk Hu Ho. exact (restart_keeps e o (reach_good true o R) Ho). Qed.
Print Assumptions C48_restart_keeps_an_owned_device.

Example C48_restart_case : let o' := ostep en owned_dev Reboot in o_dx o' = o_dx owned_dev /\ o_ps o' = o_ps owned_dev /\ o_creds o' = [ownerid].
Proof. vm_compute. repeat split. Qed.

(** A restart of a device nobody owns makes it as new. *)
Theorem C48_restart_of_an_unowned_device :
  forall o e, reach true o -> ev_key e = true -> typed_uuid (ev_uuid e) -> dx_owned (o_dx o) = false -> as_new e (ostep e o Reboot).
Proof. intros o e R Hk Hu Ho. exact (restart_unowned e o (reach_good true o R) Hk Ho). Qed.
Print Assumptions C48_restart_of_an_unowned_device.

Example C48_unowned_case : let o := ostep en (first_start en) (Creds [ownerid]) in dx_owned (o_dx o) = false /\ o_creds (ostep en o Reboot) = [].
Proof. vm_compute. repeat split. Qed.
