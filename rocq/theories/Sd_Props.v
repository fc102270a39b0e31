(** C83, C84: the security domain and the security profile of a device. *)
From Verif Require Import Common Hex_Model Hex_Spec Hex_Proofs Rep_Model Repd_Model Acl_Model Acl_Spec Ob_Model Sd_Model Sd_Spec Sd_Proofs Sd2_Proofs.
From Coq Require Import String.
Notation rep := Rep_Model.rep.
Local Open Scope string_scope.
Local Open Scope list_scope.
Local Open Scope N_scope.

(** * C83 *)

(** An update that is allowed is done: the last value given for each property, the others as they were; the result is
    stored, and nothing else changes. *)
Theorem C83_update :
  forall pre d w l, may_update (d_state d) l ->
    exists d', step pre d (PostSdi w l) = (d', ChangedOk) /\ same_but_sdi d d' /\ f_sdi d' = (if w then Some (sdi_dump (d_sdi d')) else f_sdi d) /\
      (no_text l (str "uuid") -> s_uuid (d_sdi d') = s_uuid (d_sdi d)) /\
      (forall t u, last_text l (str "uuid") t -> uuid_text t u -> s_uuid (d_sdi d') = u) /\
      (no_text l (str "name") -> s_name (d_sdi d') = s_name (d_sdi d)) /\ (forall n, last_text l (str "name") n -> s_name (d_sdi d') = n) /\
      (no_flag l (str "priv") -> s_priv (d_sdi d') = s_priv (d_sdi d)) /\ (forall b, last_flag l (str "priv") b -> s_priv (d_sdi d') = b).
Proof.
  intros pre d w l M. destruct (decode_yes (d_state d) l (d_sdi d) M) as (u & E & Eu). cbn [step]. rewrite E. eexists. split; [reflexivity|].
  cbn [with_sdi d_owned d_state d_sdi d_sp d_mfg f_sdi f_sp s_uuid s_name s_priv]. split; [repeat split|]. split; [reflexivity|]. subst u.
  split; [intros H; apply no_text_by in H; rewrite (upd_none _ _ H); reflexivity|].
  split; [intros t u H U; apply last_text_by in H; rewrite (upd_last _ None _ _ H); apply uuid_of_text, U|].
  split; [intros H; apply no_text_by in H; rewrite (upd_none _ _ H); reflexivity|].
  split; [intros t H; apply last_text_by in H; rewrite (upd_last _ None _ _ H); reflexivity|].
  split; [intros H; apply no_flag_by in H; rewrite (upd_none _ _ H); reflexivity|].
  intros t H; apply last_flag_by in H; rewrite (upd_last _ None _ _ H); reflexivity.
Qed.
Print Assumptions C83_update.

(** Any other is refused as a whole. *)
Theorem C83_refused :
  forall pre d w l, ~ may_update (d_state d) l -> step pre d (PostSdi w l) = (d, BadRequest).
Proof. intros pre d w l H. cbn [step]. rewrite (decode_no _ _ _ H). reflexivity. Qed.
Print Assumptions C83_refused.

(** Whatever was done before: an owned device has the same security domain after a restart. *)
Theorem C83_restart :
  forall pre ops, Forall written_op ops ->
    let d := run pre blank (Boot :: ops) in
    d_owned d = true -> s_uuid (d_sdi d) <> 42 :: repeat 0 15 -> d_sdi (fst (step pre d Boot)) = d_sdi d.
Proof.
  intros pre ops W d O H. assert (K : kept d) by (unfold d; cbn [run]; apply run_kept; [exact (proj2 (boot_unowned pre blank eq_refl))|exact W]).
  exact (proj2 (boot_owned pre d O K) H).
Qed.
Print Assumptions C83_restart.

(** A reset, and a restart of a device without owner, forget it. *)
Theorem C83_forget :
  forall pre d, no_domain (d_sdi (fst (step pre d FactoryReset))) /\ no_domain (d_sdi (fst (step pre d Disown))) /\
    (d_owned d = false -> no_domain (d_sdi (fst (step pre d Boot)))).
Proof.
  intros pre d. split; [cbn [step fst]; rewrite (proj1 (reset_sdi pre d)); repeat split|]. split; [repeat split|].
  intros O. cbn [step fst]. rewrite (proj1 (boot_unowned pre d O)). repeat split.
Qed.
Print Assumptions C83_forget.

(** A device that takes ownership of itself has the domain it made up, also after a restart. *)
Theorem C83_self_owned :
  forall pre d u n, typed_uuid u ->
    let d' := fst (step pre d (SelfOwn u n)) in
    d_owned d' = true /\ d_state d' = 3 /\ d_sdi d' = mkSdi u n false /\ (u <> 42 :: repeat 0 15 -> d_sdi (fst (step pre d' Boot)) = mkSdi u n false).
Proof.
  intros pre d u n T d'. split; [reflexivity|]. split; [reflexivity|]. split; [reflexivity|]. intros W.
  exact (proj2 (boot_owned pre d' eq_refl (conj eq_refl T)) W).
Qed.
Print Assumptions C83_self_owned.

(** A request tells it. *)
Theorem C83_get :
  forall pre d i, typed_uuid (s_uuid (d_sdi d)) -> s_uuid (d_sdi d) <> 42 :: repeat 0 15 ->
    exists l t, step pre d (GetSdi i) = (d, Content l) /\ NoDup (map fst l) /\
      In (str "uuid", RStr t) l /\ uuid_text t (s_uuid (d_sdi d)) /\ In (str "name", RStr (s_name (d_sdi d))) l /\ In (str "priv", RBool (s_priv (d_sdi d))) l.
Proof.
  intros pre d i T W. destruct (uuid_to_str_spec (s_uuid (d_sdi d)) 37 (proj1 T) (proj2 T) W) as (t & E & U & _); [lia|].
  exists (sdi_encode (N.testbit i 1) (d_sdi d)), t. split; [reflexivity|]. unfold sdi_encode, uuid_str. rewrite E. split.
  - destruct (N.testbit i 1); cbn [app map fst sdi_baseline]; repeat constructor; cbn [In]; intros H; repeat (destruct H as [H|H]; [discriminate|]); destruct H.
  - split; [apply in_or_app; right; left; reflexivity|]. split; [exact U|].
    split; [apply in_or_app; right; right; left; reflexivity|apply in_or_app; right; right; right; left; reflexivity].
Qed.
Print Assumptions C83_get.

Definition dom : list N := [59; 150; 47; 196; 5; 6; 71; 8; 89; 10; 11; 12; 13; 14; 15; 255].
Definition dom_text : list N := str "3b962fc4-0506-4708-590a-0b0c0d0e0fff".
Definition setup_ops : list op :=
  [PostSdi true [(str "uuid", RStr dom_text); (str "name", RStr (str "home")); (str "priv", RBool true)]; Move true 2;
   PostSdi true [(str "name", RStr (str "house"))]; Move true 3].
Example C83_ex :
  Forall written_op setup_ops /\ d_sdi (run None blank (Boot :: setup_ops)) = mkSdi dom (str "house") true /\
  d_owned (run None blank (Boot :: setup_ops)) = true /\ d_sdi (run None blank (Boot :: setup_ops ++ [Boot])) = mkSdi dom (str "house") true /\
  snd (step None (run None blank (Boot :: setup_ops)) (PostSdi true [(str "name", RStr (str "x"))])) = BadRequest /\ uuid_text dom_text dom.
Proof.
  split; [repeat constructor|]. split; [vm_compute; reflexivity|]. split; [reflexivity|]. split; [vm_compute; reflexivity|]. split; [vm_compute; reflexivity|].
  destruct (uuid_to_str_spec dom 37) as (t & E & U & _); [repeat constructor|reflexivity|discriminate|lia|].
  assert (t = dom_text) by (assert (uuid_to_str dom 37 = Some dom_text) by reflexivity; congruence). subst t. exact U.
Qed.
Example C83_may_ex : may_update 1 [(str "uuid", RStr dom_text); (str "x", RInt 1)] /\ ~ may_update 3 [(str "name", RStr [])] /\ ~ may_update 2 [(str "name", RStr []); (str "uuid", RStr dom_text)].
Proof.
  split; [|split].
  - split; [intros s [H|[H|[]]]; [|discriminate H]; assert (s = dom_text) by congruence; subst s; split; [reflexivity|vm_compute; lia]|].
    split; [intros s [H|[H|[]]]; discriminate H|]. split; [intros s [H|[H|[]]]; discriminate H|]. left. exists dom_text. left. reflexivity.
  - intros (_ & H & _). destruct (H [] (or_introl eq_refl)) as [X|[X|X]]; discriminate X.
  - intros (H & _). destruct (H dom_text) as [X _]; [right; left; reflexivity|discriminate X].
Qed.

(** The identifier 2a000000-0000-0000-0000-000000000000 is accepted, stored as an asterisk, and not read back: after a
    restart the name is gone as well. *)
Theorem C83_asterisk_refuted :
  exists ops d, ops = [PostSdi true [(str "uuid", RStr (str "2a000000-0000-0000-0000-000000000000")); (str "name", RStr (str "home"))]; Move true 3] /\
    Forall written_op ops /\ d = run None blank (Boot :: ops) /\ d_owned d = true /\ s_name (d_sdi d) = str "home" /\ d_sdi (fst (step None d Boot)) = sdi0.
Proof. do 2 eexists. split; [reflexivity|]. split; [repeat constructor|]. split; [reflexivity|]. split; [reflexivity|]. split; vm_compute; reflexivity. Qed.
Print Assumptions C83_asterisk_refuted.

(** Text that is no identifier is answered as done: 36 digits change nothing, and of letters beyond f only zeros remain. *)
Theorem C83_no_identifier_refuted :
  exists l1 l2 d, l1 = [(str "uuid", RStr (repeat 97 36))] /\ l2 = [(str "uuid", RStr (str "zzzzzzzz-zzzz-zzzz-zzzz-zzzzzzzzzzzz"))] /\
    s_uuid (d_sdi d) = dom /\ step None d (PostSdi true l1) = (d, ChangedOk) /\
    snd (step None d (PostSdi true l2)) = ChangedOk /\ s_uuid (d_sdi (fst (step None d (PostSdi true l2)))) = repeat 0 16.
Proof.
  do 2 eexists. exists (mkDev false 1 (mkSdi dom [] false) sp_init sp_init (Some (sdi_dump (mkSdi dom [] false))) None).
  split; [reflexivity|]. split; [reflexivity|]. split; [reflexivity|]. split; [vm_compute; reflexivity|]. split; vm_compute; reflexivity.
Qed.
Print Assumptions C83_no_identifier_refuted.

(** * C84 *)

(** In normal operation every update is refused. *)
Theorem C84_operational : forall pre d w l, d_state d = 3 -> step pre d (PostSp w l) = (d, BadRequest).
Proof. intros pre d w l H. cbn [step]. unfold sp_decode_for. rewrite H. destruct d; reflexivity. Qed.
Print Assumptions C84_operational.

(** Otherwise an update that is allowed is done: the profiles supported are those listed, the current one is the one given;
    what is not given stays. It is stored. *)
Theorem C84_update :
  forall pre d w l, d_state d <> 3 -> may_profile (d_sp d) l ->
    exists d', step pre d (PostSp w l) = (d', ChangedOk) /\ same_but_sp d d' /\ f_sp d' = (if w then Some (sp_dump (d_sp d')) else f_sp d) /\
      mask_of l (d_sp d) (p_sup (d_sp d')) /\ (no_text l (str "currentprofile") -> p_cur (d_sp d') = p_cur (d_sp d)) /\
      (forall s i, last_text l (str "currentprofile") s -> profile s i -> p_cur (d_sp d') = 2 ^ i).
Proof.
  intros pre d w l S M. destruct (sp_decode_spec l (d_sp d)) as [(_ & m & c & E & K & C1 & C2)|(H & _)]; [|contradiction].
  cbn [step]. unfold sp_decode_for, RFNOP. destruct (N.eqb_spec (d_state d) 3); [contradiction|]. rewrite E. eexists. split; [reflexivity|].
  split; [repeat split|]. split; [reflexivity|]. split; [exact K|]. split; assumption.
Qed.
Print Assumptions C84_update.

(** Any other is refused; the current profile, and what is stored, are as before. *)
Theorem C84_refused :
  forall pre d w l, ~ may_profile (d_sp d) l ->
    exists d', step pre d (PostSp w l) = (d', BadRequest) /\ same_but_sp d d' /\ f_sp d' = f_sp d /\ p_cur (d_sp d') = p_cur (d_sp d) /\
      (p_sup (d_sp d') = p_sup (d_sp d) \/ mask_of l (d_sp d) (p_sup (d_sp d'))).
Proof.
  intros pre d w l M. cbn [step]. unfold sp_decode_for. destruct (d_state d =? RFNOP).
  - eexists. split; [reflexivity|]. split; [repeat split|]. split; [reflexivity|]. split; [reflexivity|]. left. reflexivity.
  - destruct (sp_decode_spec l (d_sp d)) as [(H & _)|(_ & m & E & K)]; [contradiction|]. rewrite E. eexists. split; [reflexivity|].
    split; [repeat split|]. split; [reflexivity|]. split; [reflexivity|exact K].
Qed.
Print Assumptions C84_refused.

(** A request tells the profile: the current one, and exactly the supported ones. *)
Theorem C84_get :
  forall pre d i k, i = 2 \/ i = 32 -> 1 <= k <= 4 -> p_cur (d_sp d) = 2 ^ k ->
    exists l names, step pre d (GetSp i) = (d, Content l) /\ NoDup (map fst l) /\ In (str "currentprofile", RStr (oid k)) l /\
      In (str "supportedprofiles", RStrArr names) l /\ NoDup names /\ (forall s, In s names -> exists j, profile s j) /\
      forall j, 1 <= j <= 4 -> (In (oid j) names <-> N.testbit (p_sup (d_sp d)) j = true).
Proof.
  intros pre d i k Hi Hk C. destruct (names_spec (p_sup (d_sp d))) as (A & B & D).
  exists (sp_encode (i =? 2) (d_sp d)), (sp_names (p_sup (d_sp d))). split; [destruct Hi as [-> | ->]; reflexivity|].
  assert (In1 : forall b, In (str "currentprofile", RStr (oid k)) (sp_encode b (d_sp d))).
  { intros b. unfold sp_encode. rewrite C, (sp_str_oid k Hk). apply in_or_app. right. left. reflexivity. }
  split; [unfold sp_encode; destruct (i =? 2); cbn [app map fst sp_baseline]; repeat constructor; cbn [In]; intros H; repeat (destruct H as [H|H]; [discriminate|]); destruct H|].
  split; [apply In1|]. split; [unfold sp_encode; apply in_or_app; right; right; left; reflexivity|]. split; [exact D|]. split; [exact B|exact A].
Qed.
Print Assumptions C84_get.

(** An update done outside of normal operation, with a profile in order, survives a restart in the same state. *)
Theorem C84_restart :
  forall pre d l d', step pre d (PostSp true l) = (d', ChangedOk) -> d_owned d' = true -> well (d_sp d') ->
    d_sp (fst (step pre d' Boot)) = d_sp d'.
Proof.
  intros pre d l d' E O W. assert (S : d_state d <> 3) by (intros S; rewrite (C84_operational pre d true l S) in E; discriminate E).
  cbn [step fst]. apply sp_reload; [exact O| |exact W|].
  - cbn [step] in E. destruct (sp_decode_for (d_state d) l (d_sp d)) as [[] p]; [|discriminate E]. assert (d' = with_sp d p (Some (sp_dump p))) by congruence. subst d'. exact S.
  - cbn [step] in E. destruct (sp_decode_for (d_state d) l (d_sp d)) as [[] p]; [|discriminate E]. assert (d' = with_sp d p (Some (sp_dump p))) by congruence. subst d'. reflexivity.
Qed.
Print Assumptions C84_restart.

(** The application presets a profile: it is the current one and supported, beside what was supported, and becomes the
    manufacturer's. *)
Theorem C84_preset :
  forall pre d sup cur, let d' := fst (step pre d (Profile (sup, cur))) in
    same_but_sp d (mkDev (d_owned d') (d_state d') (d_sdi d') (d_sp d') (d_mfg d) (f_sdi d') (f_sp d')) /\ f_sp d' = f_sp d /\
    d_mfg d' = d_sp d' /\ p_cur (d_sp d') = cur /\ forall j, N.testbit (p_sup (d_sp d')) j = N.testbit (p_sup (d_mfg d)) j || N.testbit sup j.
Proof.
  intros pre d sup cur d'. split; [repeat split|]. split; [reflexivity|]. split; [reflexivity|]. split; [reflexivity|]. intros j. apply N.lor_spec.
Qed.
Print Assumptions C84_preset.

(** After a reset the profile is the manufacturer's. *)
Theorem C84_reset :
  forall pre d, let d' := fst (step pre d FactoryReset) in
    match pre with
    | None => d_sp d' = d_mfg d
    | Some (sup, cur) => p_cur (d_sp d') = cur /\ forall j, N.testbit (p_sup (d_sp d')) j = N.testbit (p_sup (d_mfg d)) j || N.testbit sup j
    end.
Proof. intros [[sup cur]|] d d'; [|reflexivity]. split; [reflexivity|]. intros j. apply N.lor_spec. Qed.
Print Assumptions C84_reset.

Definition black : list rep := [(str "currentprofile", RStr (oid 2)); (str "supportedprofiles", RStrArr [oid 1; oid 2])].
Definition in_rfpro : dev := run None blank [Boot; Move true 2].
Example C84_ex :
  may_profile (d_sp in_rfpro) black /\ d_sp in_rfpro = mkSp 2 2 /\
  d_sp (fst (step None in_rfpro (PostSp true black))) = mkSp 6 4 /\ well (mkSp 6 4) /\ d_owned in_rfpro = true /\
  d_sp (run None in_rfpro [PostSp true black; Boot]) = mkSp 6 4 /\
  snd (step None in_rfpro (PostSp true [(str "currentprofile", RStr (oid 2))])) = BadRequest.
Proof.
  split; [|split; [vm_compute; reflexivity|split; [vm_compute; reflexivity|split; [|split; [vm_compute; reflexivity|split; vm_compute; reflexivity]]]]].
  - split; [|split].
    + intros n v [H|[H|[]]]; [left|right]; (split; [congruence|eexists; symmetry; exact (f_equal snd H)]).
    + intros a (x & y & E & _). unfold black in E. destruct x as [|r1 x]; [discriminate E|]. destruct x as [|r2 x]; [|destruct x; discriminate E].
      cbn [app] in E. assert (a = [oid 1; oid 2]) by congruence. subst a. constructor; [exists (oid 1), 1|constructor; [exists (oid 2), 2|constructor]];
        (split; [apply reads_cstr; reflexivity|split; [lia|reflexivity]]).
    + intros s (x & y & E & _). unfold black in E. destruct x as [|r1 x]; [|destruct x as [|r2 x]; [discriminate E|destruct x; discriminate E]].
      cbn [app] in E. assert (s = oid 2) by congruence. subst s. exists 2. split; [split; [lia|reflexivity]|]. right. exists [oid 1; oid 2].
      split; [exists [(str "currentprofile", RStr (oid 2))], []; split; [reflexivity|intros t []]|]. exists (oid 2). split; [right; left; reflexivity|apply reads_cstr; reflexivity].
  - exists 2. split; [lia|]. split; [reflexivity|]. split; [reflexivity|]. intros j H. destruct (N.leb_spec j 4) as [L|L].
    + destruct (N.eqb_spec j 0) as [->|]; [discriminate H|lia].
    + exfalso. assert (Z : N.testbit 6 j = false) by (apply N.bits_above_log2; change (N.log2 6) with 2; lia). cbn [p_sup] in H. congruence.
Qed.

(** A refused update has changed the profiles supported. *)
Theorem C84_refused_changes_refuted :
  exists l d', l = [(str "supportedprofiles", RStrArr [oid 4]); (str "currentprofile", RStr (oid 2))] /\ step None in_rfpro (PostSp true l) = (d', BadRequest) /\
    p_sup (d_sp in_rfpro) = 2 /\ p_sup (d_sp d') = 16.
Proof. do 2 eexists. split; [reflexivity|]. split; [vm_compute; reflexivity|]. split; vm_compute; reflexivity. Qed.
Print Assumptions C84_refused_changes_refuted.

(** An update that leaves out the current profile makes it one that is not supported; this is not read back either. *)
Theorem C84_unsupported_current_refuted :
  exists l d', l = [(str "supportedprofiles", RStrArr [oid 4])] /\ step None in_rfpro (PostSp true l) = (d', ChangedOk) /\ d_sp d' = mkSp 16 2 /\
    d_sp (fst (step None d' Boot)) = mkSp 2 2.
Proof. do 2 eexists. split; [reflexivity|]. split; [vm_compute; reflexivity|]. split; vm_compute; reflexivity. Qed.
Print Assumptions C84_unsupported_current_refuted.

(** A device that is restarted in normal operation loses its profile, in memory and in the storage. *)
Theorem C84_restart_operational_refuted :
  exists ops d, ops = [Boot; Move true 2; PostSp true black; Move true 3] /\ d = run None blank ops /\ d_sp d = mkSp 6 4 /\ f_sp d = Some (sp_dump (mkSp 6 4)) /\
    d_sp (fst (step None d Boot)) = mkSp 2 2 /\ f_sp (fst (step None d Boot)) = Some (sp_dump (mkSp 2 2)).
Proof. do 2 eexists. split; [reflexivity|]. split; [reflexivity|]. split; [vm_compute; reflexivity|]. split; [vm_compute; reflexivity|]. split; vm_compute; reflexivity. Qed.
Print Assumptions C84_restart_operational_refuted.

(** The profile that the manufacturer presets is overwritten at the same start by the default that the reset has stored. *)
Theorem C84_first_start_refuted :
  exists pre, pre = Some (4, 4) /\ d_sp (fst (step pre blank FactoryReset)) = mkSp 6 4 /\ d_sp (fst (step pre blank Boot)) = mkSp 2 2.
Proof. eexists. split; [reflexivity|]. split; vm_compute; reflexivity. Qed.
Print Assumptions C84_first_start_refuted.
