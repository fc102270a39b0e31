From Verif Require Import Common Query_Model Query_Spec Rep_Model Repd_Model Repd_Spec Repd_Proofs Hex_Model Acl_Model Ob_Model Ri_Model Col_Model Col_Spec Col4_Proofs Disc_Model Disc_Spec.
From Verif Require Ep_Model Ep_Spec Ep_Proofs.
From Coq Require Import String.
Local Open Scope string_scope.
Local Open Scope list_scope.
Local Open Scope N_scope.

Notation rep := Rep_Model.rep.

Lemma hasbit fl k : has fl (2 ^ k) = N.testbit fl k. Proof. exact (Ep_Proofs.has_bit fl k). Qed.
Lemma has_disc p : has p OC_DISCOVERABLE = N.testbit p 0. Proof. exact (hasbit p 0). Qed.
Lemma has_secure p : has p OC_SECURE = N.testbit p 4. Proof. exact (hasbit p 4). Qed.
Lemma has_mcast p : has p OC_SECURE_MCAST = N.testbit p 8. Proof. exact (hasbit p 8). Qed.
Lemma has_rfotm p : has p OC_ACCESS_IN_RFOTM = N.testbit p 9. Proof. exact (hasbit p 9). Qed.
Lemma has_multi p : has p Ep_Model.MULTICAST = N.testbit p 6. Proof. exact (hasbit p 6). Qed.

(** * Listing *)

Lemma core_get_spec s k dev r : cores_ok s ->
  (core_get s k dev = Some r <-> In r (v_core s) /\ d_core r = Some k /\ (k < 2 \/ d_dev r = dev)).
Proof.
  intros (_ & U & _). unfold core_get.
  set (f := fun r => match d_core r with Some k' => (k' =? k) && ((k <? OCF_CON) || (d_dev r =? dev)) | None => false end).
  assert (F : forall x, f x = true <-> d_core x = Some k /\ (k < 2 \/ d_dev x = dev)).
  { intros x. unfold f, OCF_CON. destruct (d_core x) as [k'|]; [|split; [discriminate|intros [H _]; discriminate]].
    rewrite andb_true_iff, orb_true_iff, !N.eqb_eq, N.ltb_lt. split; [intros [-> H]; auto|intros [[= ->] H]; auto]. }
  split.
  - intros H. destruct (find_some _ _ H) as [I T]. apply F in T. tauto.
  - intros (I & K). apply F in K. destruct (find f (v_core s)) as [r'|] eqn:E.
    + destruct (find_first _ _ _ E) as (a & b & L & T & A). f_equal. apply F in T. pose proof K as K0. apply F in K.
      rewrite L in I. apply in_app_or in I. destruct I as [I|[I|I]]; [|exact I|].
      * specialize (A _ I). congruence.
      * apply in_split in I. destruct I as (y & z & ->). destruct (U a r' y r z L ltac:(destruct T, K; congruence)) as (N0 & N1 & D).
        destruct T as [T1 T2], K as [K1 K2]. exfalso. destruct T2 as [T2|T2]; [|destruct K2 as [K2|K2]; [|congruence]].
        -- assert (k = 0 \/ k = 1) as [->| ->] by lia; congruence.
        -- assert (k = 0 \/ k = 1) as [->| ->] by lia; congruence.
    + pose proof (find_none _ _ E _ I). congruence.
Qed.

Lemma in_opt {A} (o : option A) x : In x (opt_list o) <-> o = Some x.
Proof. destruct o; cbn [opt_list In]; split; [intros [->|[]]; auto|intros [= ->]; auto|intros []|discriminate]. Qed.

Lemma kinds_spec k : In k core_kinds <-> k <= 19 /\ k <> 0 /\ k <> 1 /\ k <> 2 /\ k <> 4 /\ k <> 5.
Proof.
  unfold core_kinds, OCF_RES, OCF_D, OCF_INTROSPECTION_WK, OCF_MNT, OCF_SW_UPDATE, OCF_SEC_DOXM, OCF_SEC_PSTAT, OCF_SEC_ACL, OCF_SEC_AEL, OCF_SEC_CRED, OCF_SEC_SP, OCF_SEC_CSR, OCF_SEC_ROLES, OCF_SEC_SDI, OCF_COAPCLOUDCONF.
  cbn [In]. lia.
Qed.

Lemma core_listed_spec s dev r : cores_ok s ->
  (In r (core_listed s dev) <-> exists k, d_core r = Some k /\ announced_kind s k /\ In r (v_core s) /\ (k < 2 \/ d_dev r = dev)).
Proof.
  intros C. unfold core_listed. rewrite !in_app_iff, !in_flat_map. split.
  - intros [(k & K & H)|[H|(k & K & H)]].
    + apply in_opt, (core_get_spec s k 0 r C) in H. destruct H as (I & T & _). exists k. unfold announced_kind. cbn [In] in K. unfold OCF_P, PLGD_TIME in K.
      destruct K as [<-|[<-|[]]]; (split; [exact T|]; split; [split; [lia|split; [lia|split; [lia|lia]]]|]; split; [exact I|left; lia]).
    + destruct (v_con s) eqn:E; [|destruct H]. apply in_opt, (core_get_spec s _ dev r C) in H. destruct H as (I & T & D). exists OCF_CON. unfold announced_kind, OCF_CON in *.
      split; [exact T|]. split; [split; [lia|split; [lia|split; [lia|auto]]]|]. auto.
    + apply in_opt, (core_get_spec s k dev r C) in H. destruct H as (I & T & D). apply kinds_spec in K. exists k. unfold announced_kind. split; [exact T|]. split; [|auto]. repeat split; lia.
  - intros (k & T & (K1 & K2 & K3 & K4) & I & D).
    destruct (N.eq_dec k 0) as [->|]; [left; exists 0; split; [left; reflexivity|]; apply in_opt, (core_get_spec s 0 0 r C); split; [exact I|split; [exact T|left; lia]]|].
    destruct (N.eq_dec k 1) as [->|]; [left; exists 1; split; [right; left; reflexivity|]; apply in_opt, (core_get_spec s 1 0 r C); split; [exact I|split; [exact T|left; lia]]|].
    right. destruct (N.eq_dec k 2) as [->|]; [left; rewrite (K4 eq_refl); apply in_opt, (core_get_spec s OCF_CON dev r C); auto|].
    right. exists k. split; [apply kinds_spec; repeat split; lia|]. apply in_opt, core_get_spec; auto.
Qed.

Lemma nodup_flat (s : server) (f : N -> option dres) ks : (forall k r, f k = Some r -> d_core r = Some k) -> NoDup ks ->
  NoDup (flat_map (fun k => opt_list (f k)) ks) /\ forall r, In r (flat_map (fun k => opt_list (f k)) ks) -> exists k, d_core r = Some k /\ In k ks.
Proof.
  intros F. clear s. induction 1 as [|k ks NI ND [IH1 IH2]]; [split; [constructor|intros r []]|]. cbn [flat_map]. destruct (f k) as [r|] eqn:E; cbn [opt_list app].
  - split.
    + constructor; [|exact IH1]. intros H. destruct (IH2 _ H) as (k' & K & I). rewrite (F _ _ E) in K. injection K as <-. contradiction.
    + intros x [<-|H]; [exists k; split; [exact (F _ _ E)|left; reflexivity]|]. destruct (IH2 _ H) as (k' & K & I). exists k'. split; [exact K|right; exact I].
  - split; [exact IH1|]. intros x H. destruct (IH2 _ H) as (k' & K & I). exists k'. split; [exact K|right; exact I].
Qed.

Lemma nodup_app {A} (a b : list A) : NoDup a -> NoDup b -> (forall x, In x a -> ~ In x b) -> NoDup (a ++ b).
Proof.
  induction 1 as [|x a NI ND IH]; [auto|]. intros B D. cbn [app]. constructor.
  - rewrite in_app_iff. intros [H|H]; [contradiction|]. exact (D x (or_introl eq_refl) H).
  - apply IH; [exact B|]. intros y Hy. apply D. right. exact Hy.
Qed.

Lemma kinds_nodup : NoDup core_kinds.
Proof. vm_compute. repeat (constructor; [cbn [In]; intuition discriminate|]). constructor. Qed.

Lemma core_listed_nodup s dev : cores_ok s -> NoDup (core_listed s dev).
Proof.
  intros C. unfold core_listed.
  assert (G : forall dv k r, core_get s k dv = Some r -> d_core r = Some k) by (intros dv k r H; apply (core_get_spec s k dv r C) in H; tauto).
  destruct (nodup_flat s (fun k => core_get s k 0) [OCF_P; PLGD_TIME] (G 0)) as [A1 A2].
  { constructor; [intros [H|[]]; discriminate|]. constructor; [intros []|constructor]. }
  destruct (nodup_flat s (fun k => core_get s k dev) core_kinds (G dev) kinds_nodup) as [B1 B2].
  apply nodup_app; [exact A1| |].
  - apply nodup_app; [|exact B1|].
    + destruct (v_con s); [|constructor]. destruct (core_get s OCF_CON dev); cbn [opt_list]; [|constructor]. constructor; [intros []|constructor].
    + intros r H1 H2. destruct (v_con s); [|exact H1]. apply in_opt, G in H1. destruct (B2 _ H2) as (k & K & I). apply kinds_spec in I. rewrite H1 in K. injection K as <-. unfold OCF_CON in I. lia.
  - intros r H1 H2. destruct (A2 _ H1) as (k & K & I). cbn [In] in I. unfold OCF_P, PLGD_TIME in I. apply in_app_or in H2. destruct H2 as [H2|H2].
    + destruct (v_con s); [|exact H2]. apply in_opt, G in H2. rewrite H2 in K. injection K as <-. unfold OCF_CON in I. lia.
    + destruct (B2 _ H2) as (k' & K' & I'). apply kinds_spec in I'. rewrite K' in K. injection K as <-. lia.
Qed.

Lemma shown_spec q ps r : Forall wf_pair ps -> q_query q = render ps -> (shown q r = true <-> discoverable r /\ wanted (d_types r) ps).
Proof.
  intros W E. unfold shown, discoverable. rewrite E, has_disc. destruct (filter_rt_spec ps (d_types r) W) as (b & -> & B). rewrite andb_true_iff, B. tauto.
Qed.

Lemma filter_filter {A} (f g : A -> bool) l : filter f (filter g l) = filter (fun x => g x && f x) l.
Proof. induction l as [|x l IH]; [reflexivity|]. cbn [filter]. destruct (g x); cbn [filter andb]; [destruct (f x); rewrite IH; reflexivity|exact IH]. Qed.

Lemma device_links_spec s q we ps : cores_ok s -> Forall wf_pair ps -> q_query q = render ps ->
  exists rs, device_links s q we = map (link_of s q we) rs /\ listed s q ps rs.
Proof.
  intros C W E. exists (filter (shown q) (candidates s (q_dev q))). split; [reflexivity|].
  exists (filter (shown q) (core_listed s (q_dev q))), (fun r => (d_dev r =? q_dev q) && shown q r).
  split; [|split; [|split]].
  - unfold candidates. rewrite !filter_app, !filter_filter. reflexivity.
  - apply NoDup_filter, core_listed_nodup, C.
  - intros r. rewrite filter_In, (core_listed_spec s _ r C), (shown_spec q ps r W E). tauto.
  - intros r. rewrite andb_true_iff, N.eqb_eq, (shown_spec q ps r W E). tauto.
Qed.

(** * Endpoints *)

Lemma origin_match_spec o e : origin_match o e = true <-> same_way o e.
Proof.
  unfold origin_match, same_way, v4, v6. rewrite !Ep_Proofs.has4, !Ep_Proofs.has6.
  destruct (N.eqb_spec (Ep_Model.e_if o) 0) as [Z|Z]; cbn [negb andb].
  - destruct (N.testbit (Ep_Model.e_flags o) 2), (N.testbit (Ep_Model.e_flags o) 3), (N.testbit (Ep_Model.e_flags e) 2), (N.testbit (Ep_Model.e_flags e) 3); cbn [andb orb negb]; split; intros H; try discriminate; intuition congruence.
  - destruct (N.eqb_spec (Ep_Model.e_if o) (Ep_Model.e_if e)) as [Y|Y]; cbn [negb].
    + destruct (N.testbit (Ep_Model.e_flags o) 2), (N.testbit (Ep_Model.e_flags o) 3), (N.testbit (Ep_Model.e_flags e) 2), (N.testbit (Ep_Model.e_flags e) 3); cbn [andb orb negb]; split; intros H; try discriminate; intuition congruence.
    + split; [discriminate|]. intros ([H|H] & _); contradiction.
Qed.

Lemma is_svr_spec r dev : is_svr r dev = true <-> security_resource r dev.
Proof.
  unfold is_svr, security_resource, OCF_SEC_DOXM, OCF_D. destruct (d_core r) as [k|]; [|split; [discriminate|intros (k & H & _); discriminate]].
  rewrite !andb_true_iff, N.eqb_eq, !N.leb_le. split.
  - intros [[A B] D]. exists k. split; [reflexivity|]. split; [lia|exact D].
  - intros (k' & [= ->] & B & D). split; [lia|exact D].
Qed.

Lemma filter_out_spec s q r e : negb (filter_out s (q_origin q) r (owned_svr s r (q_dev q)) e) = true <-> announced_at s q r e.
Proof.
  unfold filter_out, announced_at, only_secured, owned_svr, secured. rewrite <- origin_match_spec, <- is_svr_spec, has_rfotm, has_secure, Ep_Proofs.has_sec.
  destruct (origin_match (q_origin q) e); cbn [negb]; [|split; [discriminate|intros [H _]; discriminate]].
  destruct (v_rfotm s), (N.testbit (d_props r) 9), (N.testbit (d_props r) 4), (is_svr r (q_dev q)), (v_peers s), (N.testbit (Ep_Model.e_flags e) 1);
    cbn [andb orb negb]; split; intros H; try reflexivity; try discriminate; try (split; [reflexivity|]; intuition congruence);
    exfalso; destruct H as [_ H]; (assert (false = true) by (apply H; intuition congruence); discriminate).
Qed.

Lemma encode_ep_object s e : ep_object s e (encode_ep (v_latency s) e).
Proof.
  unfold ep_object, encode_ep. destruct (N.ltb_spec 0 (v_latency s)) as [L|L]; destruct (Ep_Model.to_string e) as [t|]; cbn [List.app]; split; intros x;
    unfold get_s, get_i; vm_compute get_by; split; try discriminate; try (intros [= <-]; reflexivity); try (intros [= <-]; auto; fail); try (intros [_ ->]; reflexivity); try lia.
Qed.
