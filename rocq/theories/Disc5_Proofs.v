From Verif Require Import Common Query_Spec Rep_Model Repd_Model Repd_Spec Repd_Proofs Hex_Model Acl_Model Acl2_Proofs Ob_Model Ri_Model Col_Spec Disc_Model Disc_Spec Disc_Proofs Disc2_Proofs Disc3_Proofs Disc4_Proofs.
From Verif Require Ep_Model Ep_Spec.
From Coq Require Import String.
Local Open Scope string_scope.
Local Open Scope list_scope.
Local Open Scope N_scope.

(** * The link of a resource at the client *)

Lemma encode_ifs_short m : Forall short (encode_ifs m).
Proof.
  rewrite encode_ifs_alt. apply Forall_forall. intros n I. apply in_map_iff in I. destruct I as ((b & n') & <- & I). apply filter_In in I. destruct I as [I _].
  unfold bits_names in I. cbn [In] in I. unfold short. cbn [snd].
  repeat (destruct I as [I|I]; [assert (En := f_equal snd I); cbn [snd] in En; rewrite <- En; vm_compute; repeat constructor|]). destruct I.
Qed.
Lemma encode_ifs_plain m n : In n (encode_ifs m) -> cstr n = n.
Proof.
  rewrite encode_ifs_alt. intros I. apply in_map_iff in I. destruct I as ((b & n') & <- & I). apply filter_In in I. destruct I as [I _].
  unfold bits_names in I. cbn [In] in I. cbn [snd].
  repeat (destruct I as [I|I]; [assert (En := f_equal snd I); cbn [snd] in En; rewrite <- En; vm_compute; reflexivity|]). destruct I.
Qed.
Lemma some_ifs r : resource_ok r -> encode_ifs (d_ifs r) <> [].
Proof. intros R E. destruct (ro_some_if _ R) as (b & n & P & T). assert (I : In n (encode_ifs (d_ifs r))) by (apply encode_ifs_names; exists b; auto). rewrite E in I. destruct I. Qed.
Lemma types_same r : resource_ok r -> filter is_nonempty (d_types r) = d_types r.
Proof.
  intros R. pose proof (ro_types _ R) as F. induction F as [|t l (N & _) F IH]; [reflexivity|]. cbn [filter]. destruct t; [congruence|]. cbn [is_nonempty]. rewrite IH. reflexivity.
Qed.

Lemma wmems_app a b : wmems a -> wmems b -> wmems (a ++ b).
Proof. induction 1; [auto|]. intros. cbn [app]. constructor; auto. Qed.
Lemma wmems_tags r : resource_ok r -> wmems (encode_tags r).
Proof.
  intros R. pose proof (ro_pos _ R) as P. unfold encode_tags.
  repeat apply wmems_app; [destruct (d_locn r)|destruct (d_pos r) as [p|]|destruct (d_desc r)|destruct (d_func r)]; constructor; try constructor. apply P. reflexivity.
Qed.

Definition seen_eps (os : list (list rep)) : rval := match os with [] => RNil | _ => RObjArr os end.
Definition seen_link (s : server) (q : dreq) (r : dres) : list rep :=
  (match d_core r with Some k => if k =? OCF_RES then [(str "rel", RStrArr [str "self"])] else [] | None => [] end) ++
  [(str "anchor", RStr (str "ocf://" ++ uuid_str (v_id s))); (str "href", RStr (d_uri r));
   (str "rt", RStrArr (d_types r)); (str "if", RStrArr (encode_ifs (d_ifs r)));
   (str "p", RObj [(str "bm", RInt (Z.of_N (N.land (d_props r) POLICY)))])] ++
  [(str "eps", seen_eps (encode_eps s q r))] ++ encode_tags r.

Lemma wmems_ep s e : server_ok s -> wmems (encode_ep (v_latency s) e).
Proof.
  intros S. unfold encode_ep. apply wmems_app; [destruct (Ep_Model.to_string e); repeat constructor|]. destruct (0 <? v_latency s) eqn:E; [|constructor]. constructor; [|constructor]. constructor.
  pose proof (so_latency _ S) as L. change (2 ^ 63) with 9223372036854775808 in L. unfold in64. change (2 ^ 63)%Z with 9223372036854775808%Z. lia.
Qed.
Lemma rd_eps s q r : server_ok s -> Forall2 rd (encode_eps s q r) (encode_eps s q r).
Proof.
  intros S. unfold encode_eps. apply Forall2_app.
  - induction (filter _ (v_eps s)) as [|e l IH]; [constructor|]. cbn [map]. constructor; [apply rd_writable, wmems_ep, S|exact IH].
  - destruct (v_oscore s && has (d_props r) OC_SECURE_MCAST); [|constructor]. constructor; [|constructor]. apply rd_writable. repeat constructor.
Qed.

Lemma land_small p : in64 (Z.of_N (N.land p POLICY)).
Proof.
  unfold POLICY. change 7 with (N.ones 3). rewrite N.land_ones. assert (p mod 2 ^ 3 < 8) by (apply N.mod_lt; discriminate). unfold in64. change (2 ^ 63)%Z with 9223372036854775808%Z. lia.
Qed.
Lemma rd_link s q r : server_ok s -> resource_ok r -> rd (link_of s q true r) (seen_link s q r).
Proof.
  intros S R. unfold link_of, seen_link. rewrite (types_same r R).
  assert (W : forall l, wmems l -> rd l l) by (intros; apply rd_writable; assumption).
  apply Forall2_app; [apply W; destruct (d_core r) as [k|]; [destruct (k =? OCF_RES)|]; repeat constructor; discriminate|].
  apply Forall2_app.
  - apply W. repeat constructor.
    + apply (ro_some_type _ R).
    + eapply Forall_impl; [|exact (ro_types _ R)]. intros t (_ & _ & L). exact L.
    + apply some_ifs, R.
    + apply encode_ifs_short.
    + apply land_small.
    + apply land_small.
  - apply Forall2_app; [|apply W, wmems_tags, R]. constructor; [|constructor]. split; [reflexivity|]. cbn [fst snd].
    pose proof (rd_eps s q r S) as E. unfold seen_eps. destruct (encode_eps s q r) as [|o os] eqn:En; [reflexivity|]. apply rd_objs; [exact E|discriminate].
Qed.

Lemma cstr_plain t : plain_text t -> cstr t = t.
Proof. intros H. apply cstr_nz. apply Forall_forall. intros c I ->. exact (H I). Qed.

Lemma tags_kinds r : Forall (fun b => ~ text_named (str "href") b /\ ~ text_named (str "anchor") b /\ ~ texts_named (str "rt") b /\ ~ other_texts b /\
  ~ obj_array b /\ ~ exists z, policy_attr b z) (encode_tags r).
Proof.
  unfold encode_tags. repeat (apply Forall_app; split);
    (destruct (d_locn r) || idtac); (destruct (d_pos r) || idtac); (destruct (d_desc r) || idtac); (destruct (d_func r) || idtac); repeat constructor;
    try (intros [K _]; discriminate K); try (intros [_ (t & K)]; discriminate K); try (intros (o & K); discriminate K); try (intros (z & K & _); discriminate K).
Qed.

Definition call_for (s : server) (r : dres) (es : list ep) (more : bool) : call :=
  mkCall (str "ocf://" ++ uuid_str (v_id s)) (d_uri r) (d_types r) (ifs_of (encode_ifs (d_ifs r))) (map (fun e => (e, Some (v_id s))) es)
         (Z.of_N (N.land (d_props r) POLICY)) more.

Ltac not_kind := first [intros [K _]; discriminate K | intros [_ (?t & K)]; discriminate K | intros (?o & K); discriminate K | intros (?z & K & _); discriminate K | intros (?z & _ & ?o & K); discriminate K].

Lemma link_complete dns from s q r es more : server_ok s -> resource_ok r -> array_eps dns from (encode_eps s q r) es ->
  complete dns from (seen_link s q r) (call_for s r es more).
Proof.
  intros S R A. pose proof (tags_kinds r) as TK. unfold seen_link. set (tags := encode_tags r) in *.
  set (pre := match d_core r with Some k => _ | None => _ end).
  assert (PK : Forall (fun b => ~ text_named (str "anchor") b /\ ~ obj_array b) pre).
  { unfold pre. destruct (d_core r) as [k|]; [destruct (k =? OCF_RES)|]; repeat constructor; not_kind. }
  set (ea := (str "eps", seen_eps (encode_eps s q r))).
  assert (EK : ~ text_named (str "href") ea /\ ~ text_named (str "anchor") ea /\ ~ texts_named (str "rt") ea /\ ~ other_texts ea /\ ~ exists z, policy_attr ea z).
  { unfold ea, seen_eps. destruct (encode_eps s q r); repeat split; not_kind. }
  destruct EK as (EK1 & EK2 & EK3 & EK4 & EK5).
  assert (T : forall P : rep -> Prop, (forall b, In b tags -> ~ P b) -> Forall (fun b => ~ P b) tags) by (intros P H; apply Forall_forall; exact H).
  rewrite Forall_forall in TK.
  constructor.
  - exists (d_uri r). split; [|symmetry; apply cstr_plain, (ro_uri _ R)]. exists (pre ++ [(str "anchor", RStr (str "ocf://" ++ uuid_str (v_id s)))]). eexists.
    split; [rewrite <- app_assoc; reflexivity|]. split; [split; [reflexivity|eexists; reflexivity]|]. repeat (constructor; [first [exact EK1|not_kind]|]). apply T. intros b I. apply TK, I.
  - exists (d_types r). split.
    + exists (pre ++ [(str "anchor", RStr (str "ocf://" ++ uuid_str (v_id s))); (str "href", RStr (d_uri r))]). eexists.
      split; [rewrite <- app_assoc; reflexivity|]. split; [split; [reflexivity|eexists; reflexivity]|]. repeat (constructor; [first [exact EK3|not_kind]|]). apply T. intros b I. apply TK, I.
    + unfold call_for. cbn [c_types]. pose proof (ro_types _ R) as F. induction F as [|t l (_ & P & _) F IH]; [reflexivity|]. cbn [map]. rewrite (cstr_plain t P), <- IH. reflexivity.
  - exists (encode_ifs (d_ifs r)). split; [|apply ifs_of_mask; reflexivity].
    exists (pre ++ [(str "anchor", RStr (str "ocf://" ++ uuid_str (v_id s))); (str "href", RStr (d_uri r)); (str "rt", RStrArr (d_types r))]). eexists.
    split; [rewrite <- app_assoc; reflexivity|]. split; [split; [discriminate|eexists; reflexivity]|]. repeat (constructor; [first [exact EK4|not_kind]|]). apply T. intros b I. apply TK, I.
  - left. exists (str "p", RObj [(str "bm", RInt (Z.of_N (N.land (d_props r) POLICY)))]). split; [|split; [reflexivity|eexists; reflexivity]].
    exists (pre ++ [(str "anchor", RStr (str "ocf://" ++ uuid_str (v_id s))); (str "href", RStr (d_uri r)); (str "rt", RStrArr (d_types r)); (str "if", RStrArr (encode_ifs (d_ifs r)))]). eexists.
    split; [rewrite <- app_assoc; reflexivity|]. split; [eexists; split; [reflexivity|eexists; reflexivity]|]. repeat (constructor; [first [exact EK5|not_kind]|]). apply T. intros b I. apply TK, I.
  - exists pre, (str "ocf://" ++ uuid_str (v_id s)), (v_id s). eexists. exists es.
    split; [reflexivity|]. split.
    { apply Forall_app. split; [eapply Forall_impl; [|exact PK]; cbn beta; tauto|]. repeat (constructor; [first [exact EK2|not_kind]|]). apply T. intros b I. apply TK, I. }
    split; [eapply Forall_impl; [|exact PK]; cbn beta; tauto|].
    split; [destruct (so_id _ S) as [B L]; repeat split; assumption|]. split; [reflexivity|]. split; [reflexivity|].
    unfold ea, seen_eps. destruct (encode_eps s q r) as [|o os] eqn:En.
    + left. split.
      * repeat (constructor; [not_kind|]). apply T. intros b I. apply TK, I.
      * destruct A as (ess & F & ->). inversion F. reflexivity.
    + right. eexists [_; _; _; _], (o :: os), tags. split; [reflexivity|]. split; [|exact A]. cbn [app]. repeat (constructor; [not_kind|]). apply T. intros b I. apply TK, I.
Qed.

Lemma link_tells dns from s q r : server_ok s -> resource_ok r ->
  exists es, array_eps dns from (encode_eps s q r) es /\ forall more, tells s q from r (call_for s r es more).
Proof.
  intros S R. destruct (link_eps_read dns from s q r S) as (es & A & es1 & es' & ms & H1 & H2 & H3 & ->). exists (es' ++ ms). split; [exact A|]. intros more. constructor.
  - reflexivity.
  - reflexivity.
  - reflexivity.
  - cbn [c_ifs call_for]. intros b. pose proof (proj2 (ifs_of_mask (encode_ifs (d_ifs r)) _) eq_refl b) as M. rewrite M. clear M. split.
    + intros (n & I & H). rewrite (encode_ifs_plain _ _ I) in H. pose proof I as I0. apply encode_ifs_names in I. destruct I as (b' & P & T).
      assert (b' = b /\ 1 <= b <= 11).
      { unfold public_if in *. cbn [In] in P, H.
        repeat (destruct P as [P|P]; [assert (En := f_equal snd P); assert (Eb := f_equal fst P); cbn [fst snd] in En, Eb; subst n b';
          destruct H as [H|[Hb H]]; [|discriminate H];
          repeat (destruct H as [H|H]; [first [discriminate H|assert (Eb := f_equal fst H); cbn [fst] in Eb; subst b; lia]|]); destruct H|]). destruct P. }
      destruct H0 as [-> L]. auto.
    + intros [L T].
      assert (P : exists n, public_if b n).
      { unfold public_if. cbn [In]. assert (K : b = 1 \/ b = 2 \/ b = 3 \/ b = 4 \/ b = 5 \/ b = 6 \/ b = 7 \/ b = 8 \/ b = 9 \/ b = 10 \/ b = 11) by lia.
        repeat (destruct K as [->|K]; [eexists; tauto|]). subst b. eexists. tauto. }
      destruct P as (n & P). assert (I : In n (encode_ifs (d_ifs r))) by (apply encode_ifs_names; eauto). exists n. split; [exact I|]. left. rewrite (encode_ifs_plain _ _ I). exact P.
  - apply policy_spec.
  - exists es1, es', ms. split; [exact H1|]. split; [exact H2|]. split; [exact H3|reflexivity].
Qed.

(** the calls for a list of resources *)
Lemma calls_exist dns from s q : server_ok s -> forall rs, Forall resource_ok rs ->
  exists cs, Forall2 (tells s q from) rs cs /\ Forall2 (complete dns from) (map (seen_link s q) rs) cs /\ more_follow cs.
Proof.
  intros S. induction rs as [|r rs IH]; intros F.
  - exists []. split; [constructor|]. split; [constructor|]. intros [|z0 zs] c y E; discriminate E.
  - inversion F as [|? ? R Fr]; subst. destruct (IH Fr) as (cs & A & B & M). destruct (link_tells dns from s q r S R) as (es & E & T).
    exists (call_for s r es (match cs with [] => false | _ => true end) :: cs). split; [constructor; [apply T|exact A]|].
    split; [cbn [map]; constructor; [apply link_complete; assumption|exact B]|].
    intros [|c0 x] c y Ec; cbn [app] in Ec.
    + assert (c = call_for s r es (match cs with [] => false | _ => true end) /\ cs = y) as [-> ->] by (split; congruence). cbn [c_more call_for]. destruct y; split; congruence.
    + apply (M x c y). congruence.
Qed.

Lemma rd_links s q rs : server_ok s -> Forall resource_ok rs -> Forall2 rd (map (link_of s q true) rs) (map (seen_link s q) rs).
Proof. intros S. induction 1; cbn [map]; constructor; [apply rd_link; assumption|assumption]. Qed.

Lemma listed_ok s q ps rs : server_ok s -> listed s q ps rs -> Forall resource_ok rs.
Proof.
  intros S (cs & p & -> & _ & C & P). pose proof (so_res _ S) as O. rewrite Forall_forall in O. apply Forall_forall. intros r I. apply O.
  rewrite !in_app_iff in *. destruct I as [I|[I|I]]; [left|right; left|right; right].
  - apply C in I. destruct I as [(k & _ & _ & I & _) _]. exact I.
  - apply filter_In in I. apply I.
  - apply filter_In in I. apply I.
Qed.

(** * Answers *)

Lemma reply_ok p : reply_of 0 p = Reply 69 p.
Proof. reflexivity. Qed.

Lemma discover_ll s q ps : cores_ok s -> Forall wf_pair ps -> q_query q = render ps -> q_if q = 4 -> addressed s ps ->
  exists rs, listed s q ps rs /\
    (rs <> [] -> discover s q = Reply 69 (Some (objects_of (map (link_of s q true) rs)))) /\
    (rs = [] -> ~ multicast (q_origin q) -> discover s q = Reply 128 None) /\ (rs = [] -> multicast (q_origin q) -> discover s q = Silence).
Proof.
  intros C W Q I A. destruct (device_links_spec s q true ps C W Q) as (rs & E & L). exists rs. split; [exact L|].
  apply (sduuid_ok_spec s ps W) in A. unfold discover. rewrite Q, A, I. change (4 =? IF_LL) with true. cbn [negb]. cbv iota zeta. rewrite E.
  split; [|split].
  - intros N. destruct rs as [|r rs]; [congruence|]. reflexivity.
  - intros -> M. apply unicast_spec in M. unfold send. cbn [map negb]. rewrite M. reflexivity.
  - intros -> M. cbn [map]. unfold send. cbn [negb]. destruct (unicast (q_origin q)) eqn:U; [apply unicast_spec in U; contradiction|reflexivity].
Qed.

Definition baseline_payload (s : server) (q : dreq) (ls : list (list rep)) : cbor :=
  CArr [CMap (enc_members (baseline_props s (q_dev q) ++ encode_sdi s ++ [(str "links", RObjArr ls)]))].
Lemma discover_baseline s q ps : cores_ok s -> Forall wf_pair ps -> q_query q = render ps -> q_if q = 2 -> addressed s ps ->
  exists rs, listed s q ps rs /\
    (rs <> [] -> discover s q = Reply 69 (Some (baseline_payload s q (map (link_of s q true) rs)))) /\ (rs = [] -> discover s q = Reply 67 None).
Proof.
  intros C W Q I A. destruct (device_links_spec s q true ps C W Q) as (rs & E & L). exists rs. split; [exact L|].
  apply (sduuid_ok_spec s ps W) in A. unfold discover. rewrite Q, A, I. change (2 =? IF_LL) with false. change (2 =? IF_BASELINE) with true. cbn [negb orb]. cbv iota zeta. rewrite E.
  split; [intros N|intros ->; reflexivity]. destruct rs as [|r rs]; [congruence|]. reflexivity.
Qed.

Lemma discover_silent s q ps : Forall wf_pair ps -> q_query q = render ps -> ~ addressed s ps -> discover s q = Silence.
Proof. intros W Q A. unfold discover. rewrite Q. destruct (sduuid_ok s (render ps)) eqn:E; [apply (sduuid_ok_spec s ps W) in E; contradiction|reflexivity]. Qed.

Lemma discover_other s q ps : Forall wf_pair ps -> q_query q = render ps -> q_if q <> 4 -> q_if q <> 2 -> q_if q <> 4096 -> addressed s ps ->
  (~ multicast (q_origin q) -> discover s q = Reply 128 None) /\ (multicast (q_origin q) -> discover s q = Silence).
Proof.
  intros W Q I1 I2 I3 A. apply (sduuid_ok_spec s ps W) in A. unfold discover. rewrite Q, A.
  destruct (N.eqb_spec (q_if q) IF_LL) as [K|_]; [exfalso; exact (I1 K)|]. destruct (N.eqb_spec (q_if q) IF_BASELINE) as [K|_]; [exfalso; exact (I2 K)|].
  destruct (N.eqb_spec (q_if q) IF_ETAG) as [K|_]; [exfalso; exact (I3 K)|]. cbn [negb orb]. unfold send. cbn [negb]. split; intros M.
  - apply unicast_spec in M. rewrite M. reflexivity.
  - destruct (unicast (q_origin q)) eqn:U; [apply unicast_spec in U; contradiction|reflexivity].
Qed.

(** * From server to client *)

Lemma trip_ll dns from stop s q rs : server_ok s -> Forall resource_ok rs -> rs <> [] ->
  exists cs out b, Forall2 (tells s q from) rs cs /\ more_follow cs /\
    process dns from stop (objects_of (map (link_of s q true) rs)) = Calls out b /\ reported stop cs out b.
Proof.
  intros S F N. destruct (calls_exist dns from s q S rs F) as (cs & T & C & M).
  destruct (process_array dns from stop (objects_of (map (link_of s q true) rs)) (map (seen_link s q) rs) cs) as (out & b & E & R).
  - apply rd_payload; [apply rd_links; assumption|]. destruct rs; [congruence|discriminate].
  - exact C.
  - exact M.
  - exists cs, out, b. auto.
Qed.

Lemma trip_baseline dns from stop s q rs : server_ok s -> Forall resource_ok rs -> rs <> [] ->
  exists cs out b, Forall2 (tells s q from) rs cs /\ more_follow cs /\
    process dns from stop (baseline_payload s q (map (link_of s q true) rs)) = Calls out b /\ reported stop cs out b.
Proof.
  intros S F N. destruct (calls_exist dns from s q S rs F) as (cs & T & C & M).
  set (props := baseline_props s (q_dev q) ++ encode_sdi s).
  assert (WP : wmems props /\ Forall (fun b => ~ (fst b = str "links" /\ obj_array b)) props).
  { unfold props, baseline_props, encode_sdi. destruct (v_sdi s) as [[priv id] name].
    assert (SD : wmems (if priv then [] else [(str "sduuid", RStr (uuid_str id)); (str "sdname", RStr name)]) /\
                 Forall (fun b => ~ (fst b = str "links" /\ obj_array b)) (if priv then [] else [(str "sduuid", RStr (uuid_str id)); (str "sdname", RStr name)])).
    { destruct priv; split; repeat constructor; intros [K _]; discriminate K. }
    destruct SD as [SD1 SD2].
    destruct (core_get s OCF_RES (q_dev q)) as [r|] eqn:G; [|split; assumption].
    assert (R : resource_ok r). { pose proof (so_res _ S) as O. rewrite Forall_forall in O. apply O. rewrite in_app_iff. left. apply find_some in G. apply G. }
    split.
    - apply wmems_app; [|exact SD1]. apply wmems_app; [destruct (v_name s); repeat constructor|]. apply wmems_app; [|apply wmems_tags, R].
      repeat constructor; [apply (ro_some_type _ R)|eapply Forall_impl; [|exact (ro_types _ R)]; intros t (_ & _ & L); exact L|apply some_ifs, R|apply encode_ifs_short].
    - apply Forall_app. split; [|exact SD2]. apply Forall_app. split; [destruct (v_name s); repeat constructor; intros [K _]; discriminate K|]. apply Forall_app.
      split; [repeat constructor; intros [K _]; discriminate K|]. eapply Forall_impl; [|exact (tags_kinds r)]. cbn beta. tauto. }
  destruct WP as [WP NL].
  destruct (process_baseline dns from stop (baseline_payload s q (map (link_of s q true) rs)) (props ++ [(str "links", RObjArr (map (seen_link s q) rs))]) [] (map (seen_link s q) rs) cs) as (out & b & E & R).
  - unfold baseline_payload. rewrite app_assoc. fold props.
    assert (RD : rd (props ++ [(str "links", RObjArr (map (link_of s q true) rs))]) (props ++ [(str "links", RObjArr (map (seen_link s q) rs))])).
    { apply Forall2_app; [apply rd_writable, WP|]. constructor; [|constructor]. split; [reflexivity|]. cbn [snd]. apply rd_objs; [apply rd_links; assumption|]. destruct rs; [congruence|discriminate]. }
    cbn [parse seq]. rewrite (rd_root _ _ RD). reflexivity.
  - exists props, []. split; [reflexivity|]. split; [split; [reflexivity|eexists; reflexivity]|constructor].
  - exact C.
  - exact M.
  - exists cs, out, b. auto.
Qed.
