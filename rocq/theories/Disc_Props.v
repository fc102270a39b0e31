(** Properties C71 to C74: discovery. *)
From Verif Require Import Common Query_Spec Query_Model Rep_Model Repd_Model Repd_Spec Hex_Model Acl_Model Ob_Model Ri_Model Col_Spec Disc_Model Disc_Spec Disc_Proofs Disc2_Proofs Disc3_Proofs Disc4_Proofs Disc5_Proofs.
From Verif Require Ep_Model Ep_Spec.
From Coq Require Import String.
Local Open Scope string_scope.
Local Open Scope list_scope.
Local Open Scope N_scope.

(** * A device for the examples *)

Definition x_res k uri t props := mkDres (Some k) 0 uri [t] 6 props None None None None.
Definition x_app uri ts ifs props := mkDres None 0 uri ts ifs props (Some (str "kitchen")) None None None.
Definition x_ep fl port := Ep_Model.mk_ep fl 0 ([254; 128] ++ repeat 0 13 ++ [1]) port 2 0.
Definition x_server : server :=
  mkServer [x_res 6 (str "/oic/res") (str "oic.wk.res") 1; x_res 19 (str "/oic/d") (str "oic.wk.d") 1; x_res 10 (str "/oic/sec/doxm") (str "oic.r.doxm") 1;
            x_res 5 (str "/.well-known/core") (str "wk") 1]
           [x_app (str "/light") [str "core.light"] 34 3; x_app (str "/safe") [str "core.light"; str "core.safe"] 34 17; x_app (str "/hidden") [str "core.light"] 34 2]
           [] [x_ep 8 5683; x_ep 10 5684; Ep_Model.mk_ep 4 0 ([10; 0; 0; 1] ++ repeat 0 12) 5683 2 0]
           (repeat 7 16) false false true 0 false (false, repeat 9 16, str "home") (Some (str "dev")).
Definition x_req q i := mkDreq 0 q (Ep_Model.mk_ep 8 0 ([254; 128] ++ repeat 0 13 ++ [9]) 50000 2 0) i.

Lemma x_cores : cores_ok x_server.
Proof.
  split; [repeat constructor; discriminate|]. split; [|repeat constructor].
  intros x a y b z E H. exfalso.
  assert (ND : NoDup (map d_core (v_core x_server))) by (vm_compute; repeat (constructor; [cbn [In]; intuition discriminate|]); constructor).
  rewrite E, map_app in ND. cbn [map] in ND. apply NoDup_remove_2 in ND. apply ND. rewrite H, map_app. cbn [map]. rewrite !in_app_iff. cbn [In]. tauto.
Qed.

Lemma x_ok : server_ok x_server.
Proof.
  constructor.
  - split; [repeat constructor|reflexivity].
  - assert (O : forall fl a p, fl < 256 -> List.length a = 16%nat -> bytes_ok a -> p < 65536 -> Ep_Spec.ep_ok (Ep_Model.mk_ep fl 0 a p 2 0)) by (intros; constructor; assumption).
    assert (B1 : bytes_ok ([254; 128] ++ repeat 0 13 ++ [1])) by (apply Forall_forall; intros x I; cbn in I; unfold is_byte; intuition (subst; reflexivity)).
    assert (B2 : bytes_ok ([10; 0; 0; 1] ++ repeat 0 12)) by (apply Forall_forall; intros x I; cbn in I; unfold is_byte; intuition (subst; reflexivity)).
    constructor; [|constructor; [|constructor; [|constructor]]]; (split; [apply O; [reflexivity|reflexivity|assumption|reflexivity]|]).
    + right. split; [reflexivity|]. split; [discriminate|]. intros [[H _]|[H _]]; specialize (H 0%nat ltac:(lia)); discriminate H.
    + right. split; [reflexivity|]. split; [discriminate|]. intros [[H _]|[H _]]; specialize (H 0%nat ltac:(lia)); discriminate H.
    + left. split; [reflexivity|discriminate].
  - apply Forall_forall. intros r I. cbn [v_core v_apps v_cols x_server app In] in I.
    assert (PT : forall t, forallb (fun c => negb (c =? 0)) t = true -> plain_text t).
    { intros t H K. rewrite forallb_forall in H. apply H in K. discriminate K. }
    repeat (destruct I as [<-|I]; [constructor; [apply PT; vm_compute; reflexivity|repeat (constructor; [split; [discriminate|split; [apply PT; vm_compute; reflexivity|apply Nat.leb_le; vm_compute; reflexivity]]|]); constructor|discriminate|
      exists 1, (str "oic.if.baseline"); split; [left; reflexivity|reflexivity]|discriminate]|]). destruct I.
  - reflexivity.
Qed.

(** * C71: what is listed *)

Theorem C71_discovery_lists_the_discoverable_resources s q ps :
  cores_ok s -> Forall wf_pair ps -> q_query q = render ps -> q_if q = 4 -> addressed s ps ->
  exists rs ls, listed s q ps rs /\ Forall2 (link_shows s q true) rs ls /\
    (rs <> [] -> discover s q = Reply 69 (Some (CArr (map (fun l => CMap (enc_members l)) ls)))).
Proof.
  intros C W Q I A. destruct (discover_ll s q ps C W Q I A) as (rs & L & H & _). exists rs, (map (link_of s q true) rs). split; [exact L|]. split; [|exact H].
  clear. induction rs as [|r rs IH]; cbn [map]; constructor; [apply link_shows_ok|exact IH].
Qed.
Print Assumptions C71_discovery_lists_the_discoverable_resources.

Example C71_lists_case :
  (exists ls, discover x_server (x_req (str "rt=core.light") 4) = Reply 69 (Some (objects_of ls)) /\
    map (fun l => (get_s l (str "href"), get_oa l (str "eps"))) ls =
      [(Some (str "/light"), Some [[(str "ep", RStr (str "coap://[fe80::1]:5683"))]; [(str "ep", RStr (str "coaps://[fe80::1]:5684"))]]);
       (Some (str "/safe"), Some [[(str "ep", RStr (str "coaps://[fe80::1]:5684"))]])]) /\
  addressed x_server [(str "rt", Some (str "core.light"))] /\ render [(str "rt", Some (str "core.light"))] = str "rt=core.light".
Proof.
  split; [exists (device_links x_server (x_req (str "rt=core.light") 4) true); split; [vm_compute; reflexivity|vm_compute; reflexivity]|]. split; [|reflexivity].
  apply (sduuid_ok_spec x_server); [constructor; [|constructor]; vm_compute; repeat split; intuition discriminate|vm_compute; reflexivity].
Qed.

(** With the baseline interface the properties of /oic/res come first; with x.plgd.if.etag the links have no endpoints. *)
Theorem C71_baseline_lists_the_same s q ps :
  cores_ok s -> Forall wf_pair ps -> q_query q = render ps -> q_if q = 2 -> addressed s ps ->
  exists rs ls props, listed s q ps rs /\ Forall2 (link_shows s q true) rs ls /\
    (rs <> [] -> discover s q = Reply 69 (Some (CArr [CMap (enc_members (props ++ [(str "links", RObjArr ls)]))]))) /\
    (get_s props (str "sduuid") = if fst (fst (v_sdi s)) then None else Some (uuid_str (snd (fst (v_sdi s))))) /\
    (get_s props (str "sdname") = if fst (fst (v_sdi s)) then None else Some (snd (v_sdi s))) /\
    Forall (fun b => fst b <> str "links") props.
Proof.
  intros C W Q I A. destruct (discover_baseline s q ps C W Q I A) as (rs & L & H & _). exists rs, (map (link_of s q true) rs), (baseline_props s (q_dev q) ++ encode_sdi s).
  split; [exact L|]. split; [clear; induction rs as [|r rs IH]; cbn [map]; constructor; [apply link_shows_ok|exact IH]|].
  split; [intros N; rewrite (H N); unfold baseline_payload; rewrite app_assoc; reflexivity|].
  unfold baseline_props, encode_sdi, encode_tags. destruct (v_sdi s) as [[priv id] name]. cbn [fst snd].
  destruct (core_get s OCF_RES (q_dev q)) as [r|]; [destruct (v_name s), (d_locn r), (d_pos r), (d_desc r), (d_func r)|]; destruct priv;
    (split; [reflexivity|]; split; [reflexivity|]; repeat constructor; discriminate).
Qed.
Print Assumptions C71_baseline_lists_the_same.

Example C71_baseline_case :
  exists props ls, discover x_server (x_req [] 2) = Reply 69 (Some (CArr [CMap (enc_members (props ++ [(str "links", RObjArr ls)]))])) /\ List.length ls = 5%nat /\
    get_s props (str "sdname") = Some (str "home") /\ get_s props (str "n") = Some (str "dev").
Proof.
  exists (baseline_props x_server 0 ++ encode_sdi x_server), (device_links x_server (x_req [] 2) true). split; [vm_compute; reflexivity|]. vm_compute. repeat split.
Qed.

Theorem C71_etag_interface_lists_without_endpoints s q ps :
  cores_ok s -> Forall wf_pair ps -> q_query q = render ps -> q_if q = 4096 -> addressed s ps ->
  exists rs ls props, listed s q ps rs /\ Forall2 (link_shows s q false) rs ls /\ Forall (fun b => fst b <> str "links") props /\
    (rs <> [] -> discover s q = Reply 69 (Some (CArr [CMap (enc_members (props ++ [(str "links", RObjArr ls)]))]))).
Proof.
  intros C W Q I A. destruct (device_links_spec s q false ps C W Q) as (rs & E & L). exists rs, (map (link_of s q false) rs), (baseline_props s (q_dev q) ++ encode_sdi s).
  split; [exact L|]. split; [clear; induction rs as [|r rs IH]; cbn [map]; constructor; [apply link_shows_ok|exact IH]|].
  split.
  - unfold baseline_props, encode_sdi, encode_tags. destruct (v_sdi s) as [[priv id] name].
    destruct (core_get s OCF_RES (q_dev q)) as [r|]; [destruct (v_name s), (d_locn r), (d_pos r), (d_desc r), (d_func r)|]; destruct priv; repeat constructor; discriminate.
  - intros N. apply (sduuid_ok_spec s ps W) in A. unfold discover. rewrite Q, A, I. change (4096 =? IF_LL) with false. change (4096 =? IF_BASELINE) with false. change (4096 =? IF_ETAG) with true.
    cbn [negb orb]. cbv iota zeta. rewrite E, <- app_assoc. destruct rs as [|r rs]; [congruence|]. reflexivity.
Qed.
Print Assumptions C71_etag_interface_lists_without_endpoints.
Example C71_etag_case : exists p, discover x_server (x_req [] 4096) = Reply 69 (Some p) /\ Forall (fun l => get_oa l (str "eps") = None) (device_links x_server (x_req [] 4096) false).
Proof. eexists. split; [vm_compute; reflexivity|]. vm_compute. repeat constructor. Qed.

(** Every resource of the device and no other is listed, as far as it is discoverable and wanted. *)
Theorem C71_listed_iff_known s q ps rs : listed s q ps rs ->
  forall r, In r rs <-> known s (q_dev q) r /\ discoverable r /\ wanted (d_types r) ps.
Proof.
  intros (cs & p & -> & _ & C & P) r. rewrite !in_app_iff, !filter_In, C, P. unfold known. tauto.
Qed.
Print Assumptions C71_listed_iff_known.
Example C71_known_case : listed x_server (x_req [] 4) [] (filter (shown (x_req [] 4)) (candidates x_server 0)) /\ List.length (filter (shown (x_req [] 4)) (candidates x_server 0)) = 5%nat.
Proof.
  split; [|vm_compute; reflexivity]. destruct (device_links_spec x_server (x_req [] 4) true [] x_cores ltac:(constructor) eq_refl) as (rs & E & L).
  exists (filter (shown (x_req [] 4)) (core_listed x_server 0)), (fun r => (d_dev r =? 0) && shown (x_req [] 4) r).
  split; [vm_compute; reflexivity|]. split; [apply NoDup_filter, core_listed_nodup, x_cores|].
  split.
  - intros r. rewrite filter_In, (core_listed_spec x_server 0 r x_cores), (shown_spec (x_req [] 4) [] r ltac:(constructor) eq_refl). tauto.
  - intros r. rewrite andb_true_iff, N.eqb_eq, (shown_spec (x_req [] 4) [] r ltac:(constructor) eq_refl). tauto.
Qed.

(** The link of a security resource of an owned device, or of one marked as secure, names secured endpoints only. *)
Theorem C71_secure_resources_only_at_secured_endpoints s q r l : v_rfotm s = false -> security_resource r (q_dev q) \/ N.testbit (d_props r) 4 = true ->
  link_shows s q true r l ->
  exists os ms, get_oa l (str "eps") = Some (os ++ ms) /\ Forall (fun o => exists e, In e (v_eps s) /\ secured e /\ ep_object s e o) os /\
    (ms <> [] -> N.testbit (d_props r) 8 = true).
Proof.
  intros R K L. destruct (sh_eps _ _ _ _ _ L) as (os & ms & es & E & (p & -> & P) & F & M). exists os, ms. split; [exact E|]. split; [|intros N; apply M, N].
  assert (S : Forall (fun e => In e (v_eps s) /\ secured e) (filter p (v_eps s))).
  { apply Forall_forall. intros e I. apply filter_In in I. destruct I as [I T]. split; [exact I|]. apply (P e I) in T. destruct T as [_ T]. apply T. split; [|rewrite R; intros [H _]; discriminate H].
    destruct K as [K|K]; [right; split; [exact K|left; exact R]|left; exact K]. }
  clear -F S. induction F as [|e o es os H F IH]; [constructor|]. inversion S as [|? ? [Sa Sb] Sr]; subst. constructor; [exists e; auto|apply IH, Sr].
Qed.
Print Assumptions C71_secure_resources_only_at_secured_endpoints.
Example C71_secure_case :
  security_resource (x_res 10 (str "/oic/sec/doxm") (str "oic.r.doxm") 1) 0 /\
  get_oa (link_of x_server (x_req [] 4) true (x_res 10 (str "/oic/sec/doxm") (str "oic.r.doxm") 1)) (str "eps") = Some [[(str "ep", RStr (str "coaps://[fe80::1]:5684"))]].
Proof. split; [exists 10; split; [reflexivity|split; [lia|reflexivity]]|vm_compute; reflexivity]. Qed.

(** * C72: who is answered *)

Theorem C72_other_domains_get_no_answer s q ps : Forall wf_pair ps -> q_query q = render ps -> ~ addressed s ps -> discover s q = Silence.
Proof. exact (discover_silent s q ps). Qed.
Print Assumptions C72_other_domains_get_no_answer.

Example C72_domain_case :
  discover x_server (x_req (str "sduuid=09090909-0909-0909-0909-090909090908") 4) = Silence /\
  discover x_server (x_req (str "sduuid=09090909-0909-0909-0909-090909090909") 4) <> Silence /\
  ~ addressed x_server [(str "sduuid", Some (str "09090909-0909-0909-0909-090909090908"))].
Proof.
  split; [vm_compute; reflexivity|]. split; [vm_compute; discriminate|].
  intros A. apply (sduuid_ok_spec x_server) in A; [vm_compute in A; discriminate A|]. constructor; [|constructor]. vm_compute. repeat split; intuition discriminate.
Qed.

Theorem C72_nothing_found s q ps : cores_ok s -> Forall wf_pair ps -> q_query q = render ps -> q_if q = 4 -> addressed s ps -> listed s q ps [] ->
  (~ multicast (q_origin q) -> discover s q = Reply 128 None) /\ (multicast (q_origin q) -> discover s q = Silence).
Proof.
  intros C W Q I A L. destruct (discover_ll s q ps C W Q I A) as (rs & L' & _ & U & M).
  assert (rs = []) as ->.
  { destruct rs as [|r rs]; [reflexivity|]. exfalso. assert (K : In r (r :: rs)) by (left; reflexivity).
    apply (C71_listed_iff_known _ _ _ _ L') in K. apply (C71_listed_iff_known _ _ _ _ L) in K. destruct K. }
  auto.
Qed.
Print Assumptions C72_nothing_found.
Example C72_nothing_case :
  discover x_server (x_req (str "rt=core.door") 4) = Reply 128 None /\
  discover x_server (mkDreq 0 (str "rt=core.door") (Ep_Model.mk_ep 72 0 (repeat 0 16) 5683 2 0) 4) = Silence /\
  multicast (Ep_Model.mk_ep 72 0 (repeat 0 16) 5683 2 0).
Proof. split; [vm_compute; reflexivity|]. split; [vm_compute; reflexivity|reflexivity]. Qed.

Theorem C72_other_interfaces s q ps : Forall wf_pair ps -> q_query q = render ps -> q_if q <> 4 -> q_if q <> 2 -> q_if q <> 4096 -> addressed s ps ->
  (~ multicast (q_origin q) -> discover s q = Reply 128 None) /\ (multicast (q_origin q) -> discover s q = Silence).
Proof. exact (discover_other s q ps). Qed.
Print Assumptions C72_other_interfaces.
Example C72_other_case : discover x_server (x_req [] 32) = Reply 128 None.
Proof. vm_compute. reflexivity. Qed.

(** Something found is answered with 2.05, also to a group. *)
Theorem C72_something_found s q ps r : cores_ok s -> Forall wf_pair ps -> q_query q = render ps -> q_if q = 4 \/ q_if q = 2 -> addressed s ps ->
  known s (q_dev q) r -> discoverable r -> wanted (d_types r) ps -> exists p, discover s q = Reply 69 (Some p).
Proof.
  intros C W Q I A K D T.
  assert (N : forall rs, listed s q ps rs -> rs <> []).
  { intros rs L ->. assert (H : In r []) by (apply (C71_listed_iff_known _ _ _ _ L); auto). destruct H. }
  destruct I as [I|I].
  - destruct (discover_ll s q ps C W Q I A) as (rs & L & H & _). eexists. apply H, (N rs L).
  - destruct (discover_baseline s q ps C W Q I A) as (rs & L & H & _). eexists. apply H, (N rs L).
Qed.
Print Assumptions C72_something_found.
Example C72_found_case : known x_server 0 (x_app (str "/light") [str "core.light"] 34 3) /\ discoverable (x_app (str "/light") [str "core.light"] 34 3).
Proof. split; [right; split; [left; left; reflexivity|reflexivity]|reflexivity]. Qed.

(** With the baseline interface "nothing found" is answered with 2.03 (valid), without an ETag, and even to a group. *)
Theorem C72_baseline_nothing_found_refuted :
  exists s q ps, cores_ok s /\ Forall wf_pair ps /\ q_query q = render ps /\ q_if q = 2 /\ addressed s ps /\ multicast (q_origin q) /\
    listed s q ps [] /\ discover s q = Reply 67 None.
Proof.
  exists x_server, (mkDreq 0 (str "rt=core.door") (Ep_Model.mk_ep 72 0 (repeat 0 16) 5683 2 0) 2), [(str "rt", Some (str "core.door"))].
  assert (W : Forall wf_pair [(str "rt", Some (str "core.door"))]) by (constructor; [vm_compute; repeat split; intuition discriminate|constructor]).
  split; [exact x_cores|]. split; [exact W|]. split; [reflexivity|]. split; [reflexivity|]. split; [apply (sduuid_ok_spec x_server _ W); vm_compute; reflexivity|]. split; [reflexivity|].
  split; [|vm_compute; reflexivity].
  destruct (device_links_spec x_server (mkDreq 0 (str "rt=core.door") (Ep_Model.mk_ep 72 0 (repeat 0 16) 5683 2 0) 2) true _ x_cores W eq_refl) as (rs & E & L).
  destruct rs as [|r rs]; [exact L|]. vm_compute in E. discriminate E.
Qed.

(** * C73: from server to client *)

Theorem C73_client_learns_what_the_server_lists dns from stop s q ps p :
  cores_ok s -> server_ok s -> Forall wf_pair ps -> q_query q = render ps -> q_if q = 4 \/ q_if q = 2 -> addressed s ps ->
  discover s q = Reply 69 (Some p) ->
  exists rs cs out b, listed s q ps rs /\ Forall2 (tells s q from) rs cs /\ more_follow cs /\
    process dns from stop p = Calls out b /\ reported stop cs out b.
Proof.
  intros C S W Q I A D. destruct I as [I|I].
  - destruct (discover_ll s q ps C W Q I A) as (rs & L & H & N1 & N2). destruct rs as [|r0 rs0] eqn:Er.
    { destruct (unicast (q_origin q)) eqn:U; [apply unicast_spec in U; rewrite (N1 eq_refl U) in D; discriminate D|].
      exfalso. assert (M : multicast (q_origin q)). { unfold unicast in U. rewrite has_multi in U. unfold multicast. destruct (N.testbit (Ep_Model.e_flags (q_origin q)) 6); [reflexivity|discriminate U]. }
      rewrite (N2 eq_refl M) in D. discriminate D. }
    rewrite <- Er in *. assert (N : rs <> []) by (rewrite Er; discriminate). rewrite (H N) in D. assert (p = objects_of (map (link_of s q true) rs)) as -> by congruence.
    destruct (trip_ll dns from stop s q rs S (listed_ok s q ps rs S L) N) as (cs & out & b & T). exists rs, cs, out, b. split; [exact L|exact T].
  - destruct (discover_baseline s q ps C W Q I A) as (rs & L & H & N1). destruct rs as [|r0 rs0] eqn:Er; [rewrite (N1 eq_refl) in D; discriminate D|].
    rewrite <- Er in *. assert (N : rs <> []) by (rewrite Er; discriminate). rewrite (H N) in D. assert (p = baseline_payload s q (map (link_of s q true) rs)) as -> by congruence.
    destruct (trip_baseline dns from stop s q rs S (listed_ok s q ps rs S L) N) as (cs & out & b & T). exists rs, cs, out, b. split; [exact L|exact T].
Qed.
Print Assumptions C73_client_learns_what_the_server_lists.

Definition x_from := x_ep 8 5683.
Definition no_dns (_ : list N) (_ _ : N) : option ep := None.
Definition run (a : answer) (stop : call -> bool) : outcome := match a with Reply _ (Some p) => process no_dns x_from stop p | _ => Undefined end.
Definition calls_of (o : outcome) : list call := match o with Calls cs _ => cs | Undefined => [] end.

Example C73_trip_case :
  server_ok x_server /\ cores_ok x_server /\
  map (fun c => (c_uri c, c_types c, c_ifs c, c_bm c, c_more c, map (fun e => (Ep_Model.e_flags (fst e), Ep_Model.e_port (fst e), snd e)) (c_eps c)))
      (calls_of (run (discover x_server (x_req (str "rt=core.light") 4)) (fun _ => false))) =
    [(str "/light", [str "core.light"], 34, 3%Z, true, [(8, 5683, Some (repeat 7 16)); (10, 5684, Some (repeat 7 16))]);
     (str "/safe", [str "core.light"; str "core.safe"], 34, 1%Z, false, [(10, 5684, Some (repeat 7 16))])] /\
  List.length (calls_of (run (discover x_server (x_req [] 2)) (fun c => list_eqb (c_uri c) (str "/oic/sec/doxm")))) = 3%nat.
Proof. split; [exact x_ok|]. split; [exact x_cores|]. split; vm_compute; reflexivity. Qed.

(** A resource without a public interface is reported with the interfaces of the link before it. *)
Theorem C73_no_public_interface_refuted :
  exists s q r cs, cores_ok s /\ In r (v_apps s) /\ d_ifs r = 4096 /\ run (discover s q) (fun _ => false) = Calls cs false /\
    exists c, In c cs /\ c_uri c = d_uri r /\ c_ifs c = 34.
Proof.
  exists (mkServer [] [x_app (str "/light") [str "core.light"] 34 3; x_app (str "/odd") [str "core.odd"] 4096 3] [] [x_ep 8 5683] (repeat 7 16) false false true 0 false (true, repeat 9 16, []) None),
         (x_req [] 4), (x_app (str "/odd") [str "core.odd"] 4096 3). eexists.
  split; [split; [constructor|split; [intros [|? ?] ? ? ? ? E; discriminate E|repeat constructor]]|].
  split; [right; left; reflexivity|]. split; [reflexivity|]. split; [vm_compute; reflexivity|]. eexists. split; [right; left; reflexivity|]. split; reflexivity.
Qed.

(** A handler for all resources is told that more follow although nothing follows, when the last links have no endpoints it can use. *)
Theorem C73_more_without_more_refuted :
  exists s q cs c, run (discover s q) (fun _ => false) = Calls (cs ++ [c]) false /\ c_more c = true.
Proof.
  exists (mkServer [] [x_app (str "/light") [str "core.light"] 34 3; x_app (str "/safe") [str "core.safe"] 34 17] [] [x_ep 8 5683] (repeat 7 16) false false true 0 false (true, repeat 9 16, []) None),
         (x_req [] 4), []. eexists. split; [vm_compute; reflexivity|reflexivity].
Qed.

(** * C74: the client and any server *)

Theorem C74_complete_links_are_reported dns from stop p ls cs :
  parse p = Ok (PArr ls) -> Forall2 (complete dns from) ls cs -> more_follow cs ->
  exists out b, process dns from stop p = Calls out b /\ reported stop cs out b.
Proof. exact (process_array dns from stop p ls cs). Qed.
Print Assumptions C74_complete_links_are_reported.

Definition y_link : list rep :=
  [(str "x", RNil); (str "anchor", RStr (str "ocf://07070707-0707-0707-0707-070707070707")); (str "href", RStr (str "/a")); (str "rel", RStrArr [str "self"]);
   (str "rt", RStrArr [str "t.a"; str "t.b"]); (str "if", RStrArr [str "oic.if.rw"; str "unknown"]);
   (str "eps", RObjArr [[(str "ep", RStr (str "no endpoint")); (str "ep", RStr (str "coap+tcp://[fe80::1]:70"))]; [(str "ep", RStr (str "coaps://10.0.0.1:99")); (str "ep", RStr (str "coap://[fe80::1]"))]])].
Definition y_call : call :=
  mkCall (str "ocf://07070707-0707-0707-0707-070707070707") (str "/a") [str "t.a"; str "t.b"] 32
    [(Ep_Model.mk_ep 24 0 ([254; 128] ++ repeat 0 13 ++ [1]) 70 2 0, Some (repeat 7 16))] 0 false.
Example C74_complete_case : complete no_dns x_from y_link y_call /\ more_follow [y_call] /\ parse (objects_of [y_link]) = Ok (PArr [y_link]) /\
  process no_dns x_from (fun _ => false) (objects_of [y_link]) = Calls [y_call] false.
Proof.
  split; [|split; [|split; vm_compute; reflexivity]].
  - constructor.
    + exists (str "/a"). split; [|reflexivity]. eexists [_; _], _. split; [reflexivity|]. split; [split; [reflexivity|eexists; reflexivity]|]. repeat constructor; not_kind.
    + exists [str "t.a"; str "t.b"]. split; [|reflexivity]. eexists [_; _; _; _], _. split; [reflexivity|]. split; [split; [reflexivity|eexists; reflexivity]|]. repeat constructor; not_kind.
    + exists [str "oic.if.rw"; str "unknown"]. split; [|apply ifs_of_mask; vm_compute; reflexivity]. eexists [_; _; _; _; _], _. split; [reflexivity|]. split; [split; [discriminate|eexists; reflexivity]|]. repeat constructor; not_kind.
    + right. split; [|reflexivity]. intros a z I [K _]. unfold y_link in I. cbn [In] in I. repeat (destruct I as [<-|I]; [discriminate K|]). destruct I.
    + eexists [_], _, (repeat 7 16), _, _. split; [reflexivity|]. split; [repeat constructor; not_kind|]. split; [repeat constructor; not_kind|].
      split; [split; [repeat constructor|split; [reflexivity|vm_compute; reflexivity]]|]. split; [reflexivity|]. split.
      { instantiate (1 := [Ep_Model.mk_ep 24 0 ([254; 128] ++ repeat 0 13 ++ [1]) 70 2 0]). reflexivity. }
      right. eexists [_; _; _; _], _, _. split; [reflexivity|]. split; [repeat constructor; not_kind|]. exists [[Ep_Model.mk_ep 24 0 ([254; 128] ++ repeat 0 13 ++ [1]) 70 2 0]; []]. split; [|reflexivity].
      constructor; [|constructor; [|constructor]].
      * apply OE_bad; [vm_compute; reflexivity|]. eapply OE_ep; [vm_compute; reflexivity| |reflexivity|constructor]. right. left. reflexivity.
      * eapply OE_stop; [vm_compute; reflexivity|]. intros [[K _]|[K|K]]; [discriminate K|discriminate K|]. apply K. right. split; reflexivity.
  - intros [|c0 [|c1 x]] c y E; try discriminate E. injection E as <- <-. split; [discriminate|congruence].
Qed.

Theorem C74_links_of_a_baseline_answer_are_reported dns from stop p o rest ls cs : parse p = Ok (PArr (o :: rest)) ->
  last_such (fun b => fst b = str "links" /\ obj_array b) o (str "links", RObjArr ls) -> Forall2 (complete dns from) ls cs -> more_follow cs ->
  exists out b, process dns from stop p = Calls out b /\ reported stop cs out b.
Proof. exact (process_baseline dns from stop p o rest ls cs). Qed.
Print Assumptions C74_links_of_a_baseline_answer_are_reported.
Example C74_baseline_case : process no_dns x_from (fun _ => true) (objects_of [[(str "n", RStr (str "d")); (str "links", RObjArr [y_link])]]) = Calls [y_call] true.
Proof. vm_compute. reflexivity. Qed.

(** An answer that is an array of objects never leads outside memory when its anchors have at least the length of a scheme. *)
Theorem C74_arrays_of_links_are_safe dns from stop p ls : parse p = Ok (PArr ls) ->
  (forall l t, In l ls \/ (exists o, In (str "links", RObjArr o) (hd [] ls) /\ In l o) -> In (str "anchor", RStr t) l -> (6 <= List.length t)%nat) ->
  process dns from stop p <> Undefined.
Proof.
  intros P H. apply (process_defined dns from stop p ls P).
  - apply Forall_forall. intros l I t. apply H. left. exact I.
  - intros o I. apply Forall_forall. intros l Il t. apply H. right. exists o. auto.
Qed.
Print Assumptions C74_arrays_of_links_are_safe.
Example C74_safe_case : process no_dns x_from (fun _ => false) (objects_of [[(str "href", RInt 5); (str "links", RObjArr [[(str "eps", RStr (str "x"))]])]; []]) = Calls [] false.
Proof. vm_compute. reflexivity. Qed.

(** What the client gets wrong. *)
Theorem C74_safety_refuted :
  (exists p, p = CMap [(CText (str "a"), CInt 1)] /\ process no_dns x_from (fun _ => false) p = Undefined) /\
  (exists p, p = objects_of [[(str "anchor", RStr (str "ocf"))]] /\ process no_dns x_from (fun _ => false) p = Undefined).
Proof. split; eexists; (split; [reflexivity|vm_compute; reflexivity]). Qed.

Definition y_short : list rep := [(str "eps", RObjArr [[(str "ep", RStr (str "coap://[fe80::1]"))]])].
(** A link without a name is reported under the name, types and interfaces of the link before it; its endpoints have no device id. *)
Theorem C74_link_without_attributes_refuted :
  exists c d, process no_dns x_from (fun _ => false) (objects_of [y_link; y_short]) = Calls [c; d] false /\
    c_uri d = c_uri c /\ c_types d = c_types c /\ c_ifs d = c_ifs c /\ map snd (c_eps d) = [None].
Proof. eexists _, _. split; [vm_compute; reflexivity|]. repeat split. Qed.
(** An array of texts after the interfaces replaces their mask. *)
Theorem C74_texts_after_interfaces_refuted :
  exists c, process no_dns x_from (fun _ => false) (objects_of [y_link ++ [(str "rel", RStrArr [str "self"])]]) = Calls [c] false /\ c_ifs c = 0.
Proof. eexists. split; [vm_compute; reflexivity|reflexivity]. Qed.
