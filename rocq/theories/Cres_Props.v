(** C140: the resource of the cloud configuration. *)
From Verif Require Import Common Rep_Model Hex_Model Repd_Model Ea_Model Cloud_Model Cres_Model Cres_Spec Cres_Proofs.
From Coq Require Import String.
Local Open Scope string_scope.
Local Open Scope list_scope.
Local Open Scope N_scope.

(** A request is accepted exactly if it asks to leave the cloud, or names a
    server, its id and an access token while the device is not registered nor
    registering; one that is not asked for so changes nothing. *)
Theorem C140_accepted_exactly : forall slot mem reset manager err p s,
  ((exists b s' l, post slot mem reset manager true err p s = (Changed b, s', l)) <->
     leaves (st_cps s) p \/ exists u v a, configures (st_cps s) p u v a) /\
  forall fits, ~ leaves (st_cps s) p -> (forall u v a, ~ configures (st_cps s) p u v a) ->
    post slot mem reset manager fits err p s = (BadRequest, s, []).
Proof.
  intros slot mem reset manager err p s. split; [|intros fits; apply post_none]. split.
  - intros (b & s' & l & H).
    destruct (open_to (st_cps s) p) eqn:O; [|unfold post in H; rewrite O in H; discriminate H]. apply open_le in O. destruct O as [L O].
    destruct (get_s p (str "cps")) as [x|] eqn:Q; [unfold post in H; rewrite Q in H; destruct (negb _); discriminate H|].
    apply (get_none _ _ k_cps) in Q.
    assert (D : leaves (st_cps s) p \/ ~ leaves (st_cps s) p).
    { destruct (get_s p (str "cis")) as [c|] eqn:C.
      - apply (get_some _ _ _ k_cis) in C. destruct c as [|c r].
        + destruct (get_full p (str "sid")) as [t|] eqn:G.
          * apply (full_some _ _ _ k_sid) in G. destruct (id_of t) as [v|] eqn:E.
            -- left. repeat split; auto. intros t' S1 _. rewrite (says_fun _ _ _ _ S1 (proj1 G)). exists v. apply id_of_spec. exact E.
            -- right. intros (_ & _ & _ & K). destruct (K t (proj1 G) (proj2 G)) as (v & Hv). apply id_of_spec in Hv. congruence.
          * left. repeat split; auto. intros t S1 N1. destruct N1. exact (proj1 (full_none _ _ k_sid) G t S1).
        + right. intros (_ & _ & K & _). pose proof (says_fun _ _ _ _ C K) as X. discriminate X.
      - right. intros (_ & _ & K & _). apply (get_none _ _ k_cis) in C. exact (says_silent _ _ _ K C). }
    destruct D as [D|D]; [left; exact D|right].
    destruct (get_s p (str "cis")) as [u|] eqn:C.
    + destruct (get_full p (str "at")) as [a|] eqn:A.
      * destruct (get_full p (str "sid")) as [t|] eqn:G.
        -- destruct (id_of t) as [v|] eqn:E.
           ++ exists u, v, a. apply (get_some _ _ _ k_cis) in C. apply (full_some _ _ _ k_sid) in G. apply (full_some _ _ _ k_at) in A.
              apply id_of_spec in E. assert (Nu : u <> []).
              { intros ->. apply D. repeat split; auto. intros t' S1 _. rewrite (says_fun _ _ _ _ S1 (proj1 G)). eauto. }
              destruct A, G. split.
              { destruct O as [O|O]; [exact O|]. destruct Nu. exact (says_fun _ _ _ _ C O). }
              repeat split; auto. exists t. auto.
           ++ exfalso. rewrite post_none in H; [discriminate H|exact D|]. intros u' v a' (_ & _ & _ & _ & _ & _ & t' & S1 & N1 & I1).
              apply (full_some _ _ _ k_sid) in G. rewrite (says_fun _ _ _ _ S1 (proj1 G)) in I1. apply id_of_spec in I1. congruence.
        -- exfalso. rewrite post_none in H; [discriminate H|exact D|]. intros u' v a' (_ & _ & _ & _ & _ & _ & t' & S1 & N1 & I1).
           apply N1. exact (proj1 (full_none _ _ k_sid) G t' S1).
      * exfalso. rewrite post_none in H; [discriminate H|exact D|]. intros u' v a' (_ & _ & _ & _ & S1 & N1 & _).
        apply N1. exact (proj1 (full_none _ _ k_at) A a' S1).
    + exfalso. rewrite post_none in H; [discriminate H|exact D|]. intros u' v a' (_ & _ & S1 & _).
      apply (get_none _ _ k_cis) in C. exact (says_silent _ _ _ S1 C).
  - intros [L|(u & v & a & C)].
    + rewrite (post_leave _ _ _ _ _ _ _ _ L). unfold finish. eauto.
    + rewrite (post_conf _ _ _ _ _ _ _ _ _ _ _ C). unfold finish. eauto.
Qed.
Print Assumptions C140_accepted_exactly.

(** A request to leave the cloud resets it, once. *)
Theorem C140_leaving : forall slot mem reset manager err p s, leaves (st_cps s) p ->
  post slot mem reset manager true err p s = (Changed (show err (reset s)), reset s, [ResetCloud; Saved]).
Proof. intros slot mem reset manager err p s L. rewrite (post_leave _ _ _ _ _ _ _ _ L). reflexivity. Qed.
Print Assumptions C140_leaving.

(** After a request that names a server, the device has its token and
    provider, is ready to register, and has nothing else of before; a running
    manager is started again, and the configuration is saved. *)
Theorem C140_configured : forall slot mem reset manager err p s u v a, configures (st_cps s) p u v a ->
  exists s', post slot mem reset manager true err p s =
      (Changed (show err s'), s', (if manager then [Restarted] else []) ++ [Saved]) /\
    st_access s' = a /\ st_uid s' = [] /\ st_refresh s' = [] /\ st_expires s' = 0%Z /\ st_status s' = 0 /\ st_cps s' = 1 /\
    (forall n, says p "apn" n -> st_provider s' = n) /\ (silent p "apn" -> st_provider s' = []) /\
    (forall e, In e (l_items (st_servers s')) ->
       (a_uri e = u /\ a_meta e = MUuid v) \/ exists w, a_meta e = MUuid w /\ further p (a_uri e) w).
Proof.
  intros slot mem reset manager err p s u v a C. rewrite (post_conf _ _ _ _ _ _ _ _ _ _ _ C). eexists. split; [reflexivity|].
  cbn [configure st_access st_uid st_refresh st_expires st_status st_cps st_provider st_servers request u_access u_provider u_server u_sid u_servers initialize].
  repeat split.
  - intros n Hn. destruct (get_full p (str "apn")) as [x|] eqn:G.
    + apply (full_some _ _ _ k_apn) in G. exact (says_fun _ _ _ _ (proj1 G) Hn).
    + symmetry. exact (proj1 (full_none _ _ k_apn) G n Hn).
  - intros Hs. destruct (get_full p (str "apn")) as [x|] eqn:G; [|reflexivity].
    apply (full_some _ _ _ k_apn) in G. destruct (says_silent _ _ _ (proj1 G) Hs).
  - intros e He. exact (set_source _ _ _ _ _ _ He).
Qed.
Print Assumptions C140_configured.

(** The server that was named is the one in use, if its address is shorter
    than 128 bytes and there is memory; the resource shows it with its id and
    without the access token. *)
Theorem C140_server_is_used : forall slot mem reset manager err p s u v a q, configures (st_cps s) p u v a ->
  (List.length u < 128)%nat -> mem 0%nat = Some q ->
  exists s' l r, post slot mem reset manager true err p s = (Changed (show err s'), s', l) /\
    selected_uri (st_servers s') = Some u /\ selected_uuid (st_servers s') = Some v /\
    show err s' = [(str "apn", RStr (st_provider s')); (str "cis", RStr u); (str "sid", RStr (sid_text v))] ++ r /\
    In (str "cps", RStr (str "readytoregister")) r.
Proof.
  intros slot mem reset manager err p s u v a q C Lu M. rewrite (post_conf _ _ _ _ _ _ _ _ _ _ _ C).
  destruct C as (_ & _ & _ & Nu & _).
  assert (V : uri_valid u = true).
  { unfold uri_valid, uri_max. destruct u; [destruct Nu; reflexivity|]. apply andb_true_iff. split; [reflexivity|]. apply Nat.ltb_lt. exact Lu. }
  set (s' := configure slot mem (request p u v a) s).
  assert (Sel : selected (st_servers s') = Some (mk_ea q u (MUuid v))).
  { unfold s'. cbn [configure st_servers request u_server u_sid u_servers].
    destruct (set_start mem (st_servers (initialize slot (l_log (st_servers s)))) u v (servers_of p) q Nu V M) as (s1 & _ & S1 & ->).
    destruct (servers_of p) as [l|]; [|exact S1]. exact (add_servers_selected mem l _ _ _ S1). }
  assert (Cp : st_cps s' = 1) by reflexivity. clearbody s'.
  exists s', ((if manager then [Restarted] else []) ++ [Saved]). eexists. split; [reflexivity|].
  unfold show, selected_uri, selected_uuid. rewrite Sel. cbn [option_map a_uri a_meta]. split; [reflexivity|]. split; [reflexivity|].
  split; [reflexivity|]. rewrite Cp. apply in_or_app. right. right. left. reflexivity.
Qed.
Print Assumptions C140_server_is_used.

(** Every further server of the request is kept, if all their addresses are
    valid and there is memory. *)
Theorem C140_further_servers_are_kept : forall slot mem reset manager err p s u v a servers, configures (st_cps s) p u v a ->
  (List.length u < 128)%nat -> (forall k, mem k <> None) -> get_oa p (str "x.org.iotivity.servers") = Some servers ->
  (forall o x, In o servers -> says o "uri" x -> (0 < List.length x < 128)%nat) ->
  exists s' l, post slot mem reset manager true err p s = (Changed (show err s'), s', l) /\
    forall o x t w, In o servers -> says o "uri" x -> says o "id" t -> id_text t w -> exists e, In e (l_items (st_servers s')) /\ a_uri e = x.
Proof.
  intros slot mem reset manager err p s u v a servers C Lu M G Vs. rewrite (post_conf _ _ _ _ _ _ _ _ _ _ _ C).
  destruct C as (_ & _ & _ & Nu & _). destruct (mem 0%nat) as [q|] eqn:M0; [|destruct (M 0%nat M0)].
  assert (V : uri_valid u = true).
  { unfold uri_valid, uri_max. destruct u; [destruct Nu; reflexivity|]. apply andb_true_iff. split; [reflexivity|]. apply Nat.ltb_lt. exact Lu. }
  eexists. eexists. split; [reflexivity|]. intros o x t w Io Sx St Iw.
  cbn [configure st_servers request u_server u_sid u_servers].
  destruct (set_start mem (st_servers (initialize slot (l_log (st_servers s)))) u v (servers_of p) q Nu V M0) as (s1 & _ & _ & ->).
  assert (Sv : servers_of p = Some servers) by (unfold servers_of; rewrite G; destruct servers; [destruct Io|reflexivity]). rewrite Sv.
  apply (add_servers_all mem servers M) with (v := w); [|exists o, t; auto].
  intros y z (o' & t' & Io' & Sy & _). specialize (Vs o' y Io' Sy). unfold uri_valid, uri_max. apply andb_true_iff. rewrite !Nat.ltb_lt. exact Vs.
Qed.
Print Assumptions C140_further_servers_are_kept.

(** Reading the resource says nothing about the tokens and the user. *)
Theorem C140_no_secrets : forall err s s',
  st_servers s = st_servers s' -> st_provider s = st_provider s' -> st_cps s = st_cps s' -> show err s = show err s'.
Proof. intros err s s' A B C. unfold show. rewrite A, B, C. reflexivity. Qed.
Print Assumptions C140_no_secrets.

(** Examples. *)
Definition sid1 := str "11111111-1111-1111-1111-111111111111".
Definition mem : pool := fun k => Some (N.of_nat k).
Definition base : store := mk_st (mk_eas [] None []) (str "p") (str "user") (str "old") (str "r") 3 3 100.
Definition at_cps (c : N) : store := mk_st (mk_eas [] None []) (str "p") (str "user") (str "old") (str "r") 3 c 100.
Definition conf (u : list N) (more : list rep) : list rep := [(str "at", RStr (str "tok")); (str "cis", RStr u); (str "sid", RStr sid1)] ++ more.
Definition srv (u : list N) : list rep := [(str "uri", RStr u); (str "id", RStr sid1)].
Definition run (p : list rep) (s : store) := post None mem (fun s => s) true true 0 p s.
Definition accepted (r : answer * store * list act) : bool := match fst (fst r) with Changed _ => true | BadRequest => false end.
Definition uris (r : answer * store * list act) := map a_uri (l_items (st_servers (snd (fst r)))).

Example configures_ex : configures 1 (conf (str "coaps+tcp://c") []) (str "coaps+tcp://c") (repeat 17 16) (str "tok").
Proof.
  split; [right; left; reflexivity|]. split; [intros w [H|[H|[H|[]]]]; discriminate H|].
  split; [exists [(str "at", RStr (str "tok"))], [(str "sid", RStr sid1)]; split; [reflexivity|]; intros w [H|[]]; discriminate H|].
  split; [discriminate|]. split; [exists [], [(str "cis", RStr (str "coaps+tcp://c")); (str "sid", RStr sid1)]; split; [reflexivity|intros w []]|].
  split; [discriminate|]. exists sid1.
  split; [exists [(str "at", RStr (str "tok")); (str "cis", RStr (str "coaps+tcp://c"))], []; split; [reflexivity|]; intros w [H|[H|[]]]; discriminate H|].
  split; [discriminate|]. exists 16%Z. split; [vm_compute; reflexivity|lia].
Qed.

Example configured_ex : let r := run (conf (str "coaps+tcp://c") [(str "x.org.iotivity.servers", RObjArr [srv (str "coaps+tcp://d")])]) (at_cps 1) in
  accepted r = true /\ uris r = [str "coaps+tcp://c"; str "coaps+tcp://d"] /\ snd r = [Restarted; Saved] /\ st_uid (snd (fst r)) = [].
Proof. vm_compute. repeat split. Qed.

Example registered_ex : accepted (run (conf (str "coaps+tcp://c") []) (at_cps 3)) = false /\ accepted (run [(str "cis", RStr [])] (at_cps 3)) = true.
Proof. vm_compute. split; reflexivity. Qed.

(** A server whose address is too long is answered with success; the device has
    no server then. *)
Theorem C140_long_address_refuted : exists u,
  accepted (run (conf u []) (at_cps 1)) = true /\ uris (run (conf u []) (at_cps 1)) = [] /\ st_cps (snd (fst (run (conf u []) (at_cps 1)))) = 1.
Proof. exists (repeat 97 128). vm_compute. repeat split. Qed.
Print Assumptions C140_long_address_refuted.

(** A further server with an invalid address takes those after it along. *)
Theorem C140_invalid_further_server_refuted : exists l,
  l = [srv []; srv (str "coaps+tcp://d")] /\
  let r := run (conf (str "coaps+tcp://c") [(str "x.org.iotivity.servers", RObjArr l)]) (at_cps 1) in
  accepted r = true /\ uris r = [str "coaps+tcp://c"].
Proof. eexists. split; [reflexivity|]. vm_compute. split; reflexivity. Qed.
Print Assumptions C140_invalid_further_server_refuted.

(** If the answer cannot be encoded the request is refused, but it has been
    carried out, and is not saved. *)
Theorem C140_refused_but_done_refuted : exists p,
  let r := post None mem (fun s => s) true false 0 p (at_cps 1) in
  fst (fst r) = BadRequest /\ st_access (snd (fst r)) = str "tok" /\ st_uid (snd (fst r)) = [] /\ snd r = [Restarted].
Proof. exists (conf (str "coaps+tcp://c") []). vm_compute. repeat split. Qed.
Print Assumptions C140_refused_but_done_refuted.
