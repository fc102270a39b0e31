From Verif Require Import Common Query_Model Query_Spec Query_Proofs Rep_Model Repd_Model Repd_Spec Repd_Proofs Hex_Model Acl_Model Ob_Model Ri_Model Col_Model Col_Spec Col4_Proofs Disc_Model Disc_Spec Disc_Proofs.
From Verif Require Ep_Model Ep_Spec Ep_Proofs.
From Coq Require Import String.
Local Open Scope string_scope.
Local Open Scope list_scope.
Local Open Scope N_scope.

(** * The names of the interfaces *)

Definition bits_names : list (N * list N) :=
  [(4, str "oic.if.r"); (5, str "oic.if.rw"); (6, str "oic.if.a"); (7, str "oic.if.s"); (2, str "oic.if.ll"); (8, str "oic.if.create");
   (3, str "oic.if.b"); (1, str "oic.if.baseline"); (9, str "oic.if.w"); (10, str "oic.if.startup"); (11, str "oic.if.startup.revert")].

Lemma encode_ifs_alt mask : encode_ifs mask = map snd (filter (fun p => N.testbit mask (fst p)) bits_names).
Proof.
  unfold encode_ifs, public_ifs, bits_names. cbn [filter fst].
  unfold IF_R, IF_RW, IF_A, IF_S, IF_LL, IF_CREATE, IF_B, IF_BASELINE, IF_W, IF_STARTUP, IF_STARTUP_REVERT.
  rewrite (hasbit mask 4 : has mask 16 = _), (hasbit mask 5 : has mask 32 = _), (hasbit mask 6 : has mask 64 = _), (hasbit mask 7 : has mask 128 = _), (hasbit mask 2 : has mask 4 = _), (hasbit mask 8 : has mask 256 = _), (hasbit mask 3 : has mask 8 = _), (hasbit mask 1 : has mask 2 = _), (hasbit mask 9 : has mask 512 = _), (hasbit mask 10 : has mask 1024 = _), (hasbit mask 11 : has mask 2048 = _).
  destruct (N.testbit mask 4), (N.testbit mask 5), (N.testbit mask 6), (N.testbit mask 7), (N.testbit mask 2), (N.testbit mask 8), (N.testbit mask 3), (N.testbit mask 1), (N.testbit mask 9), (N.testbit mask 10), (N.testbit mask 11); reflexivity.
Qed.

Lemma public_if_in b n : public_if b n <-> In (b, n) bits_names.
Proof. unfold public_if, bits_names. cbn [In]. intuition. Qed.

Lemma bits_names_nodup : NoDup (map snd bits_names).
Proof. vm_compute. repeat (constructor; [cbn [In]; intuition discriminate|]). constructor. Qed.

Lemma nodup_map_filter {A B} (g : A -> B) (f : A -> bool) l : NoDup (map g l) -> NoDup (map g (filter f l)).
Proof.
  induction l as [|x l IH]; [auto|]. cbn [map filter]. intros H. inversion H as [|? ? NI ND]; subst. destruct (f x); [|auto]. cbn [map]. constructor; [|auto].
  intros I. apply NI. apply in_map_iff in I. destruct I as (y & <- & I). apply filter_In in I. apply in_map, I.
Qed.

Lemma encode_ifs_names mask : names_mask mask (encode_ifs mask).
Proof.
  rewrite encode_ifs_alt. split; [apply nodup_map_filter, bits_names_nodup|]. intros n. rewrite in_map_iff. split.
  - intros ((b & n') & E & I). cbn [snd] in E. subst n'. apply filter_In in I. exists b. rewrite public_if_in. exact I.
  - intros (b & P & T). exists (b, n). split; [reflexivity|]. apply filter_In. split; [apply public_if_in, P|exact T].
Qed.

Lemma policy_spec p : policy_bits p (Z.of_N (N.land p POLICY)).
Proof.
  exists (N.land p POLICY). split; [reflexivity|]. unfold POLICY. change 7 with (N.ones 3). split.
  - rewrite N.land_ones. apply N.mod_lt. discriminate.
  - intros i Hi. rewrite N.land_spec, N.ones_spec_low by exact Hi. apply andb_true_r.
Qed.

Lemma link_shows_ok s q we r : link_shows s q we r (link_of s q we r).
Proof.
  pose proof (encode_ifs_names (d_ifs r)) as IFS. pose proof (policy_spec (d_props r)) as POL.
  assert (TS : forall t, In t (filter is_nonempty (d_types r)) <-> In t (d_types r) /\ t <> []).
  { intros t. rewrite filter_In. destruct t; cbn [is_nonempty]; split; intros [A B]; split; auto; try discriminate. }
  assert (EPS : exists os ms es, encode_eps s q r = os ++ ms /\
                  (exists p, es = filter p (v_eps s) /\ forall e, In e (v_eps s) -> (p e = true <-> announced_at s q r e)) /\
                  Forall2 (ep_object s) es os /\ (ms <> [] <-> v_oscore s = true /\ N.testbit (d_props r) 8 = true)).
  { unfold encode_eps. eexists _, _, _. split; [reflexivity|]. split; [eexists; split; [reflexivity|]; intros e _; apply filter_out_spec|]. split.
    - clear. induction (filter _ (v_eps s)) as [|e l IH]; [constructor|]. cbn [map]. constructor; [apply encode_ep_object|exact IH].
    - rewrite has_mcast. destruct (v_oscore s), (N.testbit (d_props r) 8); cbn [andb]; split; try congruence; try discriminate; intuition congruence. }
  unfold link_of. revert IFS POL TS EPS. generalize (encode_ifs (d_ifs r)) (N.land (d_props r) POLICY) (filter is_nonempty (d_types r)) (encode_eps s q r).
  intros ns n ts eps IFS POL TS EPS. unfold encode_tags.
  assert (RL : forall (l : list rep), exists pre, (match d_core r with Some k => if k =? OCF_RES then [(str "rel", RStrArr [str "self"])] else [] | None => [] end) ++ l = pre ++ l /\
              (pre = [(str "rel", RStrArr [str "self"])] /\ d_core r = Some 6 \/ pre = [] /\ d_core r <> Some 6)).
  { intros l. destruct (d_core r) as [k|]; [|exists []; split; [reflexivity|right; split; [reflexivity|discriminate]]].
    destruct (N.eqb_spec k OCF_RES) as [->|D]; [exists [(str "rel", RStrArr [str "self"])]; split; [reflexivity|left; split; reflexivity]|].
    exists []. split; [reflexivity|]. right. split; [reflexivity|]. intros [= E]. apply D. exact E. }
  match goal with |- link_shows _ _ _ _ (_ ++ ?l) => destruct (RL l) as (pre & -> & P) end. clear RL.
  constructor.
  - destruct P as [[-> _]|[-> _]]; reflexivity.
  - destruct P as [[-> _]|[-> _]]; reflexivity.
  - exists ts. split; [|exact TS]. destruct P as [[-> _]|[-> _]]; reflexivity.
  - exists ns. split; [|exact IFS]. destruct P as [[-> _]|[-> _]]; reflexivity.
  - exists [(str "bm", RInt (Z.of_N n))], (Z.of_N n). split; [destruct P as [[-> _]|[-> _]]; reflexivity|]. split; [reflexivity|exact POL].
  - destruct P as [[-> H]|[-> H]]; [split; [auto|reflexivity]|]. split; [|contradiction]. intros K. exfalso.
    destruct we, (d_locn r), (d_pos r), (d_desc r), (d_func r); discriminate K.
  - destruct we.
    + destruct EPS as (os & ms & es & E & K). exists os, ms, es. split; [|exact K]. rewrite <- E. destruct P as [[-> _]|[-> _]]; reflexivity.
    + destruct P as [[-> _]|[-> _]]; destruct (d_locn r), (d_pos r), (d_desc r), (d_func r); reflexivity.
Qed.

(** * Answers *)

Lemma uuid_matches_spec v id : uuid_matches v id = true <-> List.length v = 36%nat /\ same_ignoring_case v (uuid_str id).
Proof. unfold uuid_matches. rewrite andb_true_iff, Nat.eqb_eq, ieq_spec. tauto. Qed.

Lemma sduuid_ok_spec s ps : Forall wf_pair ps -> (sduuid_ok s (render ps) = true <-> addressed s ps).
Proof.
  intros W. destruct (first_match_total (str "sduuid") ps) as (r & F).
  destruct (get_query_value_spec ps (str "sduuid") r W ltac:(cbn; lia) F) as [G _].
  assert (U : forall r', first_match (str "sduuid") ps r' -> r' = r).
  { intros r' F'. destruct (get_query_value_spec ps (str "sduuid") r' W ltac:(cbn; lia) F') as [G' _]. rewrite G in G'. destruct r as [x|], r' as [y|]; [injection G' as ->; reflexivity|discriminate G'|discriminate G'|reflexivity]. }
  unfold sduuid_ok, addressed, asks_domain, in_domain. rewrite G. clear G.
  destruct r as [[[|c v]|]|].
  - split; [|reflexivity]. intros _ v [F' N]. apply U in F'. congruence.
  - destruct (v_sdi s) as [[priv id] name]. cbn [to_found fst snd]. rewrite andb_true_iff, negb_true_iff, uuid_matches_spec. split.
    + intros (A & B & C) v' [F' N]. apply U in F'. assert (v' = c :: v) by congruence. subst v'. auto.
    + intros H. apply H. split; [exact F|discriminate].
  - split; [|reflexivity]. intros _ v [F' N]. apply U in F'. congruence.
  - split; [|reflexivity]. intros _ v [F' N]. apply U in F'. congruence.
Qed.

Lemma unicast_spec o : unicast o = true <-> ~ multicast o.
Proof. unfold unicast, multicast. rewrite has_multi. destruct (N.testbit (Ep_Model.e_flags o) 6); cbn [negb]; split; congruence. Qed.
