From Verif Require Import Common Query_Spec Rep_Model Repd_Model Repd_Spec Repd_Proofs Hex_Model Hex_Proofs Acl_Model Acl_Spec Acl2_Proofs Ob_Model Ob_Proofs Ri_Model Ri_Spec Ri2_Proofs Col_Spec Disc_Model Disc_Spec Disc_Proofs Disc2_Proofs Disc3_Proofs.
From Verif Require Ep_Model Ep_Spec Ep_Proofs Ep4_Proofs.
From Coq Require Import String.
Local Open Scope string_scope.
Local Open Scope list_scope.
Local Open Scope N_scope.

(** * Payloads of links *)

Lemma find_links_none l d : Forall (fun b => ~ (fst b = str "links" /\ obj_array b)) l -> find_links l d = d.
Proof.
  unfold find_links. revert d. induction l as [|[n v] l IH]; intros d F; [reflexivity|]. inversion F as [|? ? Fa Fl]; subst. cbn [fold_left fst snd].
  assert (E : (match v with RObjArr o => if list_eqb n (str "links") then map (fun x => as_object (RObj x)) o else d | _ => d end) = d).
  { destruct v; try reflexivity. destruct (list_eqb n (str "links")) eqn:E; [|reflexivity]. apply list_eqb_spec in E. exfalso. apply Fa. split; [exact E|]. eexists; reflexivity. }
  rewrite E. apply IH, Fl.
Qed.
Lemma find_links_last l o d : last_such (fun b => fst b = str "links" /\ obj_array b) l (str "links", RObjArr o) -> find_links l d = map (fun x => as_object (RObj x)) o.
Proof.
  intros (x & y & -> & _ & F). unfold find_links. rewrite fold_left_app. cbn [fold_left fst snd]. rewrite list_eqb_refl. apply find_links_none, F.
Qed.

Lemma complete_no_links dns from l c : complete dns from l c -> Forall (fun b => ~ (fst b = str "links" /\ obj_array b)) l.
Proof.
  intros [_ _ _ _ (x & a & di & y & es & -> & _ & NO & _ & _ & _ & H)].
  assert (W : forall m, Forall (fun b => ~ obj_array b) m -> Forall (fun b => ~ (fst b = str "links" /\ obj_array b)) m) by (intros m; apply Forall_impl; tauto).
  apply Forall_app. split; [apply W, NO|]. constructor; [intros [K _]; discriminate K|]. destruct H as [[H _]|(y1 & os & y2 & -> & H & _)]; [apply W, H|].
  apply Forall_app in H. destruct H as [H1 H2]. apply Forall_app. split; [apply W, H1|]. constructor; [intros [K _]; discriminate K|apply W, H2].
Qed.

Lemma process_array dns from stop p ls cs : parse p = Ok (PArr ls) -> Forall2 (complete dns from) ls cs -> more_follow cs ->
  exists out b, process dns from stop p = Calls out b /\ reported stop cs out b.
Proof.
  intros P F M. unfold process. rewrite P. destruct (links_run_spec dns from stop ls cs F M keep0 []) as (out & b & R & E). exists out, b. split; [|exact R].
  unfold root_links. destruct F as [|l c ls cs H F]; [exact E|]. rewrite (find_links_none l) by (exact (complete_no_links _ _ _ _ H)). exact E.
Qed.
Lemma process_baseline dns from stop p o rest ls cs : parse p = Ok (PArr (o :: rest)) ->
  last_such (fun b => fst b = str "links" /\ obj_array b) o (str "links", RObjArr ls) -> Forall2 (complete dns from) ls cs -> more_follow cs ->
  exists out b, process dns from stop p = Calls out b /\ reported stop cs out b.
Proof.
  intros P L F M. unfold process. rewrite P. destruct (links_run_spec dns from stop ls cs F M keep0 []) as (out & b & R & E). exists out, b. split; [|exact R].
  unfold root_links. rewrite (find_links_last _ _ _ L). exact E.
Qed.

(** ** No undefined behaviour *)

Definition long_anchors (l : list rep) : Prop := forall t, In (str "anchor", RStr t) l -> (6 <= List.length t)%nat.
Definition ptr_ok (p : ptr) : Prop := match p with Wild => False | Null => True | To l => long_anchors l end.
Lemma links_run_defined dns from stop : forall ls k acc, Forall ptr_ok ls -> links_run dns from stop k acc ls <> Undefined.
Proof.
  induction ls as [|p ls IH]; intros k acc F; cbn [links_run]; [discriminate|]. inversion F as [|? ? Fp Fl]; subst.
  assert (D : forall st, match l_eps st with
                    | [] => links_run dns from stop (l_keep st) acc ls
                    | e :: es => match k_anchor (l_keep st) with
                                 | Some a => match k_uri (l_keep st) with
                                             | Some u => match k_types (l_keep st) with
                                                         | Some t => let c := mkCall (cstr a) (cstr u) (map cstr t) (k_ifs (l_keep st)) (e :: es) (l_bm st) (match ls with [] => false | _ => true end) in
                                                                     if stop c then Calls (acc ++ [c]) true else links_run dns from stop (l_keep st) (acc ++ [c]) ls
                                                         | None => links_run dns from stop (l_keep st) acc ls
                                                         end
                                             | None => links_run dns from stop (l_keep st) acc ls
                                             end
                                 | None => links_run dns from stop (l_keep st) acc ls
                                 end
                    end <> Undefined).
  { intros st. destruct (l_eps st); [apply IH, Fl|]. destruct (k_anchor (l_keep st)); [|apply IH, Fl]. destruct (k_uri (l_keep st)); [|apply IH, Fl].
    destruct (k_types (l_keep st)); [|apply IH, Fl]. cbv zeta. match goal with |- context [stop ?c] => destruct (stop c) end; [discriminate|apply IH, Fl]. }
  destruct p as [|l|]; [| |destruct Fp].
  - cbn [link_attrs]. apply (D (mkLinkst k None [] 0)).
  - destruct (attrs_total dns from l Fp (mkLinkst k None [] 0)) as (st & ->). apply (D st).
Qed.
Lemma as_object_ok x : long_anchors x -> ptr_ok (as_object (RObj x)).
Proof. intros H. destruct x; [exact I|exact H]. Qed.
Lemma map_ptr_ok ls : Forall long_anchors ls -> Forall ptr_ok (map (fun x => as_object (RObj x)) ls).
Proof. induction 1; constructor; [apply as_object_ok; assumption|assumption]. Qed.
Lemma find_links_ok l : forall d, Forall ptr_ok d -> (forall o, In (str "links", RObjArr o) l -> Forall long_anchors o) -> Forall ptr_ok (find_links l d).
Proof.
  unfold find_links. induction l as [|[n v] l IH]; intros d D H; [exact D|]. cbn [fold_left fst snd]. apply IH; [|intros o I; apply H; right; exact I].
  destruct v; try exact D. destruct (list_eqb n (str "links")) eqn:E; [|exact D]. apply list_eqb_spec in E. subst n. apply map_ptr_ok, H. left. reflexivity.
Qed.
Lemma process_defined dns from stop p ls : parse p = Ok (PArr ls) -> Forall long_anchors ls ->
  (forall o, In (str "links", RObjArr o) (hd [] ls) -> Forall long_anchors o) -> process dns from stop p <> Undefined.
Proof.
  intros P A B. unfold process. rewrite P. unfold root_links. destruct ls as [|o r]; [discriminate|]. apply links_run_defined.
  apply find_links_ok; [apply map_ptr_ok, A|exact B].
Qed.

(** * What is written is read back; an empty array becomes null *)

Definition rd_attr (a b : rep) : Prop := fst a = fst b /\ dec (enc (snd a)) = Ok (snd b).
Definition rd : list rep -> list rep -> Prop := Forall2 rd_attr.

Lemma rd_members l l' : rd l l' -> members dec (enc_members l) = Ok l'.
Proof.
  induction 1 as [|[n v] [n' v'] l l' [E D] F IH]; [reflexivity|]. cbn [fst snd] in E, D. subst n'. cbn [enc_members map fst snd members dec_key bind].
  rewrite D. cbn [bind]. fold (members dec). fold (enc_members l). rewrite IH. reflexivity.
Qed.
Lemma rd_root l l' : rd l l' -> root_item (CMap (enc_members l)) = Ok l'.
Proof.
  intros F. cbn [root_item]. induction F as [|[n v] [n' v'] l l' [E D] F IH]; [reflexivity|]. cbn [fst snd] in E, D. subst n'. cbn [enc_members map fst snd seq].
  unfold root_member at 1. cbn [fst snd dec_key bind]. rewrite D. cbn [bind]. fold (enc_members l). rewrite IH. reflexivity.
Qed.
Lemma rd_payload ls ls' : Forall2 rd ls ls' -> ls <> [] -> parse (objects_of ls) = Ok (PArr ls').
Proof.
  intros F N. unfold objects_of. assert (E : seq root_item (map (fun l => CMap (enc_members l)) ls) = Ok ls').
  { clear N. induction F as [|l l' ls ls' H F IH]; [reflexivity|]. cbn [map seq]. rewrite (rd_root _ _ H). cbn [bind]. rewrite IH. reflexivity. }
  destruct ls as [|l ls]; [congruence|]. cbn [map parse] in *. rewrite E. reflexivity.
Qed.
Lemma rd_objs ls ls' : Forall2 rd ls ls' -> ls <> [] -> dec (enc (RObjArr ls)) = Ok (RObjArr ls').
Proof.
  intros F N. rewrite enc_objs. assert (E : objects dec (map (fun o => CMap (enc_members o)) ls) = Ok ls').
  { clear N. induction F as [|l l' ls ls' H F IH]; [reflexivity|]. cbn [map objects]. rewrite (rd_members _ _ H). cbn [bind]. fold (objects dec). rewrite IH. reflexivity. }
  destruct ls as [|l ls]; [congruence|]. cbn [map dec ctype] in *. rewrite E. reflexivity.
Qed.
Lemma rd_writable l : wmems l -> rd l l.
Proof. induction 1 as [|n v o W _ IH]; constructor; [|exact IH]. split; [reflexivity|]. exact (proj1 dec_complete _ _ (proj1 enc_means _ W)). Qed.

(** ** Endpoints *)

Lemma ep_read s e : Ep_Spec.ep_ok e /\ (v4 e /\ ~ v6 e \/ v6 e /\ ~ v4 e /\ ~ Ep_Spec.dotted (Ep_Model.e_addr e)) ->
  exists t e1, Ep_Model.to_string e = Some t /\ encode_ep (v_latency s) e = (str "ep", RStr t) :: (if 0 <? v_latency s then [(str "lat", RInt (Z.of_N (v_latency s)))] else []) /\
    Ep_Model.of_string t = Ep_Model.PAddress e1 None /\
    (forall from, usable from e1 <-> usable from e) /\ (forall from, seen from e (adopt from e1)).
Proof.
  intros [O V]. destruct (Ep4_Proofs.round_trip e O) as (t & T & R).
  { destruct V as [[V _]|[V _]]; [right|left]; exact V. }
  { destruct V as [[V _]|(_ & _ & V)]; [left; exact V|right; exact V]. }
  exists t. eexists. split; [exact T|]. split; [unfold encode_ep; rewrite T; reflexivity|]. split; [exact R|].
  assert (FL : forall i, N.testbit (Ep_Spec.flags_of (N.testbit (Ep_Model.e_flags e) 4) (N.testbit (Ep_Model.e_flags e) 1) + (if N.testbit (Ep_Model.e_flags e) 2 then 4 else 8)) i = true <->
    (i = 1 \/ i = 4 \/ i = 2 \/ i = 3) /\ N.testbit (Ep_Model.e_flags e) i = true).
  { intros i. unfold v4, v6 in V.
    assert (K : i = 1 \/ i = 2 \/ i = 3 \/ i = 4 \/ (i <> 1 /\ i <> 2 /\ i <> 3 /\ i <> 4)) by lia.
    assert (Z : forall m, m < 32 -> N.testbit m 0 = false -> i <> 1 /\ i <> 2 /\ i <> 3 /\ i <> 4 -> N.testbit m i = false).
    { intros m M M0 I. destruct (N.eq_dec i 0) as [->|]; [exact M0|]. destruct (N.eq_dec m 0) as [->|]; [apply N.bits_0|]. apply N.bits_above_log2.
      apply N.log2_lt_pow2; [lia|]. apply N.lt_le_trans with (2 ^ 5); [exact M|]. apply N.pow_le_mono_r; lia. }
    destruct V as [[V W]|(V & W & _)].
    - rewrite V. apply not_true_is_false in W.
      destruct (N.testbit (Ep_Model.e_flags e) 4) eqn:E4, (N.testbit (Ep_Model.e_flags e) 1) eqn:E1; destruct K as [->|[->|[->|[->|K]]]]; try rewrite E4; try rewrite E1; try rewrite V; try rewrite W;
        try (vm_compute; intuition congruence); (rewrite Z; [split; [discriminate|intros [? _]; lia]|vm_compute; reflexivity|vm_compute; reflexivity|exact K]).
    - apply not_true_is_false in W. rewrite W.
      destruct (N.testbit (Ep_Model.e_flags e) 4) eqn:E4, (N.testbit (Ep_Model.e_flags e) 1) eqn:E1; destruct K as [->|[->|[->|[->|K]]]]; try rewrite E4; try rewrite E1; try rewrite V; try rewrite W;
        try (vm_compute; intuition congruence); (rewrite Z; [split; [discriminate|intros [? _]; lia]|vm_compute; reflexivity|vm_compute; reflexivity|exact K]). }
  split.
  - intros from. unfold usable, standard_port, v4, v6. cbn [Ep_Model.e_flags Ep_Model.e_port].
    rewrite (FL 2), (FL 3), (FL 4). intuition.
  - intros from. unfold seen, adopt. cbn [Ep_Model.e_flags Ep_Model.e_addr Ep_Model.e_port Ep_Model.e_dev Ep_Model.e_if]. split; [exact FL|]. auto.
Qed.

Lemma usable_dec from e : usable from e \/ ~ usable from e.
Proof. destruct (unreachable from e) eqn:U; [right|left]; rewrite <- usable_spec; congruence. Qed.

Lemma eps_read dns from s es : Forall (fun e => Ep_Spec.ep_ok e /\ (v4 e /\ ~ v6 e \/ v6 e /\ ~ v4 e /\ ~ Ep_Spec.dotted (Ep_Model.e_addr e))) es ->
  exists es', array_eps dns from (map (encode_ep (v_latency s)) es) es' /\ Forall2 (seen from) (filter (fun e => negb (unreachable from e)) es) es'.
Proof.
  induction 1 as [|e es H F (es' & (ess & A & ->) & B)]; [exists []; split; [exists []; split; [constructor|reflexivity]|constructor]|].
  destruct (ep_read s e H) as (t & e1 & T & En & R & U & S).
  assert (RA : reads_as dns t (Some e1)) by (unfold reads_as; rewrite R; reflexivity).
  assert (L : forall l es0, object_eps dns from l es0 -> object_eps dns from ((if 0 <? v_latency s then [(str "lat", RInt (Z.of_N (v_latency s)))] else []) ++ l) es0).
  { intros l es0 O. destruct (0 <? v_latency s); [|exact O]. cbn [app]. apply OE_other; [intros [K _]; discriminate K|exact O]. }
  cbn [map filter]. destruct (unreachable from e) eqn:Ue.
  - assert (Un : ~ usable from e1) by (rewrite U, <- usable_spec; congruence). exists (List.concat ([] :: ess)). split; [|exact B].
    exists ([] :: ess). split; [|reflexivity]. constructor; [|exact A]. rewrite En. eapply OE_stop; eassumption.
  - apply usable_spec in Ue. apply U in Ue. exists (List.concat ([adopt from e1] :: ess)). split; [|cbn [negb]; constructor; [apply S|exact B]].
    exists ([adopt from e1] :: ess). split; [|reflexivity]. constructor; [|exact A]. rewrite En. eapply OE_ep; [exact RA|exact Ue|reflexivity|].
    rewrite <- (app_nil_r (if 0 <? _ then _ else _)). apply L. constructor.
Qed.

Lemma group_read dns from : object_eps dns from mcast_item (group_eps from).
Proof.
  unfold mcast_item, group_eps.
  eapply OE_ep; [vm_compute; reflexivity| |reflexivity|].
  { left. split; [reflexivity|]. left. reflexivity. }
  eapply OE_ep; [vm_compute; reflexivity| |reflexivity|constructor].
  left. split; [reflexivity|]. right. reflexivity.
Qed.

Lemma array_eps_app dns from a b x y : array_eps dns from a x -> array_eps dns from b y -> array_eps dns from (a ++ b) (x ++ y).
Proof. intros (xs & F & ->) (ys & G & ->). exists (xs ++ ys). split; [apply Forall2_app; assumption|]. rewrite concat_app. reflexivity. Qed.

Lemma link_eps_read dns from s q r : server_ok s ->
  exists es, array_eps dns from (encode_eps s q r) es /\
    exists es1 es' ms, (exists p, es1 = filter p (v_eps s) /\ forall e, In e (v_eps s) -> (p e = true <-> announced_at s q r e /\ usable from e)) /\
           Forall2 (seen from) es1 es' /\ (ms = group_eps from /\ v_oscore s = true /\ N.testbit (d_props r) 8 = true \/
                                          ms = [] /\ ~ (v_oscore s = true /\ N.testbit (d_props r) 8 = true)) /\ es = es' ++ ms.
Proof.
  intros [_ EO _ _]. unfold encode_eps. set (f := fun e => negb (filter_out s (q_origin q) r (owned_svr s r (q_dev q)) e)).
  destruct (eps_read dns from s (filter f (v_eps s))) as (es' & A & B).
  { apply Forall_forall. intros e I. apply filter_In in I. rewrite Forall_forall in EO. apply EO, I. }
  rewrite filter_filter in B.
  set (ms := if v_oscore s && N.testbit (d_props r) 8 then group_eps from else []).
  exists (es' ++ ms). split.
  - apply array_eps_app; [exact A|]. rewrite has_mcast. unfold ms. destruct (v_oscore s && N.testbit (d_props r) 8).
    + exists [group_eps from]. split; [constructor; [apply group_read|constructor]|]. cbn [List.concat]. rewrite app_nil_r. reflexivity.
    + exists []. split; [constructor|reflexivity].
  - exists (filter (fun x => f x && negb (unreachable from x)) (v_eps s)), es', ms. split; [exists (fun x => f x && negb (unreachable from x)); split; [reflexivity|]|].
    + intros e _. cbn beta. rewrite andb_true_iff, <- usable_spec, <- filter_out_spec. unfold f. destruct (unreachable from e); cbn [negb]; intuition congruence.
    + split; [exact B|]. split; [|reflexivity]. unfold ms. destruct (v_oscore s) eqn:E1, (N.testbit (d_props r) 8) eqn:E2; cbn [andb]; [left; auto|right..]; (split; [reflexivity|intros [? ?]; congruence]).
Qed.
