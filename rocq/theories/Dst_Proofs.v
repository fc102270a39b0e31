(** Saving and loading the storage of the provisioning client. *)
From Verif Require Import Common Rep_Model Repd_Model Ea_Model Ea_Spec Ea_Proofs Ea2_Proofs Dst_Model Dst_Spec.
From Coq Require Import String.
Local Open Scope string_scope.
Local Open Scope list_scope.
Local Open Scope N_scope.

Ltac names := repeat match goal with |- context[list_eqb (str ?a) (str ?b)] =>
  let v := eval vm_compute in (list_eqb (str a) (str b)) in replace (list_eqb (str a) (str b)) with v by (vm_compute; reflexivity) end.

(** The address as it is after loading. *)
Definition full (a : addr) : addr := (fst a, MName (Some (snd (reads a)))).

Definition enc_item (a : addr) : list rep := enc_addr (str "uri") (str "name") (mk_ea 0 (fst a) (snd a)).

Lemma enc_item_get u n : get_s (enc_item (u, MName n)) (str "uri") = Some u /\
  get_s (enc_item (u, MName n)) (str "name") = Some (snd (reads (u, MName n))).
Proof.
  unfold get_s, get_by.
  replace ((List.length (str "uri") =? 0) || (max_string <=? List.length (str "uri")))%nat with false by (vm_compute; reflexivity).
  replace ((List.length (str "name") =? 0) || (max_string <=? List.length (str "name")))%nat with false by (vm_compute; reflexivity).
  unfold enc_item, enc_addr, reads. cbn [fst snd a_uri a_meta]. destruct n as [t|]; cbn [name_text find fst snd rtype]; names; cbn; split; reflexivity.
Qed.

Lemma nodup_left {A} (a b : list A) : NoDup (a ++ b) -> NoDup a.
Proof.
  induction a as [|x a IH]; intros H; [constructor|]. inversion H as [|y q H1 H2]; subst. constructor; [|exact (IH H2)].
  intros Hx. apply H1. apply in_or_app. left. exact Hx.
Qed.

Definition from_pool (mem : pool) (k : nat) (s : eas) : Prop := forall p, In p (map a_ptr (l_items s)) -> exists j, (j < k)%nat /\ mem j = Some p.

Lemma shows_uris s z : shows s z -> map a_uri (l_items s) = map fst (all z).
Proof. intros [H _]. rewrite <- H, map_map. reflexivity. Qed.

Lemma from_pool_add mem k s u m s' o : from_pool mem k s -> add s u m (mem k) = (s', o) -> from_pool mem (S k) s'.
Proof.
  intros F E w Hw. unfold add, alloc_add in E.
  assert (Same : s' = s -> exists j, (j < S k)%nat /\ mem j = Some w).
  { intros ->. destruct (F w Hw) as (j & Hj & E'). exists j. split; [lia|exact E']. }
  destruct (negb (uri_valid u)); [apply Same; congruence|]. destruct (contains s u); [apply Same; congruence|].
  destruct (mem k) as [p|] eqn:Ep; [|apply Same; congruence].
  assert (Ei : map a_ptr (l_items s') = map a_ptr (l_items s) ++ [p]).
  { injection E as <- <-. cbn [set_items l_items]. destruct (l_sel s) as [v|]; [rewrite map_app; reflexivity|].
    unfold select_. destruct (opt_eqb _ _); cbn [fst l_items]; rewrite map_app; reflexivity. }
  rewrite Ei in Hw. apply in_app_iff in Hw. destruct Hw as [Hw|[<-|[]]].
  - destruct (F w Hw) as (j & Hj & E'). exists j. split; [lia|exact E'].
  - exists k. split; [lia|exact Ep].
Qed.

Lemma fresh_ok mem k s u m : pool_ok mem -> from_pool mem k s -> op_ok s (Add u m (mem k)).
Proof.
  intros [Hp Hi] F. destruct (Hp k) as [p Ep]. rewrite Ep. cbn [op_ok]. intros Hin. destruct (F p Hin) as (j & Hj & E).
  rewrite <- Ep in E. apply Hi in E. lia.
Qed.

Lemma add_fresh mem k s x q u m : pool_ok mem -> reach s -> shows s (Some ([], x, q)) -> from_pool mem k s -> u <> [] -> (List.length u < 128)%nat ->
  ~ In u (map fst (x :: q)) ->
  exists s' e, add s u m (mem k) = (s', Some e) /\ reach s' /\ shows s' (Some ([], x, q ++ [(u, m)])) /\ from_pool mem (S k) s'.
Proof.
  intros P R Sh F Hu Hl Hn. pose proof (fresh_ok mem k s u m P F) as Ok. destruct (proj1 P k) as [p Ep].
  destruct (add_refines s _ u m (mem k) R Sh Ok) as (A & B & _).
  assert (Ne : snd (add s u m (mem k)) <> None).
  { apply A. split; [exact Hu|]. split; [exact Hl|]. split; [exact Hn|]. rewrite Ep. discriminate. }
  specialize (B Ne). pose proof (ReachS s _ R Ok) as R'. cbn [Ea_Model.step] in R'.
  destruct (add s u m (mem k)) as [s' o] eqn:E. cbn [fst snd] in *. destruct o as [e|]; [|contradiction].
  exists s', e. split; [reflexivity|]. split; [exact R'|]. split; [exact B|exact (from_pool_add mem k s u m s' _ F E)].
Qed.

Definition sound (t : list addr) : Prop := forall a, In a t -> fst a <> [] /\ (List.length (fst a) < 128)%nat /\ exists n, snd a = MName n.

Lemma fst_full t : map fst (map full t) = map fst t.
Proof. rewrite map_map. reflexivity. Qed.

Lemma add_all mem t rest : forall k s x q, pool_ok mem -> reach s -> shows s (Some ([], x, q)) -> from_pool mem k s ->
  NoDup (map fst (x :: q ++ t)) -> sound t ->
  exists k' s', add_eps mem k s (map enc_item t ++ rest) = add_eps mem k' s' rest /\ reach s' /\ shows s' (Some ([], x, q ++ map full t)) /\ from_pool mem k' s'.
Proof.
  induction t as [|[u m] t IH]; intros k s x q P R Sh F D H.
  - exists k, s. cbn [map]. rewrite app_nil_r. auto.
  - destruct (H (u, m) (or_introl eq_refl)) as (H1 & H2 & n & En). cbn [fst snd] in *. subst m.
    assert (Hn : ~ In u (map fst (x :: q))).
    { rewrite app_comm_cons in D. apply (nodup_mid fst (x :: q) (u, MName n) t) in D. destruct D as [D _]. exact D. }
    destruct (add_fresh mem k s x q u (MName (Some (snd (reads (u, MName n))))) P R Sh F H1 H2 Hn) as (s' & e & Ea & R' & Sh' & F').
    destruct (enc_item_get u n) as [G1 G2].
    assert (D' : NoDup (map fst (x :: (q ++ [full (u, MName n)]) ++ t))).
    { rewrite <- app_assoc. cbn [map] in D |- *. rewrite map_app in D |- *. exact D. }
    destruct (IH (S k) s' x (q ++ [full (u, MName n)]) P R' Sh' F' D') as (k2 & s2 & E2 & R2 & Sh2 & F2); [intros a Ha; apply H; right; exact Ha|].
    exists k2, s2. rewrite <- app_assoc in Sh2. split; [|auto].
    rewrite <- E2. cbn [map app add_eps]. rewrite G1, G2.
    replace (contains s u) with false.
    2:{ symmetry. destruct (contains s u) eqn:C; [|reflexivity]. apply contains_spec in C. rewrite (shows_uris _ _ Sh) in C. contradiction. }
    rewrite Ea. reflexivity.
Qed.

Lemma add_known mem k s a rest : In (fst a) (map a_uri (l_items s)) -> (exists n, snd a = MName n) ->
  add_eps mem k s (enc_item a :: rest) = add_eps mem k s rest.
Proof.
  intros H (n & En). destruct a as [u m]. cbn [fst snd] in *. subst m. destruct (enc_item_get u n) as [G1 _].
  cbn [add_eps]. rewrite G1. apply contains_spec in H. rewrite H. reflexivity.
Qed.

Lemma init_one log u m p : u <> [] -> (List.length u < 128)%nat -> init log u m (Some p) = (mk_eas [mk_ea p u m] (Some p) (log ++ [Some u]), true).
Proof.
  intros H1 H2. unfold init, alloc_add. destruct u as [|c u]; [contradiction|].
  replace (uri_valid (c :: u)) with true by (symmetry; apply uri_valid_spec; split; assumption). reflexivity.
Qed.

Definition kept (l : list addr) : option (list (list rep)) := match l with [] | [_] => None | _ => Some (map enc_item l) end.

Lemma set_back mem s l x r : pool_ok mem -> NoDup (map fst (l ++ x :: r)) -> sound (l ++ x :: r) ->
  exists s', set_eps mem s (Some (fst x)) (Some (snd (reads x))) (kept (l ++ x :: r)) = (s', true) /\ reach s' /\
    shows s' (Some ([], full x, map full (l ++ r))).
Proof.
  intros P D H. destruct (H x) as (H1 & H2 & nx); [apply in_elt|]. destruct (proj1 P 0%nat) as [p Ep].
  unfold set_eps, reinit. rewrite Ep, (init_one _ _ _ _ H1 H2). set (s0 := mk_eas _ _ _).
  assert (R0 : reach s0).
  { unfold s0. pose proof (Reach0 (fst x) (MName (Some (snd (reads x)))) (Some p) (l_log (deinit s))) as R. rewrite (init_one _ _ _ _ H1 H2) in R. exact R. }
  assert (S0 : shows s0 (Some ([], full x, []))).
  { split; [reflexivity|]. unfold selected, s0. cbn [l_sel l_items find_ptr find a_ptr]. rewrite N.eqb_refl. reflexivity. }
  assert (F0 : from_pool mem 1%nat s0) by (intros q [<-|[]]; exists 0%nat; split; [lia|exact Ep]).
  assert (G : exists s', add_eps mem 1%nat s0 (map enc_item (l ++ x :: r)) = (s', true) /\ reach s' /\ shows s' (Some ([], full x, map full (l ++ r)))).
  { rewrite map_app. cbn [map].
    assert (D1 : NoDup (map fst (full x :: [] ++ l))).
    { cbn [app map]. destruct (nodup_mid fst l x r D) as (Hx & _ & _). constructor; [exact Hx|]. rewrite map_app in D. exact (nodup_left _ _ D). }
    destruct (add_all mem l (enc_item x :: map enc_item r) 1%nat s0 (full x) [] P R0 S0 F0 D1) as (k1 & s1 & E1 & R1 & S1 & F1); [intros a Ha; apply H; apply in_or_app; left; exact Ha|].
    cbn [app] in S1.
    rewrite add_known in E1; [|rewrite (shows_uris _ _ S1); left; reflexivity|exact nx].
    destruct (add_all mem r [] k1 s1 (full x) (map full l) P R1 S1 F1) as (k2 & s2 & E2 & R2 & S2 & F2).
    - destruct (nodup_mid fst l x r D) as (Hx & Hy & Hz). cbn [map]. rewrite map_app, fst_full. rewrite map_app in Hz.
      constructor; [|exact Hz]. intros Q. apply in_app_iff in Q. destruct Q; contradiction.
    - intros a Ha. apply H. apply in_or_app. right; right; exact Ha.
    - rewrite app_nil_r in E2. rewrite <- map_app in S2. exists s2. split; [exact (eq_trans E1 E2)|]. split; assumption. }
  unfold kept. destruct l as [|y l]; [destruct r as [|y r]|].
  - exists s0. split; [reflexivity|]. split; [exact R0|exact S0].
  - exact G.
  - destruct l; exact G.
Qed.

Lemma enc_eps_shows s z : shows s z -> enc_eps (l_items s) = match kept (all z) with None => [] | Some v => [(str "eps", RObjArr v)] end.
Proof.
  intros [H _]. rewrite <- H. destruct (l_items s) as [|a [|b t]]; [reflexivity..|]. unfold enc_eps, kept. cbn [map].
  repeat f_equal. rewrite map_map. reflexivity.
Qed.

Lemma kept_nonempty l v : kept l = Some v -> v <> [].
Proof. destruct l as [|a [|b t]]; intros H; try discriminate H. injection H as <-. discriminate. Qed.

Lemma take_ep d v : take d (str "ep", RStr v) = mk_dd (dd_eps d) (Some v) (dd_name d) (dd_owner d) (dd_flag d).
Proof. unfold take. cbn [fst snd]. names. reflexivity. Qed.
Lemma take_name d v : take d (str "epname", RStr v) = mk_dd (dd_eps d) (dd_ep d) (Some v) (dd_owner d) (dd_flag d).
Proof. unfold take. cbn [fst snd]. names. reflexivity. Qed.
Lemma take_owner d v : take d (str "owner", RStr v) = mk_dd (dd_eps d) (dd_ep d) (dd_name d) (Some v) (dd_flag d).
Proof. unfold take. cbn [fst snd]. names. reflexivity. Qed.
Lemma take_flag d b : take d (str "hasBeenProvisionedSinceReset", RBool b) = mk_dd (dd_eps d) (dd_ep d) (dd_name d) (dd_owner d) (Some b).
Proof. unfold take. cbn [fst snd]. names. reflexivity. Qed.
Lemma take_eps d v : v <> [] -> take d (str "eps", RObjArr v) = mk_dd (Some v) (dd_ep d) (dd_name d) (dd_owner d) (dd_flag d).
Proof. intros H. unfold take. cbn [fst snd]. names. destruct v; [contradiction|reflexivity]. Qed.

Lemma taken z u n o b : fold_left take
   ((match u with None => [] | Some v => [(str "ep", RStr v); (str "epname", RStr n)] end) ++
    match kept z with None => [] | Some v => [(str "eps", RObjArr v)] end ++
    [(str "owner", RStr o); (str "hasBeenProvisionedSinceReset", RBool b)]) (mk_dd None None None None None) =
  mk_dd (kept z) u (match u with None => None | Some _ => Some n end) (Some o) (Some b).
Proof.
  pose proof (kept_nonempty z) as K. destruct (kept z) as [v|], u as [w|]; cbn [app fold_left];
    rewrite ?take_ep, ?take_name; try rewrite (take_eps _ _ (K v eq_refl)); rewrite take_owner, take_flag; reflexivity.
Qed.

Lemma decode_set mem l s0 k u n o b : fold_left take l (mk_dd None None None None None) = mk_dd k (Some u) (Some n) (Some o) (Some b) -> u <> [] ->
  decode mem l s0 = mk_ds (fst (set_eps mem (d_eps s0) (Some u) (Some n) k)) (match o with [] => d_owner s0 | t => t end) b.
Proof.
  intros T H. unfold decode. rewrite T. cbn [dd_eps dd_ep dd_name dd_owner dd_flag].
  destruct u as [|c u]; [contradiction|]. destruct k, o; reflexivity.
Qed.

Lemma roundtrip mem s s0 l x r : pool_ok mem -> reach (d_eps s) -> shows (d_eps s) (Some (l, x, r)) -> named (Some (l, x, r)) ->
  exists s', decode mem (encode s) s0 = s' /\ reach (d_eps s') /\ shows (d_eps s') (Some ([], full x, map full (l ++ r))) /\
    d_owner s' = (match d_owner s with [] => d_owner s0 | t => t end) /\ d_flag s' = d_flag s.
Proof.
  intros P R Sh Nm. pose proof Sh as [Hi Hs].
  assert (D : NoDup (map fst (l ++ x :: r))) by (change (NoDup (map fst (all (Some (l, x, r))))); rewrite <- (shows_uris _ _ Sh); apply distinct_valid; exact R).
  assert (V : sound (l ++ x :: r)).
  { intros a Ha. destruct (distinct_valid _ R) as (_ & _ & Hv). change (l ++ x :: r) with (all (Some (l, x, r))) in Ha. pose proof Ha as Hin. rewrite <- Hi in Ha.
    apply in_map_iff in Ha. destruct Ha as (e & <- & He). destruct (Hv e He) as [V1 V2]. split; [exact V1|]. split; [exact V2|]. exact (Nm _ Hin). }
  destruct (set_back mem (d_eps s0) l x r P D V) as (s' & Es & R' & S').
  exists (mk_ds s' (match d_owner s with [] => d_owner s0 | t => t end) (d_flag s)). split; [|split; [exact R'|]; split; [exact S'|]; split; reflexivity].
  unfold encode. rewrite (enc_eps_shows _ _ Sh).
  destruct (selected (d_eps s)) as [e|]; [|discriminate]. cbn [option_map cursor] in Hs. injection Hs as Hs.
  destruct (Nm x) as (n & En); [cbn [all]; apply in_elt|].
  assert (Ee : enc_addr (str "ep") (str "epname") e = [(str "ep", RStr (fst x)); (str "epname", RStr (snd (reads x)))]).
  { unfold enc_addr, reads. subst x. cbn [fst snd] in *. rewrite En. destruct n; reflexivity. }
  rewrite Ee. destruct (V x) as (Nx & _); [apply in_elt|].
  pose proof (decode_set mem _ s0 _ _ _ _ _ (taken (all (Some (l, x, r))) (Some (fst x)) (snd (reads x)) (d_owner s) (d_flag s)) Nx) as T.
  etransitivity; [exact T|]. destruct (d_owner s) as [|c t]; [exact (f_equal (fun q => mk_ds (fst q) (d_owner s0) (d_flag s)) Es)|exact (f_equal (fun q => mk_ds (fst q) (c :: t) (d_flag s)) Es)].
Qed.

Lemma roundtrip_none mem s s0 : shows (d_eps s) None ->
  decode mem (encode s) s0 = mk_ds (d_eps s0) (match d_owner s with [] => d_owner s0 | t => t end) (d_flag s).
Proof.
  intros Sh. unfold encode. rewrite (enc_eps_shows _ _ Sh). destruct Sh as [_ Hs]. destruct (selected (d_eps s)); [discriminate|].
  unfold decode. pose proof (taken (all None) None [] (d_owner s) (d_flag s)) as T. cbv iota in T.
  match goal with |- context[fold_left take ?L ?D] => match type of T with _ = ?V => replace (fold_left take L D) with V by (symmetry; exact T) end end.
  cbn [dd_eps dd_ep dd_name dd_owner dd_flag all kept]. destruct (d_owner s); reflexivity.
Qed.

(** Any file. *)

Lemma add_eps_reach mem l : forall k s, pool_ok mem -> reach s -> from_pool mem k s -> reach (fst (add_eps mem k s l)).
Proof.
  induction l as [|o t IH]; intros k s P R F; [exact R|]. cbn [add_eps].
  destruct (get_s o (str "uri")) as [u|]; [|apply IH; assumption]. destruct (contains s u); [apply IH; assumption|].
  pose proof (ReachS s _ R (fresh_ok mem k s u (MName (get_s o (str "name"))) P F)) as R'. cbn [Ea_Model.step] in R'.
  destruct (add s u _ (mem k)) as [s' o'] eqn:E. cbn [fst] in R'. destruct o' as [e|]; [|exact R'].
  apply IH; [exact P|exact R'|exact (from_pool_add _ _ _ _ _ _ _ F E)].
Qed.

Lemma load_reach mem file s : pool_ok mem -> reach (d_eps s) -> reach (d_eps (snd (load mem file s))).
Proof.
  intros P R. destruct file as [l|]; [|exact (Reach0 [] (MName None) None (l_log (d_eps s)))].
  cbn [load snd]. unfold decode. cbn [d_eps]. set (d := fold_left _ _ _). clearbody d.
  assert (Q : reach (fst (set_eps mem (d_eps s) (dd_ep d) (dd_name d) (dd_eps d)))).
  { unfold set_eps, reinit. set (u := match dd_ep d with Some v => v | None => [] end). clearbody u.
    pose proof (Reach0 u (MName (dd_name d)) (mem 0%nat) (l_log (deinit (d_eps s)))) as R0.
    assert (F : from_pool mem 1%nat (fst (init (l_log (deinit (d_eps s))) u (MName (dd_name d)) (mem 0%nat)))).
    { intros w Hw. exists 0%nat. split; [lia|]. unfold init in Hw. destruct u as [|c u]; [destruct Hw|]. unfold alloc_add in Hw.
      destruct (negb (uri_valid (c :: u))); [destruct Hw|]. destruct (mem 0%nat) as [p|]; [|destruct Hw]. destruct Hw as [<-|[]]. reflexivity. }
    destruct (init _ _ _ _) as [s' b]. cbn [fst] in *. destruct b; [|exact R0].
    destruct (dd_eps d) as [v|]; [apply add_eps_reach; assumption|exact R0]. }
  destruct (dd_eps d); [exact Q|]. destruct (dd_ep d) as [[|c v]|]; [exact R|exact Q|exact R].
Qed.
