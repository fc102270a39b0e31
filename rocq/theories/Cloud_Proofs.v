(** Saving and loading the cloud configuration. *)
From Verif Require Import Common Rep_Model Hex_Model Hex_Proofs Repd_Model Acl_Spec Acl2_Proofs Ea_Model Ea_Spec Ea_Proofs Ea2_Proofs Cloud_Model Cloud_Spec.
From Coq Require Import String.
Local Open Scope string_scope.
Local Open Scope list_scope.
Local Open Scope N_scope.

Ltac names := repeat match goal with |- context[list_eqb (str ?a) (str ?b)] =>
  let v := eval vm_compute in (list_eqb (str a) (str b)) in replace (list_eqb (str a) (str b)) with v by (vm_compute; reflexivity) end.

Lemma sid_back u : typed_uuid u -> exists z, str_to_uuid_v1 (sid_text u) = (z, Some u) /\ (0 < z)%Z.
Proof.
  intros H. destruct (uuid_text_exists u H) as (s & Es & _ & _ & E & P). unfold sid_text. change UUID_LEN with 37%nat. rewrite Es.
  destruct (str_to_uuid_v1 s) as [z o]. cbn [fst snd] in *. subst. exists z. split; [reflexivity|lia].
Qed.

Lemma sid_back16 u : typed_uuid u -> u <> wildcard -> str_to_uuid_v1 (sid_text u) = (16%Z, Some u).
Proof.
  intros [Hb Hl] W. destruct (uuid_to_str_spec u 37 Hb Hl W ltac:(lia)) as (s & Es & Ht & _). unfold sid_text. change UUID_LEN with 37%nat. rewrite Es.
  exact (str_to_uuid_text s u Ht).
Qed.

Definition enc_server (a : addr) : list rep := encode_address (str "uri") (str "id") (str "name") (mk_ea 0 (fst a) (snd a)).

Lemma enc_server_get u v : get_s (enc_server (u, MUuid v)) (str "uri") = Some u /\ get_s (enc_server (u, MUuid v)) (str "id") = Some (sid_text v).
Proof.
  unfold get_s, get_by.
  replace ((List.length (str "uri") =? 0) || (max_string <=? List.length (str "uri")))%nat with false by (vm_compute; reflexivity).
  replace ((List.length (str "id") =? 0) || (max_string <=? List.length (str "id")))%nat with false by (vm_compute; reflexivity).
  unfold enc_server, encode_address. cbn [fst snd find a_uri a_meta rtype]. names. cbn. split; reflexivity.
Qed.

Lemma nodup_left {A} (a b : list A) : NoDup (a ++ b) -> NoDup a.
Proof.
  induction a as [|x a IH]; intros H; [constructor|]. inversion H as [|y q H1 H2]; subst. constructor; [|exact (IH H2)].
  intros Hx. apply H1. apply in_or_app. left. exact Hx.
Qed.

Definition from_pool (mem : pool) (k : nat) (s : eas) : Prop := forall p, In p (map a_ptr (l_items s)) -> exists j, (j < k)%nat /\ mem j = Some p.

Lemma shows_uris s z : shows s z -> map a_uri (l_items s) = map fst (all z).
Proof. intros [H _]. rewrite <- H, map_map. reflexivity. Qed.

Lemma add_fresh mem k s x q u m : pool_ok mem -> reach s -> shows s (Some ([], x, q)) -> from_pool mem k s -> u <> [] -> (List.length u < 128)%nat ->
  ~ In u (map fst (x :: q)) ->
  exists s' e, add s u m (mem k) = (s', Some e) /\ reach s' /\ shows s' (Some ([], x, q ++ [(u, m)])) /\ from_pool mem (S k) s'.
Proof.
  intros [Hp Hi] R Sh F Hu Hl Hn. destruct (Hp k) as [p Ep].
  assert (Ok : op_ok s (Add u m (mem k))).
  { rewrite Ep. cbn [op_ok]. intros Hin. destruct (F p Hin) as (j & Hj & E). rewrite <- Ep in E. apply Hi in E. lia. }
  destruct (add_refines s _ u m (mem k) R Sh Ok) as (A & B & _).
  assert (Ne : snd (add s u m (mem k)) <> None).
  { apply A. split; [exact Hu|]. split; [exact Hl|]. split; [exact Hn|]. rewrite Ep. discriminate. }
  specialize (B Ne). pose proof (ReachS s _ R Ok) as R'. cbn [Ea_Model.step] in R'.
  destruct (add s u m (mem k)) as [s' o] eqn:E. cbn [fst snd] in *. destruct o as [e|]; [|contradiction].
  exists s', e. split; [reflexivity|]. split; [exact R'|]. split; [exact B|].
  assert (Ei : map a_ptr (l_items s') = map a_ptr (l_items s) ++ [p]).
  { unfold add, alloc_add in E. rewrite Ep in E. destruct (negb (uri_valid u)); [discriminate|]. destruct (contains s u); [discriminate|].
    injection E as <- <-. cbn [set_items l_items]. destruct (l_sel s) as [w|]; [rewrite map_app; reflexivity|].
    unfold select_. destruct (opt_eqb _ _); cbn [fst l_items]; rewrite map_app; reflexivity. }
  intros w Hw. rewrite Ei in Hw. apply in_app_iff in Hw. destruct Hw as [Hw|[<-|[]]].
  - destruct (F w Hw) as (j & Hj & E'). exists j. split; [lia|exact E'].
  - exists k. split; [lia|exact Ep].
Qed.

Lemma add_all mem t rest : forall k s x q, pool_ok mem -> reach s -> shows s (Some ([], x, q)) -> from_pool mem k s ->
  NoDup (map fst (x :: q ++ t)) -> (forall a, In a t -> fst a <> [] /\ (List.length (fst a) < 128)%nat /\ exists v, snd a = MUuid v /\ typed_uuid v) ->
  exists k' s', add_servers mem k s (map enc_server t ++ rest) = add_servers mem k' s' rest /\ reach s' /\ shows s' (Some ([], x, q ++ t)) /\ from_pool mem k' s'.
Proof.
  induction t as [|[u m] t IH]; intros k s x q P R Sh F D H.
  - exists k, s. rewrite app_nil_r. auto.
  - destruct (H (u, m) (or_introl eq_refl)) as (H1 & H2 & v & Ev & Tv). cbn [fst snd] in *. subst m.
    assert (Hn : ~ In u (map fst (x :: q))).
    { rewrite app_comm_cons in D. apply (nodup_mid fst (x :: q) (u, MUuid v) t) in D. destruct D as [D _]. exact D. }
    destruct (add_fresh mem k s x q u (MUuid v) P R Sh F H1 H2 Hn) as (s' & e & Ea & R' & Sh' & F').
    destruct (enc_server_get u v) as [G1 G2]. destruct (sid_back v Tv) as (z & Ez & Hz).
    assert (D' : NoDup (map fst (x :: (q ++ [(u, MUuid v)]) ++ t))) by (rewrite <- app_assoc; exact D).
    destruct (IH (S k) s' x (q ++ [(u, MUuid v)]) P R' Sh' F' D') as (k2 & s2 & E2 & R2 & Sh2 & F2); [intros a Ha; apply H; right; exact Ha|].
    exists k2, s2. rewrite <- app_assoc in Sh2. split; [|auto].
    rewrite <- E2. cbn [map app add_servers]. rewrite G1, G2, Ez.
    destruct (Z.ltb_spec z 0); [lia|].
    replace (contains s u) with false.
    2:{ symmetry. destruct (contains s u) eqn:C; [|reflexivity]. apply contains_spec in C. rewrite (shows_uris _ _ Sh) in C. contradiction. }
    rewrite Ea. reflexivity.
Qed.

Lemma add_known mem k s a rest : In (fst a) (map a_uri (l_items s)) -> (exists v, snd a = MUuid v /\ typed_uuid v) ->
  add_servers mem k s (enc_server a :: rest) = add_servers mem k s rest.
Proof.
  intros H (v & Ev & Tv). destruct a as [u m]. cbn [fst snd] in *. subst m. destruct (enc_server_get u v) as [G1 G2]. destruct (sid_back v Tv) as (z & Ez & Hz).
  cbn [add_servers]. rewrite G1, G2, Ez. destruct (Z.ltb_spec z 0); [lia|]. apply contains_spec in H. rewrite H. reflexivity.
Qed.

Lemma init_one log u m p : u <> [] -> (List.length u < 128)%nat -> init log u m (Some p) = (mk_eas [mk_ea p u m] (Some p) (log ++ [Some u]), true).
Proof.
  intros H1 H2. unfold init, alloc_add. destruct u as [|c u]; [contradiction|].
  replace (uri_valid (c :: u)) with true by (symmetry; apply uri_valid_spec; split; assumption). reflexivity.
Qed.

Lemma set_back mem s l x r u : pool_ok mem -> snd x = MUuid u ->
  NoDup (map fst (l ++ x :: r)) ->
  (forall a, In a (l ++ x :: r) -> fst a <> [] /\ (List.length (fst a) < 128)%nat /\ exists v, snd a = MUuid v /\ typed_uuid v) ->
  exists s', addresses_set mem s (fst x) u (match l ++ x :: r with [] | [_] => None | _ => Some (map enc_server (l ++ x :: r)) end) = (s', true) /\ reach s' /\ shows s' (Some ([], x, l ++ r)).
Proof.
  intros P Ex D H. destruct (H x) as (H1 & H2 & _); [apply in_elt|]. pose proof P as [Hp Hi]. destruct (Hp 0%nat) as [p Ep].
  unfold addresses_set. rewrite Ep, (init_one _ _ _ _ H1 H2). set (s0 := mk_eas _ _ _).
  assert (R0 : reach s0) by (unfold s0; pose proof (Reach0 (fst x) (MUuid u) (Some p) (l_log (deinit s))) as R; rewrite (init_one _ _ _ _ H1 H2) in R; exact R).
  assert (S0 : shows s0 (Some ([], x, []))).
  { destruct x as [w m]. cbn [fst snd] in *. subst m. split; [reflexivity|]. unfold selected, s0. cbn [l_sel l_items find_ptr find a_ptr]. rewrite N.eqb_refl. reflexivity. }
  assert (F0 : from_pool mem 1%nat s0) by (intros q [<-|[]]; exists 0%nat; split; [lia|exact Ep]).
  assert (One : l = [] -> r = [] -> exists s', (s0, true) = (s', true) /\ reach s' /\ shows s' (Some ([], x, l ++ r))) by (intros -> ->; exists s0; auto).
  assert (G : exists s', add_servers mem 1%nat s0 (map enc_server (l ++ x :: r)) = (s', true) /\ reach s' /\ shows s' (Some ([], x, l ++ r))).
  { rewrite map_app. cbn [map].
    assert (D1 : NoDup (map fst (x :: [] ++ l))).
    { cbn [app map]. destruct (nodup_mid fst l x r D) as (Hx & _ & _). constructor; [exact Hx|]. rewrite map_app in D. exact (nodup_left _ _ D). }
    destruct (add_all mem l (enc_server x :: map enc_server r) 1%nat s0 x [] P R0 S0 F0 D1) as (k1 & s1 & E1 & R1 & S1 & F1); [intros a Ha; apply H; apply in_or_app; left; exact Ha|].
    cbn [app] in S1.
    rewrite add_known in E1; [|rewrite (shows_uris _ _ S1); left; reflexivity|apply H, in_elt].
    destruct (add_all mem r [] k1 s1 x l P R1 S1 F1) as (k2 & s2 & E2 & R2 & S2 & F2).
    - destruct (nodup_mid fst l x r D) as (Hx & Hy & Hz). cbn [map]. constructor; [|exact Hz]. rewrite map_app. intros Q. apply in_app_iff in Q. destruct Q; contradiction.
    - intros a Ha. apply H. apply in_or_app. right; right; exact Ha.
    - rewrite app_nil_r in E2. exists s2. split; [exact (eq_trans E1 E2)|]. split; assumption. }
  destruct l as [|y l]; [destruct r as [|y r]|].
  - apply One; reflexivity.
  - exact G.
  - destruct l; exact G.
Qed.

Lemma enc_list_shows s z : shows s z ->
  encode_list (l_items s) = match all z with [] | [_] => [] | _ => [(str "x.org.iotivity.servers", RObjArr (map enc_server (all z)))] end.
Proof.
  intros [H _]. rewrite <- H. destruct (l_items s) as [|a [|b t]]; [reflexivity..|]. unfold encode_list. cbn [map].
  repeat f_equal. rewrite map_map. reflexivity.
Qed.

Lemma byte_back n : n < 256 -> byte_prop (Z.of_N n) = Some n.
Proof. intros H. unfold byte_prop. destruct (Z.leb_spec (Z.of_N n) 255); [|lia]. rewrite Z.mod_small by lia. rewrite N2Z.id. reflexivity. Qed.

(** Reading back what was written. *)
Lemma parse_rest d p u a r st cps e : st < 256 -> cps < 256 ->
  parse_props d [ (str "auth_provider", RStr p); (str "uid", RStr u); (str "access_token", RStr a); (str "refresh_token", RStr r);
      (str "status", RInt (Z.of_N st)); (str "cps", RInt (Z.of_N cps)); (str "expires_in", RInt e) ] =
  Ok (mk_cd (cd_servers d) (cd_server d) (cd_sid d) (Some p) (Some u) (Some a) (Some r) st cps e).
Proof.
  intros H1 H2. cbn [parse_props]. unfold parse_prop. cbn [fst snd]. names. cbv iota. rewrite (byte_back _ H1), (byte_back _ H2).
  cbn [cd_servers cd_server cd_sid cd_provider cd_uid cd_access cd_refresh cd_status cd_cps cd_expires]. reflexivity.
Qed.

Lemma store_roundtrip mem slot st s0 l x r : pool_ok mem -> reach (st_servers st) -> shows (st_servers st) (Some (l, x, r)) ->
  uuid_servers (Some (l, x, r)) -> snd x <> MUuid wildcard -> st_status st < 256 -> st_cps st < 256 ->
  exists f st', encode st = Some f /\ load mem slot (Some f) s0 = Ok (true, st') /\ same_settings st' st /\
    reach (st_servers st') /\ shows (st_servers st') (Some ([], x, l ++ r)).
Proof.
  intros P R Sh U W B1 B2. pose proof Sh as [Hi Hs]. destruct (U x) as (u & Eu & Tu); [cbn [all]; apply in_elt|].
  assert (D : NoDup (map fst (l ++ x :: r))) by (change (NoDup (map fst (all (Some (l, x, r))))); rewrite <- (shows_uris _ _ Sh); apply distinct_valid; exact R).
  assert (V : forall a, In a (l ++ x :: r) -> fst a <> [] /\ (List.length (fst a) < 128)%nat /\ exists v, snd a = MUuid v /\ typed_uuid v).
  { intros a Ha. destruct (distinct_valid _ R) as (_ & _ & Hv). change (l ++ x :: r) with (all (Some (l, x, r))) in Ha. pose proof Ha as Hin. rewrite <- Hi in Ha.
    apply in_map_iff in Ha. destruct Ha as (e & <- & He). destruct (Hv e He) as [V1 V2]. split; [exact V1|]. split; [exact V2|]. exact (U _ Hin). }
  destruct (set_back mem (st_servers s0) l x r u P Eu D V) as (s' & Es & R' & S').
  unfold encode. rewrite (enc_list_shows _ _ Sh).
  destruct (selected (st_servers st)) as [e|] eqn:Esel; [|discriminate]. cbn [option_map cursor] in Hs. injection Hs as Hs.
  assert (Em : a_meta e = MUuid u) by (rewrite <- Hs in Eu; exact Eu). rewrite Em.
  exists (encode_address (str "ci_server") (str "sid") [] e ++ match all (Some (l, x, r)) with [] | [_] => [] | _ => [(str "x.org.iotivity.servers", RObjArr (map enc_server (all (Some (l, x, r)))))] end ++
    [ (str "auth_provider", RStr (st_provider st)); (str "uid", RStr (st_uid st)); (str "access_token", RStr (st_access st)); (str "refresh_token", RStr (st_refresh st));
      (str "status", RInt (Z.of_N (st_status st))); (str "cps", RInt (Z.of_N (st_cps st))); (str "expires_in", RInt (st_expires st)) ]).
  exists (mk_st s' (st_provider st) (st_uid st) (st_access st) (st_refresh st) (st_status st) (st_cps st) (st_expires st)).
  split; [reflexivity|]. split; [|split; [unfold same_settings; repeat split|split; assumption]].
  assert (Eu' : a_uri e = fst x) by (rewrite <- Hs; reflexivity).
  assert (Hw : u <> wildcard) by (intros ->; contradiction).
  unfold load, decode. unfold encode_address. rewrite Em, Eu'. cbn [app].
  set (rest := [(str "auth_provider", _); _; _; _; _; _; _]).
  assert (Pp : forall d sv, parse_props d (match sv with None => rest | Some v => (str "x.org.iotivity.servers", RObjArr v) :: rest end) =
     Ok (mk_cd (match sv with None => cd_servers d | Some [] => None | Some v => Some v end) (cd_server d) (cd_sid d) (Some (st_provider st)) (Some (st_uid st)) (Some (st_access st)) (Some (st_refresh st)) (st_status st) (st_cps st) (st_expires st))).
  { intros d [v|].
    - cbn [parse_props]. unfold parse_prop at 1. cbn [fst snd]. names. cbv iota. unfold rest. rewrite (parse_rest _ _ _ _ _ _ _ _ B1 B2).
      cbn [cd_servers cd_server cd_sid]. destruct v; reflexivity.
    - unfold rest. rewrite (parse_rest _ _ _ _ _ _ _ _ B1 B2). reflexivity. }
  cbn [parse_props]. unfold parse_prop at 1. cbn [fst snd]. names. cbv iota.
  unfold parse_prop at 1. cbn [fst snd]. names. cbv iota.
  cbn [all].
  match goal with |- context[parse_props ?d ?X] =>
    replace (parse_props d X) with (parse_props d (match (match l ++ x :: r with [] | [_] => None | _ => Some (map enc_server (l ++ x :: r)) end) with None => rest | Some v => (str "x.org.iotivity.servers", RObjArr v) :: rest end))
      by (clear; destruct l as [|y [|w l]]; [destruct r|..]; reflexivity) end.
  rewrite Pp. cbv iota beta. cbn [cd_servers cd_server cd_sid cd_provider cd_uid cd_access cd_refresh cd_status cd_cps cd_expires or_keep].
  assert (Q : set_servers mem (st_servers s0) (Some (fst x)) (Some (sid_text u)) (match (match l ++ x :: r with [] | [_] => None | _ => Some (map enc_server (l ++ x :: r)) end) with None => None | Some [] => None | Some v => Some v end) = (s', true)).
  { unfold set_servers. rewrite (sid_back16 u Tu Hw). change (16 =? 16)%Z with true. cbv iota. rewrite <- Es. f_equal.
    clear. destruct l as [|y [|w l]]; [destruct r|..]; reflexivity. }
  match goal with |- context[set_servers ?m ?s ?a ?i ?v] => replace (set_servers m s a i v) with (s', true) by (symmetry; exact Q) end. reflexivity.
Qed.

(** * Any file *)

Lemma add_servers_reach mem l : forall k s, pool_ok mem -> reach s -> from_pool mem k s -> reach (fst (add_servers mem k s l)).
Proof.
  induction l as [|o t IH]; intros k s P R F; [exact R|]. cbn [add_servers].
  destruct (get_s o (str "uri")) as [u|]; [|apply IH; assumption]. destruct (get_s o (str "id")) as [i|]; [|apply IH; assumption].
  destruct (str_to_uuid_v1 i) as [z [v|]]; [|apply IH; assumption]. destruct (z <? 0)%Z; [apply IH; assumption|].
  destruct (contains s u); [apply IH; assumption|].
  destruct P as [Hp Hi]. destruct (Hp k) as [p Ep].
  assert (Ok : op_ok s (Add u (MUuid v) (mem k))).
  { rewrite Ep. cbn [op_ok]. intros Hin. destruct (F p Hin) as (j & Hj & E). rewrite <- Ep in E. apply Hi in E. lia. }
  pose proof (ReachS s _ R Ok) as R'. cbn [Ea_Model.step] in R'.
  destruct (add s u (MUuid v) (mem k)) as [s' o'] eqn:E. cbn [fst] in R'. destruct o' as [e|]; [|exact R'].
  apply IH; [split; assumption|exact R'|].
  assert (Ei : map a_ptr (l_items s') = map a_ptr (l_items s) ++ [p]).
  { unfold add, alloc_add in E. rewrite Ep in E. destruct (negb (uri_valid u)); [discriminate|]. destruct (contains s u); [discriminate|].
    injection E as <- <-. cbn [set_items l_items]. destruct (l_sel s) as [w|]; [rewrite map_app; reflexivity|].
    unfold select_. destruct (opt_eqb _ _); cbn [fst l_items]; rewrite map_app; reflexivity. }
  intros w Hw. rewrite Ei in Hw. apply in_app_iff in Hw. destruct Hw as [Hw|[<-|[]]].
  - destruct (F w Hw) as (j & Hj & E'). exists j. split; [lia|exact E'].
  - exists k. split; [lia|exact Ep].
Qed.

Lemma addresses_set_reach mem s u id l : pool_ok mem -> reach (fst (addresses_set mem s u id l)).
Proof.
  intros P. unfold addresses_set. pose proof (Reach0 u (MUuid id) (mem 0%nat) (l_log (deinit s))) as R.
  assert (F : from_pool mem 1%nat (fst (init (l_log (deinit s)) u (MUuid id) (mem 0%nat)))).
  { intros w Hw. exists 0%nat. split; [lia|]. unfold init in Hw. destruct u as [|c u]; [destruct Hw|]. unfold alloc_add in Hw.
    destruct (negb (uri_valid (c :: u))); [destruct Hw|]. destruct (mem 0%nat) as [p|]; [|destruct Hw].
    destruct Hw as [<-|[]]. reflexivity. }
  destruct (init (l_log (deinit s)) u (MUuid id) (mem 0%nat)) as [s' b]. cbn [fst] in *. destruct b; [|exact R].
  destruct l as [l|]; [apply add_servers_reach; assumption|exact R].
Qed.

Lemma load_reach mem slot file s b s' : pool_ok mem -> reach (st_servers s) -> load mem slot file s = Ok (b, s') -> reach (st_servers s').
Proof.
  intros P R E. unfold load in E. destruct file as [l|].
  - unfold decode in E. destruct (parse_props _ l) as [d| |]; [|injection E as <- <-; apply Reach0|discriminate].
    injection E as <- <-. cbn [st_servers].
    assert (Q : reach (fst (set_servers mem (st_servers s) (cd_server d) (cd_sid d) (cd_servers d)))).
    { unfold set_servers. destruct (cd_sid d) as [t|]; [|apply addresses_set_reach; exact P].
      destruct (str_to_uuid_v1 t) as [z [v|]]; [|exact R]. destruct (z =? 16)%Z; [apply addresses_set_reach; exact P|exact R]. }
    destruct (cd_server d); [exact Q|]. destruct (cd_servers d); [exact Q|exact R].
  - injection E as <- <-. apply Reach0.
Qed.

Lemma load_fails mem slot file s s' : load mem (Some slot) file s = Ok (false, s') ->
  shows (st_servers s') (Some ([], (str "coaps+tcp://127.0.0.1", MUuid (repeat 0 16)), [])) /\
  st_provider s' = [] /\ st_uid s' = [] /\ st_access s' = [] /\ st_refresh s' = [] /\ st_status s' = 0 /\ st_cps s' = 0 /\ st_expires s' = 0%Z.
Proof.
  intros E.
  assert (X : s' = initialize (Some slot) (l_log (st_servers s))).
  { unfold load in E. destruct file as [l|]; [|injection E as <-; reflexivity]. destruct (decode mem l s); [discriminate|injection E as <-; reflexivity|discriminate]. }
  subst s'. unfold initialize. rewrite init_one; [|vm_compute; discriminate|vm_compute; lia].
  split; [|repeat split]. split; [reflexivity|]. unfold selected. cbn [fst st_servers l_sel l_items find_ptr find a_ptr]. rewrite N.eqb_refl. reflexivity.
Qed.
