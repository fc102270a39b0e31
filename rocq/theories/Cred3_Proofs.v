(** Proofs about credentials: an accepted update takes effect; storage; reading. *)
From Verif Require Import Common Rep_Model Hex_Model Hex_Spec Hex_Proofs Acl_Model Acl_Spec Acl2_Proofs Ob_Model Ob_Spec Ob_Proofs Ob2_Proofs Cred_Model Cred_Spec Cred_Proofs Cred2_Proofs.
From Coq Require Import String.
Local Open Scope string_scope.
Local Open Scope list_scope.
Local Open Scope N_scope.

(** * One object *)

Lemma no_objects E fs roles p : objects p = [] -> forall s o, exists w, decode_props E fs roles p s o = DOk (mk_cs (s_creds s) w (s_roles s) (s_next s)) o.
Proof.
  induction p as [|r p IH]; intros H s o; cbn [decode_props]; [exists (s_owner s); destruct s; reflexivity|].
  unfold objects in H. cbn [flat_map] in H. apply app_eq_nil in H. destruct H as [H1 H2]. fold (objects p) in H2. specialize (IH H2).
  destruct (snd r) as [|z|b|b|v|v|x| | | | | | |a] eqn:Er; try apply IH.
  - destruct (list_eqb (fst r) (str "rowneruuid")); [|apply IH]. destruct (IH (mk_cs (s_creds s) (uuid_of v (s_owner s)) (s_roles s) (s_next s)) o) as [w Hw]. exists w. exact Hw.
  - destruct (list_eqb (fst r) (str "creds") || list_eqb (fst r) (str "roles")); [|apply IH]. subst a. cbn [apply_items]. apply IH.
Qed.

Lemma one_object E fs roles l x : objects l = [x] -> forall s o,
  exists w, match apply_items E fs roles [x] (mk_cs (s_creds s) w (s_roles s) (s_next s)) o with
            | DLoop => decode_props E fs roles l s o = DLoop
            | DFail s' o' => decode_props E fs roles l s o = DFail s' o'
            | DOk s' o' => exists w', decode_props E fs roles l s o = DOk (mk_cs (s_creds s') w' (s_roles s') (s_next s')) o'
            end.
Proof.
  induction l as [|r l IH]; intros H s o; [discriminate|].
  unfold objects in H. cbn [flat_map] in H. fold (objects l) in H. cbn [decode_props].
  destruct (snd r) as [|z|b|b|v|v|y| | | | | | |a] eqn:Er; try (apply (IH H)).
  - destruct (list_eqb (fst r) (str "rowneruuid")); [|apply (IH H)]. destruct (IH H (mk_cs (s_creds s) (uuid_of v (s_owner s)) (s_roles s) (s_next s)) o) as [w Hw]. exists w. exact Hw.
  - destruct (list_eqb (fst r) (str "creds") || list_eqb (fst r) (str "roles")); [|apply (IH H)]. destruct a as [|y [|z a]].
    + cbn [apply_items]. apply (IH H).
    + cbn [app] in H. injection H as -> H. exists (s_owner s). replace (mk_cs (s_creds s) (s_owner s) (s_roles s) (s_next s)) with s by (destruct s; reflexivity).
      unfold rep in *. destruct (apply_items E fs roles [x] s o) as [s' o'|s' o'|]; [reflexivity| |reflexivity]. exact (no_objects E fs roles l H s' o').
    + cbn [app] in H. discriminate.
Qed.

Lemma accepted_one E l x s s' : keys_ok E -> good s -> objects l = [x] -> x <> [] -> apply_cred E false l s = POk s' ->
  exists it i l1 c1 c', parse_props false item0 x = Some it /\ i_id it = given_id x /\ added it (s_creds s) (Some i) l1 /\ In c1 l1 /\ c_id c1 = i /\ In c' (s_creds s') /\
    c_id c' = i /\ c_type c' = c_type c1 /\ c_usage c' = c_usage c1 /\ c_subject c' = c_subject c1 /\ c_pub c' = c_pub c1 /\ c_role c' = c_role c1 /\ c_auth c' = c_auth c1 /\ c_tag c' = c_tag c1 /\
    (od (sd_data (i_priv it)) <> [] -> c_priv c' = c_priv c1) /\ (i_owner it = true -> c_owner c' = true) /\
    (some (i_sid it) || some (i_rid it) = true -> c_osc c' = Some (mk_os (hex7 (i_sid it)) (hex7 (i_rid it)) (i_ssn it) (i_desc it))) /\
    (forall d, In d (s_creds s') -> exists d1, In d1 l1 /\ c_id d = c_id d1).
Proof.
  intros K G Ho Hx. unfold apply_cred, decode_cred. cbn [orb].
  destruct (forallb (state_ok (ce_state E)) l); [|discriminate].
  destruct (one_object E false false l x Ho s None) as [w Hw]. set (s0 := mk_cs (s_creds s) w (s_roles s) (s_next s)) in *. cbn [apply_items] in Hw.
  destruct (parse_props false item0 x) as [it|] eqn:P; [|rewrite Hw; discriminate]. destruct (osc_ok it) eqn:O; [|rewrite Hw; discriminate].
  destruct (parse_ok _ _ _ P O) as [I Hid]. destruct x as [|r x]; [contradiction|].
  unfold apply_item in Hw. destruct (add_cred E false it s0) as [s1|i s1 rep b|] eqn:Ea; [| |rewrite Hw; discriminate].
  { rewrite Hw. discriminate. }
  (* the owner does not matter for adding: use a typed one *)
  pose proof (add_dev E it s G K I) as A.
  assert (Ea' : exists s1', add_cred E false it s = AOk i s1' rep b /\ s_creds s1' = s_creds s1).
  { clear -Ea. subst s0. destruct s as [cr ow ro ne]. cbn [s_creds s_roles s_next] in Ea. unfold add_cred in *. cbn [s_creds s_roles s_next with_creds s_owner] in *.
    destruct (if i_type it =? CERT then _ else _); [|discriminate]. cbn [andb] in *. destruct (set_subject _ _); [|discriminate]. destruct (if (i_usage it =? IDENTITY) && _ then _ else _); [|discriminate].
    assert (Cr : forall cr' rp k, create E false it l0 k (i_id it) rp (mk_cs cr' w ro ne) = AOk i s1 rep b -> exists s1', create E false it l0 k (i_id it) rp (mk_cs cr' ow ro ne) = AOk i s1' rep b /\ s_creds s1' = s_creds s1).
    { intros cr' rp k. unfold create. cbn [s_creds s_roles s_next s_owner].
      destruct (_ || _); [discriminate|]. destruct (if i_usage it =? ROLECERT then _ else _) as [[r0 a0]|]; [|discriminate]. destruct (false && _ && _); [discriminate|]. destruct (if (i_id it =? -1)%Z then _ else _); [|discriminate].
      destruct (if nonempty (sd_data (i_priv it)) then _ else _); [|discriminate]. intros [= <- <- <- <-]. eexists. split; reflexivity. }
    destruct (by_id (i_id it) cr) as [c|].
    - destruct (is_duplicate c it _); [injection Ea as <- <- <- <-; eexists; split; reflexivity|]. destruct (find _ _); [injection Ea as <- <- <- <-; eexists; split; reflexivity|]. apply Cr. exact Ea.
    - destruct (find _ _); [injection Ea as <- <- <- <-; eexists; split; reflexivity|]. apply Cr. exact Ea. }
  destruct Ea' as (s1' & Ea' & Ec). rewrite Ea' in A. destruct A as (A1 & _ & _ & _ & A5 & A6 & A7 & _). rewrite Ec in *.
  destruct (Z.eqb_spec i (-1)) as [e|e]; [contradiction|]. destruct (by_id i (s_creds s1)) as [c|] eqn:B; [|exfalso; apply by_id_none in B; contradiction]. apply by_id_some in B. destruct B as [B1 B2].
  destruct ((some (i_sid it) || some (i_rid it)) && negb (ce_octx E)) eqn:X; [rewrite Hw; discriminate|]. cbn [negb andb] in Hw.
  set (isown := (i_type it =? PSK) && negb (nonempty (sd_data (i_priv it)))) in *.
  set (f := fun c : cred => mk_cred (c_name c) (c_id c) (c_type c) (c_usage c) (c_subject c) (c_priv c) (c_pub c) (c_role c) (c_auth c) (c_tag c) (i_owner it || isown) (if some (i_sid it) || some (i_rid it) then Some (make_ctx false it) else c_osc c)) in *.
  destruct Hw as [w' Hw]. cbn [with_creds s_creds s_roles s_next] in Hw. rewrite Hw. clear Hw.
  pose proof (gd_ids _ A1) as N. rewrite Ec in N.
  assert (N' : NoDup (ids (upd i f (s_creds s1)))) by (rewrite upd_ids; [exact N|reflexivity]).
  assert (F : In (f c) (upd i f (s_creds s1))) by (pose proof (in_upd i f _ c N B1) as Y; rewrite B2, Z.eqb_refl in Y; exact Y).
  intros Fin. exists it, i, (s_creds s1), c.
  assert (D : forall g l2, (forall d, c_id (g d) = c_id d) -> (l2 = upd i f (s_creds s1) \/ exists j, l2 = upd j g (upd i f (s_creds s1))) -> forall d, In d l2 -> exists d1, In d1 (s_creds s1) /\ c_id d = c_id d1).
  { intros g l2 Hg Hl d Hd. assert (In (c_id d) (ids l2)) by (apply in_map; exact Hd). assert (Q : In (c_id d) (ids (s_creds s1))).
    { destruct Hl as [->|[j ->]]; rewrite ?upd_ids in H by (exact Hg || reflexivity); exact H. }
    apply in_map_iff in Q. destruct Q as (d1 & Q1 & Q2). eauto. }
  assert (Done : forall p, (od (sd_data (i_priv it)) <> [] -> p = c_priv c) -> forall l2, In (mk_cred (c_name c) (c_id c) (c_type c) (c_usage c) (c_subject c) p (c_pub c) (c_role c) (c_auth c) (c_tag c) (i_owner it || isown) (if some (i_sid it) || some (i_rid it) then Some (make_ctx false it) else c_osc c)) l2 -> s_creds s' = l2 -> (forall d, In d l2 -> exists d1, In d1 (s_creds s1) /\ c_id d = c_id d1) ->
    exists c', Some it = Some it /\ i_id it = given_id (r :: x) /\ added it (s_creds s) (Some i) (s_creds s1) /\ In c (s_creds s1) /\ c_id c = i /\ In c' (s_creds s') /\
    c_id c' = i /\ c_type c' = c_type c /\ c_usage c' = c_usage c /\ c_subject c' = c_subject c /\ c_pub c' = c_pub c /\ c_role c' = c_role c /\ c_auth c' = c_auth c /\ c_tag c' = c_tag c /\
    (od (sd_data (i_priv it)) <> [] -> c_priv c' = c_priv c) /\ (i_owner it = true -> c_owner c' = true) /\
    (some (i_sid it) || some (i_rid it) = true -> c_osc c' = Some (mk_os (hex7 (i_sid it)) (hex7 (i_rid it)) (i_ssn it) (i_desc it))) /\
    (forall d, In d (s_creds s') -> exists d1, In d1 (s_creds s1) /\ c_id d = c_id d1)).
  { intros p Hp l2 Hl El Hd. eexists. split; [reflexivity|]. split; [exact Hid|]. split; [exact A7|]. split; [exact B1|]. split; [exact B2|]. rewrite El. split; [exact Hl|]. cbn [c_id c_type c_usage c_subject c_pub c_role c_auth c_tag c_priv c_owner c_osc].
    split; [exact B2|]. repeat (split; [reflexivity|]). split; [exact Hp|]. split; [intros ->; reflexivity|]. split; [intros ->; reflexivity|exact Hd]. }
  destruct (if isown then Some (c_name c) else None) as [n|] eqn:Eo.
  - destruct isown eqn:Ei; [|discriminate]. injection Eo as <-. destruct (by_name (c_name c) _) as [c0|] eqn:Bn; [|discriminate]. cbn [s_creds s_owner] in Fin, Bn.
    apply by_name_some in Bn. destruct Bn as [Bn1 Bn2].
    assert (c0 = f c).
    { pose proof (proj2 (gd_names _ A1)) as Nn. rewrite Ec in Nn. apply (same_name (upd i f (s_creds s1))); [rewrite upd_map by reflexivity; exact Nn|exact Bn1|exact F|rewrite Bn2; reflexivity]. }
    subst c0. destruct (list_eqb _ _); [|injection Fin as <-; apply (Done (c_priv c) (fun _ => eq_refl) (upd i f (s_creds s1)) F eq_refl); exact (D (fun d => d) _ (fun d => eq_refl) (or_introl eq_refl))].
    destruct (ce_psk E) as [k|]; [|discriminate]. injection Fin as <-. cbn [with_creds s_creds].
    match goal with |- context[upd (c_id c) ?g _] => set (g0 := g) end.
    apply (Done (mk_cd (Some k) E_RAW)) with (l2 := upd (c_id c) g0 (upd i f (s_creds s1))).
    + intros Hp. exfalso. unfold isown in Ei. apply andb_true_iff in Ei. destruct Ei as [_ Ei]. apply negb_true_iff in Ei. apply nonempty_false in Ei. contradiction.
    + pose proof (in_upd (c_id c) g0 _ (f c) N' F) as Y. cbn [f c_id] in Y. rewrite Z.eqb_refl in Y. exact Y.
    + reflexivity.
    + exact (D g0 _ (fun d => eq_refl) (or_intror (ex_intro _ _ eq_refl))).
  - injection Fin as <-. apply (Done (c_priv c) (fun _ => eq_refl) (upd i f (s_creds s1)) F eq_refl). exact (D (fun d => d) _ (fun d => eq_refl) (or_introl eq_refl)).
Qed.

(** * Storage *)

Lemma uuid_print_hd a r k t : a < 256 -> uuid_print 0 (a :: r) k = Some t -> hd 0 (cstr t) <> 42.
Proof.
  intros Ha. cbn [uuid_print Nat.eqb orb]. destruct (Nat.leb k 2); [discriminate|]. destruct (uuid_print 1 r (k - 2)) as [u|]; [|discriminate]. intros [= <-].
  assert (D : a / 16 < 16) by (apply N.div_lt_upper_bound; lia). cbn [app hex2 cstr]. destruct (N.eqb_spec (hexchar (a / 16)) 0); [discriminate|]. cbn [hd]. apply (reads_as_bits _ _ (reads_as_hexchar _ D)).
Qed.

Lemma subj_text c : match c_subject c with 42 :: _ => [42] | v => uuid_str v end = if hd 0 (c_subject c) =? 42 then [42] else uuid_str (c_subject c).
Proof.
  destruct (c_subject c) as [|a l]; [reflexivity|]. cbn [hd]. destruct (N.eqb_spec a 42) as [->|n]; [reflexivity|].
  destruct a as [|p]; [reflexivity|]. destruct p as [p|p|]; try reflexivity; destruct p as [p|p|]; try reflexivity; destruct p as [p|p|]; try reflexivity; destruct p as [p|p|]; try reflexivity; destruct p as [p|p|]; try reflexivity; destruct p as [p|p|]; try reflexivity; contradiction.
Qed.

Lemma set_subject_back u g : typed_uuid u -> (hd 0 u = 42 -> u = 42 :: repeat 0 15) -> set_subject (Some (if hd 0 u =? 42 then [42] else uuid_str u)) g = Some u.
Proof.
  intros T H. destruct (N.eqb_spec (hd 0 u) 42) as [e|Na].
  - rewrite (H e). vm_compute. reflexivity.
  - unfold set_subject. rewrite hd42. destruct (N.eqb_spec (hd 0 (cstr (uuid_str u))) 42) as [e|e]; [|f_equal; apply uuid_of_str; exact T].
    exfalso. unfold uuid_str, uuid_to_str in e. destruct (list_eqb u wildcard) eqn:W; [apply list_eqb_spec in W; subst u; apply Na; reflexivity|].
    destruct u as [|a r]; [destruct T as [_ T]; discriminate|]. destruct (uuid_print 0 (a :: r) 37) as [t|] eqn:Ep; [|discriminate].
    destruct T as [T _]. inversion T; subst. exact (uuid_print_hd _ _ _ _ H2 Ep e).
Qed.

Lemma parse_props_app fs a : forall b i, parse_props fs i (a ++ b) = match parse_props fs i a with Some j => parse_props fs j b | None => None end.
Proof. induction a as [|r a IH]; intros b i; cbn [parse_props app]; [reflexivity|]. destruct (parse_prop fs i r); [apply IH|reflexivity]. Qed.

Lemma unhex_xdigit c v : unhexchar c = Some v -> isxdigit c = true.
Proof. unfold unhexchar, isxdigit. destruct ((48 <=? c) && (c <=? 57)), ((97 <=? c) && (c <=? 102)), ((65 <=? c) && (c <=? 70)); intros H; try discriminate; reflexivity. Qed.

Lemma hexs_ok b : ctx_id b -> osc_id_ok (hexs b) = true /\ hex_pairs (hexs b) = Some b.
Proof.
  intros [B L]. unfold hexs. split.
  - unfold osc_id_ok. rewrite (hex_text_len _ _ (flat_hex_text _ B)), L. cbn [Nat.mul Nat.add Nat.eqb andb]. apply forallb_forall. intros c Hc. apply in_flat_map in Hc. destruct Hc as (x & Hx & Hc). unfold bytes_ok in B. rewrite Forall_forall in B. specialize (B x Hx). unfold is_byte in B.
    assert (x / 16 < 16) by (apply N.div_lt_upper_bound; lia). assert (x mod 16 < 16) by (apply N.mod_lt; discriminate).
    destruct Hc as [<-|[<-|[]]]; (eapply unhex_xdigit; apply reads_as_unhex; apply reads_as_hexchar; assumption).
  - apply hex_pairs_text. apply flat_hex_text. exact B.
Qed.

Lemma enc_str_of e x : enc_str e = Some x -> enc_of x = e.
Proof. unfold enc_str. destruct (N.eqb_spec e E_B64) as [->|]; [intros [= <-]; vm_compute; reflexivity|]. destruct (N.eqb_spec e E_RAW) as [->|]; [intros [= <-]; vm_compute; reflexivity|]. destruct (N.eqb_spec e E_PEM) as [->|]; [intros [= <-]; vm_compute; reflexivity|]. destruct (N.eqb_spec e E_HANDLE) as [->|]; [intros [= <-]; vm_compute; reflexivity|discriminate]. Qed.
Lemma enc_str_none e : e <= 4 -> enc_str e = None -> e = 0.
Proof. intros H. unfold enc_str, E_B64, E_RAW, E_PEM, E_HANDLE. destruct (N.eqb_spec e 1); [discriminate|]. destruct (N.eqb_spec e 2); [discriminate|]. destruct (N.eqb_spec e 3); [discriminate|]. destruct (N.eqb_spec e 4); [discriminate|]. lia. Qed.

Lemma usage_str_of u : In u [0; TRUSTCA; IDENTITY; ROLECERT; MFG_TRUSTCA; MFG_CERT] -> match usage_str u with Some x => usage_of x = u | None => u = 0 end.
Proof. intros [<-|[<-|[<-|[<-|[<-|[<-|[]]]]]]]; vm_compute; reflexivity. Qed.

(** The request a stored credential is read back as. *)
Definition back (c : cred) : item :=
  mk_item (c_id c) (c_type c) (c_usage c) (Some (match c_subject c with 42 :: _ => [42] | u => uuid_str u end))
    (mk_sd (Some (od (cd_data (c_priv c)))) (if cd_enc (c_priv c) =? 0 then E_RAW else cd_enc (c_priv c)))
    (if nonempty (cd_data (c_pub c)) then mk_sd (cd_data (c_pub c)) (cd_enc (c_pub c)) else mk_sd None 0)
    (if nonempty (c_role c) then c_role c else None) (if nonempty (c_role c) && nonempty (c_auth c) then c_auth c else None)
    (if nonempty (c_tag c) then c_tag c else None) (c_owner c)
    (match c_osc c with Some o => if c_type c =? OSC_MS then None else Some (hexs (os_send o)) | None => None end)
    (match c_osc c with Some o => if c_type c =? OSC_MC then None else Some (hexs (os_recv o)) | None => None end)
    (match c_osc c with Some o => if c_type c =? OSC then None else Some (od (os_desc o)) | None => None end)
    (match c_osc c with Some o => if c_type c =? OSC_MS then 0 else os_ssn o | None => 0 end).

Lemma od_some x : nonempty x = true -> Some (od x) = x.
Proof. destruct x as [[|a l]|]; [discriminate|reflexivity|discriminate]. Qed.

Lemma parse_back c : cred_ok c -> storable c -> parse_props true item0 (encode_one true c) = Some (back c).
Proof.
  intros O (S1 & S2 & S3 & S4). unfold encode_one, item0.
  rewrite parse_props_app. cbn [parse_props parse_prop fst snd item0]. names. cbn iota.
  cbn [i_id i_type i_usage i_subject i_priv i_pub i_role i_auth i_tag i_owner i_sid i_rid i_desc i_ssn].
  rewrite (to_int_id (c_id c)) by (apply (proj1 (co_id _ O))).
  assert (Ht : to_u32 (Z.of_N (c_type c)) = c_type c) by (unfold to_u32; rewrite Z.mod_small by (pose proof (co_type _ O); lia); apply N2Z.id). rewrite Ht.
  rewrite parse_props_app.
  assert (R : forall i, i_role i = None -> i_auth i = None -> parse_props true i (if (true || (c_type c =? PSK)) && nonempty (c_role c) then [(str "roleid", RObj ((str "role", RStr (od (c_role c))) :: if nonempty (c_auth c) then [(str "authority", RStr (od (c_auth c)))] else []))] else []) =
    Some (mk_item (i_id i) (i_type i) (i_usage i) (i_subject i) (i_priv i) (i_pub i) (if nonempty (c_role c) then c_role c else None) (if nonempty (c_role c) && nonempty (c_auth c) then c_auth c else None) (i_tag i) (i_owner i) (i_sid i) (i_rid i) (i_desc i) (i_ssn i))).
  { intros [v1 v2 v3 v4 v5 v6 v7 v8 v9 v10 v11 v12 v13 v14] Hr Ha. cbn [i_role i_auth] in Hr, Ha. subst. cbn [orb andb]. destruct (nonempty (c_role c)) eqn:Nr; [|reflexivity]. cbn [parse_props parse_prop fst snd]. names. cbn iota. cbn [parse_role fst snd]. names. cbn iota. rewrite (od_some _ Nr).
    destruct (nonempty (c_auth c)) eqn:Na; cbn [parse_role fst snd]; names; cbn iota; rewrite ?(od_some _ Na); reflexivity. }
  rewrite R by reflexivity. cbn [i_id i_type i_usage i_subject i_priv i_pub i_role i_auth i_tag i_owner i_sid i_rid i_desc i_ssn].
  rewrite parse_props_app. cbn [parse_props parse_prop fst snd]. names. cbn iota. cbn [i_priv].
  assert (Pv : parse_data (mk_sd None 0) [(str "data", if cd_enc (c_priv c) =? E_RAW then RBytes (od (cd_data (c_priv c))) else RStr (od (cd_data (c_priv c))));
       (str "encoding", RStr (match enc_str (cd_enc (c_priv c)) with Some e => e | None => str "oic.sec.encoding.raw" end))] = Some (mk_sd (Some (od (cd_data (c_priv c)))) (if cd_enc (c_priv c) =? 0 then E_RAW else cd_enc (c_priv c)))).
  { assert (En : enc_of (match enc_str (cd_enc (c_priv c)) with Some e => e | None => str "oic.sec.encoding.raw" end) = (if cd_enc (c_priv c) =? 0 then E_RAW else cd_enc (c_priv c))).
    { pose proof (proj1 (co_priv _ O)) as Le. destruct (enc_str (cd_enc (c_priv c))) as [e|] eqn:Ee.
      - rewrite (enc_str_of _ _ Ee). destruct (N.eqb_spec (cd_enc (c_priv c)) 0) as [e0|]; [|reflexivity]. rewrite e0 in Ee. discriminate.
      - rewrite (enc_str_none _ Le Ee). vm_compute. reflexivity. }
    assert (Nz : (enc_of (match enc_str (cd_enc (c_priv c)) with Some e => e | None => str "oic.sec.encoding.raw" end) =? 0) = false).
    { rewrite En. destruct (N.eqb_spec (cd_enc (c_priv c)) 0); [reflexivity|apply N.eqb_neq; assumption]. }
    cbn [parse_data fst snd]. destruct (cd_enc (c_priv c) =? E_RAW); cbn [parse_data fst snd]; names; cbn iota; rewrite Nz, En; reflexivity. }
  rewrite Pv. cbn [i_id i_type i_usage i_subject i_priv i_pub i_role i_auth i_tag i_owner i_sid i_rid i_desc i_ssn].
  rewrite parse_props_app.
  assert (Os : forall i, i_sid i = None -> i_rid i = None -> i_desc i = None -> i_ssn i = 0 -> parse_props true i (match c_osc c with None => [] | Some o => [(str "oscore", RObj ((if c_type c =? OSC_MS then [] else [(str "senderid", RStr (hexs (os_send o)))]) ++
                            (if c_type c =? OSC_MC then [] else [(str "recipientid", RStr (hexs (os_recv o)))]) ++
                            (if c_type c =? OSC then [] else [(str "desc", RStr (od (os_desc o)))]) ++
                            (if c_type c =? OSC_MS then [] else [(str "ssn", RInt (Z.of_N (os_ssn o)))])))] end) =
    Some (mk_item (i_id i) (i_type i) (i_usage i) (i_subject i) (i_priv i) (i_pub i) (i_role i) (i_auth i) (i_tag i) (i_owner i)
      (match c_osc c with Some o => if c_type c =? OSC_MS then None else Some (hexs (os_send o)) | None => None end)
      (match c_osc c with Some o => if c_type c =? OSC_MC then None else Some (hexs (os_recv o)) | None => None end)
      (match c_osc c with Some o => if c_type c =? OSC then None else Some (od (os_desc o)) | None => None end)
      (match c_osc c with Some o => if c_type c =? OSC_MS then 0 else os_ssn o | None => 0 end))).
  { intros [v1 v2 v3 v4 v5 v6 v7 v8 v9 v10 v11 v12 v13 v14] H1 H2 H3 H4. cbn [i_sid i_rid i_desc i_ssn] in H1, H2, H3, H4. subst. destruct (c_osc c) as [o|]; [|reflexivity]. destruct (S3 o eq_refl) as (T1 & T2 & T3 & T4).
    cbn [parse_props parse_prop fst snd]. names. cbn iota.
    assert (Z : Z.to_N (Z.of_N (os_ssn o) mod 18446744073709551616) = os_ssn o) by (rewrite Z.mod_small by lia; apply N2Z.id).
    destruct (N.eqb_spec (c_type c) OSC_MS) as [e1|e1].
    - rewrite e1. change (OSC_MS =? OSC_MC) with false. change (OSC_MS =? OSC) with false. cbn [app parse_osc fst snd]. names. cbn iota. assert (e2 : c_type c <> OSC_MC) by (rewrite e1; discriminate). rewrite (proj1 (hexs_ok _ (T2 e2))). cbn [parse_osc fst snd]. names. cbn iota. rewrite (cstr_nz' _ T4). reflexivity.
    - destruct (N.eqb_spec (c_type c) OSC_MC) as [e2|e2].
      + rewrite e2. change (OSC_MC =? OSC) with false. cbn [app parse_osc fst snd]. names. cbn iota. rewrite (proj1 (hexs_ok _ (T1 e1))). cbn [parse_osc fst snd]. names. cbn iota. rewrite (cstr_nz' _ T4), Z. reflexivity.
      + destruct (N.eqb_spec (c_type c) OSC) as [e3|e3]; cbn [app parse_osc fst snd]; names; cbn iota; rewrite (proj1 (hexs_ok _ (T1 e1))); cbn [parse_osc fst snd]; names; cbn iota; rewrite (proj1 (hexs_ok _ (T2 e2))); cbn [parse_osc fst snd]; names; cbn iota; rewrite ?(cstr_nz' _ T4), Z; reflexivity. }
  rewrite Os by reflexivity. cbn [i_id i_type i_usage i_subject i_priv i_pub i_role i_auth i_tag i_owner i_sid i_rid i_desc i_ssn].
  rewrite parse_props_app.
  assert (U : forall i, i_usage i = 0 -> parse_props true i (match usage_str (c_usage c) with Some u => [(str "credusage", RStr u)] | None => [] end) = Some (mk_item (i_id i) (i_type i) (c_usage c) (i_subject i) (i_priv i) (i_pub i) (i_role i) (i_auth i) (i_tag i) (i_owner i) (i_sid i) (i_rid i) (i_desc i) (i_ssn i))).
  { intros [v1 v2 v3 v4 v5 v6 v7 v8 v9 v10 v11 v12 v13 v14] H. cbn [i_usage] in H. subst. pose proof (usage_str_of _ (co_usage _ O)) as X. destruct (usage_str (c_usage c)) as [u|]; [|rewrite X; reflexivity]. cbn [parse_props parse_prop fst snd]. names. cbn iota. rewrite X. reflexivity. }
  rewrite U by reflexivity. cbn [i_id i_type i_usage i_subject i_priv i_pub i_role i_auth i_tag i_owner i_sid i_rid i_desc i_ssn].
  rewrite parse_props_app.
  assert (Pb : forall i, i_pub i = mk_sd None 0 -> parse_props true i (if nonempty (cd_data (c_pub c))
   then [(str "publicdata", RObj ((str "data", if cd_enc (c_pub c) =? E_PEM then RStr (od (cd_data (c_pub c))) else RBytes (od (cd_data (c_pub c)))) ::
                                  match enc_str (cd_enc (c_pub c)) with Some e => [(str "encoding", RStr e)] | None => [] end))] else []) =
    Some (mk_item (i_id i) (i_type i) (i_usage i) (i_subject i) (i_priv i) (if nonempty (cd_data (c_pub c)) then mk_sd (cd_data (c_pub c)) (cd_enc (c_pub c)) else mk_sd None 0) (i_role i) (i_auth i) (i_tag i) (i_owner i) (i_sid i) (i_rid i) (i_desc i) (i_ssn i))).
  { intros [v1 v2 v3 v4 v5 v6 v7 v8 v9 v10 v11 v12 v13 v14] H. cbn [i_pub] in H. subst. destruct (nonempty (cd_data (c_pub c))) eqn:Ne; [|reflexivity]. cbn [parse_props parse_prop fst snd]. names. cbn iota. rewrite <- (od_some _ Ne).
    assert (X : parse_data (mk_sd (Some (od (cd_data (c_pub c)))) 0) (match enc_str (cd_enc (c_pub c)) with Some e => [(str "encoding", RStr e)] | None => [] end) = Some (mk_sd (Some (od (cd_data (c_pub c)))) (cd_enc (c_pub c)))).
    { destruct (enc_str (cd_enc (c_pub c))) as [e|] eqn:Ee.
      - cbn [parse_data fst snd]. names. cbn iota. rewrite (enc_str_of _ _ Ee). destruct (N.eqb_spec (cd_enc (c_pub c)) 0) as [e0|]; [rewrite e0 in Ee; discriminate|reflexivity].
      - rewrite (enc_str_none _ (proj1 (co_pub _ O)) Ee). reflexivity. }
    destruct (cd_enc (c_pub c) =? E_PEM); cbn [parse_data fst snd od]; names; cbn iota; cbn [sd_enc i_pub]; unfold rep in *; rewrite X; reflexivity. }
  rewrite Pb by reflexivity. cbn [i_id i_type i_usage i_subject i_priv i_pub i_role i_auth i_tag i_owner i_sid i_rid i_desc i_ssn].
  cbn [parse_props parse_prop fst snd]. names. cbn iota. unfold back.
  destruct (nonempty (c_tag c)) eqn:Nt; [|reflexivity]. cbn [parse_props parse_prop fst snd]. names. cbn iota. rewrite (od_some _ Nt). reflexivity.
Qed.

Lemma nonempty_opt x : od (if nonempty x then x else None) = od x.
Proof. destruct x as [[|]|]; reflexivity. Qed.
Lemma od_priv (x : option (list N)) : nonempty (Some (od x)) = nonempty x.
Proof. destruct x as [[|]|]; reflexivity. Qed.

(** Adding what was stored makes the credential again. *)
Definition again (E : cenv) (n : nat) (r a : option (list N)) (c : cred) : cred :=
  mk_cred n (c_id c) (c_type c) (c_usage c) (c_subject c)
    (if nonempty (cd_data (c_priv c)) then mk_cd (Some (od (cd_data (c_priv c)))) (if cd_enc (c_priv c) =? 0 then E_RAW else cd_enc (c_priv c)) else mk_cd None 0)
    (c_pub c) (if nonempty (c_role c) then c_role c else r) (if nonempty (c_role c) && nonempty (c_auth c) then c_auth c else a)
    (if nonempty (c_tag c) then c_tag c else None) false None.

Lemma cd_cases d : cd_ok d -> nonempty (cd_data d) = true \/ d = mk_cd None 0.
Proof. destruct d as [[x|] e]; cbn [cd_ok cd_data cd_enc nonempty]; intros [_ H]; cbn [cd_data] in H; [destruct x; [congruence|left; reflexivity]|right; cbn [cd_enc] in H; subst; reflexivity]. Qed.

Lemma anchors_restored a b : Forall2 restored a b -> anchors b = anchors a.
Proof.
  unfold anchors. induction 1 as [|c c' a b (H1 & H2 & H3 & _ & _ & _ & _ & H8 & _) _ IH]; [reflexivity|]. cbn [filter]. rewrite H2, H3. destruct (_ && _); [|exact IH]. cbn [map]. rewrite IH, H8. reflexivity.
Qed.

Lemma chain_restored d d' c : cred_ok c -> restored d d' -> same_cert (back c) (c_subject c) d' = chain d c.
Proof.
  intros O (H1 & H2 & H3 & H4 & _ & _ & _ & H8 & _ & _ & H11 & _). unfold chain, same_cert, item_of, back, has_tag. cbn [i_type i_usage i_pub i_tag]. rewrite H2, H3, H4, H8, H11, nonempty_opt.
  destruct (cd_cases _ (co_pub _ O)) as [e|e]; [rewrite e; cbn [sd_data]; rewrite e; reflexivity|]. rewrite e. cbn [cd_data nonempty sd_data]. rewrite !andb_false_r. reflexivity.
Qed.

Lemma find_false {A} (f : A -> bool) l : (forall x, In x l -> f x = false) -> find f l = None.
Proof. induction l as [|x l IH]; intros H; [reflexivity|]. cbn [find]. rewrite (H x (or_introl eq_refl)). apply IH. intros y Hy. apply H. right. exact Hy. Qed.

Lemma forall2_in {A B} (R : A -> B -> Prop) l l' : Forall2 R l l' -> forall y, In y l' -> exists x, In x l /\ R x y.
Proof. induction 1; intros z Hz; [contradiction|]. destruct Hz as [<-|Hz]; [exists x; split; [left; reflexivity|assumption]|]. destruct (IHForall2 z Hz) as (w & ? & ?). exists w. split; [right; assumption|assumption]. Qed.

Lemma ids_restored a b : Forall2 restored a b -> ids b = ids a.
Proof. induction 1 as [|c c' a b [H1 _] _ IH]; [reflexivity|]. cbn [ids map]. unfold ids in IH. rewrite IH, H1. reflexivity. Qed.

Lemma load_one E a c s o : cred_ok c -> storable c -> resources_ok E -> cert_ok E a c -> Forall2 restored a (s_creds s) -> ~ In (c_id c) (ids a) -> (forall d, In d a -> chain d c = false) ->
  osc_ok (back c) = true /\ exists c', restored c c' /\ apply_item E true false (back c) s o = DOk (mk_cs (s_creds s ++ [c']) (s_owner s) (s_roles s) (S (s_next s))) o.
Proof.
  intros O St (A1 & A2) (K1 & K2) F Ni Ch. pose proof St as (S1 & S2 & S3 & S4). split.
  - unfold osc_ok, back. cbn [i_type i_sid i_rid i_desc i_priv sd_data od].
    assert (L : In (c_type c) [OSC; OSC_MC; OSC_MS] -> (List.length (od (cd_data (c_priv c))) =? 16)%nat = true) by (intros X; apply Nat.eqb_eq; exact (co_osc _ O X)).
    destruct (N.eqb_spec (c_type c) OSC) as [e1|e1]; [|destruct (N.eqb_spec (c_type c) OSC_MC) as [e2|e2]; [|destruct (N.eqb_spec (c_type c) OSC_MS) as [e3|e3]; [|reflexivity]]].
    + assert (X : In (c_type c) [OSC; OSC_MC; OSC_MS]) by (rewrite e1; left; reflexivity). rewrite (L X). specialize (S2 X). destruct (c_osc c); [|contradiction]. rewrite ?e1. reflexivity.
    + assert (X : In (c_type c) [OSC; OSC_MC; OSC_MS]) by (rewrite e2; right; left; reflexivity). rewrite (L X). specialize (S2 X). destruct (c_osc c); [|contradiction]. rewrite ?e2. reflexivity.
    + assert (X : In (c_type c) [OSC; OSC_MC; OSC_MS]) by (rewrite e3; right; right; left; reflexivity). rewrite (L X). specialize (S2 X). destruct (c_osc c); [|contradiction]. rewrite ?e3. reflexivity.
  - assert (Ni' : ~ In (c_id c) (ids (s_creds s))) by (rewrite (ids_restored _ _ F); exact Ni).
    assert (Pub : od (sd_data (i_pub (back c))) = od (cd_data (c_pub c))) by (cbn [back i_pub]; destruct (nonempty (cd_data (c_pub c))) eqn:Ne; [reflexivity|]; cbn [sd_data od]; symmetry; apply nonempty_false; exact Ne).
    assert (Cr : forall kp, exists r a, (c_usage c = ROLECERT -> (r = Some [] \/ od (c_role c) <> []) /\ (a = Some [] \/ od (c_auth c) <> [])) /\ (c_usage c <> ROLECERT -> r = None /\ a = None) /\
      (c_usage c = IDENTITY \/ kp = None -> create E false (back c) (c_subject c) kp (c_id c) None s = AOk (c_id c) (mk_cs (s_creds s ++ [again E (s_next s) r a c]) (s_owner s) (s_roles s) (S (s_next s))) None true)).
    { intros kp.
      assert (Ex : exists r a, (if c_usage c =? ROLECERT then match ce_role E (anchors (s_creds s ++ [])) (od (sd_data (i_pub (back c)))) with Some (r, a) => Some (Some r, Some a) | None => None end else Some (None, None)) = Some (r, a) /\
         (c_usage c = ROLECERT -> (r = Some [] \/ od (c_role c) <> []) /\ (a = Some [] \/ od (c_auth c) <> [])) /\ (c_usage c <> ROLECERT -> r = None /\ a = None)).
      { rewrite app_nil_r, (anchors_restored _ _ F), Pub. destruct (N.eqb_spec (c_usage c) ROLECERT) as [e|e].
        - destruct (K2 e) as (r & a' & -> & R1 & R2). exists (Some r), (Some a'). split; [reflexivity|]. split; [|tauto]. intros _. split; [destruct R1 as [->|R1]|destruct R2 as [->|R2]]; auto.
        - exists None, None. split; [reflexivity|]. tauto. }
      destruct Ex as (r & a' & Ex & X1 & X2). exists r, a'. split; [exact X1|]. split; [exact X2|]. intros Hkp.
      unfold create. rewrite A1. cbn [negb orb andb]. change (i_usage (back c)) with (c_usage c). rewrite Ex.
      destruct (Z.eqb_spec (c_id c) (-1)) as [e|_]; [exfalso; exact (proj2 (co_id _ O) e)|].
      change (sd_data (i_priv (back c))) with (Some (od (cd_data (c_priv c)))). rewrite od_priv. cbn [od].
      assert (Pr : (if nonempty (cd_data (c_priv c)) then set_priv (i_type (back c)) (od (cd_data (c_priv c))) (sd_enc (i_priv (back c))) else match kp with Some k => Some (mk_cd (Some k) E_RAW) | None => Some (mk_cd None 0) end) =
                   Some (if nonempty (cd_data (c_priv c)) then mk_cd (Some (od (cd_data (c_priv c)))) (if cd_enc (c_priv c) =? 0 then E_RAW else cd_enc (c_priv c)) else mk_cd None 0)).
      { destruct (nonempty (cd_data (c_priv c))) eqn:Ne.
        - unfold set_priv. cbn [back i_type i_priv sd_enc]. destruct (N.eqb_spec (c_type c) PSK) as [e|e]; [|reflexivity].
          destruct (co_psk _ O e (od (cd_data (c_priv c))) (eq_sym (od_some _ Ne))) as [Kl Ke]. rewrite Kl. destruct (N.eqb_spec (cd_enc (c_priv c)) 0); [reflexivity|]. destruct (N.eqb_spec (cd_enc (c_priv c)) E_B64); [contradiction|reflexivity].
        - destruct Hkp as [e| ->]; [|reflexivity]. exfalso. pose proof (co_ident _ O e) as X. destruct (cd_cases _ (co_priv _ O)) as [Y|Y]; [congruence|rewrite Y in X; apply X; reflexivity]. }
      rewrite Pr. do 2 f_equal. f_equal. f_equal. unfold again. cbn [back i_type i_usage i_pub i_tag i_role i_auth]. f_equal.
      - destruct (cd_cases _ (co_pub _ O)) as [e|e]; [rewrite e; cbn [sd_data]; rewrite e; cbn [sd_enc]; destruct (c_pub c); reflexivity|]. rewrite e. reflexivity.
      - destruct (c_role c) as [[|]|]; reflexivity.
      - destruct (c_role c) as [[|]|], (c_auth c) as [[|]|]; reflexivity. }
    assert (Kd : exists k, (if c_type c =? CERT then ce_key E (od (cd_data (c_pub c))) else Some []) = Some k).
    { destruct (N.eqb_spec (c_type c) CERT) as [e|e]; [|eexists; reflexivity]. specialize (K1 e). destruct (ce_key E _) as [k|]; [exists k; reflexivity|congruence]. }
    destruct Kd as [k Kd].
    assert (Nf : find (same_cert (back c) (c_subject c)) (s_creds s) = None).
    { apply find_false. intros d' Hd. destruct (forall2_in _ _ _ F _ Hd) as (d & D1 & D2). rewrite (chain_restored _ _ _ O D2). apply Ch. exact D1. }
    assert (Id : (c_usage c =? IDENTITY) && negb (nonempty (sd_data (i_priv (back c)))) = false).
    { change (sd_data (i_priv (back c))) with (Some (od (cd_data (c_priv c)))). rewrite od_priv. destruct (N.eqb_spec (c_usage c) IDENTITY) as [e|e]; [|reflexivity].
      pose proof (co_ident _ O e) as X. destruct (cd_cases _ (co_priv _ O)) as [Y|Y]; [rewrite Y; reflexivity|rewrite Y in X; exfalso; apply X; reflexivity]. }
    destruct (Cr None) as (r & a' & X1 & X2 & X3). specialize (X3 (or_intror eq_refl)).
    assert (Ad : add_cred E false (back c) s = AOk (c_id c) (mk_cs (s_creds s ++ [again E (s_next s) r a' c]) (s_owner s) (s_roles s) (S (s_next s))) None true).
    { unfold add_cred. rewrite Pub. change (i_type (back c)) with (c_type c). change (i_usage (back c)) with (c_usage c). change (i_id (back c)) with (c_id c). rewrite Kd. cbn [andb].
      cbn [back i_subject]. rewrite subj_text, (set_subject_back _ _ (co_subject _ O) S1). rewrite Id.
      rewrite (proj2 (by_id_none _ _) Ni'), Nf. exact X3. }
    unfold apply_item. rewrite Ad. destruct (Z.eqb_spec (c_id c) (-1)) as [e|_]; [exfalso; exact (proj2 (co_id _ O) e)|]. cbn [s_creds].
    assert (By : by_id (c_id c) (s_creds s ++ [again E (s_next s) r a' c]) = Some (again E (s_next s) r a' c)).
    { unfold by_id. assert (G : forall l, ~ In (c_id c) (ids l) -> find (fun d => (c_id d =? c_id c)%Z) (l ++ [again E (s_next s) r a' c]) = Some (again E (s_next s) r a' c)).
      { induction l as [|d l IH]; intros N; cbn [app find]; [cbn [again c_id]; rewrite Z.eqb_refl; reflexivity|]. destruct (Z.eqb_spec (c_id d) (c_id c)) as [e|_]; [exfalso; apply N; left; exact e|]. apply IH. intros X. apply N. right. exact X. }
      apply G. exact Ni'. }
    rewrite By. cbn [negb andb]. rewrite A2, andb_false_r. cbn [with_creds s_creds s_owner s_roles s_next].
    assert (Up : forall f l, ~ In (c_id c) (ids l) -> upd (c_id c) f (l ++ [again E (s_next s) r a' c]) = l ++ [f (again E (s_next s) r a' c)]).
    { intros f. induction l as [|d l IH]; intros N; cbn [app upd]; [cbn [again c_id]; rewrite Z.eqb_refl; reflexivity|]. destruct (Z.eqb_spec (c_id d) (c_id c)) as [e|_]; [exfalso; apply N; left; exact e|]. f_equal. apply IH. intros X. apply N. right. exact X. }
    rewrite (Up _ _ Ni'). eexists. split; [|reflexivity]. unfold restored, again. cbn [c_name c_id c_type c_usage c_subject c_priv c_pub c_role c_auth c_tag c_owner c_osc back i_owner i_sid i_rid].
    assert (Ne : nonempty (cd_data (c_priv c)) = true \/ c_priv c = mk_cd None 0) by (apply cd_cases; exact (co_priv _ O)).
    split; [reflexivity|]. split; [reflexivity|]. split; [reflexivity|]. split; [reflexivity|]. split; [rewrite orb_false_r; reflexivity|].
    split; [destruct Ne as [e|e]; rewrite e; reflexivity|].
    split; [destruct Ne as [e|e]; rewrite e; cbn [cd_data nonempty cd_enc]; [destruct (N.eqb_spec (cd_enc (c_priv c)) 0); auto|left; reflexivity]|].
    split; [reflexivity|].
    split. { destruct (nonempty (c_role c)) eqn:Nr; [reflexivity|]. apply nonempty_false in Nr. rewrite Nr. destruct (N.eq_dec (c_usage c) ROLECERT) as [e|e]; [destruct (X1 e) as [[->|Y] _]; [reflexivity|contradiction]|rewrite (proj1 (X2 e)); reflexivity]. }
    split. { destruct (nonempty (c_auth c)) eqn:Na; [|apply nonempty_false in Na].
      - destruct (nonempty (c_role c)) eqn:Nr; [reflexivity|]. apply nonempty_false in Nr. specialize (S4 Nr). apply nonempty_od in Na. contradiction.
      - rewrite andb_false_r, Na. destruct (N.eq_dec (c_usage c) ROLECERT) as [e|e]; [destruct (X1 e) as [_ [->|Y]]; [reflexivity|contradiction]|rewrite (proj2 (X2 e)); reflexivity]. }
    split; [apply nonempty_opt|].
    unfold make_ctx. cbn [back i_sid i_rid i_desc i_ssn]. destruct (c_osc c) as [x|]; [|reflexivity]. destruct (S3 x eq_refl) as (T1 & T2 & T3 & T4).
    assert (M : (c_type c =? OSC_MS) && (c_type c =? OSC_MC) = false) by (destruct (N.eqb_spec (c_type c) OSC_MS) as [e|e]; [rewrite e; reflexivity|reflexivity]).
    assert (Some' : some (if c_type c =? OSC_MS then None else Some (hexs (os_send x))) || some (if c_type c =? OSC_MC then None else Some (hexs (os_recv x))) = true).
    { destruct (c_type c =? OSC_MS), (c_type c =? OSC_MC); try reflexivity. discriminate. }
    rewrite Some'. cbn [os_send os_recv os_ssn os_desc]. split; [|split].
    + intros e. apply N.eqb_neq in e as e'. rewrite e'. unfold hex7.  rewrite (proj2 (hexs_ok _ (T1 e))). split; reflexivity.
    + intros e. apply N.eqb_neq in e as e'. rewrite e'. unfold hex7. rewrite (proj2 (hexs_ok _ (T2 e))). reflexivity.
    + intros e. apply N.eqb_neq in e as e'. rewrite e'. reflexivity.
Qed.

Lemma encode_one_cons st c : exists x t, encode_one st c = x :: t.
Proof. eexists. eexists. reflexivity. Qed.

Lemma load_items E : forall b a s o, Forall cred_ok (a ++ b) -> Forall storable (a ++ b) -> resources_ok E -> readable E (a ++ b) -> NoDup (ids (a ++ b)) -> ForallOrdPairs (fun d c => chain d c = false) (a ++ b) ->
  Forall2 restored a (s_creds s) -> exists s', apply_items E true false (map (encode_one true) b) s o = DOk s' o /\ Forall2 restored (a ++ b) (s_creds s') /\ s_owner s' = s_owner s.
Proof.
  induction b as [|c b IH]; intros a s o O St A R N Ch F.
  - exists s. rewrite app_nil_r. split; [reflexivity|]. split; [exact F|reflexivity].
  - cbn [map apply_items].
    assert (Oc : cred_ok c) by (rewrite Forall_forall in O; apply O; apply in_or_app; right; left; reflexivity).
    assert (Sc : storable c) by (rewrite Forall_forall in St; apply St; apply in_or_app; right; left; reflexivity).
    assert (Nc : ~ In (c_id c) (ids a)).
    { unfold ids in N. rewrite map_app in N. cbn [map] in N. apply NoDup_remove_2 in N. intros X. apply N. apply in_or_app. left. exact X. }
    assert (Cc : forall d, In d a -> chain d c = false).
    { clear - Ch. induction a as [|e a IH]; intros d Hd; [contradiction|]. inversion Ch; subst. destruct Hd as [<-|Hd]; [|apply IH; assumption]. rewrite Forall_forall in H1. apply H1. apply in_or_app. right. left. reflexivity. }
    rewrite (parse_back _ Oc Sc). destruct (load_one E a c s o Oc Sc A (R a c b eq_refl) F Nc Cc) as (Ok & c' & Rc & Ap). rewrite Ok.
    destruct (encode_one_cons true c) as (x & t & ->). rewrite Ap.
    assert (Eq : a ++ c :: b = (a ++ [c]) ++ b) by (rewrite <- app_assoc; reflexivity). rewrite Eq in *.
    destruct (IH (a ++ [c]) (mk_cs (s_creds s ++ [c']) (s_owner s) (s_roles s) (S (s_next s))) o O St A R N Ch) as (s' & E1 & E2 & E3).
    { cbn [s_creds]. apply Forall2_app; [exact F|]. constructor; [exact Rc|constructor]. }
    exists s'. split; [exact E1|]. split; [exact E2|exact E3].
Qed.

Theorem stored_restored E s : good s -> Forall storable (s_creds s) -> readable E (s_creds s) -> resources_ok E ->
  exists s', load E (encode_cred true s) = Some s' /\ Forall2 restored (s_creds s) (s_creds s') /\ s_owner s' = s_owner s.
Proof.
  intros G S R A. destruct (load_items E (s_creds s) [] (mk_cs [] nil_uuid [] 0) None (gd_ok _ G) S A R (gd_ids _ G) (gd_chain _ G) (Forall2_nil _)) as (s' & E1 & E2 & E3).
  exists (mk_cs (s_creds s') (s_owner s) (s_roles s') (s_next s')). split; [|split; [exact E2|reflexivity]].
  unfold load, decode_cred, encode_cred. cbn [orb decode_props fst snd]. names. cbn [orb]. rewrite E1. rewrite uuid_of_str by (exact (gd_owner _ G)). reflexivity.
Qed.
