(** Proofs about credentials: adding, requests, histories. *)
From Verif Require Import Common Rep_Model Hex_Model Base64_Model Base64_Spec Base64_Proofs Base64_Props Acl_Model Acl_Spec Acl2_Proofs Ob_Model Ob_Spec Ob_Proofs Cred_Model Cred_Spec.
From Coq Require Import String.
Local Open Scope string_scope.
Local Open Scope list_scope.
Local Open Scope N_scope.

(** * Lists of credentials *)

Lemma by_id_some i l c : by_id i l = Some c -> In c l /\ c_id c = i.
Proof. unfold by_id. intros H. apply find_some in H. destruct H as [H1 H2]. apply Z.eqb_eq in H2. auto. Qed.

Lemma by_id_none i l : by_id i l = None <-> ~ In i (ids l).
Proof.
  unfold by_id, ids. split.
  - intros H Hi. apply in_map_iff in Hi. destruct Hi as (c & E & Hc). pose proof (find_none _ _ H c Hc) as F. cbn beta in F. apply Z.eqb_neq in F. contradiction.
  - intros H. destruct (find (fun c => (c_id c =? i)%Z) l) eqn:E; [|reflexivity]. apply find_some in E. destruct E as [E1 E2]. apply Z.eqb_eq in E2. exfalso. apply H. apply in_map_iff. eauto.
Qed.

Lemma by_id_in l c : NoDup (ids l) -> In c l -> by_id (c_id c) l = Some c.
Proof.
  induction l as [|d l IH]; intros N Hc; [contradiction|]. cbn [ids map] in N. inversion N as [|? ? N1 N2]; subst. unfold by_id. cbn [find]. destruct (Z.eqb_spec (c_id d) (c_id c)) as [E|E].
  - destruct Hc as [->|Hc]; [reflexivity|]. exfalso. apply N1. rewrite E. apply in_map. exact Hc.
  - destruct Hc as [->|Hc]; [contradiction|]. apply IH; assumption.
Qed.

Lemma without_notin i l : ~ In i (ids l) -> without i l = l.
Proof.
  unfold without, ids. intros H. induction l as [|c l IH]; [reflexivity|]. cbn [filter]. destruct (Z.eqb_spec (c_id c) i) as [E|E].
  - exfalso. apply H. left. exact E.
  - cbn [negb]. f_equal. apply IH. intros Hi. apply H. right. exact Hi.
Qed.

Lemma remove_without i l : NoDup (ids l) -> remove_id i l = without i l.
Proof.
  induction l as [|c l IH]; intros N; [reflexivity|]. cbn [ids map] in N. inversion N as [|? ? N1 N2]; subst. unfold without in *. cbn [remove_id filter]. destruct (Z.eqb_spec (c_id c) i) as [E|E]; cbn [negb].
  - symmetry. apply without_notin. subst i. exact N1.
  - f_equal. apply IH. exact N2.
Qed.

Lemma without_in i l c : In c (without i l) <-> In c l /\ c_id c <> i.
Proof. unfold without. rewrite filter_In. destruct (Z.eqb_spec (c_id c) i); cbn [negb]; intuition congruence. Qed.

Lemma without_id i l : ~ In i (ids (without i l)).
Proof. unfold ids. intros H. apply in_map_iff in H. destruct H as (c & E & H). apply without_in in H. tauto. Qed.

Lemma ids_without i j l : In j (ids (without i l)) -> In j (ids l).
Proof. unfold ids. intros H. apply in_map_iff in H. destruct H as (c & <- & H). apply without_in in H. apply in_map. tauto. Qed.

Lemma nodup_filter f l : NoDup (ids l) -> NoDup (ids (filter f l)).
Proof.
  induction l as [|c l IH]; intros N; [constructor|]. cbn [ids map] in N. inversion N as [|? ? N1 N2]; subst. cbn [filter]. destruct (f c); [|apply IH; exact N2].
  cbn [ids map]. constructor; [|apply IH; exact N2]. intros H. apply N1. unfold ids in H. apply in_map_iff in H. destruct H as (d & E & H). apply filter_In in H. rewrite <- E. apply in_map. tauto.
Qed.

Lemma nodup_snoc l c : NoDup (ids l) -> ~ In (c_id c) (ids l) -> NoDup (ids (l ++ [c])).
Proof. intros N H. unfold ids. rewrite map_app. apply NoDup_app_snoc; assumption. Qed.

Lemma upd_ids i f l : (forall c, c_id (f c) = c_id c) -> ids (upd i f l) = ids l.
Proof. intros H. unfold ids. induction l as [|c l IH]; [reflexivity|]. cbn [upd]. destruct (c_id c =? i)%Z; cbn [map]; rewrite ?H, ?IH; reflexivity. Qed.

Lemma upd_in i f l c : In c (upd i f l) -> In c l \/ exists d, In d l /\ c_id d = i /\ c = f d.
Proof.
  induction l as [|d l IH]; [intros []|]. cbn [upd]. destruct (Z.eqb_spec (c_id d) i) as [E|E]; cbn [In].
  - intros [<-|H]; [right; exists d; auto|auto].
  - intros [<-|H]; [auto|]. destruct (IH H) as [H1|(e & H1 & H2 & H3)]; [auto|right; exists e; auto].
Qed.

Lemma in_upd i f l c : NoDup (ids l) -> In c l -> In (if (c_id c =? i)%Z then f c else c) (upd i f l).
Proof.
  induction l as [|d l IH]; intros N; [intros []|]. cbn [ids map] in N. inversion N as [|? ? N1 N2]; subst. cbn [upd In]. intros [->|H].
  - destruct (c_id c =? i)%Z; left; reflexivity.
  - destruct (Z.eqb_spec (c_id d) i) as [E|E].
    + destruct (Z.eqb_spec (c_id c) i) as [E'|E']; [|right; exact H]. exfalso. apply N1. rewrite E, <- E'. apply in_map. exact H.
    + right. apply IH; assumption.
Qed.

(** * Small facts *)

Lemma nonempty_od x : nonempty x = true <-> od x <> [].
Proof. destruct x as [[|a x]|]; cbn; split; intros H; try discriminate; try reflexivity; contradiction || (intros E; discriminate E). Qed.

Lemma nonempty_false x : nonempty x = false <-> od x = [].
Proof. destruct x as [[|a x]|]; cbn; split; intros H; try discriminate; reflexivity. Qed.

Lemma has_tag_spec c t : has_tag c t = true <-> od (c_tag c) = od t.
Proof. unfold has_tag. apply list_eqb_spec. Qed.

Lemma cstr_nz' t : ~ In 0 t -> cstr t = t.
Proof. intros H. apply cstr_nz. apply Forall_forall. intros x Hx ->. contradiction. Qed.

Lemma subject_typed s u x : set_subject s u = Some x -> typed_uuid x.
Proof.
  unfold set_subject. assert (W : typed_uuid wildcard) by (split; [repeat constructor|reflexivity]). destruct s as [t|].
  - destruct (cstr t) as [|a l]; [intros [= <-]; apply uuid_of_typed, nil_typed|].
    assert (X : forall y, typed_uuid y -> Some y = Some x -> typed_uuid x) by (intros y Hy [= <-]; exact Hy).
    destruct (N.eq_dec a 42) as [->|n]; [intros [= <-]; exact W|]. intros H. apply (X (uuid_of t nil_uuid)); [apply uuid_of_typed, nil_typed|].
    rewrite <- H. destruct a as [|p]; [reflexivity|]. destruct p as [p|p|]; try reflexivity; destruct p as [p|p|]; try reflexivity; destruct p as [p|p|]; try reflexivity; destruct p as [p|p|]; try reflexivity; destruct p as [p|p|]; try reflexivity; destruct p as [p|p|]; try reflexivity; contradiction.
  - destruct (u =? ROLECERT); [intros [= <-]; exact W|discriminate].
Qed.

Lemma subject_star s t : set_subject (Some s) t = match cstr s with 42 :: _ => Some wildcard | _ => Some (uuid_of s nil_uuid) end.
Proof. reflexivity. Qed.

Lemma hd42 {A} (l : list N) (x y : A) : match l with 42 :: _ => x | _ => y end = if hd 0 l =? 42 then x else y.
Proof.
  destruct l as [|a l]; [reflexivity|]. cbn [hd]. destruct (N.eqb_spec a 42) as [->|n]; [reflexivity|].
  destruct a as [|p]; [reflexivity|]. destruct p as [p|p|]; try reflexivity; destruct p as [p|p|]; try reflexivity; destruct p as [p|p|]; try reflexivity; destruct p as [p|p|]; try reflexivity; destruct p as [p|p|]; try reflexivity; destruct p as [p|p|]; try reflexivity; contradiction.
Qed.

Lemma new_id_spec l rnd i : new_id l rnd = Some i -> ~ In i (ids l) /\ (0 <= i <= 2147483647)%Z.
Proof.
  unfold new_id. destruct (find _ rnd) as [v|] eqn:E; [|discriminate]. intros [= <-]. apply find_some in E. destruct E as [_ E].
  destruct (by_id (Z.of_N (v mod 4294967296 / 2)) l) eqn:B; [discriminate|]. split; [apply by_id_none; exact B|].
  assert (v mod 4294967296 < 4294967296) by (apply N.mod_lt; discriminate). assert (v mod 4294967296 / 2 < 2147483648) by (apply N.div_lt_upper_bound; lia). lia.
Qed.

Lemma set_priv_other t d e : t <> PSK \/ e <> E_B64 -> forall p, set_priv t d e = Some p -> p = mk_cd (Some d) e.
Proof.
  unfold set_priv. intros H p. destruct (N.eqb_spec t PSK).
  - destruct (N.eqb_spec e E_B64); [tauto|]. destruct (key_length_ok _); [congruence|discriminate].
  - congruence.
Qed.

Lemma decode_b64 d buf n : decode_in_place d = (buf, Some n) -> List.length (firstn n buf) = n /\ decode STD true d (List.length d) = Some (firstn n buf).
Proof.
  intros E. pose proof (decode_in_place_spec d) as H. rewrite E in H. cbn [snd] in H. destruct (decode STD true d (List.length d)) as [o|]; [|discriminate].
  injection H as -> ->. rewrite firstn_app, Nat.sub_diag, firstn_O, app_nil_r, firstn_all. auto.
Qed.

Lemma set_priv_psk d e p : set_priv PSK d e = Some p -> exists k, cd_data p = Some k /\ key_length_ok (List.length k) = true /\ cd_enc p <> E_B64 /\ (cd_enc p = E_RAW \/ cd_enc p = e).
Proof.
  unfold set_priv. cbn [N.eqb Pos.eqb PSK]. destruct (N.eqb_spec e E_B64).
  - destruct (64 <? List.length d)%nat; [discriminate|]. destruct (decode_in_place d) as [buf [n|]] eqn:E; [|discriminate]. destruct (key_length_ok n) eqn:K; [|discriminate]. intros [= <-].
    exists (firstn n buf). cbn [cd_data cd_enc]. split; [reflexivity|]. split; [|split; [discriminate|left; reflexivity]].
    rewrite (proj1 (decode_b64 _ _ _ E)). exact K.
  - destruct (key_length_ok _) eqn:K; [|discriminate]. intros [= <-]. exists d. cbn [cd_data cd_enc]. auto.
Qed.

Lemma set_priv_b64 d p key : bytes_ok key -> d = rfc_encode digits_std [61] key -> set_priv PSK d E_B64 = Some p -> p = mk_cd (Some key) E_RAW.
Proof.
  intros B Ed. unfold set_priv. cbn [N.eqb Pos.eqb PSK E_B64]. destruct (64 <? List.length d)%nat; [discriminate|]. destruct (decode_in_place d) as [buf [n|]] eqn:E; [|discriminate].
  destruct (key_length_ok n) eqn:K; [|discriminate]. intros [= <-]. f_equal. f_equal. pose proof (decode_b64 _ _ _ E) as [_ H].
  pose proof (C16_base64_encode_rfc4648 STD true key (encoded_size (List.length key) true) B (Nat.le_refl _)) as H1. cbn beta iota in H1. rewrite <- Ed in H1.
  assert (L : (List.length key <= List.length d)%nat).
  { destruct (C16_base64_encoded_size _ _ _ _ _ B H1) as (L1 & _ & L3). specialize (L3 eq_refl). rewrite L3. pose proof (Nat.div_mod (List.length key + 2) 3). lia. }
  rewrite (C16_base64_roundtrip _ _ _ _ _ _ B H1 L) in H. congruence.
Qed.

(** * Adding a credential *)

(** The request as the type checks of the payload or of the interface leave it. *)
Definition item_ok (it : item) : Prop :=
  typed_int (i_id it) /\ i_type it < 4294967296 /\ In (i_usage it) [0; TRUSTCA; IDENTITY; ROLECERT; MFG_TRUSTCA; MFG_CERT] /\
  sd_enc (i_priv it) <= 4 /\ sd_enc (i_pub it) <= 4 /\
  (In (i_type it) [OSC; OSC_MC; OSC_MS] -> List.length (od (sd_data (i_priv it))) = 16%nat).

Definition cd_ok (d : cdata) : Prop := cd_enc d <= 4 /\ match cd_data d with None => cd_enc d = 0 | Some x => x <> [] end.
Record cred_ok (c : cred) : Prop := {
  co_id : typed_int (c_id c) /\ c_id c <> (-1)%Z;
  co_type : c_type c < 4294967296;
  co_usage : In (c_usage c) [0; TRUSTCA; IDENTITY; ROLECERT; MFG_TRUSTCA; MFG_CERT];
  co_subject : typed_uuid (c_subject c);
  co_priv : cd_ok (c_priv c);
  co_pub : cd_ok (c_pub c);
  co_psk : c_type c = PSK -> forall k, cd_data (c_priv c) = Some k -> key_length_ok (List.length k) = true /\ cd_enc (c_priv c) <> E_B64;
  co_ident : c_usage c = IDENTITY -> cd_data (c_priv c) <> None;
  co_osc : In (c_type c) [OSC; OSC_MC; OSC_MS] -> List.length (od (cd_data (c_priv c))) = 16%nat }.

Definition requested (it : item) (subj : list N) (c : cred) : Prop :=
  c_type c = i_type it /\ c_usage c = i_usage it /\ c_subject c = subj /\ c_tag c = i_tag it /\ c_owner c = false /\ c_osc c = None /\
  c_pub c = (if nonempty (sd_data (i_pub it)) then mk_cd (sd_data (i_pub it)) (sd_enc (i_pub it)) else mk_cd None 0) /\
  (nonempty (sd_data (i_priv it)) = true -> set_priv (i_type it) (od (sd_data (i_priv it))) (sd_enc (i_priv it)) = Some (c_priv c)) /\
  (forall r, i_role it = Some r -> c_role c = Some r).

(** What [create] does. *)
Lemma create_dev E it subj kp id rep s : keys_ok E -> item_ok it -> typed_int id -> typed_uuid subj ->
  ~ In id (ids (s_creds s)) -> (forall k, kp = Some k -> k <> [] /\ i_type it = CERT) -> (i_usage it = IDENTITY -> nonempty (sd_data (i_priv it)) = false -> kp <> None) ->
  match create E false it subj kp id rep s with
  | ALoop => True
  | AFail s' => s' = s
  | AOk i s' rep' b => rep' = rep /\ b = true /\ exists c, c_name c = s_next s /\ c_id c = i /\ (id <> (-1)%Z -> i = id) /\ ~ In i (ids (s_creds s)) /\ cred_ok c /\
                      requested it subj c /\ s' = mk_cs (s_creds s ++ [c]) (s_owner s) (s_roles s) (S (s_next s))
  end.
Proof.
  intros K (I1 & I2 & I3 & I4 & I5 & I6) Hid Hs Hn Hkp Hid'. unfold create.
  rewrite andb_false_l, orb_false_r. cbn [negb]. destruct (ce_alloc E (s_next s)); cbn [negb]; [|reflexivity].
  destruct (if i_usage it =? ROLECERT then _ else Some (None, None)) as [[r0 a0]|]; [|reflexivity].
  rewrite andb_false_l. cbn [andb negb].
  destruct (if (id =? -1)%Z then new_id (s_creds s ++ [_]) (ce_rand E) else Some id) as [cid|] eqn:Ei; [|exact I].
  assert (Hc : (id <> (-1)%Z -> cid = id) /\ ~ In cid (ids (s_creds s)) /\ typed_int cid /\ cid <> (-1)%Z).
  { destruct (Z.eqb_spec id (-1)) as [e|e].
    - apply new_id_spec in Ei. destruct Ei as [Ei1 Ei2]. split; [contradiction|]. split; [|unfold typed_int; lia]. intros Hi. apply Ei1. unfold ids. rewrite map_app. apply in_or_app. left. exact Hi.
    - injection Ei as <-. auto. }
  destruct Hc as (Hc1 & Hc2 & Hc3 & Hc4).
  destruct (if nonempty (sd_data (i_priv it)) then _ else _) as [pr|] eqn:Ep; [|reflexivity].
  split; [reflexivity|]. split; [reflexivity|]. eexists. split; [|split; [|split; [exact Hc1|split; [exact Hc2|split; [|split]]]]]; [| | | |reflexivity]; [reflexivity|reflexivity| |].
  - assert (Hpub : cd_ok (if nonempty (sd_data (i_pub it)) then mk_cd (sd_data (i_pub it)) (sd_enc (i_pub it)) else mk_cd None 0)).
    { destruct (nonempty (sd_data (i_pub it))) eqn:Ne; [|split; [cbn; lia|reflexivity]]. split; [exact I5|]. cbn [cd_data]. apply nonempty_od in Ne. destruct (sd_data (i_pub it)); [exact Ne|contradiction]. }
    assert (Hpr : cd_ok pr /\ (i_type it = PSK -> forall k, cd_data pr = Some k -> key_length_ok (List.length k) = true /\ cd_enc pr <> E_B64) /\ (i_usage it = IDENTITY -> cd_data pr <> None) /\ (In (i_type it) [OSC; OSC_MC; OSC_MS] -> List.length (od (cd_data pr)) = 16%nat)).
    { destruct (nonempty (sd_data (i_priv it))) eqn:Ne.
      - destruct (N.eq_dec (i_type it) PSK) as [e|e].
        + rewrite e in Ep. destruct (set_priv_psk _ _ _ Ep) as (k & P1 & P2 & P3 & P4). rewrite P1. split; [|split; [|split]].
          * unfold cd_ok. rewrite P1. split; [destruct P4 as [->| ->]; [unfold E_RAW; lia|exact I4]|]. intros ->. discriminate P2.
          * intros _ k' [= <-]. auto.
          * discriminate.
          * rewrite e. cbn [In]. unfold PSK, OSC, OSC_MC, OSC_MS. intros H. lia.
        + apply set_priv_other in Ep; [|left; exact e]. subst pr. apply nonempty_od in Ne. cbn [cd_data cd_enc od]. repeat split; try assumption; try discriminate; try (exfalso; contradiction).
      - destruct kp as [k|]; injection Ep as <-.
        + destruct (Hkp k eq_refl) as [Hk Ht]. split; [split; [cbn; unfold E_RAW; lia|exact Hk]|]. split; [rewrite Ht; discriminate|]. split; [discriminate|]. rewrite Ht. cbn [In]. unfold CERT, OSC, OSC_MC, OSC_MS. lia.
        + split; [split; [cbn; lia|reflexivity]|]. split; [discriminate|]. split; [intros H; exfalso; exact (Hid' H eq_refl eq_refl)|].
          intros H. specialize (I6 H). apply nonempty_false in Ne. rewrite Ne in I6. discriminate. }
    destruct Hpr as (P1 & P2 & P3 & P4). constructor; cbn [c_id c_type c_usage c_subject c_priv c_pub]; auto.
  - unfold requested. cbn [c_type c_usage c_subject c_tag c_pub c_priv c_role c_owner c_osc]. repeat (split; [reflexivity|]). split.
    + intros Ne. rewrite Ne in Ep. exact Ep.
    + intros r ->. reflexivity.
Qed.

(** * The invariant *)

Definition item_of (c : cred) : item :=
  mk_item (c_id c) (c_type c) (c_usage c) None (mk_sd (cd_data (c_priv c)) (cd_enc (c_priv c))) (mk_sd (cd_data (c_pub c)) (cd_enc (c_pub c))) None None (c_tag c) (c_owner c) None None None 0.
Definition chain (d c : cred) : bool := same_cert (item_of c) (c_subject c) d.

Record good (s : cs) : Prop := {
  gd_ids : NoDup (ids (s_creds s));
  gd_ok : Forall cred_ok (s_creds s);
  gd_names : Forall (fun c => (c_name c < s_next s)%nat) (s_creds s) /\ NoDup (map c_name (s_creds s));
  gd_chain : ForallOrdPairs (fun d c => chain d c = false) (s_creds s);
  gd_owner : typed_uuid (s_owner s);
  gd_rids : NoDup (ids (s_roles s));
  gd_rok : Forall (fun c => typed_int (c_id c) /\ c_id c <> (-1)%Z) (s_roles s) }.

Lemma requested_chain it subj c d : requested it subj c -> same_cert it subj d = chain d c.
Proof.
  intros (R1 & R2 & R3 & R4 & _ & _ & R5 & _). unfold chain, same_cert, item_of. cbn [i_type i_usage i_pub i_tag]. rewrite R1, R2, R3, R4, R5. destruct (i_pub it) as [x e]. cbn [sd_data sd_enc].
  destruct (nonempty x) eqn:Ne; cbn [cd_data cd_enc sd_data].
  - rewrite Ne. reflexivity.
  - cbn [nonempty]. rewrite !andb_false_r. reflexivity.
Qed.

Lemma fop_filter {A} (R : A -> A -> Prop) f l : ForallOrdPairs R l -> ForallOrdPairs R (filter f l).
Proof.
  induction 1 as [|a l H1 H2 IH]; [constructor|]. cbn [filter]. destruct (f a); [|exact IH]. constructor; [|exact IH]. apply Forall_forall. intros x Hx. apply filter_In in Hx. rewrite Forall_forall in H1. apply H1. tauto.
Qed.

Lemma fop_snoc {A} (R : A -> A -> Prop) l c : ForallOrdPairs R l -> (forall d, In d l -> R d c) -> ForallOrdPairs R (l ++ [c]).
Proof.
  induction 1 as [|a l H1 H2 IH]; intros H; [cbn [app]; constructor; [constructor|constructor]|]. cbn [app]. constructor.
  - apply Forall_app. split; [exact H1|]. constructor; [|constructor]. apply H. left. reflexivity.
  - apply IH. intros d Hd. apply H. right. exact Hd.
Qed.

Lemma nodup_names_filter f l : NoDup (map c_name l) -> NoDup (map c_name (filter f l)).
Proof.
  induction l as [|c l IH]; intros N; [constructor|]. cbn [map] in N. inversion N as [|? ? N1 N2]; subst. cbn [filter]. destruct (f c); [|apply IH; exact N2].
  cbn [map]. constructor; [|apply IH; exact N2]. intros H. apply N1. apply in_map_iff in H. destruct H as (d & E & H). apply filter_In in H. rewrite <- E. apply in_map. tauto.
Qed.

Lemma forall_filter {A} (P : A -> Prop) f l : Forall P l -> Forall P (filter f l).
Proof. rewrite !Forall_forall. intros H x Hx. apply filter_In in Hx. apply H. tauto. Qed.

Lemma good_filter s f : good s -> good (with_creds s (filter f (s_creds s))).
Proof.
  intros [G1 G2 [G3 G4] G5 G6 G7 G8]. constructor; cbn [with_creds s_creds s_owner s_roles s_next]; auto.
  - apply nodup_filter. exact G1.
  - apply forall_filter. exact G2.
  - split; [apply forall_filter; exact G3|apply nodup_names_filter; exact G4].
  - apply fop_filter. exact G5.
Qed.

Lemma good_without s i : good s -> good (with_creds s (remove_id i (s_creds s))).
Proof. intros G. rewrite remove_without by (apply (gd_ids _ G)). unfold without. apply good_filter. exact G. Qed.

(** Updating one credential in place. *)
Lemma fop_upd (R : cred -> cred -> Prop) i f l : (forall a b, R a b -> R (f a) b /\ R a (f b)) -> ForallOrdPairs R l -> ForallOrdPairs R (upd i f l).
Proof.
  intros H. induction 1 as [|a l H1 H2 IH]; [constructor|]. cbn [upd]. destruct (c_id a =? i)%Z.
  - constructor; [|exact H2]. rewrite Forall_forall in *. intros b Hb. apply H. auto.
  - constructor; [|exact IH]. rewrite Forall_forall in *. intros b Hb. apply upd_in in Hb. destruct Hb as [Hb|(d & Hd & _ & ->)]; [auto|]. apply H. auto.
Qed.

Lemma upd_map {A} (g : cred -> A) i f l : (forall c, g (f c) = g c) -> map g (upd i f l) = map g l.
Proof. intros H. induction l as [|c l IH]; [reflexivity|]. cbn [upd]. destruct (c_id c =? i)%Z; cbn [map]; rewrite ?H, ?IH; reflexivity. Qed.

Lemma good_upd s i f : (forall c, c_name (f c) = c_name c /\ c_id (f c) = c_id c) -> (forall c, In c (s_creds s) -> c_id c = i -> cred_ok c -> cred_ok (f c)) ->
  (forall a b, chain a b = false -> chain (f a) b = false /\ chain a (f b) = false) -> good s -> good (with_creds s (upd i f (s_creds s))).
Proof.
  intros Hf Hok Hc [G1 G2 [G3 G4] G5 G6 G7 G8]. constructor; cbn [with_creds s_creds s_owner s_roles s_next]; auto.
  - rewrite upd_ids; [exact G1|]. intros c. apply Hf.
  - rewrite Forall_forall in *. intros c Hx. apply upd_in in Hx. destruct Hx as [Hx|(d & Hd & Ei & ->)]; [auto|]. apply Hok; auto.
  - split.
    + rewrite Forall_forall in *. intros c Hx. apply upd_in in Hx. destruct Hx as [Hx|(d & Hd & Ei & ->)]; [auto|]. rewrite (proj1 (Hf d)). auto.
    + rewrite upd_map; [exact G4|]. intros c. apply Hf.
  - apply fop_upd; assumption.
Qed.

Lemma good_snoc s c : good s -> c_name c = s_next s -> ~ In (c_id c) (ids (s_creds s)) -> cred_ok c -> (forall d, In d (s_creds s) -> chain d c = false) ->
  good (mk_cs (s_creds s ++ [c]) (s_owner s) (s_roles s) (S (s_next s))).
Proof.
  intros [G1 G2 [G3 G4] G5 G6 G7 G8] Hn Hi Hok Hc. constructor; cbn [s_creds s_owner s_roles s_next]; auto.
  - apply nodup_snoc; assumption.
  - apply Forall_app. auto.
  - split.
    + apply Forall_app. split; [|constructor; [lia|constructor]]. eapply Forall_impl; [|exact G3]. cbn beta. lia.
    + rewrite map_app. apply NoDup_app_snoc; [exact G4|]. intros H. apply in_map_iff in H. destruct H as (d & E & Hd). rewrite Forall_forall in G3. specialize (G3 d Hd). cbn beta in G3. lia.
  - apply fop_snoc; assumption.
Qed.

(** * Adding *)

Lemma added_as_requested it c subj : set_subject (i_subject it) (i_usage it) = Some subj -> requested it subj c -> as_requested it c.
Proof.
  intros Hs (R1 & R2 & R3 & R4 & _ & _ & R5 & R6 & R7). unfold as_requested. rewrite R1, R2, R4. split; [reflexivity|]. split; [reflexivity|]. split; [reflexivity|].
  split; [rewrite R5; destruct (nonempty (sd_data (i_pub it))) eqn:Ne; [reflexivity|apply nonempty_false in Ne; rewrite Ne; reflexivity]|].
  split; [intros H; apply nonempty_od in H; rewrite R5, H; reflexivity|].
  split; [intros H H'; apply nonempty_od in H; specialize (R6 H); apply set_priv_other in R6; [|exact H']; rewrite R6; auto|].
  split.
  { intros Ht He key Hk Hb Hd. assert (Ne : nonempty (sd_data (i_priv it)) = true).
    { rewrite Hd. destruct key as [|a [|b [|c' key]]]; [contradiction| | |]; reflexivity. }
    specialize (R6 Ne). rewrite Ht, He, Hd in R6. cbn [od] in R6. exact (set_priv_b64 _ _ key Hb eq_refl R6). }
  split; [|split].
  - intros t Et Hz Hh. rewrite Et in Hs. unfold set_subject in Hs. rewrite (cstr_nz' _ Hz), hd42, Hh in Hs. cbn [N.eqb Pos.eqb] in Hs. injection Hs as Hs. rewrite R3, <- Hs. reflexivity.
  - intros t Et Hz Hh. rewrite Et in Hs. unfold set_subject in Hs. rewrite (cstr_nz' _ Hz), hd42 in Hs. destruct (N.eqb_spec (hd 0 t) 42); [contradiction|]. injection Hs as Hs. rewrite R3. auto.
  - exact R7.
Qed.

Lemma data_eq_spec d x : data_eq d x = true -> same_data d x.
Proof.
  intros H. unfold data_eq in H. apply andb_true_iff in H. destruct H as [H1 H2]. apply N.eqb_eq in H1. split; [exact H1|].
  destruct (N.eqb_spec (cd_enc d) E_PEM) as [e|e]; (split; [|split]).
  - intros _. apply list_eqb_spec in H2. congruence.
  - intros X. contradiction.
  - intros X. contradiction.
  - intros X. contradiction.
  - intros _ b Hb. rewrite Hb in H2. apply list_eqb_spec in H2. congruence.
  - intros _ Hb. rewrite Hb in H2. apply list_eqb_spec in H2. congruence.
Qed.

Lemma subject_of_spec it c : set_subject (i_subject it) (i_usage it) = Some (c_subject c) -> subject_of it c.
Proof.
  intros H. split; intros t Ht Hz Hh; rewrite Ht in H; rewrite subject_star, hd42, (cstr_nz' t Hz) in H.
  - rewrite Hh, N.eqb_refl in H. unfold wildcard in H. injection H as <-. reflexivity.
  - destruct (N.eqb_spec (hd 0 t) 42) as [e|e]; [contradiction|]. injection H as <-. reflexivity.
Qed.

Lemma add_dev E it s : good s -> keys_ok E -> item_ok it ->
  match add_cred E false it s with
  | ALoop => True
  | AFail s' => good s' /\ s_roles s' = s_roles s /\ s_owner s' = s_owner s /\ s_next s' = s_next s /\ added it (s_creds s) None (s_creds s')
  | AOk i s' _ _ => good s' /\ s_roles s' = s_roles s /\ s_owner s' = s_owner s /\ (s_next s <= s_next s')%nat /\ i <> (-1)%Z /\ In i (ids (s_creds s')) /\
                    added it (s_creds s) (Some i) (s_creds s') /\ (forall c, In c (s_creds s') -> In c (s_creds s) \/ c_name c = s_next s)
  end.
Proof.
  intros G K I. pose proof K as (K1 & K2 & K3). unfold add_cred.
  assert (Keep : good s /\ s_roles s = s_roles s /\ s_owner s = s_owner s /\ s_next s = s_next s /\ added it (s_creds s) None (s_creds s)) by (repeat split; try apply G; constructor).
  destruct (if i_type it =? CERT then ce_key E (od (sd_data (i_pub it))) else Some []) as [key|] eqn:Ek; [|exact Keep]. cbn [andb].
  destruct (set_subject (i_subject it) (i_usage it)) as [subj|] eqn:Es; [|exact Keep].
  destruct (if (i_usage it =? IDENTITY) && negb (nonempty (sd_data (i_priv it))) then _ else Some None) as [kp|] eqn:Ekp; [|exact Keep].
  assert (Hkp : forall k, kp = Some k -> k <> [] /\ i_type it = CERT).
  { intros k ->. destruct ((i_usage it =? IDENTITY) && negb (nonempty (sd_data (i_priv it)))); [|discriminate]. destruct (ce_pair E key _) as [k'|] eqn:P; [|discriminate]. injection Ekp as ->. split; [exact (K2 _ _ _ P)|].
    destruct (N.eqb_spec (i_type it) CERT) as [e|e]; [exact e|]. injection Ek as <-. rewrite K1 in P. discriminate. }
  assert (Hid : i_usage it = IDENTITY -> nonempty (sd_data (i_priv it)) = false -> kp <> None).
  { intros H1 H2. rewrite H1, H2, N.eqb_refl in Ekp. cbn [andb negb] in Ekp. destruct (ce_pair E key _); [|discriminate]. injection Ekp as <-. discriminate. }
  pose proof (subject_typed _ _ _ Es) as Hs.
  assert (C : forall s1 rep, good s1 -> s_roles s1 = s_roles s -> s_owner s1 = s_owner s -> s_next s1 = s_next s -> s_creds s1 = without (i_id it) (s_creds s) ->
     find (same_cert it subj) (s_creds s1) = None -> (rep = None /\ s1 = s \/ exists c, rep = Some c /\ In c (s_creds s) /\ c_id c = i_id it) ->
     match create E false it subj kp (i_id it) rep s1 with
     | ALoop => True
     | AFail s' => good s' /\ s_roles s' = s_roles s /\ s_owner s' = s_owner s /\ s_next s' = s_next s /\ added it (s_creds s) None (s_creds s')
     | AOk i s' _ _ => good s' /\ s_roles s' = s_roles s /\ s_owner s' = s_owner s /\ (s_next s <= s_next s')%nat /\ i <> (-1)%Z /\ In i (ids (s_creds s')) /\
                    added it (s_creds s) (Some i) (s_creds s') /\ (forall c, In c (s_creds s') -> In c (s_creds s) \/ c_name c = s_next s)
     end).
  { intros s1 rep G1 F1 F2 F3 F4 F5 F6.
    assert (Hn : ~ In (i_id it) (ids (s_creds s1))) by (rewrite F4; apply without_id).
    pose proof (create_dev E it subj kp (i_id it) rep s1 K I (proj1 I) Hs Hn Hkp Hid) as H. destruct (create E false it subj kp (i_id it) rep s1) as [s'|i s' rep' b|]; [| |exact Logic.I].
    - subst s'. split; [exact G1|]. repeat (split; [assumption|]). rewrite F4. destruct F6 as [[-> E1]|(c & -> & C1 & C2)].
      + rewrite <- F4, E1. constructor.
      + econstructor; eassumption.
    - destruct H as (_ & _ & c & N1 & N2 & N3 & N4 & N5 & N6 & ->). cbn [s_roles s_owner s_next s_creds].
      split. { apply good_snoc; [exact G1|congruence|rewrite N2; exact N4|exact N5|]. intros d Hd. rewrite <- (requested_chain _ _ _ _ N6). apply (find_none _ _ F5 d Hd). }
      split; [exact F1|]. split; [exact F2|]. split; [lia|]. split; [subst i; apply (co_id _ N5)|]. split; [unfold ids; rewrite map_app; apply in_or_app; right; left; exact N2|].
      split. { rewrite F4 in *. subst i. constructor; [exact (added_as_requested _ _ _ Es N6)|exact N3|exact N4]. }
      intros x Hx. apply in_app_or in Hx. destruct Hx as [Hx|[<-|[]]]; [left; rewrite F4 in Hx; apply without_in in Hx; tauto|right; congruence]. }
  assert (Ch : forall s1 d, s1 = s \/ s1 = with_creds s (without (i_id it) (s_creds s)) -> s_creds s1 = without (i_id it) (s_creds s) -> find (same_cert it subj) (s_creds s1) = Some d ->
     good s1 /\ s_roles s1 = s_roles s /\ s_owner s1 = s_owner s /\ (s_next s <= s_next s1)%nat /\ c_id d <> (-1)%Z /\ In (c_id d) (ids (s_creds s1)) /\
     added it (s_creds s) (Some (c_id d)) (s_creds s1) /\ (forall c, In c (s_creds s1) -> In c (s_creds s) \/ c_name c = s_next s)).
  { intros s1 d Hs1 F F'. apply find_some in F'. destruct F' as [Hd Hm]. pose proof Hd as Hd'. rewrite F in Hd'. apply without_in in Hd'. destruct Hd' as [Hd1 Hd2].
    assert (G1 : good s1) by (destruct Hs1 as [->| ->]; [exact G|apply good_filter; exact G]).
    split; [exact G1|]. assert (s_roles s1 = s_roles s /\ s_owner s1 = s_owner s /\ (s_next s <= s_next s1)%nat) as (X1 & X2 & X3) by (destruct Hs1 as [->| ->]; cbn; auto). repeat (split; [assumption|]).
    split. { pose proof (gd_ok _ G) as O. rewrite Forall_forall in O. apply (co_id _ (O d Hd1)). }
    split; [apply in_map; exact Hd|]. split.
    - rewrite F. unfold same_cert in Hm. repeat (apply andb_true_iff in Hm; let T := fresh "T" in destruct Hm as [Hm T]). apply has_tag_spec in T. apply N.eqb_eq in T2, T3, T4. apply list_eqb_spec in Hm. apply data_eq_spec in T0. apply nonempty_od in T1.
      econstructor; [exact T3|exact Hd1|exact Hd2|congruence|exact T2|exact T| |exact T1|exact T0]. apply subject_of_spec. rewrite Hm. exact Es.
    - intros x Hx. rewrite F in Hx. apply without_in in Hx. tauto. }
  destruct (by_id (i_id it) (s_creds s)) as [c|] eqn:Eb.
  - apply by_id_some in Eb. destruct Eb as [B1 B2]. destruct (is_duplicate c it subj) eqn:D.
    + split; [exact G|]. split; [reflexivity|]. split; [reflexivity|]. split; [lia|]. pose proof (gd_ok _ G) as O. rewrite Forall_forall in O. split; [rewrite <- B2; apply (co_id _ (O c B1))|]. split; [rewrite <- B2; apply in_map; exact B1|].
      split; [|auto]. unfold is_duplicate in D. repeat (apply andb_true_iff in D; let T := fresh "T" in destruct D as [D T]). apply N.eqb_eq in D, T0. apply has_tag_spec in T1. apply list_eqb_spec in T3. apply data_eq_spec in T, T2.
      apply (added_known it (s_creds s) c); try assumption. apply subject_of_spec. rewrite T3. exact Es.
    + rewrite remove_without by (apply (gd_ids _ G)). destruct (find (same_cert it subj) (s_creds (with_creds s (without (i_id it) (s_creds s))))) as [d|] eqn:F.
      * apply Ch; auto.
      * apply C; auto; [apply good_filter; exact G|]. right. exists c. auto.
  - apply by_id_none in Eb. destruct (find (same_cert it subj) (s_creds s)) as [d|] eqn:F.
    + apply Ch; auto. symmetry. apply without_notin. exact Eb.
    + apply C; auto. symmetry. apply without_notin. exact Eb.
Qed.

(** * Adding a role credential *)

Lemma add_role E it s : good s -> typed_int (i_id it) ->
  match add_cred E true it s with
  | ALoop => True
  | AFail s' => s' = s
  | AOk i s' _ _ => good s' /\ s_creds s' = s_creds s /\ s_owner s' = s_owner s /\ (s_next s <= s_next s')%nat /\ i <> (-1)%Z
  end.
Proof.
  intros G Hid. unfold add_cred.
  destruct (if i_type it =? CERT then ce_key E (od (sd_data (i_pub it))) else Some []) as [key|] eqn:Ek; [|reflexivity]. rewrite andb_true_l.
  destruct (negb (i_type it =? CERT) || _ || _); [reflexivity|].
  destruct (set_subject (i_subject it) (i_usage it)) as [subj|] eqn:Es; [|reflexivity].
  destruct (if (i_usage it =? IDENTITY) && negb (nonempty (sd_data (i_priv it))) then _ else Some None) as [kp|] eqn:Ekp; [|reflexivity].
  pose proof G as [G1 G2 [G3 G4] G5 G6 G7 G8].
  destruct (find _ (s_roles s)) as [c|] eqn:F.
  - split; [exact G|]. split; [reflexivity|]. split; [reflexivity|]. split; [lia|]. apply find_some in F. destruct F as [F _]. rewrite Forall_forall in G8. apply (G8 c F).
  - set (id := match by_id (i_id it) (s_roles s) with Some _ => _ | None => _ end). unfold create.
    destruct (negb (ce_alloc E (s_next s)) || (true && negb (i_usage it =? ROLECERT))); [reflexivity|].
    destruct (if i_usage it =? ROLECERT then _ else Some (None, None)) as [[r0 a0]|]; [|reflexivity].
    destruct (true && (i_usage it =? ROLECERT) && negb (role_ok (od r0))); [reflexivity|].
    destruct (if (id =? -1)%Z then new_id (s_roles s ++ [_]) (ce_rand E) else Some id) as [cid|] eqn:Ei; [|exact I].
    assert (Hc : ~ In cid (ids (s_roles s)) /\ typed_int cid /\ cid <> (-1)%Z).
    { destruct (Z.eqb_spec id (-1)) as [e|e].
      - apply new_id_spec in Ei. destruct Ei as [Ei1 Ei2]. split; [|unfold typed_int; lia]. intros Hi. apply Ei1. unfold ids. rewrite map_app. apply in_or_app. left. exact Hi.
      - injection Ei as <-. subst id. destruct (by_id (i_id it) (s_roles s)) eqn:B; [contradiction|]. apply by_id_none in B. auto. }
    destruct Hc as (Hc2 & Hc3 & Hc4).
    destruct (if nonempty (sd_data (i_priv it)) then _ else _) as [pr|] eqn:Ep; [|reflexivity].
    cbn [s_creds s_owner s_next s_roles]. split; [|split; [reflexivity|split; [reflexivity|split; [lia|exact Hc4]]]].
    constructor; cbn [s_creds s_owner s_next s_roles]; auto.
    + split; [|exact G4]. eapply Forall_impl; [|exact G3]. cbn beta. lia.
    + apply nodup_snoc; [exact G7|exact Hc2].
    + apply Forall_app. split; [exact G8|]. constructor; [cbn [c_id]; auto|constructor].
Qed.

(** * Reading a request *)

Definition pre_item (it : item) : Prop :=
  typed_int (i_id it) /\ i_type it < 4294967296 /\ In (i_usage it) [0; TRUSTCA; IDENTITY; ROLECERT; MFG_TRUSTCA; MFG_CERT] /\ sd_enc (i_priv it) <= 4 /\ sd_enc (i_pub it) <= 4.

Lemma usage_of_in v : In (usage_of v) [0; TRUSTCA; IDENTITY; ROLECERT; MFG_TRUSTCA; MFG_CERT].
Proof. unfold usage_of. repeat match goal with |- context[if ?b then _ else _] => destruct b end; cbn [In]; tauto. Qed.

Lemma enc_of_le v : enc_of v <= 4.
Proof. unfold enc_of, E_B64, E_RAW, E_HANDLE, E_PEM. repeat match goal with |- context[if ?b then _ else _] => destruct b end; lia. Qed.

Lemma parse_data_enc l : forall d d', sd_enc d <= 4 -> parse_data d l = Some d' -> sd_enc d' <= 4.
Proof.
  induction l as [|r l IH]; intros d d' H; cbn [parse_data]; [intros [= <-]; exact H|].
  destruct (snd r); try (apply IH; exact H).
  - destruct (list_eqb (fst r) (str "data")); apply IH; exact H.
  - destruct (list_eqb (fst r) (str "encoding")).
    + destruct (enc_of s =? 0); [discriminate|]. apply IH. apply enc_of_le.
    + destruct (list_eqb (fst r) (str "data")); apply IH; exact H.
Qed.

Definition id_step (acc : Z) (r : rep) : Z := match snd r with RInt z => if list_eqb (fst r) (str "credid") then to_int z else acc | _ => acc end.

Lemma parse_prop_ok fs i r j : pre_item i -> parse_prop fs i r = Some j -> pre_item j /\ i_id j = id_step (i_id i) r.
Proof.
  intros (P1 & P2 & P3 & P4 & P5). unfold parse_prop, id_step. assert (P : pre_item i) by (unfold pre_item; auto).
  destruct (snd r) as [|z|b|b|v|v|l| | | | | | |]; try (intros [= <-]; split; [exact P|reflexivity]).
  - destruct (list_eqb (fst r) (str "credid")).
    + intros [= <-]. split; [|reflexivity]. unfold pre_item. cbn. split; [apply to_int_typed|auto].
    + destruct (list_eqb (fst r) (str "credtype")); intros [= <-]; split; auto. unfold pre_item. cbn [i_id i_type i_usage i_priv i_pub]. split; [auto|]. split; [apply to_u32_lt|auto].
  - destruct (list_eqb (fst r) (str "owner_cred")); intros [= <-]; split; auto.
  - destruct (list_eqb (fst r) (str "subjectuuid")); [intros [= <-]; split; auto|]. destruct (list_eqb (fst r) (str "credusage")).
    + intros [= <-]. split; [|reflexivity]. unfold pre_item. cbn [i_id i_type i_usage i_priv i_pub]. split; [auto|]. split; [auto|]. split; [apply usage_of_in|auto].
    + destruct (list_eqb (fst r) (str "tag")); intros [= <-]; split; auto.
  - destruct (list_eqb (fst r) (str "privatedata")).
    + destruct (parse_data (i_priv i) l) as [d|] eqn:E; [|discriminate]. intros [= <-]. split; [|reflexivity]. unfold pre_item. cbn [i_id i_type i_usage i_priv i_pub]. repeat (split; [assumption|]). split; [exact (parse_data_enc _ _ _ P4 E)|exact P5].
    + destruct (list_eqb (fst r) (str "publicdata")).
      * destruct (parse_data (i_pub i) l) as [d|] eqn:E; [|discriminate]. intros [= <-]. split; [|reflexivity]. unfold pre_item. cbn [i_id i_type i_usage i_priv i_pub]. repeat (split; [assumption|]). exact (parse_data_enc _ _ _ P5 E).
      * destruct (list_eqb (fst r) (str "roleid")).
        -- destruct (parse_role (i_role i) (i_auth i) l) as [a b]. intros [= <-]. split; auto.
        -- destruct (list_eqb (fst r) (str "oscore")); [|intros [= <-]; split; auto]. destruct (parse_osc fs _ l) as [o|]; [|discriminate]. intros [= <-]. split; auto.
Qed.

Lemma parse_props_ok fs l : forall i j, pre_item i -> parse_props fs i l = Some j -> pre_item j /\ i_id j = fold_left id_step l (i_id i).
Proof.
  induction l as [|r l IH]; intros i j P; cbn [parse_props fold_left]; [intros [= <-]; auto|]. destruct (parse_prop fs i r) as [k|] eqn:E; [|discriminate].
  destruct (parse_prop_ok _ _ _ _ P E) as [P' Hi]. intros H. destruct (IH _ _ P' H) as [P'' Hj]. split; [exact P''|]. rewrite Hj, Hi. reflexivity.
Qed.

Lemma parse_ok fs x it : parse_props fs item0 x = Some it -> osc_ok it = true -> item_ok it /\ i_id it = given_id x.
Proof.
  intros H O. destruct (parse_props_ok fs x item0 it) as [(P1 & P2 & P3 & P4 & P5) Hi]; [|exact H|].
  { unfold pre_item. cbn [item0 i_id i_type i_usage i_priv i_pub sd_enc]. split; [unfold typed_int; lia|]. split; [lia|]. split; [left; reflexivity|]. lia. }
  split; [|exact Hi]. unfold item_ok. repeat (split; [assumption|]). unfold osc_ok in O. intros [T|[T|[T|[]]]]; rewrite <- T in O; cbn [N.eqb Pos.eqb OSC OSC_MC OSC_MS] in O;
    repeat (apply andb_true_iff in O; destruct O as [O ?]); apply Nat.eqb_eq; assumption.
Qed.

(** * Requests *)

Definition surv (roles : bool) (named : Z -> Prop) (s s' : cs) : Prop :=
  forall c, In c (s_creds s) -> ~ named (c_id c) -> exists c', In c' (s_creds s') /\ kept c c' /\ (roles = false -> c_type c <> CERT -> c' = c).
Definition from (s s' : cs) : Prop :=
  forall c', In c' (s_creds s') -> (exists c, In c (s_creds s) /\ c_name c' = c_name c /\ c_id c' = c_id c) \/ (s_next s <= c_name c')%nat.
Definition own_ok (n0 : nat) (named : Z -> Prop) (s : cs) (owner : option nat) : Prop :=
  forall n c, owner = Some n -> In c (s_creds s) -> c_name c = n -> named (c_id c) \/ (n0 <= n)%nat.

Lemma kept_refl c : kept c c.
Proof. unfold kept. tauto. Qed.
Lemma kept_trans a b c : kept a b -> kept b c -> kept a c.
Proof. unfold kept. intuition congruence. Qed.

Lemma surv_refl r P s : surv r P s s.
Proof. intros c H _. exists c. split; [exact H|]. split; [apply kept_refl|reflexivity]. Qed.
Lemma surv_trans r (P : Z -> Prop) a b c : surv r P a b -> surv r P b c -> surv r P a c.
Proof.
  intros H1 H2 x Hx Hn. destruct (H1 x Hx Hn) as (y & Hy & K & T). pose proof K as (_ & K2 & K3 & _). destruct (H2 y Hy) as (z & Hz & K' & T'); [congruence|]. exists z. split; [exact Hz|]. split; [exact (kept_trans _ _ _ K K')|].
  intros E Nc. rewrite (T E Nc) in *. apply T'; auto.
Qed.
Lemma surv_weaken r (P Q : Z -> Prop) a b : (forall i, P i -> Q i) -> surv r P a b -> surv r Q a b.
Proof. intros H S c Hc Hn. apply S; auto. Qed.

Lemma from_refl s : from s s.
Proof. intros c H. left. exists c. auto. Qed.
Lemma from_trans a b c : (s_next a <= s_next b)%nat -> from a b -> from b c -> from a c.
Proof.
  intros L H1 H2 x Hx. destruct (H2 x Hx) as [(y & Hy & E1 & E2)|H]; [|right; lia]. destruct (H1 y Hy) as [(z & Hz & E3 & E4)|H].
  - left. exists z. split; [exact Hz|]. split; congruence.
  - right. lia.
Qed.

Lemma own_from n0 (P : Z -> Prop) s s' o : (n0 <= s_next s)%nat -> from s s' -> own_ok n0 P s o -> own_ok n0 P s' o.
Proof.
  intros L F H n c E Hc Hn. destruct (F c Hc) as [(d & Hd & E1 & E2)|X]; [|right; lia]. destruct (H n d E Hd) as [X|X]; [congruence|left; congruence|right; exact X].
Qed.

Lemma mark_chain b o a c : let f c := mk_cred (c_name c) (c_id c) (c_type c) (c_usage c) (c_subject c) (c_priv c) (c_pub c) (c_role c) (c_auth c) (c_tag c) b (match o with Some x => Some x | None => c_osc c end) in
  chain a c = false -> chain (f a) c = false /\ chain a (f c) = false.
Proof. cbn beta zeta. intros H. split; exact H. Qed.

(** What one item does. *)
Record effect (E : cenv) (roles : bool) (named : Z -> Prop) (s : cs) (o : option nat) (s' : cs) (o' : option nat) : Prop := {
  ef_good : good s';
  ef_next : (s_next s <= s_next s')%nat;
  ef_surv : surv roles named s s';
  ef_from : from s s';
  ef_own : forall n0, (n0 <= s_next s)%nat -> own_ok n0 named s o -> own_ok n0 named s' o';
  ef_roles : roles = false -> s_roles s' = s_roles s;
  ef_handle : roles = true -> o' = o }.

Lemma effect_refl E r P s o : good s -> effect E r P s o s o.
Proof. intros G. constructor; auto. apply surv_refl. apply from_refl. Qed.

Lemma effect_trans E r P a o b o' c o'' : effect E r P a o b o' -> effect E r P b o' c o'' -> effect E r P a o c o''.
Proof.
  intros [A1 A2 A3 A4 A5 A6 A7] [B1 B2 B3 B4 B5 B6 B7]. constructor.
  - exact B1.
  - lia.
  - exact (surv_trans _ _ _ _ _ A3 B3).
  - exact (from_trans _ _ _ A2 A4 B4).
  - intros n0 L H. apply B5; [lia|]. apply A5; assumption.
  - intros H. rewrite (B6 H). apply (A6 H).
  - intros H. rewrite (B7 H). apply (A7 H).
Qed.

Lemma effect_weaken E r (P Q : Z -> Prop) s o s' o' : (forall i, P i -> Q i) -> good s -> (s_next s <= s_next s')%nat ->
  (forall n, o' = Some n -> o = o' \/ forall c, In c (s_creds s') -> c_name c = n -> P (c_id c) \/ (s_next s <= n)%nat) ->
  effect E r P s o s' o' -> effect E r Q s o s' o'.
Proof.
  intros H Gs Hx Ho [A1 A2 A3 A4 A5 A6 A7]. constructor; auto.
  - exact (surv_weaken _ _ _ _ _ H A3).
  - intros n0 L X n c En Hc Hn. destruct (Ho n En) as [->|Y].
    + exact (own_from _ _ _ _ _ L A4 X n c En Hc Hn).
    + destruct (Y c Hc Hn); [left; auto|right; lia].
Qed.

Lemma cred_ok_mark c b o : cred_ok c -> cred_ok (mk_cred (c_name c) (c_id c) (c_type c) (c_usage c) (c_subject c) (c_priv c) (c_pub c) (c_role c) (c_auth c) (c_tag c) b o).
Proof. intros [H1 H2 H3 H4 H5 H6 H7 H8 H9]. constructor; assumption. Qed.

Lemma added_surv it l o l' : added it l o l' -> forall c, In c l -> c_id c <> i_id it -> In c l'.
Proof. intros H c Hc Hn. assert (W : In c (without (i_id it) l)) by (apply without_in; auto). destruct H; auto. apply in_or_app. auto. Qed.

Lemma added_none it l l' : added it l None l' -> forall c, In c l' -> In c l.
Proof. intros H. inversion H; intros c' Hc; [exact Hc|]. apply without_in in Hc. tauto. Qed.

Lemma apply_item_dev E fs it s o : good s -> keys_ok E -> item_ok it ->
  match apply_item E fs false it s o with
  | DLoop => True
  | DFail s' o' => effect E false (eq (i_id it)) s o s' o' /\ o' = o
  | DOk s' o' => effect E false (eq (i_id it)) s o s' o' /\ (forall n, o' = Some n -> o = o' \/ exists c, In c (s_creds s') /\ c_name c = n /\ (i_id it = c_id c \/ i_id it = (-1)%Z /\ (s_next s <= n)%nat))
  end.
Proof.
  intros G K I. pose proof (add_dev E it s G K I) as H. unfold apply_item. destruct (add_cred E false it s) as [s'|i s' rep b|]; [| |exact Logic.I].
  - destruct H as (H1 & H2 & H3 & H4 & H5). split; [|reflexivity]. assert (F : from s s').
    { intros c Hc. left. exists c. split; [|auto]. exact (added_none _ _ _ H5 c Hc). }
    constructor; auto; try lia.
    + intros c Hc Hn. exists c. split; [apply (added_surv _ _ _ _ H5); auto|]. split; [apply kept_refl|auto].
    + intros n0 L X. exact (own_from _ _ _ _ _ L F X).
  - destruct H as (H1 & H2 & H3 & H4 & H5 & H6 & H7 & H8). destruct (Z.eqb_spec i (-1)) as [Hm1|Hm1]; [contradiction|].
    destruct (by_id i (s_creds s')) as [c|] eqn:B; [|exfalso; apply by_id_none in B; contradiction]. apply by_id_some in B. destruct B as [B1 B2].
    assert (F : from s s').
    { intros x Hx. destruct (H8 x Hx) as [Hy|Hy]; [left; exists x; auto|right; lia]. }
    assert (Base : effect E false (eq (i_id it)) s o s' o).
    { constructor; auto.
      - intros x Hx Hn. exists x. split; [apply (added_surv _ _ _ _ H7); auto|]. split; [apply kept_refl|auto].
      - intros n0 L X. exact (own_from _ _ _ _ _ L F X). }
    destruct ((some (i_sid it) || some (i_rid it)) && negb (ce_octx E)); [split; [exact Base|reflexivity]|].
    set (isown := negb fs && (i_type it =? PSK) && negb (nonempty (sd_data (i_priv it)))).
    set (f := fun c : cred => mk_cred (c_name c) (c_id c) (c_type c) (c_usage c) (c_subject c) (c_priv c) (c_pub c) (c_role c) (c_auth c) (c_tag c) (i_owner it || isown) (if some (i_sid it) || some (i_rid it) then Some (make_ctx fs it) else c_osc c)).
    assert (G' : good (with_creds s' (upd i f (s_creds s')))).
    { apply good_upd; [intros x; split; reflexivity| |intros x y Hxy; split; exact Hxy|exact H1]. intros x _ _ Hok. apply cred_ok_mark. exact Hok. }
    assert (F' : from s (with_creds s' (upd i f (s_creds s')))).
    { intros x Hx. cbn [with_creds s_creds] in Hx. apply upd_in in Hx. destruct Hx as [Hx|(d & Hd & Ed & ->)]; [apply F; exact Hx|]. destruct (F d Hd) as [(y & Y1 & Y2 & Y3)|Y]; [left; exists y; auto|right; exact Y]. }
    assert (Ow : forall n, isown = true -> n = c_name c -> i_id it = c_id c \/ i_id it = (-1)%Z /\ (s_next s <= n)%nat).
    { intros n Hi ->. unfold isown in Hi. apply andb_true_iff in Hi. destruct Hi as [Hi _]. apply andb_true_iff in Hi. destruct Hi as [_ Hi]. apply N.eqb_eq in Hi.
      inversion H7 as [x R1 R2 R3 R4 R5|x R1 R2 R3 R4 R5 R6|x R1 R2 R3 R4 R5 R6| |].
      - destruct (Z.eq_dec (i_id it) (-1)) as [e|e]; [|left; rewrite B2; rewrite <- R4; symmetry; apply R2; exact e].
        right. split; [exact e|]. destruct (H8 c B1) as [Hc|Hc]; [|lia]. exfalso. pose proof (gd_ok _ G) as O. rewrite Forall_forall in O. apply R3. rewrite R4, <- B2. apply in_map. apply without_in. split; [exact Hc|]. rewrite e. apply (co_id _ (O c Hc)).
      - left. congruence.
      - exfalso. rewrite Hi in R1. discriminate. }
    split.
    + constructor; auto.
      * intros x Hx Hn. assert (Hx' : In x (s_creds s')) by (apply (added_surv _ _ _ _ H7); auto). pose proof (in_upd i f _ x (gd_ids _ H1) Hx') as X.
        exists (if (c_id x =? i)%Z then f x else x). split; [exact X|]. destruct (Z.eqb_spec (c_id x) i) as [e|e].
        -- split; [unfold kept, f; cbn [c_name c_id c_type c_usage c_subject c_priv c_pub c_role c_auth c_tag]; tauto|]. intros _ Nc. exfalso.
           assert (Heq : forall d, In d (s_creds s') -> c_id d = i -> d = x) by (intros d Hd Ed; pose proof (by_id_in _ _ (gd_ids _ H1) Hd) as Y1; pose proof (by_id_in _ _ (gd_ids _ H1) Hx') as Y2; rewrite Ed, <- e, Y2 in Y1; congruence).
           inversion H7 as [y R1 R2 R3 R4 R5|y R1 R2 R3 R4 R5 Q1 Q2 Q3 R6|y R1 R2 R3 R4 R5 R6 Q1 Q2 Q3 R7 R8| |].
           ++ apply R3. rewrite R4, <- e. apply in_map. apply without_in. auto.
           ++ congruence.
           ++ apply Nc. rewrite <- R4. f_equal. symmetry. apply Heq; [rewrite <- R8; apply without_in; auto|exact R7].
        -- split; [apply kept_refl|reflexivity].
      * intros n0 L X n d En Hd Hn. destruct isown eqn:Ei.
        -- injection En as <-. cbn [with_creds s_creds] in Hd.
           assert (c_id d = c_id c).
           { apply upd_in in Hd. destruct Hd as [Hd|(y & Hd & Hy & ->)]; [|cbn [f c_id]; congruence].
             f_equal. pose proof (proj2 (gd_names _ H1)) as N. clear -N Hd B1 Hn. induction (s_creds s') as [|a l IH]; [contradiction|]. cbn [map] in N. inversion N as [|? ? N1 N2]; subst.
             destruct Hd as [->|Hd], B1 as [->|B1]; auto; exfalso; apply N1; [rewrite Hn|rewrite <- Hn]; apply in_map; assumption. }
           destruct (Ow (c_name c) eq_refl eq_refl) as [Y|Y]; [left; congruence|right; lia].
        -- apply (own_from n0 _ s _ o L F' X n d En Hd Hn).
      * discriminate.
    + intros n En. destruct isown eqn:Ei; [|left; congruence]. injection En as <-. right. exists (f c). cbn [with_creds s_creds]. split; [|split; [reflexivity|exact (Ow _ eq_refl eq_refl)]].
      pose proof (in_upd i f _ c (gd_ids _ H1) B1) as X. rewrite B2, Z.eqb_refl in X. exact X.
Qed.

Lemma apply_item_role E fs it s o : good s -> item_ok it ->
  match apply_item E fs true it s o with
  | DLoop => True
  | DFail s' o' => effect E true (fun _ => False) s o s' o'
  | DOk s' o' => effect E true (fun _ => False) s o s' o'
  end.
Proof.
  intros G I. pose proof (add_role E it s G (proj1 I)) as H. unfold apply_item.
  destruct (add_cred E true it s) as [s'|i s' rep b|] eqn:Ea; [subst s'; apply effect_refl; exact G| |exact Logic.I].
  destruct H as (H1 & H2 & H3 & H4 & H5). destruct (Z.eqb_spec i (-1)) as [Hm1|Hm1]; [contradiction|].
  assert (F : from s s') by (intros x Hx; rewrite H2 in Hx; left; exists x; auto).
  assert (Base : effect E true (fun _ => False) s o s' o).
  { constructor; auto.
    - intros x Hx _. exists x. rewrite H2. split; [exact Hx|]. split; [apply kept_refl|auto].
    - intros n0 L X. exact (own_from _ _ _ _ _ L F X).
    - discriminate. }
  destruct (by_id i (s_creds s')) as [c|] eqn:B; [|exact Base]. apply by_id_some in B. destruct B as [B1 B2].
  destruct ((some (i_sid it) || some (i_rid it)) && negb (ce_octx E)); [exact Base|].
  assert (T : i_type it = CERT).
  { unfold add_cred in Ea. destruct (if i_type it =? CERT then _ else _); [|discriminate]. destruct (N.eqb_spec (i_type it) CERT) as [e|e]; [exact e|]. cbn [andb negb orb] in Ea. discriminate. }
  rewrite T. replace (negb fs && (CERT =? PSK) && _) with false by (rewrite andb_false_r; reflexivity).
  set (f := fun c : cred => mk_cred (c_name c) (c_id c) (c_type c) (c_usage c) (c_subject c) (c_priv c) (c_pub c) (c_role c) (c_auth c) (c_tag c) (i_owner it || false) (if some (i_sid it) || some (i_rid it) then Some (make_ctx fs it) else c_osc c)).
  assert (G' : good (with_creds s' (upd i f (s_creds s')))).
  { apply good_upd; [intros x; split; reflexivity| |intros x y Hxy; split; exact Hxy|exact H1]. intros x _ _ Hok. apply cred_ok_mark. exact Hok. }
  assert (F' : from s (with_creds s' (upd i f (s_creds s')))).
  { intros x Hx. cbn [with_creds s_creds] in Hx. apply upd_in in Hx. destruct Hx as [Hx|(d & Hd & Ed & ->)]; [apply F; exact Hx|]. destruct (F d Hd) as [(y & Y1 & Y2 & Y3)|Y]; [left; exists y; auto|right; exact Y]. }
  constructor; auto.
  - intros x Hx _. rewrite <- H2 in Hx. pose proof (in_upd i f _ x (gd_ids _ H1) Hx) as X.
    exists (if (c_id x =? i)%Z then f x else x). split; [exact X|]. split; [|discriminate]. destruct (c_id x =? i)%Z; [unfold kept, f; cbn [c_name c_id c_type c_usage c_subject c_priv c_pub c_role c_auth c_tag]; tauto|apply kept_refl].
  - intros n0 L X. exact (own_from _ _ _ _ _ L F' X).
  - discriminate.
Qed.
