(** The query of an unpublish request. *)
From Verif Require Import Common Rep_Model Repd_Model Coap_Model Coap_Proofs Buf_Model Ep_Model Ep_Spec Ep_Proofs Jp_Model Rd_Model Rd_Spec.
From Coq Require Import String.
Notation rep := Rep_Model.rep.
Local Open Scope string_scope.
Local Open Scope list_scope.
Local Open Scope N_scope.

(** * Numbers *)

Lemma dec_aux_plain f : forall n, n < 2 ^ N.of_nat f -> plain (dec_aux (S f) n).
Proof.
  induction f as [|f IH]; intros n L; [cbn in L; assert (n = 0) by lia; subst n; left; reflexivity|]. change (dec_aux (S (S f)) n) with ((if n <? 10 then [] else dec_aux (S f) (n / 10)) ++ [48 + n mod 10]). destruct (N.ltb_spec n 10) as [X|X].
  - cbn [app]. rewrite N.mod_small by lia. unfold plain. cbn [hd]. destruct (N.eq_dec n 0) as [->|e]; [left; reflexivity|right; lia].
  - assert (Y : n / 10 < 2 ^ N.of_nat f). { apply N.div_lt_upper_bound; [lia|]. rewrite Nat2N.inj_succ, N.pow_succ_r' in L. lia. }
    specialize (IH _ Y). right. pose proof (dec_reads f (n / 10) Y) as R. destruct IH as [E|E]; [|destruct (dec_aux (S f) (n / 10)) as [|c t]; [exfalso; apply E; reflexivity|exact E]].
    exfalso. rewrite E in R. apply reads_digits in R. destruct R as [_ R]. change (dval [48]) with 0 in R. symmetry in R. apply N.div_small_iff in R; lia.
Qed.
Lemma dec_plain n : plain (dec n).
Proof. unfold dec. apply dec_aux_plain, size_lt. Qed.

Lemma dec_z_decimal z : decimal z (dec_z z).
Proof.
  unfold dec_z, decimal. destruct (Z.ltb_spec z 0) as [L|L].
  - right. split; [exact L|]. eexists. split; [reflexivity|]. split; [apply dec_ok|apply dec_plain].
  - left. split; [exact L|]. split; [apply dec_ok|apply dec_plain].
Qed.

(** The model's text is the shortest one. *)
Lemma reads_below t n : reads 10 t n -> n < 10 ^ N.of_nat (List.length t).
Proof.
  induction 1 as [c v D L|t n c v R IH D L]; [exact L|]. rewrite app_length. cbn [List.length]. rewrite Nat.add_1_r, Nat2N.inj_succ, N.pow_succ_r'. lia.
Qed.
Lemma dec_short t n : reads 10 t n -> (List.length (dec n) <= List.length t)%nat.
Proof.
  intros R. pose proof (reads_below _ _ R) as B. pose proof (reads_nonempty _ _ _ R) as NE. destruct t as [|c t]; [contradiction|]. cbn [List.length] in *. unfold dec. apply dec_len. exact B.
Qed.
Lemma dec_z_short z t : decimal z t -> (List.length (dec_z z) <= List.length t)%nat.
Proof.
  unfold dec_z. intros [(Z & R & _)|(Z & u & -> & R & _)]; destruct (Z.ltb_spec z 0); try lia; [|cbn [List.length]; apply -> Nat.succ_le_mono]; apply dec_short; exact R.
Qed.

Lemma dec_digits n c : In c (dec n) -> 48 <= c <= 57.
Proof. intros H. destruct (reads_digits _ _ (dec_ok n)) as [D _]. rewrite forallb_forall in D. specialize (D c H). unfold is_digit in D. lia. Qed.

Lemma dec_z_chars z c : In c (dec_z z) -> c = 45 \/ 48 <= c <= 57.
Proof. unfold dec_z. destruct (z <? 0)%Z; intros H; [destruct H as [<-|H]; [left; reflexivity|]|]; right; apply (dec_digits _ _ H). Qed.

Lemma dec_len19 n : n < 10000000000000000000 -> (List.length (dec n) <= 19)%nat.
Proof. intros H. unfold dec. apply (dec_len 18). exact H. Qed.

Lemma dec_z_len z : int64 z -> (List.length (dec_z z) <= 20)%nat.
Proof.
  unfold int64, dec_z. intros H. destruct (Z.ltb_spec z 0) as [L|L].
  - cbn [List.length]. assert (List.length (dec (Z.to_N (- z))) <= 19)%nat by (apply dec_len19; lia). lia.
  - assert (List.length (dec (Z.to_N z)) <= 19)%nat by (apply dec_len19; lia). lia.
Qed.

Lemma value_dec n : value (dec n) = n.
Proof. destruct (reads_digits _ _ (dec_ok n)) as [_ V]. exact V. Qed.

Lemma number_dec z : number (dec_z z) = z.
Proof.
  unfold dec_z. destruct (Z.ltb_spec z 0) as [L|L].
  - cbn [number]. rewrite value_dec. lia.
  - pose proof (dec_digits (Z.to_N z)) as D. pose proof (value_dec (Z.to_N z)) as V. unfold number. destruct (dec (Z.to_N z)) as [|c t]; [cbn in V; cbn; lia|].
    destruct (N.eq_dec c 45) as [->|e]; [specialize (D 45 (or_introl eq_refl)); lia|]. replace (match c with 45 => _ | _ => Z.of_N (value (c :: t)) end) with (Z.of_N (value (c :: t))); [rewrite V; lia|].
    clear - e. destruct c as [|p]; [reflexivity|]. repeat (destruct p as [p|p|]; try reflexivity). exfalso. apply e. reflexivity.
Qed.

(** * The write buffer *)

Record at_ (L : nat) (text : list N) (b : wb) : Prop := {
  a_null : w_null b = false; a_off : w_off b = List.length text; a_total : w_total b = List.length text;
  a_size : w_size b = (L - List.length text)%nat; a_mem : List.length (w_mem b) = L; a_room : (List.length text < L)%nat; a_text : firstn (List.length text) (w_mem b) = text }.

Lemma vsn_text mem off size t : (off <= List.length mem)%nat -> firstn off (vsn mem off size t) = firstn off mem.
Proof.
  intros H. unfold vsn. destruct size as [|k]; [reflexivity|]. rewrite firstn_app, firstn_firstn, Nat.min_id, firstn_length, Nat.min_l by exact H. rewrite Nat.sub_diag. cbn [firstn]. apply app_nil_r.
Qed.

Lemma write_full L text b t : at_ L text b -> (L <= List.length text + List.length t)%nat ->
  exists b', buffer_write b t = (b', None) /\ firstn (List.length text) (w_mem b') = text.
Proof.
  intros [A1 A2 A3 A4 A5 A6 A7] H. unfold buffer_write. rewrite A1. destruct (Nat.leb_spec (w_size b) (List.length t)) as [X|X]; [|rewrite A4 in X; lia]. eexists. split; [reflexivity|]. cbn [w_mem].
  rewrite A2, vsn_text by lia. exact A7.
Qed.

Lemma write_fit L text b t : at_ L text b -> (List.length text + List.length t < L)%nat ->
  exists b', buffer_write b t = (b', Some (w_total b')) /\ at_ L (text ++ t) b' /\ exists r, skipn (List.length (text ++ t)) (w_mem b') = 0 :: r.
Proof.
  intros [A1 A2 A3 A4 A5 A6 A7] H. unfold buffer_write. rewrite A1. destruct (Nat.leb_spec (w_size b) (List.length t)) as [X|X]; [rewrite A4 in X; lia|].
  assert (M : vsn (w_mem b) (w_off b) (w_size b) t = text ++ t ++ 0 :: skipn (S (List.length (text ++ t))) (w_mem b)).
  { unfold vsn. rewrite A2, A7. destruct (w_size b) as [|k]; [lia|]. rewrite (firstn_all2 t) by lia. rewrite <- !app_assoc. cbn [app]. do 4 f_equal. rewrite !app_length. cbn [List.length]. lia. }
  exists (mkWb false (vsn (w_mem b) (w_off b) (w_size b) t) (w_off b + List.length t)%nat (w_size b - List.length t)%nat (w_total b + List.length t)%nat). split; [reflexivity|]. rewrite M. split.
  - constructor; cbn [w_null w_off w_total w_size w_mem]; rewrite ?app_length; try lia; try reflexivity.
    + cbn [List.length]. rewrite skipn_length, ?app_length. lia.
    + rewrite app_assoc, <- app_length, firstn_app, firstn_all, Nat.sub_diag. cbn [firstn]. apply app_nil_r.
  - cbn [w_mem]. rewrite app_assoc, skipn_app, skipn_all, Nat.sub_diag. eexists. reflexivity.
Qed.

Lemma prepare_at L id mem : List.length mem = L -> (3 + List.length id < L)%nat -> exists b, prepare mem id = Some b /\ at_ L (str "di=" ++ id) b.
Proof.
  intros H1 H2. unfold prepare. cbv zeta. assert (E : List.length (str "di=" ++ id) = (3 + List.length id)%nat) by (rewrite app_length; reflexivity).
  destruct (Nat.leb_spec (List.length mem) (List.length (str "di=" ++ id))) as [X|X]; [rewrite E in X; lia|]. eexists. split; [reflexivity|]. constructor; cbn [w_null w_off w_total w_size w_mem]; try reflexivity; try lia.
  - rewrite app_length, skipn_length. lia.
  - rewrite firstn_app, firstn_all, Nat.sub_diag. cbn [firstn]. apply app_nil_r.
Qed.

(** * The size of the packet *)

Definition query (di : list N) (ts : list (list N)) : list N := str "di=" ++ di ++ List.concat (map (fun t => str "&ins=" ++ t) ts).
Definition qparts (di : list N) (ts : list (list N)) : list (list N) := (str "di=" ++ di) :: map (fun t => str "ins=" ++ t) ts.

Lemma scan_plain l : forall w after, ~ In 38 l -> after <> [] -> scan 38 w l after = Some [w ++ l].
Proof.
  induction l as [|c l IH]; intros w after H A; cbn [scan]; [destruct after; [contradiction|]; rewrite app_nil_r; reflexivity|].
  destruct (N.eqb_spec c 38) as [->|e]; [exfalso; apply H; left; reflexivity|]. rewrite IH; [rewrite <- app_assoc; reflexivity| |exact A]. intros X. apply H. right. exact X.
Qed.
Lemma scan_sep l : forall w d r after, ~ In 38 l -> scan 38 w (l ++ 38 :: d :: r) after = option_map (cons (w ++ l)) (scan 38 [d] r after).
Proof.
  induction l as [|c l IH]; intros w d r after H; cbn [scan app]; [rewrite app_nil_r; reflexivity|].
  destruct (N.eqb_spec c 38) as [->|e]; [exfalso; apply H; left; reflexivity|]. rewrite IH; [rewrite <- app_assoc; reflexivity|]. intros X. apply H. right. exact X.
Qed.

Lemma scan_query ts : forall w l after, Forall (fun t => ~ In 38 t) ts -> ~ In 38 l -> after <> [] ->
  scan 38 w (l ++ List.concat (map (fun t => str "&ins=" ++ t) ts)) after = Some ((w ++ l) :: map (fun t => str "ins=" ++ t) ts).
Proof.
  induction ts as [|t ts IH]; intros w l after F H A.
  - cbn [map List.concat]. rewrite app_nil_r. apply scan_plain; assumption.
  - inversion F as [|x y F1 F2]; subst. cbn [map List.concat]. change (str "&ins=" ++ t) with (38 :: 105 :: (str "ns=" ++ t)). cbn [app]. rewrite scan_sep by exact H.
    rewrite <- app_assoc. cbn [app]. change (str "ns=" ++ (t ++ List.concat (map (fun t0 => str "&ins=" ++ t0) ts))) with (110 :: 115 :: 61 :: (t ++ List.concat (map (fun t0 => str "&ins=" ++ t0) ts))).
    replace (110 :: 115 :: 61 :: t ++ List.concat (map (fun t0 => str "&ins=" ++ t0) ts)) with ((110 :: 115 :: 61 :: t) ++ List.concat (map (fun t0 => str "&ins=" ++ t0) ts)) by reflexivity.
    rewrite IH; [reflexivity|exact F2| |exact A]. intros [X|[X|[X|X]]]; try discriminate. exact (F1 X).
Qed.

Lemma split_query di ts after : ~ In 38 di -> Forall (fun t => ~ In 38 t) ts -> after <> [] -> split_parts 38 (query di ts) after = Some (qparts di ts).
Proof.
  intros H F A. rewrite split_parts_scan. unfold query, qparts. rewrite app_assoc. rewrite scan_query; [reflexivity|exact F| |exact A].
  intros X. apply in_app_or in X. destruct X as [X|X]; [cbn in X; repeat (destruct X as [X|X]; [discriminate|]); exact X|exact (H X)].
Qed.

Lemma options_delete c tcp q after ps : hd 0 q <> 63 -> split_parts 38 q after = Some ps ->
  options_size c (mkE [0] after) (set_uri_query (delete_packet tcp) q) true true false = Some (2049, 7 + parts_size 15 11 ps + 3 + 5).
Proof.
  intros H S. assert (Q : strip_leading 63 q = q). { destruct q as [|x q]; [reflexivity|]. cbn [strip_leading]. cbn [hd] in H. apply N.eqb_neq in H. rewrite H. reflexivity. }
  unfold set_uri_query. rewrite Q. set (P := set_query (delete_packet tcp) (Some q)).
  assert (P1 : p_path P = Some (strip_leading 47 (str "/oic/rd"))) by reflexivity. assert (P2 : p_query P = Some q) by reflexivity. assert (P3 : p_accept P = Some FMT_OCF_CBOR) by reflexivity.
  assert (P4 : p_cf P = None) by reflexivity. assert (P5 : p_max_age P = None) by reflexivity. assert (P6 : p_block2 P = None) by reflexivity. assert (P7 : p_block1 P = None) by reflexivity.
  assert (P8 : p_size2 P = None) by reflexivity. assert (P9 : p_size1 P = None) by reflexivity. assert (P10 : p_proxy_uri P = None) by reflexivity. assert (P11 : p_uri_host P = None) by reflexivity.
  assert (P12 : p_etag P = None) by reflexivity. assert (P13 : p_observe P = None) by reflexivity. assert (P14 : p_uri_port P = None) by reflexivity. assert (P15 : p_oscore P = None) by reflexivity. assert (P16 : p_code P = 4) by reflexivity.
  clearbody P. unfold options_size. unfold is_signal. rewrite P16. replace (c_tcp c && (CSM <=? 4) && (4 <=? ABORT)) with false by (rewrite <- andb_assoc; cbn; rewrite andb_false_r; reflexivity).
  cbv zeta. unfold on. rewrite P1, P2, P4, P5, P6, P7, P8, P9, P10, P11, P12, P13, P14, P15. cbn [cnt_arr cnt_int cnt_block option_map].
  replace (if c_oscore c && false && true then @None Oscore_Model.oscore_fields else None) with (@None Oscore_Model.oscore_fields) by (destruct (_ && _); reflexivity). cbn [cnt_oscore after_path].
  replace (cnt_split OPT_URI_PATH 47 (Some (strip_leading 47 (str "/oic/rd"))) [0] (0, 0)) with (Some (11, 7)) by (vm_compute; reflexivity). cbn [after_query]. unfold cnt_split. rewrite S.
  unfold cnt_versions. rewrite P3, P4. cbn. reflexivity.
Qed.

Lemma parts_size_qparts di ts : parts_size 15 11 (qparts di ts) = sum (map opt_len (query_lens di ts)).
Proof.
  assert (A : forall d p, d = 15 \/ d = 11 -> arr_option_size 15 d p = opt_len (nlen p)).
  { intros d p D. unfold arr_option_size, option_header_size, opt_len, ext_size. replace (268 <? 15 - d) with false by (destruct D; subst; reflexivity). replace (12 <? 15 - d) with false by (destruct D; subst; reflexivity).
    destruct (N.ltb_spec 268 (nlen p)); destruct (N.ltb_spec 12 (nlen p)); destruct (N.ltb_spec (nlen p) 13); destruct (N.ltb_spec (nlen p) 269); lia. }
  assert (B : forall l, parts_size 15 15 (map (fun t => str "ins=" ++ t) l) = sum (map opt_len (map (fun t => 4 + nlen t) l))).
  { induction l as [|t l IH]; [reflexivity|]. cbn [map parts_size sum fold_right]. rewrite IH, A by (left; reflexivity). unfold sum. f_equal. f_equal. unfold nlen. rewrite app_length. change (List.length (str "ins=")) with 4%nat. lia. }
  unfold qparts, query_lens. cbn [parts_size map sum fold_right]. rewrite A by (right; reflexivity). rewrite B. unfold sum. f_equal. f_equal. unfold nlen. rewrite app_length. change (List.length (str "di=")) with 3%nat. lia.
Qed.

Lemma packet_fits_spec c tcp di ts r : ~ In 38 di -> Forall (fun t => ~ In 38 t) ts ->
  packet_fits c tcp (query di ts) (0 :: r) = Some (header_len (c_tcp c && tcp) (query_lens di ts) <=? c_max_hdr c).
Proof.
  intros H F. unfold packet_fits. rewrite (options_delete c tcp (query di ts) (0 :: r) (qparts di ts)); [|discriminate|apply split_query; [exact H|exact F|discriminate]].
  rewrite parts_size_qparts. unfold check_header_size, header_len. cbv zeta. set (S := sum (map opt_len (query_lens di ts))).
  change (opt_len 3 + opt_len 2 + S + opt_len 2 + (2 + opt_len 2)) with (4 + 3 + S + 3 + (2 + 3)). replace (4 + 3 + S + 3 + (2 + 3)) with (7 + S + 3 + 5) by lia. set (T := 7 + S + 3 + 5).
  change (0 <? 0) with false. cbn [andb negb]. rewrite andb_true_r. f_equal. f_equal. change (N.of_nat COAP_TOKEN_LEN) with 8. destruct (c_tcp c && tcp).
  - unfold tcp_message_length. change TCP_EXT1_DEFAULT with 13. change TCP_EXT2_DEFAULT with 269. change TCP_EXT3_DEFAULT with 65805. destruct (T <? 13); [cbn [fst]; lia|]. destruct (T <? 269); [cbn [fst]; lia|]. destruct (T <? 65805); cbn [fst]; lia.
  - change (N.of_nat COAP_HEADER_LEN) with 4. lia.
Qed.

(** * One request *)

Definition texts (l : list link) : list (list N) := map (fun k => dec_z (k_ins k)) l.
Definition fits (c : cfg) (tcp : bool) (di : list N) (l : list link) : Prop := header_len (c_tcp c && tcp) (query_lens di (texts l)) <= c_max_hdr c.

Lemma texts_plain l : Forall (fun t => ~ In 38 t) (texts l).
Proof. apply Forall_forall. intros t H. apply in_map_iff in H. destruct H as (k & <- & _). intros X. apply dec_z_chars in X. lia. Qed.

Lemma texts_app a b : texts (a ++ b) = texts a ++ texts b.
Proof. apply map_app. Qed.

Lemma query_snoc di ts t : query di (ts ++ [t]) = query di ts ++ (str "&ins=" ++ t).
Proof. unfold query. rewrite map_app, concat_app. cbn [map List.concat]. rewrite app_nil_r, <- !app_assoc. reflexivity. Qed.

Lemma sum_app a b : sum (a ++ b) = sum a + sum b.
Proof. unfold sum. induction a as [|x a IH]; cbn [app fold_right]; [reflexivity|]. rewrite IH. lia. Qed.

(** The query is shorter than the header of the request. *)
Lemma query_below tcp di ts : N.of_nat (List.length (query di ts)) < header_len tcp (query_lens di ts).
Proof.
  assert (A : forall l, N.of_nat (List.length (List.concat (map (fun t => str "&ins=" ++ t) l))) <= sum (map opt_len (map (fun t => 4 + nlen t) l))).
  { induction l as [|t l IH]; [cbn; lia|]. cbn [map List.concat sum fold_right]. rewrite !app_length. change (List.length (str "&ins=")) with 5%nat. unfold sum in IH. unfold opt_len at 1. unfold nlen at 3. lia. }
  specialize (A ts). unfold query, header_len, query_lens. cbv zeta. rewrite !app_length. change (List.length (str "di=")) with 3%nat. cbn [map sum fold_right]. unfold sum in A.
  set (X := fold_right N.add 0 (map opt_len (map (fun t => 4 + nlen t) ts))) in *. set (Y := List.length (List.concat (map (fun t => str "&ins=" ++ t) ts))) in *. change (opt_len 3) with 4. change (opt_len 2) with 3. unfold opt_len. unfold nlen. clearbody X Y. lia.
Qed.

Lemma opt_len_le a b : a <= b -> opt_len a <= opt_len b.
Proof. intros H. unfold opt_len. destruct (N.ltb_spec a 13); destruct (N.ltb_spec b 13); destruct (N.ltb_spec a 269); destruct (N.ltb_spec b 269); lia. Qed.
Lemma header_len_le tcp a b : Forall2 N.le a b -> header_len tcp a <= header_len tcp b.
Proof.
  intros F. assert (S : sum (map opt_len a) <= sum (map opt_len b)). { unfold sum. induction F as [|x y l m H _ IH]; [reflexivity|]. cbn [map fold_right]. pose proof (opt_len_le _ _ H). lia. }
  unfold header_len. cbv zeta. set (X := sum (map opt_len a)) in *. set (Y := sum (map opt_len b)) in *. change (opt_len 3) with 4. change (opt_len 2) with 3. destruct tcp; [|lia].
  destruct (N.ltb_spec (4 + 3 + X + 3 + (2 + 3)) 13); destruct (N.ltb_spec (4 + 3 + X + 3 + (2 + 3)) 269); destruct (N.ltb_spec (4 + 3 + X + 3 + (2 + 3)) 65805);
    destruct (N.ltb_spec (4 + 3 + Y + 3 + (2 + 3)) 13); destruct (N.ltb_spec (4 + 3 + Y + 3 + (2 + 3)) 269); destruct (N.ltb_spec (4 + 3 + Y + 3 + (2 + 3)) 65805); lia.
Qed.

Lemma fill_spec c tcp di links : ~ In 38 di -> forall done b n, at_ (N.to_nat (c_max_hdr c)) (query di (texts done)) b ->
  exists m, fill c tcp b links n = Some (query di (texts (done ++ firstn m links)), (n + m)%nat) /\ (m <= List.length links)%nat /\
    ((0 < m)%nat -> fits c tcp di (done ++ firstn m links)) /\ ((m < List.length links)%nat -> ~ fits c tcp di (done ++ firstn (S m) links)).
Proof.
  intros D. set (L := N.to_nat (c_max_hdr c)). induction links as [|k t IH]; intros done b n A.
  - exists 0%nat. cbn [fill]. rewrite (a_total _ _ _ A), (a_text _ _ _ A). cbn [firstn]. rewrite app_nil_r, Nat.add_0_r. split; [reflexivity|]. split; [cbn; lia|]. split; [lia|cbn [List.length]; lia].
  - cbn [fill]. assert (QS : query di (texts (done ++ [k])) = query di (texts done) ++ ins_text (k_ins k)) by (rewrite texts_app; cbn [texts map]; apply query_snoc).
    assert (Stop : forall b', firstn (List.length (query di (texts done))) (w_mem b') = query di (texts done) -> ~ fits c tcp di (done ++ [k]) ->
      exists m, Some (firstn (w_total b) (w_mem b'), n) = Some (query di (texts (done ++ firstn m (k :: t))), (n + m)%nat) /\ (m <= List.length (k :: t))%nat /\
        ((0 < m)%nat -> fits c tcp di (done ++ firstn m (k :: t))) /\ ((m < List.length (k :: t))%nat -> ~ fits c tcp di (done ++ firstn (S m) (k :: t)))).
    { intros b' E NF. exists 0%nat. rewrite (a_total _ _ _ A), E. cbn [firstn]. rewrite app_nil_r, Nat.add_0_r. split; [reflexivity|]. split; [lia|]. split; [lia|]. intros _. exact NF. }
    destruct (Nat.lt_ge_cases (List.length (query di (texts done)) + List.length (ins_text (k_ins k))) L) as [X|X].
    + destruct (write_fit _ _ _ _ A X) as (b' & E & A' & r & Z). rewrite E. rewrite <- QS in A', Z. rewrite (a_total _ _ _ A'), (a_text _ _ _ A'), Z. rewrite packet_fits_spec by (try exact D; apply texts_plain).
      destruct (N.leb_spec (header_len (c_tcp c && tcp) (query_lens di (texts (done ++ [k])))) (c_max_hdr c)) as [Y|Y].
      * destruct (IH (done ++ [k]) b' (S n) A') as (m & H1 & H2 & H3 & H4). exists (S m). rewrite <- app_assoc in H1, H3, H4. cbn [app] in H1, H3, H4. cbn [firstn List.length]. rewrite H1. split; [f_equal; f_equal; lia|]. split; [lia|]. split.
        -- intros _. destruct m as [|m]; [exact Y|apply H3; lia].
        -- intros H. apply H4. lia.
      * apply Stop; [|unfold fits; lia]. pose proof (a_text _ _ _ A') as T. rewrite QS, app_length in T.
        rewrite <- (firstn_skipn (List.length (query di (texts done)) + List.length (ins_text (k_ins k))) (w_mem b')), T, <- app_assoc, firstn_app, firstn_all, Nat.sub_diag. cbn [firstn]. apply app_nil_r.
    + destruct (write_full _ _ _ _ A X) as (b' & E & T). rewrite E. apply Stop; [exact T|]. unfold fits. intros F. pose proof (query_below (c_tcp c && tcp) di (texts (done ++ [k]))) as B. rewrite QS, app_length in B. unfold L in X. lia.
Qed.

Lemma fits_one v k : env_ok v -> int64 (k_ins k) -> fits (v_cfg v) (v_tcp v) (v_di v) [k].
Proof.
  intros (D & _ & M) I. apply dec_z_len in I. unfold fits, header_len, query_lens, texts. cbv zeta. cbn [map sum fold_right]. unfold nlen. rewrite D. set (X := List.length (dec_z (k_ins k))) in *. clearbody X.
  change (opt_len 3) with 4. change (opt_len 2) with 3. change (opt_len (3 + N.of_nat 36)) with 41. unfold opt_len. set (T := if c_tcp (v_cfg v) && v_tcp v then _ else _).
  assert (T <= 7). { unfold T. destruct (_ && _); [|lia]. repeat match goal with |- context[if ?b then _ else _] => destruct b end; lia. }
  destruct (4 + N.of_nat X <? 13); [lia|]. destruct (N.ltb_spec (4 + N.of_nat X) 269); lia.
Qed.

(** The longest prefix of the queue that fits is named. *)
Lemma rd_delete_spec v links : env_ok v -> links <> [] -> Forall (fun k => int64 (k_ins k)) links ->
  exists m, (0 < m <= List.length links)%nat /\ fits (v_cfg v) (v_tcp v) (v_di v) (firstn m links) /\ ((m < List.length links)%nat -> ~ fits (v_cfg v) (v_tcp v) (v_di v) (firstn (S m) links)) /\
    rd_delete v links = Some (if v_del v then DDone [MDelete (query (v_di v) (texts (firstn m links)))] (firstn m links) (skipn m links) else DError []).
Proof.
  intros V NE I. pose proof V as (D & P & M). unfold rd_delete, delete_single. set (mem := repeat 0 (N.to_nat (c_max_hdr (v_cfg v)))).
  assert (Lm : List.length mem = N.to_nat (c_max_hdr (v_cfg v))) by apply repeat_length.
  destruct (prepare_at _ (v_di v) mem Lm) as (b & E & A); [rewrite D; lia|]. rewrite E.
  destruct (fill_spec (v_cfg v) (v_tcp v) (v_di v) links P [] b 0%nat) as (m & H1 & H2 & H3 & H4). { unfold query. cbn [texts map List.concat]. rewrite app_nil_r. exact A. }
  cbn [app] in *. rewrite H1. cbn [Nat.add]. assert (0 < m)%nat.
  { destruct m as [|m]; [|lia]. exfalso. destruct links as [|k t]; [contradiction|]. apply H4; [cbn; lia|]. cbn [firstn]. apply fits_one; [exact V|]. inversion I; assumption. }
  exists m. split; [lia|]. split; [apply H3; assumption|]. split; [exact H4|]. destruct (v_del v); [|reflexivity]. destruct m as [|m]; [lia|reflexivity].
Qed.

Lemma texts_decimal l : Forall2 decimal (map k_ins l) (texts l).
Proof. induction l as [|k l IH]; constructor; [apply dec_z_decimal|exact IH]. Qed.

Lemma asks_query v l : fits (v_cfg v) (v_tcp v) (v_di v) l -> asks v (map k_ins l) (query (v_di v) (texts l)).
Proof. intros F. exists (texts l). split; [apply texts_decimal|]. split; [reflexivity|exact F]. Qed.

Lemma too_many_query v l : ~ fits (v_cfg v) (v_tcp v) (v_di v) l -> too_many v (map k_ins l).
Proof.
  intros F ts D. apply N.nle_gt. intros X. apply F. unfold fits. etransitivity; [|exact X]. apply header_len_le. unfold query_lens. constructor; [reflexivity|]. clear F X. revert ts D. induction l as [|k l IH]; intros ts D; inversion D as [|x y a b D1 D2]; subst; cbn [texts map]; constructor; [|apply IH; exact D2].
  apply dec_z_short in D1. unfold nlen. lia.
Qed.
