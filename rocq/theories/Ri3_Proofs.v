(** Proofs about the dispatch of requests. *)
From Verif Require Import Common Query_Model Query_Spec Query_Proofs Ri_Model Ri_Spec Ri_Proofs Ri2_Proofs.
From Coq Require Import String.
Local Open Scope string_scope.
Local Open Scope list_scope.
Local Open Scope N_scope.

Section In_setting.
Variables (cs : list core_res) (st : srv) (q : request) (ps : list pair) (a : application) (ca : colapp).
Hypothesis G : setting cs st q ps.

Let gate := if q_multicast q && negb (match q_query q with [] => true | _ => false end)
            then filter_by_di (q_query q) (q_di q) else Pass.

Lemma gate_spec : (addressed q ps -> gate = Pass) /\ (~ addressed q ps -> gate = Drop).
Proof.
  destruct G as [_ _ _ Hwf Hq _ Hd Hv]. unfold gate, addressed. rewrite Hq.
  destruct (q_multicast q) eqn:Em; [|split; [reflexivity|intros H; exfalso; apply H; discriminate]].
  cbn [andb]. destruct (filter_spec ps (q_di q) Hwf (Hv eq_refl) Hd) as [F1 F2].
  destruct ps as [|p l].
  - cbn [render]. split; [reflexivity|]. intros H. exfalso. apply H. intros _. left. intros p [].
  - destruct (render (p :: l)) eqn:E; [exfalso; inversion Hwf; subst; eapply render_nonempty; eassumption|].
    cbn [negb]. split; [intros H; apply F1; auto|intros H; apply F2; intros X; apply H; auto].
Qed.

Lemma addressed_dec : addressed q ps \/ ~ addressed q ps.
Proof.
  unfold addressed. destruct (q_multicast q); [|left; discriminate].
  destruct (some_di_dec ps (q_di q)) as [H|H]; [left; intros _; right; exact H|].
  destruct (first_di (str "di") ps) as [X|(l & p & r & E & H1 & H2)]; [left; intros _; left; exact X|].
  right. intros X. destruct (X eq_refl) as [Y|Y]; [|exact (H Y)].
  apply (Y p); [rewrite E; apply in_app_iff; right; left; reflexivity|exact H2].
Qed.

Lemma dispatch_gate : dispatch st a ca q = match gate with Undefined => undef | Drop => quiet Silent | Pass =>
    let b := header_bits st q in
    if negb (bits_success b) then
      if q_multicast q && (128 <=? bits_status b) then quiet Silent else quiet (Reply (bits_status b) false None false)
    else match by_uri st (q_path q) (q_dev q) with
         | None => quiet (Reply 132 false None false) | Some r => entity st a ca r q end end.
Proof. reflexivity. Qed.

Lemma found_spec r : by_uri st (q_path q) (q_dev q) = Some r <-> serves st (q_path q) (q_dev q) r.
Proof. destruct G as [Hc Hr Hp _ _ _ _ _]. apply lookup_serves with (cs := cs); assumption. Qed.

Lemma iface_spec r i : chosen_iface (q_query q) (Some r) = i <-> uses ps r i.
Proof. destruct G as [_ _ _ Hw Hq _ _ _]. rewrite Hq. apply uses_spec; exact Hw. Qed.

Lemma col_spec r : serves st (q_path q) (q_dev q) r -> (is_col st r = true <-> In r (s_cols st)).
Proof.
  destruct G as [Hc Hr Hp _ _ _ _ _]. pose proof (reaches_inv cs st (proj1 Hc) Hr) as Hi.
  intros [_ Hs]. unfold is_col. rewrite has_id_spec. split; [|intros H; exists r; auto].
  intros (x & Hx & E). assert (Hxl : In x (live st)) by (apply live_in; auto).
  destruct Hs as [[Ho _]|(c & Hcc & Hcr & _)].
  - assert (Hl : In r (live st)) by (apply live_in; apply open_in in Ho; tauto).
    rewrite <- (same_id_same (live st) x r (i_ids _ _ Hi) Hxl Hl E). exact Hx.
  - exfalso. rewrite (i_core _ _ Hi) in Hcc. apply (i_coreid _ _ Hi x c Hxl Hcc). congruence.
Qed.

Lemma implements_spec r : serves st (q_path q) (q_dev q) r ->
  (is_col st r || has_handler r (q_method q) = true <-> implements st r (q_method q)).
Proof. intros Hs. rewrite orb_true_iff, (col_spec r Hs), handler_spec. reflexivity. Qed.

(** the parts of the header check as booleans *)
Definition wrong (r : res) : bool :=
  negb (N.ldiff (chosen_iface (q_query q) (Some r)) (r_ifs r) =? 0) || negb (supports (chosen_iface (q_query q) (Some r)) (q_method q)).

Lemma wrong_spec r i : uses ps r i -> (wrong r = false <-> fits r i (q_method q)).
Proof.
  intros Hu. apply iface_spec in Hu. unfold wrong. rewrite Hu. destruct G as [_ _ _ _ _ Hm _ _].
  rewrite <- (fits_spec r i (q_method q) Hm). destruct (N.ldiff i (r_ifs r) =? 0), (supports i (q_method q)); cbn; intuition discriminate.
Qed.

Lemma header_found r : by_uri st (q_path q) (q_dev q) = Some r ->
  header_bits st q =
  {| b_not_modified := false; b_bad := wrong r || (negb (wrong r) && negb (cf_supported (q_cf q))); b_large := false;
     b_forbidden := wrong r; b_unauthorized := negb (q_acl q r); b_not_found := false;
     b_not_allowed := negb (wrong r) && negb (negb (wrong r) && negb (cf_supported (q_cf q))) && negb (is_col st r) && negb (has_handler r (q_method q)) |}.
Proof. intros H. unfold header_bits. rewrite H. reflexivity. Qed.

Lemma uses_total r : exists i, uses ps r i.
Proof. exists (chosen_iface (q_query q) (Some r)). apply iface_spec. reflexivity. Qed.

Lemma uses_fun r i j : uses ps r i -> uses ps r j -> i = j.
Proof. intros H1 H2. apply iface_spec in H1, H2. congruence. Qed.

(** exactly one of: a refusal, or admission *)
Lemma admitted_bits r i : admitted st q ps r i -> bits_success (header_bits st q) = true /\
  by_uri st (q_path q) (q_dev q) = Some r /\ chosen_iface (q_query q) (Some r) = i.
Proof.
  intros (Hs & Hu & Hf & Hcf & Him & Ha). pose proof (proj2 (found_spec r) Hs) as Hb.
  split; [|split; [exact Hb|apply iface_spec; exact Hu]].
  rewrite (header_found r Hb). apply (wrong_spec r i Hu) in Hf. apply cf_spec in Hcf. apply (implements_spec r Hs) in Him.
  unfold bits_success. cbn. rewrite Hf, Hcf, Ha. cbn. destruct (is_col st r); [reflexivity|]. cbn in *. rewrite Him. reflexivity.
Qed.

Lemma refusal_bits c : refusal st q ps c -> bits_success (header_bits st q) = false /\ bits_status (header_bits st q) = c.
Proof.
  intros H. destruct H as [r i Hs Hu Hf|r i Hs Hu Hf Ha|r i Hs Hu Hf Ha Hcf|Hn|r i Hs Hu Hf Ha Hcf Him].
  - pose proof (proj2 (found_spec r) Hs) as Hb. rewrite (header_found r Hb).
    assert (Hw : wrong r = true) by (destruct (wrong r) eqn:E; [reflexivity|]; apply (wrong_spec r i Hu) in E; contradiction).
    rewrite Hw. split; [|reflexivity]. unfold bits_success. cbn. reflexivity.
  - pose proof (proj2 (found_spec r) Hs) as Hb. rewrite (header_found r Hb). apply (wrong_spec r i Hu) in Hf. rewrite Hf, Ha.
    split; [|reflexivity]. unfold bits_success. cbn. rewrite !orb_true_r. reflexivity.
  - pose proof (proj2 (found_spec r) Hs) as Hb. rewrite (header_found r Hb). apply (wrong_spec r i Hu) in Hf.
    assert (Hc : cf_supported (q_cf q) = false) by (destruct (cf_supported (q_cf q)) eqn:E; [apply cf_spec in E; contradiction|reflexivity]).
    rewrite Hf, Ha, Hc. split; reflexivity.
  - unfold header_bits. destruct (by_uri st (q_path q) (q_dev q)) as [r|] eqn:E; [apply found_spec in E; destruct (Hn r E)|].
    split; reflexivity.
  - pose proof (proj2 (found_spec r) Hs) as Hb. rewrite (header_found r Hb). apply (wrong_spec r i Hu) in Hf. apply cf_spec in Hcf.
    assert (Hi : is_col st r || has_handler r (q_method q) = false)
      by (destruct (is_col st r || has_handler r (q_method q)) eqn:E; [apply (implements_spec r Hs) in E; contradiction|reflexivity]).
    apply orb_false_iff in Hi as [Hi1 Hi2]. rewrite Hf, Ha, Hcf, Hi1, Hi2. split; reflexivity.
Qed.

Lemma refused_or_admitted : (exists c, refusal st q ps c) \/ (exists r i, admitted st q ps r i).
Proof.
  destruct (by_uri st (q_path q) (q_dev q)) as [r|] eqn:Hb.
  2:{ left. exists 132. apply ref_not_found. intros r Hs. apply found_spec in Hs. congruence. }
  pose proof (proj1 (found_spec r) Hb) as Hs. destruct (uses_total r) as [i Hu].
  destruct (wrong r) eqn:Hw.
  { left. exists 131. apply (ref_forbidden st q ps r i Hs Hu). intros X. apply (wrong_spec r i Hu) in X. congruence. }
  pose proof (proj1 (wrong_spec r i Hu) Hw) as Hf.
  destruct (q_acl q r) eqn:Ha.
  2:{ left. exists 129. apply (ref_unauthorized st q ps r i Hs Hu Hf Ha). }
  destruct (cf_supported (q_cf q)) eqn:Hc.
  2:{ left. exists 128. apply (ref_format st q ps r i Hs Hu Hf Ha). intros X. apply cf_spec in X. congruence. }
  apply cf_spec in Hc.
  destruct (is_col st r || has_handler r (q_method q)) eqn:Hi.
  - apply (implements_spec r Hs) in Hi. right. exists r, i. unfold admitted. auto 10.
  - left. exists 133. apply (ref_method st q ps r i Hs Hu Hf Ha Hc). intros X. apply (implements_spec r Hs) in X. congruence.
Qed.

Lemma admitted_fun r i r' i' : admitted st q ps r i -> admitted st q ps r' i' -> r = r' /\ i = i'.
Proof.
  intros H1 H2. destruct (admitted_bits r i H1) as (_ & B1 & I1). destruct (admitted_bits r' i' H2) as (_ & B2 & I2).
  assert (r = r') by congruence. subst r'. split; [reflexivity|congruence].
Qed.

(** the whole request in terms of the two outcomes of the header check *)
Lemma dispatch_refused c : addressed q ps -> refusal st q ps c ->
  dispatch st a ca q = quiet (if q_multicast q then Silent else Reply c false None false).
Proof.
  intros Had Hr. rewrite dispatch_gate, (proj1 gate_spec Had). destruct (refusal_bits c Hr) as [H1 H2]. cbv zeta. rewrite H1, H2. cbn [negb].
  destruct (q_multicast q); cbn [andb]; [|reflexivity].
  assert (Hc : (128 <=? c) = true) by (destruct Hr; reflexivity). rewrite Hc. reflexivity.
Qed.

Lemma dispatch_admitted r i : addressed q ps -> admitted st q ps r i -> dispatch st a ca q = entity st a ca r q.
Proof.
  intros Had Hr. rewrite dispatch_gate, (proj1 gate_spec Had). destruct (admitted_bits r i Hr) as (H1 & H2 & H3). cbv zeta. rewrite H1, H2. reflexivity.
Qed.

Lemma dispatch_dropped : ~ addressed q ps -> dispatch st a ca q = quiet Silent.
Proof. intros H. rewrite dispatch_gate, (proj2 gate_spec H). reflexivity. Qed.

(** ** Inside the entity handler *)
Lemma tag_spec : (Nat.eqb (List.length (q_req_etag q)) 8 && match q_etag q with Some t => list_eqb (q_req_etag q) t | None => false end
                  && (q_method q =? GET)) = true <-> tag_matches q.
Proof.
  unfold tag_matches. rewrite !andb_true_iff, Nat.eqb_eq, N.eqb_eq. destruct (q_etag q) as [t|].
  - rewrite list_eqb_spec. intuition congruence.
  - intuition discriminate.
Qed.

Lemma payload_spec : In (q_cf q) formats -> (bits_success (payload_bits q) = true <-> payload_ok q).
Proof.
  intros Hc. apply cf_spec in Hc. unfold payload_bits, payload_ok. destruct (q_payload q) as [|x p]; [split; [auto|reflexivity]|].
  rewrite Hc. cbn [negb]. destruct (q_decode q (x :: p)); cbn; intuition discriminate.
Qed.

Lemma get_implements r i : admitted st q ps r i -> q_method q = GET -> is_col st r || r_get r = true.
Proof.
  intros (Hs & _ & _ & _ & Him & _) Hm. apply (implements_spec r Hs) in Him. rewrite Hm in Him. exact Him.
Qed.

(** what the ETag stage decides for an admitted request *)
Inductive stage := SBatch | STag | SGo.
Definition stage_of (i : N) : stage :=
  if (q_method q =? GET) && (i =? IF_B) && q_no_batch q then SBatch
  else if Nat.eqb (List.length (q_req_etag q)) 8 && match q_etag q with Some t => list_eqb (q_req_etag q) t | None => false end && (q_method q =? GET)
  then STag else SGo.

Lemma etag_stage r i : admitted st q ps r i ->
  fst (etag_bits st r q i) = match stage_of i with SBatch => bad_bits | STag => not_modified_bits | SGo => no_bits end /\
  snd (etag_bits st r q i) = match stage_of i with SBatch => None | _ => if q_method q =? GET then q_etag q else None end.
Proof.
  intros Ha. unfold etag_bits, stage_of. destruct (q_method q =? GET) eqn:Em.
  - rewrite (get_implements r i Ha) by (apply N.eqb_eq; exact Em). cbn [negb orb andb].
    destruct ((i =? IF_B) && q_no_batch q); [split; reflexivity|]. rewrite andb_true_r.
    destruct (q_etag q) as [t|]; [|rewrite andb_false_r; split; reflexivity].
    destruct (Nat.eqb (List.length (q_req_etag q)) 8 && list_eqb (q_req_etag q) t); split; reflexivity.
  - cbn [negb orb andb]. rewrite andb_false_r. split; reflexivity.
Qed.

Lemma stage_batch i : stage_of i = SBatch <-> batch_refused q i.
Proof.
  unfold stage_of, batch_refused. destruct ((q_method q =? GET) && (i =? IF_B) && q_no_batch q) eqn:E.
  - apply andb_true_iff in E as [E E3]. apply andb_true_iff in E as [E1 E2]. apply N.eqb_eq in E1, E2. split; auto.
  - split; [destruct (_ && (q_method q =? GET)); discriminate|]. intros (E1 & E2 & E3). rewrite E1, E2, E3 in E. discriminate.
Qed.

Lemma stage_go i : stage_of i = SGo <-> ~ tag_matches q /\ ~ batch_refused q i.
Proof.
  rewrite <- stage_batch, <- tag_spec. unfold stage_of.
  destruct ((q_method q =? GET) && (i =? IF_B) && q_no_batch q); [split; [discriminate|intros [_ H]; destruct (H eq_refl)]|].
  destruct (_ && (q_method q =? GET)).
  - split; [discriminate|]. intros [H _]. destruct (H eq_refl).
  - split; [intros _; split; intros X; discriminate|reflexivity].
Qed.

Lemma invoke_called r i : called st q ps r i -> 
  invoke st a ca r q i =
  ([(r, q_method q, i)], if is_col st r && negb (ca r (q_method q) i) then bad_bits else no_bits, a r (q_method q) i).
Proof.
  intros (Had & Hadm & Hp & Hbuf & _ & _). pose proof Hadm as (Hs & Hu & Hf & Hcf & Him & Hacl).
  unfold invoke. rewrite Hbuf. apply (payload_spec Hcf) in Hp. rewrite Hp. cbn [negb].
  apply (implements_spec r Hs) in Him. destruct (is_col st r).
  - cbn [andb]. destruct (ca r (q_method q) i); reflexivity.
  - cbn [orb] in Him. rewrite Him. reflexivity.
Qed.

Lemma invoke_calls r i : admitted st q ps r i -> addressed q ps -> stage_of i = SGo ->
  fst (fst (invoke st a ca r q i)) <> [] -> called st q ps r i.
Proof.
  intros Hadm Had Hgo H. apply stage_go in Hgo as [H1 H2]. pose proof Hadm as (Hs & Hu & Hf & Hcf & Him & Hacl).
  unfold called. split; [exact Had|]. split; [exact Hadm|].
  unfold invoke in H. destruct (q_buffer q); [|destruct (H eq_refl)]. cbn [negb] in H.
  destruct (bits_success (payload_bits q)) eqn:E; [|destruct (H eq_refl)]. apply (payload_spec Hcf) in E. auto.
Qed.

(** the rest of the entity handler after the handler was (or was not) run *)
Definition finish (r : res) (i : N) (etag : option (list N)) (x : list call * bits * answer) : outcome :=
  let '(calls, b, ans) := x in
  let ok := bits_success b in
  let overridden := negb ok || b_not_modified b in
  let code0 := if overridden then bits_status b else match ans with Code c => c | Separate => 0 end in
  let '(act, obs) := if ok && (q_method q =? GET) && (code0 <? 128) then observation st r q else (ObsNone, false) in
  let code := if q_multicast q && (128 <=? code0) then CLEAR else code0 in
  match ans with
  | Separate => {| o_calls := calls; o_reply := Later; o_obs := act; o_changed := []; o_defaults := []; o_undef := false |}
  | Code _ =>
    let ch := negb (code =? CLEAR) && changes st r q code in
    let startup := (i =? IF_STARTUP) || (i =? IF_STARTUP_REVERT) in
    {| o_calls := calls; o_reply := final_reply q code obs etag; o_obs := act;
       o_changed := if ch && negb startup then [r] else [];
       o_defaults := if ch && startup then [(r, i)] else []; o_undef := false |}
  end.

Lemma entity_finish r i : admitted st q ps r i ->
  entity st a ca r q =
  finish r i (match stage_of i with SBatch => None | _ => if q_method q =? GET then q_etag q else None end)
    (match stage_of i with SBatch => ([], bad_bits, Code 0) | STag => ([], not_modified_bits, Code 0) | SGo => invoke st a ca r q i end).
Proof.
  intros Hadm. destruct (admitted_bits r i Hadm) as (_ & _ & Hi). unfold entity. rewrite Hi.
  destruct (etag_stage r i Hadm) as [He1 He2]. destruct (etag_bits st r q i) as [eb etag]. cbn [fst snd] in He1, He2. subst eb etag.
  destruct (stage_of i); reflexivity.
Qed.

Lemma finish_calls r i etag x : o_calls (finish r i etag x) = fst (fst x).
Proof.
  destruct x as [[calls b] ans]. unfold finish. cbv zeta.
  match goal with |- context [if ?c then observation st r q else ?d] => destruct (if c then observation st r q else d) as [act obs] end.
  destruct ans; reflexivity.
Qed.

Lemma finish_defined r i etag x : o_undef (finish r i etag x) = false.
Proof.
  destruct x as [[calls b] ans]. unfold finish. cbv zeta.
  match goal with |- context [if ?c then observation st r q else ?d] => destruct (if c then observation st r q else d) as [act obs] end.
  destruct ans; reflexivity.
Qed.

Lemma entity_calls r i : admitted st q ps r i -> addressed q ps ->
  o_calls (entity st a ca r q) = match stage_of i with SGo => fst (fst (invoke st a ca r q i)) | _ => [] end.
Proof.
  intros Hadm Had. rewrite (entity_finish r i Hadm), finish_calls. destruct (stage_of i); reflexivity.
Qed.

Theorem calls_iff r i : (In (r, q_method q, i) (o_calls (dispatch st a ca q)) <-> called st q ps r i) /\
  (called st q ps r i -> o_calls (dispatch st a ca q) = [(r, q_method q, i)]).
Proof.
  assert (H2 : called st q ps r i -> o_calls (dispatch st a ca q) = [(r, q_method q, i)]).
  { intros H. pose proof H as (Had & Hadm & _ & _ & Ht & Hb). rewrite (dispatch_admitted r i Had Hadm), (entity_calls r i Hadm Had).
    rewrite (proj2 (stage_go i) (conj Ht Hb)), (invoke_called r i H). reflexivity. }
  split; [|exact H2]. split; [|intros H; rewrite (H2 H); left; reflexivity].
  intros H. destruct addressed_dec as [Had|Had]; [|rewrite (dispatch_dropped Had) in H; destruct H].
  destruct refused_or_admitted as [(c & Hc)|(r' & i' & Hadm)].
  { rewrite (dispatch_refused c Had Hc) in H. destruct H. }
  rewrite (dispatch_admitted r' i' Had Hadm), (entity_calls r' i' Hadm Had) in H.
  destruct (stage_of i') eqn:Es; [destruct H|destruct H|].
  assert (Hc : called st q ps r' i') by (apply invoke_calls; try assumption; intros E; rewrite E in H; destruct H).
  rewrite (invoke_called r' i' Hc) in H. cbn [fst In] in H. destruct H as [H|[]]. injection H as -> ->. exact Hc.
Qed.

Theorem calls_shape : o_calls (dispatch st a ca q) = [] \/ exists r i, o_calls (dispatch st a ca q) = [(r, q_method q, i)].
Proof.
  destruct addressed_dec as [Had|Had]; [|rewrite (dispatch_dropped Had); auto].
  destruct refused_or_admitted as [(c & Hc)|(r & i & Hadm)]; [rewrite (dispatch_refused c Had Hc); auto|].
  rewrite (dispatch_admitted r i Had Hadm), (entity_calls r i Hadm Had).
  destruct (stage_of i) eqn:Es; auto. destruct (fst (fst (invoke st a ca r q i))) eqn:E; [auto|]. right. exists r, i.
  assert (Hc : called st q ps r i) by (apply invoke_calls; try assumption; rewrite E; discriminate).
  rewrite (invoke_called r i Hc) in E. cbn [fst] in E. symmetry; exact E.
Qed.

(** ** Replies *)
(** the reply that follows a final code *)
Definition reply_of (c : N) (obs : bool) (etag : option (list N)) : reply :=
  if c =? 194 then Silent else if c =? 0 then Reset_ else if q_multicast q && (128 <=? c) then Silent
  else Reply c obs (if (q_method q =? GET) && ((c =? 69) || (c =? 67)) then etag else None) (c =? 141).

Lemma final_reply_of c obs etag :
  final_reply q (if q_multicast q && (128 <=? c) then CLEAR else c) obs etag = reply_of c obs etag.
Proof.
  unfold final_reply, reply_of, CLEAR.
  destruct (N.eqb_spec c 194) as [->|H1]; [destruct (q_multicast q); reflexivity|].
  destruct (N.eqb_spec c 0) as [->|H2]; [change (128 <=? 0) with false; rewrite andb_false_r; reflexivity|].
  destruct (q_multicast q && (128 <=? c)); [reflexivity|].
  destruct (N.eqb_spec c 194); [congruence|]. destruct (N.eqb_spec c 0); [congruence|]. reflexivity.
Qed.

Lemma reply_batch r i : addressed q ps -> admitted st q ps r i -> batch_refused q i ->
  dispatch st a ca q = quiet (if q_multicast q then Silent else Reply 128 false None false).
Proof.
  intros Had Hadm Hb. rewrite (dispatch_admitted r i Had Hadm), (entity_finish r i Hadm). pose proof Hb as (Hm & _ & _).
  apply stage_batch in Hb. rewrite Hb. unfold finish. cbv zeta. cbn [bits_success bad_bits b_bad orb negb andb].
  change (bits_status bad_bits) with 128. change (128 <=? 128) with true. rewrite andb_true_r.
  unfold changes, quiet. destruct (q_multicast q).
  - reflexivity.
  - rewrite !andb_false_r. cbn [andb]. unfold final_reply. change (128 =? CLEAR) with false. change (128 =? 0) with false. cbv iota.
    change ((128 =? 69) || (128 =? 67)) with false. rewrite andb_false_r. reflexivity.
Qed.

Lemma reply_tag r i : addressed q ps -> admitted st q ps r i -> tag_matches q -> ~ batch_refused q i ->
  dispatch st a ca q =
  {| o_calls := []; o_reply := Reply 67 (snd (observation st r q)) (q_etag q) false; o_obs := fst (observation st r q);
     o_changed := []; o_defaults := []; o_undef := false |}.
Proof.
  intros Had Hadm Ht Hb. rewrite (dispatch_admitted r i Had Hadm), (entity_finish r i Hadm).
  assert (Hst : stage_of i = STag).
  { unfold stage_of. destruct (_ && q_no_batch q) eqn:E.
    - exfalso. apply Hb. apply stage_batch. unfold stage_of. rewrite E. reflexivity.
    - rewrite (proj2 tag_spec Ht). reflexivity. }
  rewrite Hst. destruct Ht as (Hm & _ & He). rewrite Hm. unfold finish. cbv zeta.
  change (bits_success not_modified_bits) with true. cbn [negb orb b_not_modified not_modified_bits].
  change (bits_status not_modified_bits) with 67. change (67 <? 128) with true. change (128 <=? 67) with false.
  rewrite Hm. change (GET =? GET) with true. rewrite andb_false_r. cbn [andb].
  destruct (observation st r q) as [act obs]. cbn [fst snd].
  unfold final_reply, changes. rewrite Hm. change (67 =? CLEAR) with false. change (67 =? 0) with false. cbv iota.
  change (GET =? PUT) with false. change (GET =? POST) with false. cbn [orb]. rewrite !andb_false_r. cbn [andb].
  reflexivity.
Qed.

(** an admitted request that does not reach the handler: no buffer, or an unreadable payload *)
Lemma reply_unread r i : addressed q ps -> admitted st q ps r i -> ~ tag_matches q -> ~ batch_refused q i ->
  (q_buffer q = false \/ ~ payload_ok q) ->
  let c := if q_buffer q && match q_decode q (q_payload q) with DecEof => true | _ => false end then 141 else 128 in
  dispatch st a ca q = quiet (if q_multicast q then Silent else Reply c false None (c =? 141)).
Proof.
  intros Had Hadm Ht Hb Hbad. cbv zeta. rewrite (dispatch_admitted r i Had Hadm), (entity_finish r i Hadm).
  rewrite (proj2 (stage_go i) (conj Ht Hb)). pose proof Hadm as (_ & _ & _ & Hcf & _ & _).
  assert (Hinv : exists b, invoke st a ca r q i = ([], b, Code 0) /\ bits_success b = false /\ b_not_modified b = false /\
      bits_status b = if q_buffer q && match q_decode q (q_payload q) with DecEof => true | _ => false end then 141 else 128).
  { unfold invoke. destruct (q_buffer q).
    - cbn [negb andb]. destruct Hbad as [Hbad|Hbad]; [discriminate|].
      assert (Hp : bits_success (payload_bits q) = false)
        by (destruct (bits_success (payload_bits q)) eqn:E; [apply (payload_spec Hcf) in E; contradiction|reflexivity]).
      rewrite Hp. exists (payload_bits q). split; [reflexivity|]. split; [exact Hp|].
      apply cf_spec in Hcf. unfold payload_bits in *. unfold payload_ok in Hbad. destruct (q_payload q) as [|x p]; [exfalso; apply Hbad; auto|].
      rewrite Hcf in *. cbn [negb] in *. destruct (q_decode q (x :: p)); [discriminate|split; reflexivity|split; reflexivity].
    - exists bad_bits. repeat split; reflexivity. }
  destruct Hinv as (b & Ei & E1 & E2 & E3). rewrite Ei. unfold finish. cbv zeta. rewrite E1, E2. cbn [negb orb andb]. rewrite E3.
  match goal with |- context [if ?x then 141 else 128] => set (c := if x then 141 else 128) end.
  assert (Hcc : c = 141 \/ c = 128) by (subst c; match goal with |- context [if ?x then 141 else 128] => destruct x end; auto).
  clearbody c. assert (Hc : (128 <=? c) = true) by (destruct Hcc as [->| ->]; reflexivity).
  rewrite final_reply_of. unfold reply_of, changes, quiet.
  assert (H194 : (c =? 194) = false) by (destruct Hcc as [->| ->]; reflexivity).
  assert (H0 : (c =? 0) = false) by (destruct Hcc as [->| ->]; reflexivity).
  assert (H69 : ((c =? 69) || (c =? 67)) = false) by (destruct Hcc as [->| ->]; reflexivity).
  assert (Hlt : (c <? 128) = false) by (destruct Hcc as [->| ->]; reflexivity).
  rewrite H194, H0, H69, Hc, !andb_true_r, !andb_false_r.
  destruct (q_multicast q).
  - change (CLEAR =? CLEAR) with true. cbn [negb andb]. reflexivity.
  - rewrite Hlt, !andb_false_r. reflexivity.
Qed.

(** the handler ran *)
Lemma reply_ran r i : called st q ps r i ->
  dispatch st a ca q =
  finish r i (if q_method q =? GET then q_etag q else None)
    ([(r, q_method q, i)], if is_col st r && negb (ca r (q_method q) i) then bad_bits else no_bits, a r (q_method q) i).
Proof.
  intros H. pose proof H as (Had & Hadm & _ & _ & Ht & Hb). rewrite (dispatch_admitted r i Had Hadm), (entity_finish r i Hadm).
  rewrite (proj2 (stage_go i) (conj Ht Hb)), (invoke_called r i H). reflexivity.
Qed.

Definition follows (c : N) : bool := (q_method q =? GET) && (c <? 128).

Lemma reply_code r i c : ran st a ca q ps r i (Code c) ->
  o_reply (dispatch st a ca q) = reply_of c (follows c && snd (observation st r q)) (q_etag q) /\
  o_obs (dispatch st a ca q) = (if follows c then fst (observation st r q) else ObsNone) /\
  o_changed (dispatch st a ca q) =
    (if negb (is_col st r) && ((q_method q =? PUT) || (q_method q =? POST)) && (c <? 128) &&
        negb ((i =? IF_STARTUP) || (i =? IF_STARTUP_REVERT)) then [r] else []) /\
  o_defaults (dispatch st a ca q) =
    (if negb (is_col st r) && ((q_method q =? PUT) || (q_method q =? POST)) && (c <? 128) &&
        ((i =? IF_STARTUP) || (i =? IF_STARTUP_REVERT)) then [(r, i)] else []).
Proof.
  intros (Hc & Ha & Hca). pose proof Hc as (_ & (Hs & _) & _). rewrite (reply_ran r i Hc), Ha.
  assert (Hnb : is_col st r && negb (ca r (q_method q) i) = false).
  { destruct (is_col st r) eqn:E; [|reflexivity]. apply (col_spec r Hs) in E. rewrite (Hca E). reflexivity. }
  rewrite Hnb. unfold finish. cbv zeta. change (bits_success no_bits) with true. cbn [negb orb andb b_not_modified no_bits].
  assert (Hobs : (if (q_method q =? GET) && (c <? 128) then observation st r q else (ObsNone, false)) =
                 (if follows c then fst (observation st r q) else ObsNone, follows c && snd (observation st r q))).
  { unfold follows. destruct ((q_method q =? GET) && (c <? 128)); [destruct (observation st r q); reflexivity|reflexivity]. }
  rewrite Hobs. clear Hobs. cbn [o_reply o_obs o_changed o_defaults].
  rewrite final_reply_of.
  assert (Hch : (negb ((if q_multicast q && (128 <=? c) then CLEAR else c) =? CLEAR) &&
                 changes st r q (if q_multicast q && (128 <=? c) then CLEAR else c)) =
                (negb (is_col st r) && ((q_method q =? PUT) || (q_method q =? POST)) && (c <? 128))).
  { unfold changes. destruct (N.leb_spec 128 c) as [Hle|Hlt].
    - assert (E : (c <? 128) = false) by (apply N.ltb_ge; exact Hle). rewrite E, andb_false_r.
      destruct (q_multicast q); cbn [andb].
      + change (CLEAR <? 128) with false. rewrite !andb_false_r. reflexivity.
      + rewrite E, !andb_false_r. reflexivity.
    - rewrite andb_false_r. assert (E : (c =? CLEAR) = false) by (apply N.eqb_neq; unfold CLEAR; lia). rewrite E. reflexivity. }
  rewrite Hch. split; [|auto].
  unfold reply_of. destruct (c =? 194); [reflexivity|]. destruct (c =? 0); [reflexivity|]. destruct (q_multicast q && (128 <=? c)); [reflexivity|].
  f_equal. destruct (q_method q =? GET); reflexivity.
Qed.

Lemma reply_separate r i : ran st a ca q ps r i Separate ->
  o_reply (dispatch st a ca q) = Later /\
  o_obs (dispatch st a ca q) = (if q_method q =? GET then fst (observation st r q) else ObsNone) /\
  o_changed (dispatch st a ca q) = [] /\ o_defaults (dispatch st a ca q) = [].
Proof.
  intros (Hc & Ha & Hca). pose proof Hc as (_ & (Hs & _) & _). rewrite (reply_ran r i Hc), Ha.
  assert (Hnb : is_col st r && negb (ca r (q_method q) i) = false).
  { destruct (is_col st r) eqn:E; [|reflexivity]. apply (col_spec r Hs) in E. rewrite (Hca E). reflexivity. }
  rewrite Hnb. unfold finish. cbv zeta. change (bits_success no_bits) with true. cbn [negb orb andb b_not_modified no_bits].
  change (0 <? 128) with true. rewrite andb_true_r. destruct (q_method q =? GET); [destruct (observation st r q)|]; auto.
Qed.

(** a collection whose handling failed *)
Lemma reply_col_failed r i : called st q ps r i -> In r (s_cols st) -> ca r (q_method q) i = false ->
  o_reply (dispatch st a ca q) = (match a r (q_method q) i with Separate => Later | Code _ => if q_multicast q then Silent else Reply 128 false None false end) /\
  o_obs (dispatch st a ca q) = ObsNone /\ o_changed (dispatch st a ca q) = [] /\ o_defaults (dispatch st a ca q) = [].
Proof.
  intros Hc Hin Hca. pose proof Hc as (_ & (Hs & _) & _). rewrite (reply_ran r i Hc).
  apply (col_spec r Hs) in Hin. rewrite Hin, Hca. cbn [negb andb]. unfold finish. cbv zeta.
  change (bits_success bad_bits) with false. cbn [negb orb andb]. change (bits_status bad_bits) with 128.
  destruct (a r (q_method q) i); [auto|]. cbn [o_reply o_obs o_changed o_defaults]. rewrite final_reply_of. unfold reply_of, changes. rewrite Hin.
  cbn [negb andb]. change (128 =? 194) with false. change (128 =? 0) with false. change (128 <=? 128) with true. cbv iota.
  change ((128 =? 69) || (128 =? 67)) with false. change (128 =? 141) with false. rewrite !andb_false_r, andb_true_r. cbn [andb].
  destruct (q_multicast q); auto.
Qed.

(** ** All outcomes *)
Inductive what : Prop :=
| w_dropped : ~ addressed q ps -> what
| w_refused c : addressed q ps -> refusal st q ps c -> what
| w_batch r i : addressed q ps -> admitted st q ps r i -> batch_refused q i -> what
| w_tag r i : addressed q ps -> admitted st q ps r i -> tag_matches q -> ~ batch_refused q i -> what
| w_unread r i : addressed q ps -> admitted st q ps r i -> ~ tag_matches q -> ~ batch_refused q i ->
    (q_buffer q = false \/ ~ payload_ok q) -> what
| w_ran r i x : ran st a ca q ps r i x -> what
| w_col r i : called st q ps r i -> In r (s_cols st) -> ca r (q_method q) i = false -> what.

Lemma what_all : what.
Proof.
  destruct addressed_dec as [Had|Had]; [|exact (w_dropped Had)].
  destruct refused_or_admitted as [(c & Hc)|(r & i & Hadm)]; [exact (w_refused c Had Hc)|].
  destruct (stage_of i) eqn:Es.
  - exact (w_batch r i Had Hadm (proj1 (stage_batch i) Es)).
  - assert (Hb : ~ batch_refused q i) by (intros X; apply stage_batch in X; congruence).
    apply (w_tag r i Had Hadm); [|exact Hb]. apply tag_spec. unfold stage_of in Es. destruct (_ && q_no_batch q); [discriminate|].
    destruct (_ && (q_method q =? GET)); [reflexivity|discriminate].
  - apply stage_go in Es as [Ht Hb]. pose proof Hadm as (Hs & _ & _ & Hcf & _ & _).
    destruct (q_buffer q) eqn:Hbuf; [|apply (w_unread r i Had Hadm Ht Hb); auto].
    destruct (bits_success (payload_bits q)) eqn:Hp.
    + apply (payload_spec Hcf) in Hp.
      assert (Hc : called st q ps r i) by (unfold called; auto 10).
      destruct (is_col st r) eqn:Ec.
      * apply (col_spec r Hs) in Ec. destruct (ca r (q_method q) i) eqn:Eca; [|exact (w_col r i Hc Ec Eca)].
        apply (w_ran r i (a r (q_method q) i)). unfold ran. auto.
      * apply (w_ran r i (a r (q_method q) i)). unfold ran. split; [exact Hc|]. split; [reflexivity|].
        intros X. apply (col_spec r Hs) in X. congruence.
    + apply (w_unread r i Had Hadm Ht Hb). right. intros X. apply (payload_spec Hcf) in X. congruence.
Qed.

Lemma reply_of_multicast c obs etag k o e z : q_multicast q = true -> reply_of c obs etag = Reply k o e z -> k < 128 /\ k = c.
Proof.
  intros Hm. unfold reply_of. rewrite Hm. destruct (c =? 194); [discriminate|]. destruct (c =? 0); [discriminate|]. cbn [andb].
  destruct (N.leb_spec 128 c); [discriminate|]. intros E. injection E as <- _ _ _. split; [lia|reflexivity].
Qed.

Theorem refusals :
  ((exists c, refusal st q ps c) \/ (exists r i, admitted st q ps r i)) /\
  (forall c r i, refusal st q ps c -> ~ admitted st q ps r i) /\
  (forall c c', refusal st q ps c -> refusal st q ps c' -> c = c').
Proof.
  split; [exact refused_or_admitted|]. split.
  - intros c r i H1 H2. destruct (admitted_bits r i H2) as (B & _). destruct (refusal_bits c H1) as (C & _). congruence.
  - intros c c' H1 H2. destruct (refusal_bits c H1) as (_ & B). destruct (refusal_bits c' H2) as (_ & C). congruence.
Qed.

Theorem multicast_quiet c : q_multicast q = true -> code_of (dispatch st a ca q) = Some c -> c < 128.
Proof.
  intros Hm. unfold code_of. destruct what_all as [H|k H1 H2|r i H1 H2 H3|r i H1 H2 H3 H4|r i H1 H2 H3 H4 H5|r i x H|r i H1 H2 H3].
  - rewrite (dispatch_dropped H). discriminate.
  - rewrite (dispatch_refused k H1 H2), Hm. discriminate.
  - rewrite (reply_batch r i H1 H2 H3), Hm. discriminate.
  - rewrite (reply_tag r i H1 H2 H3 H4). cbn [o_reply]. intros E; injection E as <-. lia.
  - rewrite (reply_unread r i H1 H2 H3 H4 H5), Hm. discriminate.
  - destruct x as [|k].
    + destruct (reply_separate r i H) as (E & _). rewrite E. discriminate.
    + destruct (reply_code r i k H) as (E & _). rewrite E. destruct (reply_of k _ _) eqn:Er; try discriminate.
      intros X; injection X as <-. apply (reply_of_multicast _ _ _ _ _ _ _ Hm Er).
  - destruct (reply_col_failed r i H1 H2 H3) as (E & _). rewrite E, Hm. destruct (a r (q_method q) i); discriminate.
Qed.

(** ** Change notifications *)
Theorem changed_iff r : (In r (o_changed (dispatch st a ca q)) <->
  (q_method q = PUT \/ q_method q = POST) /\ ~ In r (s_cols st) /\
  exists i c, ran st a ca q ps r i (Code c) /\ c < 128 /\ i <> 1024 /\ i <> 2048) /\
  (forall i, In (r, i) (o_defaults (dispatch st a ca q)) <->
  (q_method q = PUT \/ q_method q = POST) /\ ~ In r (s_cols st) /\ (i = 1024 \/ i = 2048) /\
  exists c, ran st a ca q ps r i (Code c) /\ c < 128).
Proof.
  assert (Hran : forall r1 i1 x1 r2 i2 x2, ran st a ca q ps r1 i1 x1 -> ran st a ca q ps r2 i2 x2 -> r1 = r2 /\ i1 = i2 /\ x1 = x2).
  { intros r1 i1 x1 r2 i2 x2 ((_ & A1 & _) & X1 & _) ((_ & A2 & _) & X2 & _).
    destruct (admitted_fun r1 i1 r2 i2 A1 A2) as [-> ->]. split; [reflexivity|]. split; [reflexivity|congruence]. }
  assert (Hnone : (o_changed (dispatch st a ca q) = [] /\ o_defaults (dispatch st a ca q) = []) ->
     (forall r0 i0 c0, ran st a ca q ps r0 i0 (Code c0) -> False) ->
     (In r (o_changed (dispatch st a ca q)) <-> (q_method q = PUT \/ q_method q = POST) /\ ~ In r (s_cols st) /\
       exists i c, ran st a ca q ps r i (Code c) /\ c < 128 /\ i <> 1024 /\ i <> 2048) /\
     (forall i, In (r, i) (o_defaults (dispatch st a ca q)) <->
       (q_method q = PUT \/ q_method q = POST) /\ ~ In r (s_cols st) /\ (i = 1024 \/ i = 2048) /\
       exists c, ran st a ca q ps r i (Code c) /\ c < 128)).
  { intros [E1 E2] Hno. rewrite E1, E2. cbn [In]. split.
    - split; [intros []|intros (_ & _ & i & c & H & _); exact (Hno r i c H)].
    - intros i. split; [intros []|intros (_ & _ & _ & c & H & _); exact (Hno r i c H)]. }
  destruct what_all as [H|k H1 H2|r0 i H1 H2 H3|r0 i H1 H2 H3 H4|r0 i H1 H2 H3 H4 H5|r0 i x H|r0 i H1 H2 H3].
  - apply Hnone; [rewrite (dispatch_dropped H); auto|]. intros r1 i1 c1 ((A & _) & _). exact (H A).
  - apply Hnone; [rewrite (dispatch_refused k H1 H2); auto|]. intros r1 i1 c1 ((_ & A & _) & _).
    destruct (admitted_bits r1 i1 A) as (B & _). destruct (refusal_bits k H2) as (C & _). congruence.
  - apply Hnone; [rewrite (reply_batch r0 i H1 H2 H3); auto|]. intros r1 i1 c1 ((_ & A & _ & _ & _ & B) & _).
    destruct (admitted_fun r0 i r1 i1 H2 A) as [-> ->]. exact (B H3).
  - apply Hnone; [rewrite (reply_tag r0 i H1 H2 H3 H4); auto|]. intros r1 i1 c1 ((_ & A & _ & _ & B & _) & _). exact (B H3).
  - apply Hnone; [rewrite (reply_unread r0 i H1 H2 H3 H4 H5); auto|]. intros r1 i1 c1 ((_ & A & B & C & _) & _).
    destruct H5 as [H5|H5]; [congruence|exact (H5 B)].
  - destruct x as [|k].
    + destruct (reply_separate r0 i H) as (_ & _ & E1 & E2). apply Hnone; [auto|]. intros r1 i1 c1 Hr.
      destruct (Hran _ _ _ _ _ _ H Hr) as (_ & _ & E). discriminate.
    + destruct (reply_code r0 i k H) as (_ & _ & E1 & E2). rewrite E1, E2. clear Hnone E1 E2.
      pose proof H as ((_ & (Hs & _) & _) & _). pose proof (col_spec r0 Hs) as Hcol. change IF_STARTUP with 1024. change IF_STARTUP_REVERT with 2048.
      assert (Hm : ((q_method q =? PUT) || (q_method q =? POST)) = true <-> q_method q = PUT \/ q_method q = POST)
        by (rewrite orb_true_iff, !N.eqb_eq; reflexivity).
      assert (Hst : ((i =? 1024) || (i =? 2048)) = true <-> i = 1024 \/ i = 2048) by (rewrite orb_true_iff, !N.eqb_eq; reflexivity).
      assert (Hcond : (negb (is_col st r0) && ((q_method q =? PUT) || (q_method q =? POST)) && (k <? 128)) = true <->
                      ~ In r0 (s_cols st) /\ (q_method q = PUT \/ q_method q = POST) /\ k < 128).
      { rewrite !andb_true_iff, negb_true_iff, N.ltb_lt, Hm. rewrite <- Hcol. destruct (is_col st r0); intuition congruence. }
      set (cond := negb (is_col st r0) && _ && _) in *. set (start := (i =? 1024) || (i =? 2048)) in *.
      split.
      * split.
        -- destruct (cond && negb start) eqn:E; [|intros []]. intros [<-|[]]. apply andb_true_iff in E as [E1 E2].
           apply Hcond in E1 as (X1 & X2 & X3). split; [exact X2|]. split; [exact X1|]. exists i, k. split; [exact H|]. split; [exact X3|].
           apply negb_true_iff in E2. destruct start; [discriminate|]. split; intros X; [assert (false = true) by (apply Hst; auto)|assert (false = true) by (apply Hst; auto)]; discriminate.
        -- intros (X1 & X2 & i1 & c1 & X3 & X4 & X5 & X6). destruct (Hran _ _ _ _ _ _ H X3) as (-> & -> & E). injection E as ->.
           rewrite (proj2 Hcond (conj X2 (conj X1 X4))). destruct start; [|left; reflexivity].
           exfalso. destruct (proj1 Hst eq_refl); contradiction.
      * intros i'. split.
        -- destruct (cond && start) eqn:E; [|intros []]. intros [X|[]]. injection X as -> ->. apply andb_true_iff in E as [E1 E2].
           apply Hcond in E1 as (X1 & X2 & X3). split; [exact X2|]. split; [exact X1|]. split; [apply Hst; exact E2|]. exists k. auto.
        -- intros (X1 & X2 & X5 & c1 & X3 & X4). destruct (Hran _ _ _ _ _ _ H X3) as (-> & -> & E). injection E as ->.
           rewrite (proj2 Hcond (conj X2 (conj X1 X4))), (proj2 Hst X5). left; reflexivity.
  - destruct (reply_col_failed r0 i H1 H2 H3) as (_ & _ & E1 & E2). apply Hnone; [auto|]. intros r1 i1 c1 ((_ & A & _) & _ & B).
    destruct H1 as (_ & A' & _). destruct (admitted_fun r0 i r1 i1 A' A) as [-> ->]. rewrite (B H2) in H3. discriminate.
Qed.

(** ** Observation *)
Lemma observation_spec r : serves st (q_path q) (q_dev q) r ->
  (fst (observation st r q) = ObsAdded <-> observable_now st q r /\ q_add_ok q = true) /\
  (snd (observation st r q) = true <-> observable_now st q r).
Proof.
  intros Hs. pose proof (col_spec r Hs) as Hcol. unfold observation, observable_now.
  destruct (r_observable r); cbn [negb]; [|cbn; intuition discriminate].
  destruct (q_observe q) as [o|]; [|cbn; intuition discriminate].
  destruct (N.eqb_spec o 0) as [->|Ho].
  2:{ assert (Hno : Some o <> Some 0) by (intros X; injection X as X; exact (Ho X)).
      destruct (o =? 1); cbn; intuition (discriminate || contradiction). }
  destruct (q_add_ok q), (r_periodic r), (q_periodic_ok q), (q_links_ok q), (is_col st r); cbn;
    intuition (try discriminate; try (exfalso; intuition congruence)).
Qed.

Lemma retrieved_obs r : retrieved st a ca q ps r -> o_obs (dispatch st a ca q) = fst (observation st r q).
Proof.
  intros (Hm & Had & i & [(H1 & H2 & H3)|([|c] & Hr & Hc)]).
  - rewrite (reply_tag r i Had H1 H2 H3). reflexivity.
  - destruct (reply_separate r i Hr) as (_ & E & _). rewrite E, Hm. reflexivity.
  - destruct (reply_code r i c Hr) as (_ & E & _). rewrite E. unfold follows. rewrite Hm. apply N.ltb_lt in Hc. rewrite Hc. reflexivity.
Qed.

Lemma reply_of_observe c obs etag k o e z : reply_of c obs etag = Reply k o e z -> o = obs.
Proof.
  unfold reply_of. destruct (c =? 194); [discriminate|]. destruct (c =? 0); [discriminate|].
  destruct (q_multicast q && (128 <=? c)); [discriminate|]. intros E; injection E as _ <- _ _. reflexivity.
Qed.

Lemma outcome_obs : (exists r, retrieved st a ca q ps r) \/
  (o_obs (dispatch st a ca q) = ObsNone /\ has_observe (dispatch st a ca q) = false).
Proof.
  destruct what_all as [H|k H1 H2|r0 i H1 H2 H3|r0 i H1 H2 H3 H4|r0 i H1 H2 H3 H4 H5|r0 i x H|r0 i H1 H2 H3].
  - right. rewrite (dispatch_dropped H). auto.
  - right. rewrite (dispatch_refused k H1 H2). unfold has_observe. cbn. destruct (q_multicast q); auto.
  - right. rewrite (reply_batch r0 i H1 H2 H3). unfold has_observe. cbn. destruct (q_multicast q); auto.
  - left. exists r0. split; [apply H3|]. split; [exact H1|]. exists i. left. auto.
  - right. rewrite (reply_unread r0 i H1 H2 H3 H4 H5). unfold has_observe. cbn. destruct (q_multicast q); auto.
  - destruct (N.eq_dec (q_method q) GET) as [Hm|Hm].
    + destruct x as [|k].
      * left. exists r0. split; [exact Hm|]. split; [apply H|]. exists i. right. exists Separate. auto.
      * destruct (N.ltb_spec k 128) as [Hk|Hk].
        -- left. exists r0. split; [exact Hm|]. split; [apply H|]. exists i. right. exists (Code k). auto.
        -- right. destruct (reply_code r0 i k H) as (E1 & E2 & _). unfold has_observe. rewrite E1, E2. unfold follows.
           apply N.ltb_ge in Hk. rewrite Hk, andb_false_r. cbn [andb]. split; [reflexivity|].
           destruct (reply_of k false (q_etag q)) eqn:Er; try reflexivity. apply reply_of_observe in Er. exact Er.
    + right. apply N.eqb_neq in Hm. destruct x as [|k].
      * destruct (reply_separate r0 i H) as (E1 & E2 & _). unfold has_observe. rewrite E1, E2, Hm. auto.
      * destruct (reply_code r0 i k H) as (E1 & E2 & _). unfold has_observe. rewrite E1, E2. unfold follows. rewrite Hm. cbn [andb]. split; [reflexivity|].
        destruct (reply_of k false (q_etag q)) eqn:Er; try reflexivity. apply reply_of_observe in Er. exact Er.
  - right. destruct (reply_col_failed r0 i H1 H2 H3) as (E1 & E2 & _). unfold has_observe. rewrite E1, E2. split; [reflexivity|].
    destruct (a r0 (q_method q) i); [reflexivity|]. destruct (q_multicast q); reflexivity.
Qed.

Lemma retrieved_serves r : retrieved st a ca q ps r -> serves st (q_path q) (q_dev q) r.
Proof. intros (_ & _ & i & [((H & _) & _)|(x & ((_ & (H & _) & _) & _) & _)]); exact H. Qed.

Theorem observer_added : o_obs (dispatch st a ca q) = ObsAdded <->
  exists r, retrieved st a ca q ps r /\ observable_now st q r /\ q_add_ok q = true.
Proof.
  split.
  - intros H. destruct outcome_obs as [(r & Hr)|[E _]]; [|congruence]. exists r. split; [exact Hr|].
    rewrite (retrieved_obs r Hr) in H. apply observation_spec in H; [exact H|apply retrieved_serves; exact Hr].
  - intros (r & Hr & Ho). rewrite (retrieved_obs r Hr). apply observation_spec; [apply retrieved_serves; exact Hr|exact Ho].
Qed.

Theorem observe_announced : has_observe (dispatch st a ca q) = true ->
  exists r, retrieved st a ca q ps r /\ observable_now st q r.
Proof.
  intros H. destruct outcome_obs as [(r & Hr)|[_ E]]; [|congruence]. exists r. split; [exact Hr|].
  pose proof (retrieved_serves r Hr) as Hs. apply (observation_spec r Hs).
  destruct Hr as (Hm & Had & i & [(H1 & H2 & H3)|([|c] & Hr & Hc)]).
  - rewrite (reply_tag r i Had H1 H2 H3) in H. exact H.
  - unfold has_observe in H. destruct (reply_separate r i Hr) as (E & _). rewrite E in H. discriminate.
  - unfold has_observe in H. destruct (reply_code r i c Hr) as (E & _). rewrite E in H.
    destruct (reply_of c _ _) eqn:Er; try discriminate. apply reply_of_observe in Er. rewrite Er in H.
    unfold follows in H. apply andb_true_iff in H as [_ H]. exact H.
Qed.

Theorem well_defined : o_undef (dispatch st a ca q) = false.
Proof.
  destruct what_all as [H|k H1 H2|r0 i H1 H2 H3|r0 i H1 H2 H3 H4|r0 i H1 H2 H3 H4 H5|r0 i x H|r0 i H1 H2 H3].
  - rewrite (dispatch_dropped H). reflexivity.
  - rewrite (dispatch_refused k H1 H2). reflexivity.
  - rewrite (reply_batch r0 i H1 H2 H3). reflexivity.
  - rewrite (reply_tag r0 i H1 H2 H3 H4). reflexivity.
  - rewrite (reply_unread r0 i H1 H2 H3 H4 H5). reflexivity.
  - destruct H as (H & _). rewrite (reply_ran r0 i H). apply finish_defined.
  - rewrite (reply_ran r0 i H1). apply finish_defined.
Qed.

(** the code sent for a handler's answer *)
Theorem handler_code r i c : ran st a ca q ps r i (Code c) ->
  (c = 194 \/ (q_multicast q = true /\ 128 <= c) -> o_reply (dispatch st a ca q) = Silent) /\
  (c = 0 -> o_reply (dispatch st a ca q) = Reset_) /\
  (c <> 194 -> c <> 0 -> (q_multicast q = true -> c < 128) ->
   exists obs, o_reply (dispatch st a ca q) =
     Reply c obs (if (q_method q =? GET) && ((c =? 69) || (c =? 67)) then q_etag q else None) (c =? 141)).
Proof.
  intros H. destruct (reply_code r i c H) as (E & _). rewrite E. clear E. unfold reply_of. split; [|split].
  - intros [->|[Hm Hc]]; [reflexivity|]. destruct (c =? 194); [reflexivity|]. destruct (N.eqb_spec c 0); [lia|].
    rewrite Hm. apply N.leb_le in Hc. rewrite Hc. reflexivity.
  - intros ->. reflexivity.
  - intros H1 H2 H3. apply N.eqb_neq in H1, H2. rewrite H1, H2. exists (follows c && snd (observation st r q)).
    destruct (q_multicast q); [|reflexivity]. cbn [andb]. destruct (N.leb_spec 128 c) as [X|X]; [|reflexivity]. specialize (H3 eq_refl). lia.
Qed.
End In_setting.

Lemma status_roundtrip k c : k < 20 -> status_code k = Some c -> code_status c = Some k.
Proof.
  intros Hk. assert (H : forallb (fun k => match status_code k with
      Some c => match code_status c with Some x => x =? k | None => false end | None => false end) (map N.of_nat (seq 0 20)) = true) by reflexivity.
  rewrite forallb_forall in H. specialize (H k). assert (Hin : In k (map N.of_nat (seq 0 20)))
    by (apply in_map_iff; exists (N.to_nat k); split; [apply N2Nat.id|apply in_seq; lia]).
  specialize (H Hin). intros E. rewrite E in H. destruct (code_status c); [|discriminate]. apply N.eqb_eq in H. congruence.
Qed.
Lemma status_total k : k < 20 -> exists c, status_code k = Some c.
Proof.
  intros Hk. unfold status_code. rewrite (proj2 (N.ltb_lt _ _) Hk). destruct (nth_error status_codes (N.to_nat k)) eqn:E; [eauto|].
  apply nth_error_None in E. change (List.length status_codes) with 20%nat in E. lia.
Qed.

Lemma find_app_one {A} (f : A -> bool) l x : find f (l ++ [x]) = match find f l with Some y => Some y | None => find f [x] end.
Proof. induction l as [|y l IH]; cbn [List.app find]; [reflexivity|]. destruct (f y); [reflexivity|exact IH]. Qed.

Lemma tcp_run_nth l : forall ctx k m b, nth_error l k = Some (m, b) ->
  nth_error (tcp_run ctx l) k = Some (match last_plain (firstn (S k) l) with Some x => Some {| ctx_msg := x; ctx_transaction := None |} | None => ctx end).
Proof.
  induction l as [|[m0 b0] l IH]; intros ctx k m b H; [destruct k; discriminate|].
  destruct k as [|k].
  - cbn [nth_error] in H. injection H as -> ->. unfold last_plain. cbn [firstn rev List.app find snd]. destruct b; reflexivity.
  - cbn [nth_error] in H. cbn [tcp_run]. unfold tcp_ctx at 1. destruct b0; cbn [nth_error].
    + rewrite (IH ctx k m b H). unfold last_plain. rewrite (firstn_cons (S k)). cbn [rev]. rewrite find_app_one. cbn [find snd negb].
      destruct (find _ (rev (firstn (S k) l))); reflexivity.
    + rewrite (IH _ k m b H). unfold last_plain. rewrite (firstn_cons (S k)). cbn [rev]. rewrite find_app_one. cbn [find snd negb].
      destruct (find _ (rev (firstn (S k) l))); reflexivity.
Qed.
Lemma tcp_own l ctx k m : nth_error l k = Some (m, false) ->
  nth_error (tcp_run ctx l) k = Some (Some {| ctx_msg := m; ctx_transaction := None |}).
Proof.
  intros H. rewrite (tcp_run_nth l ctx k m false H). unfold last_plain.
  assert (E : firstn (S k) l = firstn k l ++ [(m, false)]).
  { revert k H. induction l as [|x l IH]; intros [|k] H; try discriminate; cbn [nth_error] in H.
    - injection H as ->. reflexivity.
    - rewrite firstn_cons, (firstn_cons k), (IH k H). reflexivity. }
  rewrite E, rev_app_distr. reflexivity.
Qed.

Lemma index_from_bounds l : forall i c k, index_from i l c = Some k -> i <= k /\ nth_error l (N.to_nat (k - i)) = Some c.
Proof.
  induction l as [|x l IH]; intros i c k H; [discriminate|]. cbn [index_from] in H. destruct (N.eqb_spec x c) as [->|Hn].
  - injection H as <-. split; [lia|]. rewrite N.sub_diag. reflexivity.
  - destruct (IH _ _ _ H) as [H1 H2]. split; [lia|]. replace (N.to_nat (k - i)) with (S (N.to_nat (k - (i + 1)))) by lia. exact H2.
Qed.
Lemma unknown_code c : (forall k, k < 20 -> status_code k <> Some c) -> c mod 256 <> 227 -> code_status c = None.
Proof.
  intros H Hp. unfold code_status. destruct (index_from 0 status_codes c) as [k|] eqn:E.
  - apply index_from_bounds in E. destruct E as [_ E]. rewrite N.sub_0_r in E.
    assert (L : (N.to_nat k < 20)%nat) by (change 20%nat with (List.length status_codes); apply nth_error_Some; congruence).
    exfalso. apply (H k ltac:(lia)). unfold status_code. replace (k <? 20) with true by lia. exact E.
  - apply N.eqb_neq in Hp. rewrite Hp. reflexivity.
Qed.
