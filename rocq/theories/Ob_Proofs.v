From Verif Require Import Common Rep_Model Hex_Model Hex_Spec Hex_Proofs Acl_Model Acl_Spec Acl_Proofs Acl2_Proofs Ob_Model Ob_Spec.
From Coq Require Import String.
Local Open Scope string_scope.
Local Open Scope list_scope.
Local Open Scope N_scope.

(** * Identifiers *)

Lemma is_nil_real u : is_nil u = false <-> real u.
Proof.
  unfold is_nil, real. split.
  - intros H. induction u as [|b t IH]; [discriminate|]. cbn [forallb] in H. destruct (N.eqb_spec b 0) as [->|Hb].
    + destruct (IH H) as (x & Hx & Hn). exists x. split; [right; exact Hx|exact Hn].
    + exists b. split; [left; reflexivity|exact Hb].
  - intros (b & Hin & Hb). destruct (forallb _ u) eqn:E; [|reflexivity]. rewrite forallb_forall in E. apply E in Hin. apply N.eqb_eq in Hin. contradiction.
Qed.

Lemma nil_typed : typed_uuid nil_uuid.
Proof. split; [repeat constructor|reflexivity]. Qed.

Lemma char_bits_byte c : char_bits c < 256.
Proof.
  unfold char_bits. assert (H : forall x, x mod 256 < 256) by (intros x; apply N.mod_lt; discriminate).
  repeat match goal with |- context[if ?b then _ else _] => destruct b end; try lia; try apply H.
Qed.

Lemma lor_byte a b : a < 256 -> b < 256 -> N.lor a b < 256.
Proof.
  intros Ha Hb. destruct (N.eq_dec (N.lor a b) 0) as [->|Hz]; [lia|]. change 256 with (2 ^ 8). apply N.log2_lt_pow2; [lia|].
  rewrite N.log2_lor. destruct (N.eq_dec a 0) as [->|]; destruct (N.eq_dec b 0) as [->|]; try (cbn; lia);
  apply N.max_lub_lt; try (cbn; lia); apply N.log2_lt_pow2; lia.
Qed.

Lemma uuid_loop_typed : forall s out half r, (List.length out <= 16)%nat -> bytes_ok out -> match half with Some c => c < 256 | None => True end ->
  uuid_loop out half s = Some r -> bytes_ok r /\ (List.length r <= 16)%nat.
Proof.
  induction s as [|c s IH]; intros out half r Hl Hb Hh H; cbn [uuid_loop] in H; [injection H as <-; auto|].
  destruct (c =? 45); [exact (IH _ _ _ Hl Hb Hh H)|]. destruct half as [x|].
  - destruct (Nat.eqb_spec (List.length out) UUID_ID_SIZE) as [E|E]; [discriminate|]. revert H. apply IH; [|apply Forall_app; split; [exact Hb|constructor; [|constructor]]|exact I].
    + rewrite app_length. cbn [List.length]. unfold UUID_ID_SIZE in E. lia.
    + apply lor_byte; [exact Hh|apply char_bits_byte].
  - revert H. apply IH; [exact Hl|exact Hb|]. apply N.mod_lt. discriminate.
Qed.

Lemma str_to_uuid_typed s u : snd (str_to_uuid_v1 s) = Some u -> typed_uuid u.
Proof.
  assert (G : forall t out, uuid_loop [] None t = Some out -> typed_uuid (out ++ repeat 0 (UUID_ID_SIZE - List.length out))).
  { intros t out H. destruct (uuid_loop_typed t [] None out) as [H1 H2]; [cbn; lia|constructor|exact I|exact H|]. unfold UUID_ID_SIZE. split.
    - apply Forall_app. split; [exact H1|]. apply Forall_forall. intros x Hx. apply repeat_spec in Hx. subst x. reflexivity.
    - rewrite app_length, repeat_length. lia. }
  assert (G' : forall t, match snd (match uuid_loop [] None t with None => ((-1)%Z, None) | Some out => (Z.of_nat (List.length out), Some (out ++ repeat 0 (UUID_ID_SIZE - List.length out))) end) with Some x => typed_uuid x | None => True end).
  { intros t. destruct (uuid_loop [] None t) eqn:E; [exact (G _ _ E)|exact I]. }
  intros H. unfold str_to_uuid_v1 in H.
  assert (E : snd (str_to_uuid s) = Some u) by (destruct (str_to_uuid s) as [n x]; cbn [snd]; destruct (list_eqb s [42]); [exact H|destruct (n =? 16)%Z; exact H]).
  revert E. unfold str_to_uuid. intros E. destruct s as [|c [|c2 s]].
  - specialize (G' (firstn (UUID_LEN - 1) [])). rewrite E in G'. exact G'.
  - destruct (c =? 42); [injection E as <-; split; [repeat constructor|reflexivity]|].
    specialize (G' (firstn (UUID_LEN - 1) [c])). rewrite E in G'. exact G'.
  - specialize (G' (firstn (UUID_LEN - 1) (c :: c2 :: s))). rewrite E in G'. exact G'.
Qed.

Lemma uuid_of_typed v old : typed_uuid old -> typed_uuid (uuid_of v old).
Proof. intros H. unfold uuid_of. destruct (snd (str_to_uuid_v1 (firstn 37 (cstr v)))) eqn:E; [exact (str_to_uuid_typed _ _ E)|exact H]. Qed.

Lemma uuid_of_str u old : typed_uuid u -> uuid_of (uuid_str u) old = u.
Proof.
  intros H. destruct (uuid_text_exists u H) as (s & Es & Hz & Hl & E & _). unfold uuid_of, uuid_str. rewrite Es, (cstr_nz _ Hz), firstn_all2 by lia.
  rewrite E. reflexivity.
Qed.

(** * Checks *)

Lemma has_cred_spec o u : has_cred o u = true <-> In u (o_creds o).
Proof.
  unfold has_cred. rewrite existsb_exists. split; [intros (x & H & E); apply list_eqb_spec in E; subst; exact H|intros H; exists u; split; [exact H|apply list_eqb_refl]].
Qed.

Lemma check_state_spec p o : check_state p o = true <-> check_ps_state p = true /\ complete (set_ps o p).
Proof.
  unfold check_state, complete. cbn [set_ps o_ps o_dx o_aclown o_credown o_creds]. rewrite !andb_true_iff, !negb_true_iff, !is_nil_real, !has_cred_spec.
  assert (X : (forall u, In u [ps_owner p; dx_owner (o_dx o); o_aclown o; o_credown o] -> real u /\ In u (o_creds o)) <->
    (real (ps_owner p) /\ In (ps_owner p) (o_creds o)) /\ (real (dx_owner (o_dx o)) /\ In (dx_owner (o_dx o)) (o_creds o)) /\
    (real (o_aclown o) /\ In (o_aclown o) (o_creds o)) /\ (real (o_credown o) /\ In (o_credown o) (o_creds o))).
  { split; [intros H; repeat split; apply H; cbn; tauto|]. intros (A & B & C & D) u [<-|[<-|[<-|[<-|[]]]]]; assumption. }
  rewrite X. tauto.
Qed.

Lemma ob_eta o : o = mk_ob (o_ps o) (o_dx o) (o_aclown o) (o_credown o) (o_creds o) (o_di o) (o_pending o) (o_log o) (o_sps o) (o_sdx o).
Proof. destruct o; reflexivity. Qed.

Lemma set_busy_id o : ps_busy (o_ps o) = false -> set_busy o false = o.
Proof. destruct o as [[]]. cbn. intros ->. reflexivity. Qed.

(** * Resets *)

Lemma handle_reset e o : ps_busy (o_ps o) = false -> ev_key e = true ->
  fst (handle_state e reset_ps o) = true /\ as_new e (dump_ps (snd (handle_state e reset_ps o))).
Proof.
  intros Hb Hk. unfold handle_state. change (ps_s reset_ps =? S_RESET) with true. cbv iota. rewrite Hb, Hk. cbn [negb].
  unfold as_new, enter_rfotm. destruct (ev_presets e); cbn; repeat split.
Qed.

Lemma reset_as_new e o : ps_busy (o_ps o) = false -> ev_key e = true -> fst (reset_device e o) = true /\ as_new e (snd (reset_device e o)).
Proof. intros Hb Hk. exact (handle_reset e o Hb Hk). Qed.

(** * Updates of the provisioning status *)

Definition small (p : pstat) : Prop := ps_busy p = false.

Lemma to_u32_lt z : to_u32 z < 4294967296.
Proof. unfold to_u32. assert (0 <= z mod 4294967296 < 4294967296)%Z by (apply Z.mod_pos_bound; lia). lia. Qed.

Lemma to_int_typed z : typed_int (to_int z).
Proof.
  unfold typed_int, to_int. change (2 ^ 32)%Z with 4294967296%Z. change (2 ^ 31)%Z with 2147483648%Z. assert (0 <= z mod 4294967296 < 4294967296)%Z by (apply Z.mod_pos_bound; lia).
  destruct (Z.ltb_spec (z mod 4294967296) 2147483648); lia.
Qed.

Ltac typed T := destruct T as (?T1 & ?T2 & ?T3 & ?T4 & ?T5 & ?T6); unfold typed_ps; cbn [ps_p ps_isop ps_cm ps_sm ps_om ps_busy ps_s ps_tm ps_owner];
  repeat (split; [first [assumption|apply to_u32_lt|apply to_int_typed|lia|reflexivity]|]); first [assumption|apply uuid_of_typed; assumption].

(** What decoding the properties preserves. *)
Lemma decode_dos_keep fs : forall l p tr p' tr', decode_dos fs p tr l = Some (p', tr') ->
  ps_p p' = ps_p p /\ ps_isop p' = ps_isop p /\ ps_cm p' = ps_cm p /\ ps_tm p' = ps_tm p /\ ps_om p' = ps_om p /\ ps_sm p' = ps_sm p /\
  ps_owner p' = ps_owner p /\ ps_busy p' = ps_busy p /\ (tr' = tr \/ tr' = true) /\ (tr' = false -> ps_s p' = ps_s p).
Proof.
  induction l as [|r t IH]; intros p tr p' tr' H; cbn [decode_dos] in H; [injection H as <- <-; repeat split; auto|].
  assert (D : decode_dos fs p tr t = Some (p', tr') \/ exists z, decode_dos fs (mk_ps (to_u32 z) (ps_p p) (ps_isop p) (ps_cm p) (ps_tm p) (ps_om p) (ps_sm p) (ps_owner p) (ps_busy p)) true t = Some (p', tr')).
  { destruct (snd r); try (destruct (negb fs && list_eqb (fst r) (str "p")); [discriminate|left; exact H]).
    destruct (list_eqb (fst r) (str "s")); [right; exists z; exact H|discriminate]. }
  destruct D as [D|[z D]]; apply IH in D; [exact D|]. cbn [ps_p ps_isop ps_cm ps_tm ps_om ps_sm ps_owner ps_busy] in D.
  destruct D as (A1 & A2 & A3 & A4 & A5 & A6 & A7 & A8 & A9 & A10). assert (tr' = true) by tauto. subst tr'. repeat split; auto; discriminate.
Qed.

Record kept (p0 p : pstat) (tr tg : bool) : Prop := {
  k_p : ps_p p = ps_p p0; k_isop : ps_isop p = ps_isop p0; k_cm : ps_cm p = ps_cm p0; k_sm : ps_sm p = ps_sm p0; k_busy : ps_busy p = ps_busy p0;
  k_s : tr = false -> ps_s p = ps_s p0; k_tm : tg = false -> ps_tm p = ps_tm p0;
  k_owner : tr = false -> ps_s p0 = S_RFPRO \/ ps_s p0 = S_RFNOP -> ps_owner p = ps_owner p0;
  k_typed : typed_ps p0 -> typed_ps p }.

Lemma decode_dos_typed fs : forall l p tr p' tr', decode_dos fs p tr l = Some (p', tr') -> typed_ps p -> typed_ps p'.
Proof.
  induction l as [|r t IH]; intros p tr p' tr' H T; cbn [decode_dos] in H; [injection H as <- <-; exact T|].
  destruct (snd r); try (destruct (negb fs && list_eqb (fst r) (str "p")); [discriminate|exact (IH _ _ _ _ H T)]).
  destruct (list_eqb (fst r) (str "s")); [|discriminate]. apply (IH _ _ _ _ H). typed T.
Qed.

Lemma decode_prop_typed x r y : decode_pstat_prop false x r = Some y -> typed_ps (fst (fst x)) -> typed_ps (fst (fst y)).
Proof.
  destruct x as [[p tr] tg]. destruct y as [[q tr'] tg']. cbn [fst]. intros H T. unfold decode_pstat_prop in H. destruct (snd r); cbn [andb] in H; try discriminate H;
  try (destruct (list_eqb (fst r) (str "rt") || list_eqb (fst r) (str "if")); [injection H as <- <- <-; exact T|discriminate]).
  - destruct (prefix2 r 116 109); [injection H as <- <- <-; typed T|]. destruct (prefix2 r 111 109); [injection H as <- <- <-; typed T|discriminate H].
  - match type of H with (if ?c then _ else _) = _ => destruct c; [|discriminate H] end. injection H as <- <- <-. typed T.
  - destruct (list_eqb (fst r) (str "dos")); [|discriminate]. destruct (decode_dos false p tr l) as [[q' tq]|] eqn:E; [|discriminate]. injection H as <- <- <-. exact (decode_dos_typed _ _ _ _ _ _ E T).
Qed.

Lemma decode_prop_keep p0 p tr tg r p' tr' tg' : kept p0 p tr tg -> decode_pstat_prop false (p, tr, tg) r = Some (p', tr', tg') -> kept p0 p' tr' tg'.
Proof.
  intros K H. pose proof (decode_prop_typed _ _ _ H) as Ty. cbn [fst] in Ty. assert (K10 : typed_ps p0 -> typed_ps p') by (intros X; exact (Ty (k_typed _ _ _ _ K X))). clear Ty. destruct K as [K1 K2 K3 K4 K5 K6 K7 K8 K9]. unfold decode_pstat_prop in H. destruct (snd r) eqn:Er; cbn [andb] in H; try discriminate;
  try (destruct (list_eqb (fst r) (str "rt") || list_eqb (fst r) (str "if")); [injection H as <- <- <-; constructor; assumption|discriminate]).
  - destruct (prefix2 r 116 109); [injection H as <- <- <-; constructor; cbn [ps_p ps_isop ps_cm ps_sm ps_busy ps_s ps_tm ps_owner]; try assumption; discriminate|].
    destruct (prefix2 r 111 109); [injection H as <- <- <-; constructor; cbn [ps_p ps_isop ps_cm ps_sm ps_busy ps_s ps_tm ps_owner]; assumption|discriminate].
  - cbn [orb] in H. destruct (N.eqb_spec (ps_s p) S_RFPRO) as [E1|E1]; [discriminate H|]. destruct (N.eqb_spec (ps_s p) S_RFNOP) as [E2|E2]; [discriminate H|]. cbn [negb andb] in H.
    destruct (list_eqb (fst r) (str "rowneruuid")); [|discriminate]. injection H as <- <- <-. constructor; cbn [ps_p ps_isop ps_cm ps_sm ps_busy ps_s ps_tm ps_owner]; try assumption.
    + intros Ht Hs. rewrite (K6 Ht) in E1, E2. destruct Hs; contradiction.
  - destruct (list_eqb (fst r) (str "dos")); [|discriminate]. destruct (decode_dos false p tr l) as [[q tq]|] eqn:E; [|discriminate]. injection H as <- <- <-.
    destruct (decode_dos_keep _ _ _ _ _ _ E) as (A1 & A2 & A3 & A4 & A5 & A6 & A7 & A8 & A9 & A10).
    assert (Ht : tq = false -> tr = false) by (intros ->; destruct A9; congruence).
    constructor; try congruence.
    + intros Hq. rewrite (A10 Hq). auto.
    + intros Hg. rewrite A4. auto.
    + intros Hq Hs. rewrite A7. auto.
    + exact K10.
Qed.

Lemma decode_props_keep p0 : forall l p tr tg p' tr' tg', kept p0 p tr tg -> decode_pstat_props false (p, tr, tg) l = Some (p', tr', tg') -> kept p0 p' tr' tg'.
Proof.
  induction l as [|r t IH]; intros p tr tg p' tr' tg' K H; cbn [decode_pstat_props] in H; [injection H as <- <- <-; exact K|].
  destruct (decode_pstat_prop false (p, tr, tg) r) as [[[q tq] gq]|] eqn:E; [|discriminate]. exact (IH _ _ _ _ _ _ (decode_prop_keep _ _ _ _ _ _ _ _ K E) H).
Qed.

Lemma kept_refl p : kept p p false false.
Proof. constructor; auto. Qed.

Lemma target_mode_spec p o : exists p' a, target_mode p o = (p', set_log o a) /\
  ps_s p' = ps_s p /\ ps_p p' = ps_p p /\ ps_isop p' = ps_isop p /\ ps_cm p' = ps_cm p /\ ps_om p' = ps_om p /\ ps_sm p' = ps_sm p /\ ps_owner p' = ps_owner p /\ ps_busy p' = ps_busy p /\ (typed_ps p -> typed_ps p').
Proof.
  unfold target_mode. assert (T0 : typed_ps p -> typed_ps (mk_ps (ps_s p) (ps_p p) (ps_isop p) (ps_cm p) 0 (ps_om p) (ps_sm p) (ps_owner p) (ps_busy p))) by (intros T; typed T).
  destruct (ps_tm p =? 256); [eexists; eexists; split; [reflexivity|repeat (split; [reflexivity|]); exact T0]|].
  destruct (ps_tm p =? 64); [eexists; eexists; split; [reflexivity|repeat (split; [reflexivity|]); exact T0]|].
  destruct (ps_tm p =? 128); [eexists; eexists; split; [reflexivity|repeat (split; [reflexivity|]); exact T0]|].
  exists p, (o_log o). split; [destruct o; reflexivity|repeat (split; [reflexivity|]); auto].
Qed.

(** What a request does, as one of four outcomes. *)
Inductive outcome (e : env) (o : ob) : bool -> ob -> Prop :=
| out_rejected a : outcome e o false (set_log o a)
| out_later : o_pending o = false -> forall a, outcome e o true (set_pending (set_ps (set_log o a) delayed_reset_ps) true)
| out_plain a p : ps_s p = ps_s (o_ps o) -> ps_p p = ps_p (o_ps o) -> ps_isop p = ps_isop (o_ps o) -> ps_cm p = ps_cm (o_ps o) -> ps_sm p = ps_sm (o_ps o) ->
    ps_busy p = false -> (ps_s (o_ps o) = S_RFPRO \/ ps_s (o_ps o) = S_RFNOP -> ps_owner p = ps_owner (o_ps o)) ->
    (typed_ps (o_ps o) -> typed_ps p) -> outcome e o true (set_ps (set_log o a) p)
| out_rfotm a p l : (ps_s (o_ps o) = S_RESET \/ ps_s (o_ps o) = S_RFOTM) -> dx_owned (o_dx o) = false -> ps_s p = S_RFOTM -> ps_isop p = false -> ps_busy p = false -> ps_cm p = 2 -> ps_tm p = 0 ->
    (typed_ps (o_ps o) -> typed_ps p) -> outcome e o true (set_ps (set_creds (set_log o a) (o_creds o ++ l)) p)
| out_move a p : (ps_s p = ps_s (o_ps o) \/ move (ps_s (o_ps o)) (ps_s p) \/ 4 < ps_s (o_ps o)) -> (ps_s p = S_RFPRO \/ ps_s p = S_RFNOP \/ ps_s p = S_SRESET) ->
    (ps_isop p = true <-> ps_s p = S_RFNOP) -> ps_busy p = false -> complete (set_ps (set_log o a) p) ->
    (typed_ps (o_ps o) -> typed_ps p) -> outcome e o true (set_ps (set_log o a) p).

Lemma complete_log o a p : complete (set_ps o p) -> complete (set_ps (set_log o a) p).
Proof. intros H. exact H. Qed.

Lemma complete_owner o p q : complete (set_ps o p) -> ps_owner q = ps_owner p -> complete (set_ps o q).
Proof. unfold complete. cbn [set_ps o_ps o_dx o_aclown o_credown o_creds]. intros H ->. exact H. Qed.

Lemma valid_move cur s : valid_transition cur s = true -> s = S_RFPRO \/ s = S_RFNOP \/ s = S_SRESET -> s = cur \/ move cur s \/ 4 < cur.
Proof.
  intros H Hs. destruct (N.ltb_spec 4 cur) as [Hc|Hc]; [right; right; exact Hc|].
  assert (C : cur = 0 \/ cur = 1 \/ cur = 2 \/ cur = 3 \/ cur = 4) by lia. unfold move, S_RFOTM, S_RESET, S_RFPRO, S_RFNOP, S_SRESET in *.
  destruct C as [->|[->|[->|[->| ->]]]]; destruct Hs as [->|[->| ->]]; vm_compute in H; try discriminate H; cbn; tauto.
Qed.

Lemma valid_rfotm cur : valid_transition cur S_RFOTM = true -> cur <= 4 -> cur = S_RESET \/ cur = S_RFOTM.
Proof.
  intros H Hc. assert (C : cur = 0 \/ cur = 1 \/ cur = 2 \/ cur = 3 \/ cur = 4) by lia. unfold S_RESET, S_RFOTM.
  destruct C as [->|[->|[->|[->| ->]]]]; vm_compute in H; try discriminate H; auto.
Qed.

Lemma post_outcome e o l : ps_busy (o_ps o) = false -> ps_s (o_ps o) <= 4 -> outcome e o (fst (decode_pstat e false o l)) (snd (decode_pstat e false o l)).
Proof.
  intros Hb Hle. unfold decode_pstat.
  assert (Erej : outcome e o false o) by (replace o with (set_log o (o_log o)) at 2 by (destruct o; reflexivity); constructor).
  destruct (decode_pstat_props false (o_ps o, false, false) l) as [[[p tr] tg]|] eqn:E; [|exact Erej].
  pose proof (decode_props_keep _ _ _ _ _ _ _ _ (kept_refl (o_ps o)) E) as K.
  assert (T : exists p1 a, (if tg then target_mode p o else (p, o)) = (p1, set_log o a) /\ ps_s p1 = ps_s p /\ ps_p p1 = ps_p p /\ ps_isop p1 = ps_isop p /\ ps_cm p1 = ps_cm p /\ ps_om p1 = ps_om p /\ ps_sm p1 = ps_sm p /\ ps_owner p1 = ps_owner p /\ ps_busy p1 = ps_busy p /\ (typed_ps p -> typed_ps p1)).
  { destruct tg; [apply target_mode_spec|]. exists p, (o_log o). split; [destruct o; reflexivity|repeat (split; [reflexivity|]); auto]. }
  destruct T as (p1 & a & -> & T1 & T2 & T3 & T4 & T5 & T6 & T7 & T8 & Tt). cbv iota beta. clear E.
  assert (Hb1 : ps_busy p1 = false) by (rewrite T8, (k_busy _ _ _ _ K); exact Hb).
  assert (Hty : typed_ps (o_ps o) -> typed_ps p1) by (intros Hx; exact (Tt (k_typed _ _ _ _ K Hx))).
  cbn [orb negb andb]. change (ps_s (o_ps (set_log o a))) with (ps_s (o_ps o)).
  destruct (valid_transition (ps_s (o_ps o)) (ps_s p1)) eqn:Ev; [|constructor].
  destruct tr.
  - destruct (N.eqb_spec (ps_s p1) S_RESET) as [E0|E0].
    + unfold set_delayed_reset. change (ps_busy (o_ps (set_log o a))) with (ps_busy (o_ps o)). change (o_pending (set_log o a)) with (o_pending o). rewrite Hb. cbn [orb].
      destruct (o_pending o) eqn:Ep; [constructor|]. apply out_later. exact Ep.
    + unfold handle_state. destruct (N.eqb_spec (ps_s p1) S_RESET) as [|_]; [contradiction|].
      destruct (N.eqb_spec (ps_s p1) S_RFOTM) as [E1|E1].
      * unfold enter_rfotm. destruct (dx_owned (o_dx (set_log o a)) || _ || _) eqn:Ec.
        -- cbn [fst snd]. rewrite set_busy_id by exact Hb. constructor.
        -- apply orb_false_iff in Ec. destruct Ec as [Ec Ec3]. apply orb_false_iff in Ec. destruct Ec as [Ec1 Ec2]. cbn [fst snd].
           assert (Hi : ps_isop p1 = false). { apply negb_false_iff in Ec3. revert Ec3. unfold check_ps_state. cbn. destruct (ps_isop p1); [discriminate|reflexivity]. }
           rewrite E1 in Ev. apply valid_rfotm in Ev; [|exact Hle].
           set (q := mk_ps S_RFOTM false _ 2 0 _ _ _ _).
           replace (match ev_presets e with Some l0 => _ | None => _ end) with (match ev_presets e with Some l0 => set_creds (set_ps (set_log o a) (mk_ps S_RFOTM true (ps_isop p1) 2 0 (ps_om p1) (ps_sm p1) (ps_owner p1) (ps_busy p1))) (o_creds o ++ l0) | None => set_log o a end) by (destruct (ev_presets e); reflexivity).
           destruct (ev_presets e) as [lp|].
           ++ change (set_ps (set_creds (set_ps (set_log o a) _) (o_creds o ++ lp)) q) with (set_ps (set_creds (set_log o a) (o_creds o ++ lp)) q).
              apply out_rfotm; auto; intros T; apply Hty in T; unfold q; typed T.
           ++ replace (set_log o a) with (set_creds (set_log o a) (o_creds o ++ [])) by (rewrite app_nil_r; destruct o; reflexivity). apply out_rfotm; auto; intros T; apply Hty in T; unfold q; typed T.
      * destruct (N.eqb_spec (ps_s p1) S_RFPRO) as [E2|E2]; [|destruct (N.eqb_spec (ps_s p1) S_RFNOP) as [E3|E3]; [|destruct (N.eqb_spec (ps_s p1) S_SRESET) as [E4|E4]; [|exact (out_rejected e o a)]]];
        (destruct (check_state _ (set_log o a)) eqn:Ec; [|exact (out_rejected e o a)]); apply check_state_spec in Ec; destruct Ec as [_ Ec]; cbn [fst snd];
        (apply out_move; cbn [ps_s ps_isop ps_busy ps_owner]; [apply valid_move; [exact Ev|tauto]|tauto| |exact Hb1|exact (complete_owner _ _ _ Ec eq_refl)|intros T; apply Hty in T; typed T]);
        rewrite ?E2, ?E3, ?E4; split; try discriminate; reflexivity.
  - cbn [fst snd]. assert (Hs : ps_s p1 = ps_s (o_ps o)) by (rewrite T1; apply (k_s _ _ _ _ K); reflexivity).
    apply out_plain; try assumption; try congruence; destruct K; try congruence. intros Hx. rewrite T7. auto.
Qed.

