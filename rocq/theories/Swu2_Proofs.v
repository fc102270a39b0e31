(** The update over time and restarts. *)
From Verif Require Import Common Rep_Model Repd_Model Repd_Spec Repd_Proofs Acl_Model Ael_Model Ael_Spec Ael_Proofs Ael2_Proofs Ael3_Proofs Ts_Model Ts_Spec Ts4_Proofs Pt_Spec Pt_Proofs Sd_Proofs Swu_Model Swu_Spec Swu_Proofs.
From Verif Require Sd_Model Sd_Spec.
From Coq Require Import String ZArith.
Notation rep := Rep_Model.rep.
Local Open Scope string_scope.
Local Open Scope list_scope.
Local Open Scope Z_scope.

(** * Refused requests *)
Lemma property_time hz r c c' : decode_property hz false r c = inl c' -> sel_time r = None -> c_time c' = c_time c.
Proof.
  destruct r as [n v]. unfold decode_property, sel_time, text_sel. cbn [fst snd]. destruct v; try discriminate.
  - unfold decode_int. destruct (list_eqb n _); discriminate.
  - unfold decode_string. destruct (list_eqb n (str "nv")); [discriminate|]. destruct (list_eqb n (str "signed")); [discriminate|].
    destruct (list_eqb n (str "swupdateaction")); [destruct (action_of s); [|discriminate]; intros E _; inversion E; reflexivity|].
    destruct (list_eqb n (str "swupdatestate")); [discriminate|]. destruct (list_eqb n (str "lastupdate")); [discriminate|].
    destruct (list_eqb n (str "updatetime")); [discriminate|]. destruct (list_eqb n (str "purl")); [|discriminate]. intros E _. inversion E. reflexivity.
Qed.
Lemma property_url hz r c c' : decode_property hz false r c = inl c' -> sel_url r = None -> c_purl c' = c_purl c.
Proof.
  destruct r as [n v]. unfold decode_property, sel_url, text_sel. cbn [fst snd]. destruct v; try discriminate.
  - unfold decode_int. destruct (list_eqb n _); discriminate.
  - unfold decode_string. destruct (list_eqb n (str "nv")); [discriminate|]. destruct (list_eqb n (str "signed")); [discriminate|].
    destruct (list_eqb n (str "swupdateaction")); [destruct (action_of s); [|discriminate]; intros E _; inversion E; reflexivity|].
    destruct (list_eqb n (str "swupdatestate")); [discriminate|]. destruct (list_eqb n (str "lastupdate")); [discriminate|].
    destruct (list_eqb n (str "updatetime")).
    { unfold decode_time. cbn [negb andb]. intros E _. destruct (list_eqb s (str "none")); [inversion E; reflexivity|]. destruct (list_eqb s (str "now")); [inversion E; reflexivity|].
      destruct (decode_timestamp hz s); [inversion E; reflexivity|discriminate]. }
    destruct (list_eqb n (str "purl")); discriminate.
Qed.
Lemma loop_keeps {A} hz (g : dc -> A) (sel : rep -> option text) :
  (forall r c c', decode_property hz false r c = inl c' -> sel r = None -> g c' = g c) ->
  forall l c ok told c' ok' told', Forall (fun r => sel r = None) l -> decode_loop hz false None l c ok told = (Some (c', ok'), told') -> g c' = g c.
Proof.
  intros P. induction l as [|r l IH]; intros c ok told c' ok' told' N D; cbn [decode_loop] in D; [congruence|]. inversion N as [|? ? N1 N2]; subst.
  destruct (decode_property hz false r c) as [c1|e] eqn:E; [|discriminate]. rewrite <- (P r c c1 E N1). exact (IH _ _ _ _ _ _ N2 D).
Qed.
Lemma hopeless_refused hz im now has l : 0 < hz -> hopeless l -> exists told, decode_request hz im now has None l = (None, told).
Proof.
  intros H X. assert (E : fst (decode_request hz im now has None l) = None).
  { destruct X as [(r & I & B & S)|N].
    - apply (request_bad hz im now has None l r H I); [|exact S]. intros s E. rewrite E in B. exact B.
    - unfold decode_request. destruct (decode_loop hz false None l nothing true []) as [[[c [|]]|] told] eqn:L; [|reflexivity|reflexivity].
      pose proof (validate_data_valid im now c has None told) as V. unfold skips in V. destruct (validate_data im now c _ None told) as [ok told2]. cbn [fst] in V. subst ok.
      assert (W : valid im now has c = false); [|rewrite W; reflexivity]. unfold valid. destruct N as [N|N]; apply no_text_by in N.
      + unfold validate_time. rewrite (loop_keeps hz c_time sel_time (property_time hz) l nothing true [] c true told N L). reflexivity.
      + assert (c_purl c = None) as U by exact (loop_keeps hz c_purl sel_url (property_url hz) l nothing true [] c true told N L). unfold skips, validate_url. rewrite U.
        destruct (c_action c); apply andb_false_r. }
  destruct (decode_request hz im now has None l) as [o told]. cbn [fst] in E. subst o. exists told. reflexivity.
Qed.

(** * Quiet operations *)
Lemma set_action_same s : set_action s (s_action s) = s.
Proof. destruct s; reflexivity. Qed.
Lemma dump_keeps hz d w : d_swu (dump hz d w) = d_swu d /\ d_alarm (dump hz d w) = d_alarm d /\ d_impl (dump hz d w) = d_impl d /\ d_calls (dump hz d w) = d_calls d /\ d_mode (dump hz d w) = d_mode d /\ d_now (dump hz d w) = d_now d.
Proof. unfold dump. destruct (encode hz (d_swu d) false true); [destruct w|]; repeat split. Qed.

(** What is stored is the data. *)
Definition filed (hz : Z) (d : dev) : Prop := exists l, encode hz (d_swu d) false true = Some l /\ d_file d = Some (enc_root l).
Lemma dump_filed hz d w : filed hz d -> filed hz (dump hz d w).
Proof. intros (l & E & F). exists l. unfold dump. rewrite E. destruct w; split; try assumption; reflexivity. Qed.

Definition fires (d : dev) (dt : Z) : bool := match d_alarm d with Some k => k <=? dt | None => false end.
Lemma elapse_spec hz d dt w : let d' := elapse hz d dt w in
  d_swu d' = d_swu d /\ d_impl d' = d_impl d /\ d_calls d' = (if fires d dt then calls_for (d_impl d) (s_action (d_swu d)) (d_swu d) else []) ++ d_calls d /\
  d_alarm d' = (match d_alarm d with Some k => if k <=? dt then None else Some (k - dt) | None => None end) /\ (filed hz d -> filed hz d') /\ d_mode d' = d_mode d.
Proof.
  intros d'. subst d'. unfold elapse, fires. set (d1 := mkDev (d_swu d) (d_alarm d) (d_dump d) (d_file d) (d_impl d) (d_calls d) (d_mode d) (d_now d + dt)).
  set (d2 := if d_dump d1 then _ else d1).
  assert (X : d_swu d2 = d_swu d /\ d_impl d2 = d_impl d /\ d_calls d2 = d_calls d /\ d_alarm d2 = d_alarm d /\ d_mode d2 = d_mode d /\ (filed hz d -> filed hz d2)).
  { subst d2. destruct (d_dump d1); [|repeat split; try reflexivity; intros F; exact F]. destruct (dump_keeps hz d1 w) as (A1 & A2 & A3 & A4 & A5 & A6).
    cbn [d_swu d_alarm d_impl d_calls d_mode d_now]. rewrite A1, A2, A3, A4, A5. repeat split. intros F. destruct (dump_filed hz d1 w F) as (l & E1 & E2). exists l.
    cbn [d_swu d_file]. split; [rewrite A1 in E1; exact E1|exact E2]. }
  destruct X as (X1 & X2 & X3 & X4 & X5 & X6). clearbody d2. rewrite X4. destruct (d_alarm d) as [k|].
  - destruct (k <=? dt).
    + unfold perform, with_alarm. cbn [d_swu d_alarm d_dump d_file d_impl d_calls d_mode]. rewrite set_action_same, X1, X2, X3. repeat split; [|assumption].
      intros F. destruct (X6 F) as (l & E1 & E2). exists l. cbn [d_swu d_file]. split; [rewrite X1 in E1; assumption|exact E2].
    + unfold with_alarm. cbn [d_swu d_alarm d_file d_impl d_calls d_mode]. rewrite X1, X2, X3. repeat split; [|assumption].
      intros F. destruct (X6 F) as (l & E1 & E2). exists l. cbn [d_swu d_file]. split; [rewrite X1 in E1; assumption|exact E2].
  - rewrite X4. rewrite X1, X2, X3. repeat split; assumption.
Qed.
(** The other quiet operations change nothing but the clock. *)
Lemma other_quiet hz d o : 0 < hz -> quiet o -> (forall dt w, o <> Elapse dt w) ->
  exists t, fst (step hz d o) = mkDev (d_swu d) (d_alarm d) (d_dump d) (d_file d) (d_impl d) (d_calls d) (d_mode d) t.
Proof.
  intros H Q N. destruct o; cbn [quiet] in Q; try contradiction.
  - elim (N dt w). reflexivity.
  - exists now. reflexivity.
  - exists (d_now d). cbn [step fst]. destruct d; reflexivity.
  - exists (d_now d). cbn [step]. destruct (hopeless_refused hz (d_impl d) (d_now d) (has_url d) l H Q) as (told & ->). destruct d; reflexivity.
  - exists (d_now d). cbn [step]. destruct (decode_request _ _ _ _ f l). destruct d; reflexivity.
Qed.
Lemma passed_pos ops : Forall quiet ops -> 0 <= passed ops.
Proof. induction 1 as [|o ops Q _ IH]; [reflexivity|]. destruct o; cbn [passed quiet] in *; lia. Qed.
Lemma not_looked ops : looked ops = false -> passed ops = 0.
Proof. induction ops as [|o ops IH]; [reflexivity|]. unfold looked in *. cbn [existsb]. destruct o; cbn [passed orb]; intros E; try discriminate; apply IH; exact E. Qed.

Definition still (hz : Z) (d d' : dev) : Prop := d_swu d' = d_swu d /\ d_impl d' = d_impl d /\ d_mode d' = d_mode d /\ (filed hz d -> filed hz d').
Lemma still_trans hz a b c : still hz a b -> still hz b c -> still hz a c.
Proof. intros (A1 & A2 & A3 & A4) (B1 & B2 & B3 & B4). split; [congruence|]. split; [congruence|]. split; [congruence|auto]. Qed.
Lemma quiet_none hz ops : 0 < hz -> Forall quiet ops -> forall d, d_alarm d = None -> still hz d (run hz d ops) /\ d_calls (run hz d ops) = d_calls d /\ d_alarm (run hz d ops) = None.
Proof.
  intros H. induction 1 as [|o ops Q _ IH]; intros d A; [split; [unfold still; auto|split; [reflexivity|exact A]]|]. cbn [run].
  assert (X : still hz d (fst (step hz d o)) /\ d_calls (fst (step hz d o)) = d_calls d /\ d_alarm (fst (step hz d o)) = None).
  { destruct o; try (destruct (other_quiet hz d _ H Q ltac:(discriminate)) as (tnow & ->); cbn [d_calls d_alarm]; split; [unfold still; auto|split; [reflexivity|exact A]]).
    cbn [step fst]. destruct (elapse_spec hz d dt w) as (E1 & E2 & E3 & E4 & E5 & E6). unfold fires in E3. rewrite A in E3, E4. split; [unfold still; auto|]. split; assumption. }
  destruct X as (X1 & X2 & X3). destruct (IH _ X3) as (Y1 & Y2 & Y3). split; [exact (still_trans _ _ _ _ X1 Y1)|]. split; [congruence|exact Y3].
Qed.
Lemma quiet_some hz ops : 0 < hz -> Forall quiet ops -> forall d k, d_alarm d = Some k ->
  still hz d (run hz d ops) /\
  d_calls (run hz d ops) = (if looked ops && (k <=? passed ops) then calls_for (d_impl d) (s_action (d_swu d)) (d_swu d) else []) ++ d_calls d /\
  d_alarm (run hz d ops) = (if looked ops && (k <=? passed ops) then None else Some (k - passed ops)).
Proof.
  intros H. induction 1 as [|o ops Q R IH]; intros d k A; [cbn [run looked existsb andb passed app]; split; [unfold still; auto|split; [reflexivity|rewrite Z.sub_0_r; exact A]]|]. cbn [run].
  destruct o; try (destruct (other_quiet hz d _ H Q ltac:(discriminate)) as (tnow & ->); match goal with |- context [run hz ?X ops] => destruct (IH X k A) as (Y1 & Y2 & Y3) end;
    cbn [d_swu d_impl d_calls] in Y2; split; [exact Y1|split; [exact Y2|exact Y3]]).
  cbn [step fst passed]. unfold looked. cbn [existsb orb andb]. fold (looked ops). cbn [quiet] in Q. destruct (elapse_spec hz d dt w) as (E1 & E2 & E3 & E4 & E5 & E6). unfold fires in E3. rewrite A in E3, E4. pose proof (passed_pos ops R) as P.
  assert (S : still hz d (elapse hz d dt w)) by (unfold still; auto). destruct (Z.leb_spec k dt) as [L|L].
  - destruct (quiet_none hz ops H R _ E4) as (Y1 & Y2 & Y3). split; [exact (still_trans _ _ _ _ S Y1)|]. destruct (Z.leb_spec k (dt + passed ops)); [|lia]. split; [congruence|exact Y3].
  - destruct (IH _ _ E4) as (Y1 & Y2 & Y3). split; [exact (still_trans _ _ _ _ S Y1)|]. rewrite Y2, Y3, E1, E2, E3. cbn [app].
    destruct (Z.leb_spec (k - dt) (passed ops)); destruct (Z.leb_spec k (dt + passed ops)); try lia.
    + rewrite andb_true_r. destruct (looked ops) eqn:G; [split; reflexivity|]. rewrite (not_looked ops G) in *. lia.
    + rewrite andb_false_r. split; [reflexivity|]. f_equal. lia.
Qed.
Lemma calls_done im a s : 0 <= a <= 3 -> done_for im a (ctext (s_purl s)) (ctext (s_nv s)) (calls_for im a s).
Proof.
  intros H. assert (a = 0 \/ a = 1 \/ a = 2 \/ a = 3) as [-> | [-> | [-> | ->]]] by lia; unfold done_for, calls_for, ISAC, ISVV, UPGRADE; cbn [Z.eqb Pos.eqb].
  - left. auto. - right. left. auto. - right. right. left. auto. - right. right. right. auto.
Qed.

(** * Storage *)
Definition kept (s : swu) : swu := mkSwu (Some (shown (s_purl s))) (Some (shown (s_nv s))) (Some (shown (s_signed s))) (s_action s) (s_state s) (s_result s) (s_last s) (s_time s).
Lemma shown_same o : Ael_Spec.opt_plain o -> same_text o (Some (shown o)).
Proof. destruct o as [t|]; cbn; [intros P; rewrite (cstr_id t P); reflexivity|reflexivity]. Qed.
Lemma kept_same hz s : sound hz s -> same s (kept s).
Proof. intros (_ & _ & _ & _ & _ & A & B & C). unfold same, kept. cbn [s_purl s_nv s_signed s_action s_state s_result s_last s_time]. repeat split; apply shown_same; assumption. Qed.

Lemma put_time_ok hz n t : frequency hz -> sensible hz t -> exists s, put_time hz n t = Some [(n, RStr s)] /\ decode_timestamp hz s = Some t /\ exact_text hz s t.
Proof.
  intros F S. destruct (encode_ok hz t F S) as (s & E & X & P). exists s. unfold put_time. rewrite E. split; [reflexivity|]. split; [|exact X]. destruct X as (x & W & _).
  unfold decode_timestamp. pose proof (written_len s x W). destruct (Nat.leb_spec 63 (List.length s)); [lia|exact P].
Qed.
Lemma sensible_pos hz t : sensible hz t -> (0 <? t) = true.
Proof. intros (A & _). apply Z.ltb_lt, A. Qed.
(** The pieces of what is stored. *)
Definition stored_list (s : swu) (a b : list rep) : list rep := texts s ++ a ++ b.
Lemma encode_pieces hz s : frequency hz -> sound hz s -> exists a b, encode hz s false true = Some (stored_list s a b) /\
  ((s_last s = 0 /\ a = []) \/ exists t, a = [(str "lastupdate", RStr t)] /\ decode_timestamp hz t = Some (s_last s)) /\
  ((s_time s = 0 /\ b = []) \/ exists t, b = [(str "updatetime", RStr t)] /\ decode_timestamp hz t = Some (s_time s)).
Proof.
  intros F (_ & _ & _ & A & B & _). unfold encode. cbn [negb orb].
  assert (X : exists a, (if 0 <? s_last s then put_time hz (str "lastupdate") (s_last s) else Some []) = Some a /\ ((s_last s = 0 /\ a = []) \/ exists t, a = [(str "lastupdate", RStr t)] /\ decode_timestamp hz t = Some (s_last s))).
  { destruct A as [A|A]; [rewrite A; exists []; split; [reflexivity|left; auto]|]. rewrite (sensible_pos _ _ A). destruct (put_time_ok hz (str "lastupdate") _ F A) as (t & E & D & _). exists [(str "lastupdate", RStr t)].
    split; [exact E|]. right. exists t. auto. }
  assert (Y : exists b, (if 0 <? s_time s then put_time hz (str "updatetime") (s_time s) else Some []) = Some b /\ ((s_time s = 0 /\ b = []) \/ exists t, b = [(str "updatetime", RStr t)] /\ decode_timestamp hz t = Some (s_time s))).
  { destruct B as [B|B]; [rewrite B; exists []; split; [reflexivity|left; auto]|]. rewrite (sensible_pos _ _ B). destruct (put_time_ok hz (str "updatetime") _ F B) as (t & E & D & _). exists [(str "updatetime", RStr t)].
    split; [exact E|]. right. exists t. auto. }
  destruct X as (a & -> & X). destruct Y as (b & -> & Y). exists a, b. split; [reflexivity|]. split; assumption.
Qed.
Lemma stored_read s a b : 0 <= s_result s < 2 ^ 31 -> (a = [] \/ exists n t, a = [(n, RStr t)]) -> (b = [] \/ exists n t, b = [(n, RStr t)]) ->
  Sd_Model.stored (Some (enc_root (stored_list s a b))) = Some (Some (stored_list s a b)).
Proof.
  intros R A B. assert (P : parse (enc_root (stored_list s a b)) = Ok (PRep (stored_list s a b))).
  { unfold enc_root. cbn [parse]. rewrite (members_reads _ (stored_list s a b)); [reflexivity|]. unfold stored_list, texts. apply Forall2_app; [|apply Forall2_app].
    - do 5 (constructor; [apply reads_writable; constructor|]). constructor; [apply reads_int; lia|constructor].
    - destruct A as [->|(n & t & ->)]; [constructor|]. constructor; [apply reads_writable; constructor|constructor].
    - destruct B as [->|(n & t & ->)]; [constructor|]. constructor; [apply reads_writable; constructor|constructor]. }
  unfold Sd_Model.stored. rewrite P. reflexivity.
Qed.
Lemma decode_back hz s a b now : frequency hz -> sound hz s ->
  ((s_last s = 0 /\ a = []) \/ exists t, a = [(str "lastupdate", RStr t)] /\ decode_timestamp hz t = Some (s_last s)) ->
  ((s_time s = 0 /\ b = []) \/ exists t, b = [(str "updatetime", RStr t)] /\ decode_timestamp hz t = Some (s_time s)) ->
  exists c, decode_store hz (stored_list s a b) = Some c /\ copy now c blank = kept s.
Proof.
  intros F (A & S & _) X Y. pose proof (proj2 (action_of_spec _ _) (action_str_name _ A)) as EA. pose proof (proj2 (state_str_name _ S)) as ES.
  unfold decode_store, stored_list, texts.
  assert (L : forall l, decode_loop hz true None ([(str "purl", RStr (shown (s_purl s))); (str "nv", RStr (shown (s_nv s))); (str "signed", RStr (shown (s_signed s)));
    (str "swupdateaction", RStr (action_str (s_action s))); (str "swupdatestate", RStr (state_str (s_state s))); (str "swupdateresult", RInt (s_result s))] ++ l) nothing true [] =
    decode_loop hz true None l (mkDc (Some (shown (s_purl s))) (Some (shown (s_nv s))) (Some (shown (s_signed s))) (Some (s_action s)) (Some (s_state s)) (Some (s_result s)) None NotSet) true []).
  { intros l. cbn [app].
    do 3 (cbn [decode_loop]; match goal with |- context [decode_property hz true ?r ?c] => let x := eval cbv -[shown] in (decode_property hz true r c) in change (decode_property hz true r c) with x end; cbv iota beta).
    cbn [decode_loop]. unfold decode_property at 1. cbn [fst snd]. unfold decode_string at 1. cbn [str list_eqb]. change (list_eqb (str "swupdateaction") (str "nv")) with false. change (list_eqb (str "swupdateaction") (str "signed")) with false.
    change (list_eqb (str "swupdateaction") (str "swupdateaction")) with true. cbv iota. rewrite EA.
    cbn [decode_loop]. unfold decode_property at 1. cbn [fst snd]. unfold decode_string at 1. change (list_eqb (str "swupdatestate") (str "nv")) with false. change (list_eqb (str "swupdatestate") (str "signed")) with false.
    change (list_eqb (str "swupdatestate") (str "swupdateaction")) with false. change (list_eqb (str "swupdatestate") (str "swupdatestate")) with true. cbv iota. rewrite ES. reflexivity. }
  rewrite L. clear L.
  assert (La : forall t c l, decode_timestamp hz t = Some (s_last s) -> decode_loop hz true None ((str "lastupdate", RStr t) :: l) c true [] =
     decode_loop hz true None l (mkDc (c_purl c) (c_nv c) (c_signed c) (c_action c) (c_state c) (c_result c) (Some (s_last s)) (c_time c)) true []).
  { intros t c l E. cbn [decode_loop]. unfold decode_property. cbn [fst snd]. unfold decode_string. change (list_eqb (str "lastupdate") (str "nv")) with false. change (list_eqb (str "lastupdate") (str "signed")) with false.
    change (list_eqb (str "lastupdate") (str "swupdateaction")) with false. change (list_eqb (str "lastupdate") (str "swupdatestate")) with false. change (list_eqb (str "lastupdate") (str "lastupdate")) with true. cbv iota. rewrite E. reflexivity. }
  assert (Lb : forall t c l, decode_timestamp hz t = Some (s_time s) -> decode_loop hz true None ((str "updatetime", RStr t) :: l) c true [] =
     decode_loop hz true None l (mkDc (c_purl c) (c_nv c) (c_signed c) (c_action c) (c_state c) (c_result c) (c_last c) (At (s_time s))) true []).
  { intros t c l E. cbn [decode_loop]. unfold decode_property. cbn [fst snd]. unfold decode_string. change (list_eqb (str "updatetime") (str "nv")) with false. change (list_eqb (str "updatetime") (str "signed")) with false.
    change (list_eqb (str "updatetime") (str "swupdateaction")) with false. change (list_eqb (str "updatetime") (str "swupdatestate")) with false. change (list_eqb (str "updatetime") (str "lastupdate")) with false.
    change (list_eqb (str "updatetime") (str "updatetime")) with true. cbv iota. unfold decode_time. cbn [negb andb]. rewrite E. reflexivity. }
  destruct X as [[X ->]|(t & -> & X)]; destruct Y as [[Y ->]|(t' & -> & Y)]; cbn [app].
  - eexists. split; [reflexivity|]. unfold copy, kept. cbn. rewrite X, Y. reflexivity.
  - rewrite (Lb _ _ _ Y). eexists. split; [reflexivity|]. unfold copy, kept. cbn. rewrite X. reflexivity.
  - rewrite (La _ _ _ X). eexists. split; [reflexivity|]. unfold copy, kept. cbn. rewrite Y. reflexivity.
  - rewrite (La _ _ _ X), (Lb _ _ _ Y). eexists. split; [reflexivity|]. reflexivity.
Qed.

Definition alarm_for (now : Z) (s : swu) : option Z := if (s_action s =? 0) || (s_time s =? 0) then None else Some (Z.max 0 (s_time s - now)).
Lemma execute_alarm d : d_alarm (execute d) = alarm_for (d_now d) (d_swu d).
Proof. unfold execute, alarm_for, with_alarm, IDLE. cbn [d_alarm]. destruct (_ || _); [reflexivity|]. f_equal. destruct (Z.ltb_spec (d_now d) (s_time (d_swu d))); lia. Qed.
Lemma start_filed hz d now im w : frequency hz -> filed hz d -> sound hz (d_swu d) ->
  let d' := fst (step hz d (Start now im w)) in
  d_swu d' = kept (d_swu d) /\ d_alarm d' = alarm_for now (d_swu d) /\ d_calls d' = d_calls d /\ d_impl d' = im /\ d_file d' = d_file d /\ d_dump d' = false /\ d_now d' = now.
Proof.
  intros F (l & E & Fl) S. cbn [step fst]. unfold load. cbn [d_file]. rewrite Fl. destruct (encode_pieces hz (d_swu d) F S) as (a & b & E' & X & Y).
  assert (l = stored_list (d_swu d) a b) by congruence. subst l. rewrite stored_read.
  - destruct (decode_back hz (d_swu d) a b now F S X Y) as (c & D & C). rewrite D. cbn [d_now d_swu]. rewrite C. set (D1 := with_swu _ _).
    split; [reflexivity|]. split; [exact (execute_alarm D1)|]. repeat split.
  - apply S.
  - destruct X as [[_ ->]|(t & -> & _)]; [left; reflexivity|right; do 2 eexists; reflexivity].
  - destruct Y as [[_ ->]|(t & -> & _)]; [left; reflexivity|right; do 2 eexists; reflexivity].
Qed.
Lemma encode_kept hz s : frequency hz -> sound hz s -> encode hz (kept s) false true = encode hz s false true.
Proof.
  intros F (_ & _ & _ & _ & _ & A & B & C). unfold encode, texts, kept. cbn [s_purl s_nv s_signed s_action s_state s_result s_last s_time]. cbn [shown].
  assert (X : forall o, Ael_Spec.opt_plain o -> cstr (shown o) = shown o) by (intros [t|] P; cbn; [rewrite !(cstr_id t P); reflexivity|reflexivity]). rewrite !X by assumption. reflexivity.
Qed.
Lemma kept_sound hz s : sound hz s -> sound hz (kept s).
Proof.
  intros (H1 & H2 & H3 & H4 & H5 & A & B & C). assert (X : forall o, Ael_Spec.opt_plain o -> Ael_Spec.opt_plain (Some (shown o))) by (intros [t|] P; cbn; [rewrite (cstr_id t P); exact P|intros []]).
  unfold sound, kept. cbn [s_purl s_nv s_signed s_action s_state s_result s_last s_time]. split; [exact H1|]. split; [exact H2|]. split; [exact H3|]. split; [exact H4|]. split; [exact H5|]. split; [apply X, A|]. split; [apply X, B|apply X, C].
Qed.
Lemma dump_file hz d : frequency hz -> sound hz (d_swu d) -> filed hz (dump hz d true).
Proof. intros F S. destruct (encode_pieces hz _ F S) as (a & b & E & _). exists (stored_list (d_swu d) a b). unfold dump. rewrite E. split; [exact E|reflexivity]. Qed.
