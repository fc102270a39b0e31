(** Proofs about requests to the software update resource. *)
From Verif Require Import Common Rep_Model Repd_Model Acl_Model Ael_Model Ael_Spec Ael_Proofs Ael3_Proofs Ts_Model Ts_Spec Ts3_Proofs Ts4_Proofs Ts_Props Pt_Spec Sd_Proofs Swu_Model Swu_Spec.
From Verif Require Sd_Spec.
From Coq Require Import String ZArith.
Notation rep := Rep_Model.rep.
Local Open Scope string_scope.
Local Open Scope list_scope.
Local Open Scope Z_scope.

(** * Names *)
Lemma action_of_spec s a : action_of s = Some a <-> action_name a s.
Proof.
  unfold action_of, action_name. split.
  - destruct (list_eqb s (str "idle")) eqn:E1; [apply list_eqb_spec in E1; intros H; assert (a = IDLE) by congruence; auto|].
    destruct (list_eqb s (str "isac")) eqn:E2; [apply list_eqb_spec in E2; intros H; assert (a = ISAC) by congruence; auto|].
    destruct (list_eqb s (str "isvv")) eqn:E3; [apply list_eqb_spec in E3; intros H; assert (a = ISVV) by congruence; auto|].
    destruct (list_eqb s (str "upgrade")) eqn:E4; [apply list_eqb_spec in E4; intros H; assert (a = UPGRADE) by congruence; auto 6|discriminate].
  - intros [[-> ->]|[[-> ->]|[[-> ->]|[-> ->]]]]; reflexivity.
Qed.
Lemma action_str_name a : 0 <= a <= 3 -> action_name a (action_str a).
Proof. intros H. assert (a = 0 \/ a = 1 \/ a = 2 \/ a = 3) as [-> | [-> | [-> | ->]]] by lia; unfold action_name; cbn; auto 6. Qed.
Lemma state_str_name a : 0 <= a <= 4 -> state_name a (state_str a) /\ state_of (state_str a) = Some a.
Proof. intros H. assert (a = 0 \/ a = 1 \/ a = 2 \/ a = 3 \/ a = 4) as [-> | [-> | [-> | [-> | ->]]]] by lia; unfold state_name; (split; [cbn; auto 8|reflexivity]). Qed.

(** * Times *)
Lemma timestamp_some hz s x : 0 < hz -> written s x -> decode_timestamp hz s = Some (instant x * hz / 10 ^ 9 mod 2 ^ 64).
Proof. intros H W. unfold decode_timestamp. pose proof (written_len s x W). destruct (Nat.leb_spec 63 (List.length s)); [lia|]. apply clock_parse_written; assumption. Qed.
Lemma timestamp_inv hz s t : 0 < hz -> bytes_ok s -> decode_timestamp hz s = Some t -> exists x, written s x /\ t = instant x * hz / 10 ^ 9 mod 2 ^ 64.
Proof.
  intros H B. unfold decode_timestamp. destruct (Nat.leb 63 _); [discriminate|]. unfold clock_parse. destruct (timestamp_parse s) as [x|] eqn:E; [|discriminate].
  apply (parse_iff s x B) in E. intros T. exists x. split; [exact E|]. pose proof (clock_parse_written hz s x H E) as P. unfold clock_parse in P. rewrite (written_parse s x E) in P. congruence.
Qed.

(** When the update is to be done, by the text of the request. *)
Definition when_of (hz : Z) (s : text) : option when :=
  if list_eqb s (str "none") then Some Never else if list_eqb s (str "now") then Some Now else match decode_timestamp hz s with Some t => Some (At t) | None => None end.
Lemma when_of_spec hz s w : 0 < hz -> bytes_ok s -> when_of hz s = Some w ->
  (s = str "none" /\ w = Never) \/ (s = str "now" /\ w = Now) \/ exists x, written s x /\ w = At (instant x * hz / 10 ^ 9 mod 2 ^ 64).
Proof.
  intros H B. unfold when_of. destruct (list_eqb s (str "none")) eqn:E1; [apply list_eqb_spec in E1; intros W; left; split; congruence|].
  destruct (list_eqb s (str "now")) eqn:E2; [apply list_eqb_spec in E2; intros W; right; left; split; congruence|].
  destruct (decode_timestamp hz s) as [t|] eqn:E; [|discriminate]. intros W. destruct (timestamp_inv hz s t H B E) as (x & Wx & ->). right. right. exists x. split; congruence.
Qed.
Lemma not_written (s : text) x : written s x -> s <> str "none" /\ s <> str "now".
Proof.
  intros W. apply written_parse in W. split; intros ->; vm_compute in W; discriminate.
Qed.
Lemma when_of_some hz s : 0 < hz -> time_text s -> exists w, when_of hz s = Some w.
Proof.
  intros H [->|[->|(x & W)]]; [eexists; reflexivity|eexists; reflexivity|]. unfold when_of. destruct (list_eqb s (str "none")); [eexists; reflexivity|].
  destruct (list_eqb s (str "now")); [eexists; reflexivity|]. rewrite (timestamp_some hz s x H W). eexists; reflexivity.
Qed.
Lemma when_of_written hz s x : 0 < hz -> written s x -> when_of hz s = Some (At (instant x * hz / 10 ^ 9 mod 2 ^ 64)).
Proof.
  intros H W. destruct (not_written s x W) as [N1 N2]. unfold when_of. destruct (list_eqb s (str "none")) eqn:E1; [apply list_eqb_spec in E1; contradiction|].
  destruct (list_eqb s (str "now")) eqn:E2; [apply list_eqb_spec in E2; contradiction|]. rewrite (timestamp_some hz s x H W). reflexivity.
Qed.

(** * Properties *)
Definition sel_url := text_sel (str "purl").
Definition sel_act := text_sel (str "swupdateaction").
Definition sel_time := text_sel (str "updatetime").
Definition apply_to (hz : Z) (r : rep) (c : dc) : dc :=
  mkDc (match sel_url r with Some u => Some u | None => c_purl c end) (c_nv c) (c_signed c)
       (match sel_act r with Some s => action_of s | None => c_action c end) (c_state c) (c_result c) (c_last c)
       (match sel_time r with Some s => orelse (when_of hz s) NotSet | None => c_time c end).
Definition bytes_in (l : list rep) : Prop := forall n s, In (n, RStr s) l -> bytes_ok s.

Ltac name_is n H := destruct (list_eqb n _) eqn:H; [apply list_eqb_spec in H; subst n|].
Lemma property_settable hz r c : 0 < hz -> settable r -> decode_property hz false r c = inl (apply_to hz r c).
Proof.
  intros H [(s & a & -> & A)|[(s & -> & T)|(s & ->)]]; unfold decode_property, decode_string, apply_to; cbn [fst snd].
  - change (list_eqb (str "swupdateaction") (str "nv")) with false. change (list_eqb (str "swupdateaction") (str "signed")) with false. rewrite list_eqb_refl. cbv iota.
    change (sel_url (str "swupdateaction", RStr s)) with (@None text). change (sel_time (str "swupdateaction", RStr s)) with (@None text).
    change (sel_act (str "swupdateaction", RStr s)) with (Some s). cbv iota. apply action_of_spec in A. rewrite A. reflexivity.
  - change (list_eqb (str "updatetime") (str "nv")) with false. change (list_eqb (str "updatetime") (str "signed")) with false. change (list_eqb (str "updatetime") (str "swupdateaction")) with false.
    change (list_eqb (str "updatetime") (str "swupdatestate")) with false. change (list_eqb (str "updatetime") (str "lastupdate")) with false. rewrite list_eqb_refl. cbv iota.
    change (sel_url (str "updatetime", RStr s)) with (@None text). change (sel_act (str "updatetime", RStr s)) with (@None text).
    change (sel_time (str "updatetime", RStr s)) with (Some s). cbv iota. destruct (when_of_some hz s H T) as (w & W). rewrite W. cbn [orelse].
    unfold decode_time. cbn [negb andb]. unfold when_of in W. destruct (list_eqb s (str "none")); [assert (w = Never) by congruence; subst; reflexivity|].
    destruct (list_eqb s (str "now")); [assert (w = Now) by congruence; subst; reflexivity|]. destruct (decode_timestamp hz s) as [t|]; [|discriminate]. assert (w = At t) by congruence. subst. reflexivity.
  - reflexivity.
Qed.
Lemma property_inv hz r c c' : 0 < hz -> (forall s, snd r = RStr s -> bytes_ok s) -> decode_property hz false r c = inl c' -> settable r.
Proof.
  intros H B. destruct r as [n v]. cbn [snd] in B. unfold decode_property. cbn [fst snd]. destruct v; try discriminate.
  - unfold decode_int. destruct (list_eqb n _); discriminate.
  - unfold decode_string. destruct (list_eqb n (str "nv")) eqn:E1; [discriminate|]. destruct (list_eqb n (str "signed")) eqn:E2; [discriminate|].
    destruct (list_eqb n (str "swupdateaction")) eqn:E3.
    { apply list_eqb_spec in E3. subst n. destruct (action_of s) as [a|] eqn:A; [|discriminate]. intros _. left. exists s, a. split; [reflexivity|]. apply action_of_spec, A. }
    destruct (list_eqb n (str "swupdatestate")) eqn:E4; [discriminate|]. destruct (list_eqb n (str "lastupdate")) eqn:E5; [discriminate|].
    destruct (list_eqb n (str "updatetime")) eqn:E6.
    { apply list_eqb_spec in E6. subst n. unfold decode_time. cbn [negb andb]. intros D. right. left. exists s. split; [reflexivity|].
      destruct (list_eqb s (str "none")) eqn:F1; [apply list_eqb_spec in F1; left; exact F1|]. destruct (list_eqb s (str "now")) eqn:F2; [apply list_eqb_spec in F2; right; left; exact F2|].
      destruct (decode_timestamp hz s) as [t|] eqn:T; [|discriminate]. destruct (timestamp_inv hz s t H (B s eq_refl) T) as (x & W & _). right. right. exists x. exact W. }
    destruct (list_eqb n (str "purl")) eqn:E7; [|discriminate]. apply list_eqb_spec in E7. subst n. intros _. right. right. exists s. reflexivity.
Qed.

(** * The loop *)
Fixpoint applied (hz : Z) (l : list rep) (c : dc) : dc := match l with [] => c | r :: t => applied hz t (apply_to hz r c) end.
Lemma loop_settable hz f l : 0 < hz -> Forall settable l -> forall c ok told, decode_loop hz false f l c ok told = (Some (applied hz l c, ok), told).
Proof.
  intros H. induction 1 as [|r l S _ IH]; intros c ok told; [reflexivity|]. cbn [decode_loop applied]. rewrite (property_settable hz r c H S). apply IH.
Qed.
(** With a property that may not be set, the request fails. *)
Lemma loop_false hz f l : forall c told, match decode_loop hz false f l c false told with (Some (_, b), _) => b = false | _ => True end.
Proof.
  induction l as [|r l IH]; intros c told; [reflexivity|]. cbn [decode_loop]. destruct (decode_property hz false r c); [apply IH|].
  destruct (go_on f _); [apply IH|exact I].
Qed.
Lemma loop_bad hz f l r : 0 < hz -> In r l -> (forall s, snd r = RStr s -> bytes_ok s) -> ~ settable r ->
  forall c ok told, match decode_loop hz false f l c ok told with (Some (_, b), _) => b = false | _ => True end.
Proof.
  intros H I B S. induction l as [|r' l IH]; intros c ok told; [destruct I|]. cbn [decode_loop]. destruct (decode_property hz false r' c) as [c'|e] eqn:E.
  - destruct I as [->|I]; [elim S; exact (property_inv hz r c c' H B E)|]. apply IH, I.
  - destruct (go_on f _); [apply loop_false|exact Logic.I].
Qed.
Lemma loop_true hz f l : 0 < hz -> bytes_in l -> forall c told c' told', decode_loop hz false f l c true told = (Some (c', true), told') -> Forall settable l.
Proof.
  intros H. induction l as [|r l IH]; intros B c told c' told' D; [constructor|]. cbn [decode_loop] in D. destruct (decode_property hz false r c) as [c1|e] eqn:E.
  - constructor; [apply (property_inv hz r c c1 H); [|exact E]|exact (IH (fun n s i => B n s (or_intror i)) _ _ _ _ D)].
    intros s Es. destruct r as [n v]. cbn [snd] in Es. subst v. apply (B n s). left. reflexivity.
  - destruct (go_on f _); [|discriminate]. pose proof (loop_false hz f l c (told_of f told (Some r, e))) as F. rewrite D in F. discriminate.
Qed.

(** What was read. *)
Lemma applied_rest hz l : forall c, c_nv (applied hz l c) = c_nv c /\ c_signed (applied hz l c) = c_signed c /\ c_state (applied hz l c) = c_state c /\
  c_result (applied hz l c) = c_result c /\ c_last (applied hz l c) = c_last c.
Proof. induction l as [|r l IH]; intros c; [repeat split|]. cbn [applied]. destruct (IH (apply_to hz r c)) as (A & B & C & D & E). repeat split; assumption. Qed.
Lemma applied_url hz l : forall c, c_purl (applied hz l c) = upd sel_url (c_purl c) l.
Proof. induction l as [|r l IH]; intros c; [reflexivity|]. cbn [applied]. rewrite IH. unfold upd. cbn [fold_left]. reflexivity. Qed.
Lemma applied_act hz l s : last_by sel_act l s -> forall c, c_action (applied hz l c) = action_of s.
Proof.
  intros (a & r & b & -> & E & N). assert (X : forall c, c_action (applied hz b c) = c_action c).
  { clear a r E. induction N as [|r b E _ IH]; intros c; [reflexivity|]. cbn [applied]. rewrite IH. cbn [apply_to c_action]. rewrite E. reflexivity. }
  induction a as [|r' a IH]; intros c; cbn [app applied]; [|apply IH]. rewrite X. cbn [apply_to c_action]. rewrite E. reflexivity.
Qed.
Lemma applied_no_act hz l : Forall (fun r => sel_act r = None) l -> forall c, c_action (applied hz l c) = c_action c.
Proof. induction 1 as [|r b E _ IH]; intros c; [reflexivity|]. cbn [applied]. rewrite IH. cbn [apply_to c_action]. rewrite E. reflexivity. Qed.
Lemma applied_time hz l s : last_by sel_time l s -> forall c, c_time (applied hz l c) = orelse (when_of hz s) NotSet.
Proof.
  intros (a & r & b & -> & E & N). assert (X : forall c, c_time (applied hz b c) = c_time c).
  { clear a r E. induction N as [|r b E _ IH]; intros c; [reflexivity|]. cbn [applied]. rewrite IH. cbn [apply_to c_time]. rewrite E. reflexivity. }
  induction a as [|r' a IH]; intros c; cbn [app applied]; [|apply IH]. rewrite X. cbn [apply_to c_time]. rewrite E. reflexivity.
Qed.
Lemma applied_no_time hz l : Forall (fun r => sel_time r = None) l -> forall c, c_time (applied hz l c) = c_time c.
Proof. induction 1 as [|r b E _ IH]; intros c; [reflexivity|]. cbn [applied]. rewrite IH. cbn [apply_to c_time]. rewrite E. reflexivity. Qed.

(** * Requests *)
Lemma in_settable_time l s : Forall settable l -> In (str "updatetime", RStr s) l -> time_text s.
Proof.
  intros F I. rewrite Forall_forall in F. destruct (F _ I) as [(s' & a & E & _)|[(s' & E & T)|(s' & E)]]; [discriminate E| |discriminate E].
  assert (s = s') by congruence. subst. exact T.
Qed.
Lemma in_settable_act l s : Forall settable l -> In (str "swupdateaction", RStr s) l -> exists a, action_name a s.
Proof.
  intros F I. rewrite Forall_forall in F. destruct (F _ I) as [(s' & a & E & T)|[(s' & E & _)|(s' & E)]]; [|discriminate E|discriminate E].
  assert (s = s') by congruence. subst. exists a. exact T.
Qed.
Lemma last_in_list l n s : Sd_Spec.last_text l n s -> In (n, RStr s) l.
Proof. intros (a & b & -> & _). apply in_or_app. right. left. reflexivity. Qed.
Lemma text_cases l n : (exists s, Sd_Spec.last_text l n s) \/ Sd_Spec.no_text l n.
Proof. destruct (upd_cases (text_sel n) l) as [(v & L)|N]; [left; exists v; apply last_text_by, L|right; apply no_text_by, N]. Qed.
Lemma text_det l n s s' : Sd_Spec.last_text l n s -> Sd_Spec.last_text l n s' -> s = s'.
Proof.
  intros A B. apply last_text_by in A, B. pose proof (upd_last _ None _ _ A) as E. rewrite (upd_last _ None _ _ B) in E. congruence.
Qed.
Lemma text_not l n s : Sd_Spec.last_text l n s -> Sd_Spec.no_text l n -> False.
Proof. intros A B. exact (B s (last_in_list _ _ _ A)). Qed.

Definition skips (has : bool) (c : dc) : bool :=
  match c_action c, c_purl c with
  | Some a, Some u => negb (a =? IDLE) && (match u with [] => true | b :: _ => (b =? 0)%N end) && has
  | _, _ => false
  end.
Definition valid (im : impl) (now : Z) (has : bool) (c : dc) : bool := (validate_time now c =? 0) && (skips has c || (validate_url im c =? 0)).
Lemma validate_data_valid im now c has f told : fst (validate_data im now c (skips has c) f told) = valid im now has c.
Proof.
  unfold validate_data, valid. destruct (validate_time now c =? 0) eqn:E; cbn [negb andb].
  - destruct (skips has c); [reflexivity|]. destruct (validate_url im c =? 0); reflexivity.
  - destruct (go_on f _); cbn [negb]; [|reflexivity]. destruct (skips has c); [reflexivity|]. destruct (validate_url im c =? 0); reflexivity.
Qed.
Lemma request_settable hz im now has f l : 0 < hz -> Forall settable l ->
  fst (decode_request hz im now has f l) = if valid im now has (applied hz l nothing) then Some (applied hz l nothing) else None.
Proof.
  intros H F. unfold decode_request. rewrite (loop_settable hz f l H F). pose proof (validate_data_valid im now (applied hz l nothing) has f []) as V. unfold skips in V.
  destruct (validate_data im now (applied hz l nothing) _ f []) as [ok told]. cbn [fst] in V. subst ok. reflexivity.
Qed.
Lemma request_bad hz im now has f l r : 0 < hz -> In r l -> (forall s, snd r = RStr s -> bytes_ok s) -> ~ settable r -> fst (decode_request hz im now has f l) = None.
Proof.
  intros H I B S. unfold decode_request. pose proof (loop_bad hz f l r H I B S nothing true []) as L. destruct (decode_loop hz false f l nothing true []) as [[[c [|]]|] told]; [discriminate|reflexivity|reflexivity].
Qed.
Lemma request_true hz im now has f l c : 0 < hz -> bytes_in l -> fst (decode_request hz im now has f l) = Some c -> Forall settable l.
Proof.
  intros H B. unfold decode_request. destruct (decode_loop hz false f l nothing true []) as [[[c' [|]]|] told] eqn:L; [|discriminate|discriminate].
  intros _. exact (loop_true hz f l H B _ _ _ _ L).
Qed.

(** Valid data are those of a request in order. *)
Lemma valid_time_iff hz now l : 0 < hz -> bytes_in l -> Forall settable l -> modern hz l ->
  (validate_time now (applied hz l nothing) = 0 <-> exists s, Sd_Spec.last_text l (str "updatetime") s /\ in_time hz now s).
Proof.
  intros H B F M. unfold validate_time. destruct (text_cases l (str "updatetime")) as [(s & L)|N].
  - rewrite (applied_time hz l s (proj1 (last_text_by _ _ _) L)). pose proof (last_in_list _ _ _ L) as I. pose proof (in_settable_time l s F I) as T.
    destruct (when_of_some hz s H T) as (w & W). rewrite W. cbn [orelse]. destruct (when_of_spec hz s w H (B _ _ I) W) as [[E ->]|[[E ->]|(x & Wx & ->)]].
    + split; [intros _; exists s; split; [exact L|left; exact E]|reflexivity].
    + split; [intros _; exists s; split; [exact L|right; left; exact E]|reflexivity].
    + rewrite Z.mod_small by exact (M s x I Wx). destruct (Z.ltb_spec (instant x * hz / 10 ^ 9) now) as [Lt|Ge].
      * split; [discriminate|]. intros (s' & L' & T'). rewrite (text_det _ _ _ _ L' L) in T'. destruct (not_written s x Wx) as [N1 N2]. destruct T' as [E|[E|(y & Wy & Le)]]; [contradiction|contradiction|].
        assert (instant y = instant x) as E by (apply written_parse in Wx, Wy; congruence). rewrite E in Le. lia.
      * split; [|reflexivity]. intros _. exists s. split; [exact L|]. right. right. exists x. split; [exact Wx|lia].
  - rewrite (applied_no_time hz l (proj1 (no_text_by _ _) N)). cbn. split; [discriminate|]. intros (s & L & _). destruct (text_not _ _ _ L N).
Qed.
Lemma action_det a b s : action_name a s -> action_name b s -> a = b.
Proof. intros A B. apply action_of_spec in A, B. congruence. Qed.
Lemma url_empty u : plain_text u -> match u with [] => true | b :: _ => (b =? 0)%N end = true <-> u = [].
Proof. destruct u as [|b u]; [tauto|]. intros P. split; [|discriminate]. intros E. apply N.eqb_eq in E. subst b. elim P. left. reflexivity. Qed.
Lemma valid_url_iff hz im has l : Forall settable l -> plain_urls l ->
  (skips has (applied hz l nothing) || (validate_url im (applied hz l nothing) =? 0) = true <-> exists u, Sd_Spec.last_text l (str "purl") u /\ url_ok im has l u).
Proof.
  intros F P. unfold skips, validate_url. rewrite applied_url. change (c_purl nothing) with (@None (list N)). destruct (text_cases l (str "purl")) as [(u & L)|N].
  - rewrite (upd_last sel_url None l u (proj1 (last_text_by _ _ _) L)). pose proof (P u (last_in_list _ _ _ L)) as Pu. rewrite (cstr_id u Pu).
    assert (V : (match i_url im with Some v => if v u then 0 else E_PURL | None => E_IMPL end =? 0) = true <-> exists v, i_url im = Some v /\ v u = true).
    { destruct (i_url im) as [v|]; [|split; [discriminate|intros (v & E & _); discriminate]]. destruct (v u) eqn:E; (split; [intros X|intros (v' & E' & X)]).
      - exists v. auto. - reflexivity. - discriminate. - assert (v' = v) by congruence. subst. congruence. }
    assert (S : match c_action (applied hz l nothing) with Some a => negb (a =? IDLE) && match u with [] => true | b :: _ => (b =? 0)%N end && has | None => false end = true <->
                u = [] /\ has = true /\ exists s a, Sd_Spec.last_text l (str "swupdateaction") s /\ action_name a s /\ a <> 0).
    { destruct (text_cases l (str "swupdateaction")) as [(s & La)|Na].
      - rewrite (applied_act hz l s (proj1 (last_text_by _ _ _) La)). destruct (in_settable_act l s F (last_in_list _ _ _ La)) as (a & A). rewrite (proj2 (action_of_spec s a) A).
        rewrite !andb_true_iff, negb_true_iff, Z.eqb_neq, (url_empty u Pu). split.
        + intros ((X1 & X2) & X3). split; [exact X2|]. split; [exact X3|]. exists s, a. auto.
        + intros (X2 & X3 & s' & a' & L' & A' & X1). rewrite (text_det _ _ _ _ L' La) in A'. rewrite (action_det _ _ _ A' A) in X1. auto.
      - rewrite (applied_no_act hz l (proj1 (no_text_by _ _) Na)). cbn [nothing c_action]. split; [discriminate|]. intros (_ & _ & s & a & L' & _). destruct (text_not _ _ _ L' Na). }
    rewrite orb_true_iff, S, V. split.
    + intros X. exists u. split; [exact L|]. unfold url_ok. tauto.
    + intros (u' & L' & X). rewrite (text_det _ _ _ _ L' L) in X. unfold url_ok in X. tauto.
  - rewrite (upd_none sel_url l (proj1 (no_text_by _ _) N)). split.
    + destruct (c_action (applied hz l nothing)); discriminate.
    + intros (u & L & _). destruct (text_not _ _ _ L N).
Qed.
Lemma valid_iff hz im now has l : 0 < hz -> bytes_in l -> Forall settable l -> plain_urls l -> modern hz l ->
  (valid im now has (applied hz l nothing) = true <-> in_order hz now im has l).
Proof.
  intros H B F P M. unfold valid. rewrite andb_true_iff, Z.eqb_eq, (valid_time_iff hz now l H B F M), (valid_url_iff hz im has l F P). unfold in_order. tauto.
Qed.
Lemma request_iff hz im now has f l : 0 < hz -> bytes_in l -> plain_urls l -> modern hz l ->
  (fst (decode_request hz im now has f l) = Some (applied hz l nothing) /\ in_order hz now im has l) \/ (fst (decode_request hz im now has f l) = None /\ ~ in_order hz now im has l).
Proof.
  intros H B P M. destruct (fst (decode_request hz im now has f l)) as [c|] eqn:E.
  - pose proof (request_true hz im now has f l c H B E) as F. rewrite (request_settable hz im now has f l H F) in E. destruct (valid im now has (applied hz l nothing)) eqn:V; [|discriminate].
    left. split; [congruence|]. apply (valid_iff hz im now has l H B F P M), V.
  - right. split; [reflexivity|]. intros O. pose proof (proj1 O) as F. apply (valid_iff hz im now has l H B F P M) in O. rewrite (request_settable hz im now has f l H F), O in E. discriminate.
Qed.

(** The data after a request. *)
Lemma copy_updated hz im now has l s : 0 < hz -> bytes_in l -> modern hz l -> in_order hz now im has l -> updated hz now l s (copy now (applied hz l nothing) s).
Proof.
  intros H B M (F & (t & L & T) & (u & Lu & _)). destruct (applied_rest hz l nothing) as (A1 & A2 & A3 & A4 & A5). unfold updated, copy.
  cbn [s_purl s_nv s_signed s_action s_state s_result s_last s_time]. rewrite A1, A2, A3, A4, A5. cbn [nothing c_nv c_signed c_state c_result c_last orelse].
  split; [|split; [|split; [|repeat split]]].
  - exists u. split; [exact Lu|]. rewrite applied_url, (upd_last sel_url _ l u (proj1 (last_text_by _ _ _) Lu)). reflexivity.
  - destruct (text_cases l (str "swupdateaction")) as [(s' & La)|Na].
    + right. exists s'. split; [exact La|]. rewrite (applied_act hz l s' (proj1 (last_text_by _ _ _) La)). destruct (in_settable_act l s' F (last_in_list _ _ _ La)) as (a & A).
      rewrite (proj2 (action_of_spec s' a) A). exact A.
    + left. split; [exact Na|]. rewrite (applied_no_act hz l (proj1 (no_text_by _ _) Na)). reflexivity.
  - exists t. split; [exact L|]. rewrite (applied_time hz l t (proj1 (last_text_by _ _ _) L)). destruct T as [->|[->|(x & W & _)]]; [left; split; reflexivity|right; left; split; reflexivity|].
    right. right. exists x. split; [exact W|]. rewrite (when_of_written hz t x H W). cbn [orelse]. apply Z.mod_small, (M t x); [exact (last_in_list _ _ _ L)|exact W].
Qed.
