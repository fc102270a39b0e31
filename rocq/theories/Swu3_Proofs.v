(** Looking at a request without taking it. *)
From Verif Require Import Common Rep_Model Repd_Model Acl_Model Ael_Model Ael_Spec Ael_Proofs Ts_Model Ts_Spec Pt_Spec Sd_Proofs Swu_Model Swu_Spec Swu_Proofs.
From Verif Require Sd_Spec.
From Coq Require Import String ZArith.
Notation rep := Rep_Model.rep.
Local Open Scope string_scope.
Local Open Scope list_scope.
Local Open Scope Z_scope.

Definition accepted (o : option (dc * bool)) : option dc := match o with Some (c, true) => Some c | _ => None end.
(** The verdict does not depend on who listens. *)
Lemma loop_any hz f g l : forall c told told', accepted (fst (decode_loop hz false f l c true told)) = accepted (fst (decode_loop hz false g l c true told')).
Proof.
  induction l as [|r l IH]; intros c told told'; [reflexivity|]. cbn [decode_loop]. destruct (decode_property hz false r c) as [c'|e]; [apply IH|].
  assert (X : forall h t, accepted (fst (if go_on h (told_of h t (Some r, e)) then decode_loop hz false h l c false (told_of h t (Some r, e)) else (None, told_of h t (Some r, e)))) = None).
  { intros h t. destruct (go_on h _); [|reflexivity]. pose proof (loop_false hz h l c (told_of h t (Some r, e))) as F. destruct (decode_loop hz false h l c false _) as [[[c' [|]]|] x]; [discriminate|reflexivity|reflexivity]. }
  rewrite !X. reflexivity.
Qed.
Lemma request_any hz im now has f g l : fst (decode_request hz im now has f l) = fst (decode_request hz im now has g l).
Proof.
  unfold decode_request. pose proof (loop_any hz f g l nothing [] []) as E. destruct (decode_loop hz false f l nothing true []) as [[[c [|]]|] t1]; destruct (decode_loop hz false g l nothing true []) as [[[c' [|]]|] t2]; cbn [fst accepted] in E; try discriminate; try reflexivity.
  assert (c' = c) by congruence. subst c'. pose proof (validate_data_valid im now c has f t1) as V1. pose proof (validate_data_valid im now c has g t2) as V2. unfold skips in V1, V2.
  destruct (validate_data im now c _ f t1) as [ok1 x1]. destruct (validate_data im now c _ g t2) as [ok2 x2]. cbn [fst] in V1, V2. subst. reflexivity.
Qed.

(** A listener that is told everything. *)
Definition all : listener := Some (fun _ => true).
Lemma property_fault hz r c e : 0 < hz -> decode_property hz false r c = inr e -> fault r e.
Proof.
  intros H. destruct r as [n v]. unfold decode_property. cbn [fst snd].
  assert (U : forall v, (forall z, v <> RInt z) -> (forall s, v <> RStr s) -> fault (n, v) E_PROPERTY).
  { intros v' H1 H2. right. right. split; [reflexivity|]. split; [intros z E; apply (H1 z); congruence|]. intros n' s E. elim (H2 s). congruence. }
  destruct v; try (intros E; assert (e = E_PROPERTY) by congruence; subst e; apply U; discriminate).
  - unfold decode_int. destruct (list_eqb n (str "swupdateresult")) eqn:E1; intros E.
    + apply list_eqb_spec in E1. subst n. left. split; [unfold E_READONLY in E; congruence|]. left. exists z. reflexivity.
    + right. right. split; [unfold E_PROPERTY in E; congruence|]. split; [|discriminate]. intros z' E'. assert (n = str "swupdateresult") by congruence. subst n. discriminate E1.
  - unfold decode_string.
    assert (R : In n [str "nv"; str "signed"; str "swupdatestate"; str "lastupdate"] -> inr E_READONLY = inr e :> dc + Z -> fault (n, RStr s) e).
    { intros I E. left. split; [unfold E_READONLY in E; congruence|]. right. exists n, s. split; [reflexivity|exact I]. }
    destruct (list_eqb n (str "nv")) eqn:E1; [apply list_eqb_spec in E1; apply R; subst n; cbn; auto|].
    destruct (list_eqb n (str "signed")) eqn:E2; [apply list_eqb_spec in E2; apply R; subst n; cbn; auto|].
    destruct (list_eqb n (str "swupdateaction")) eqn:E3.
    { apply list_eqb_spec in E3. subst n. destruct (action_of s) as [a|] eqn:A; [discriminate|]. intros E. right. left. split; [unfold E_VALUE in E; congruence|]. left. exists s. split; [reflexivity|].
      intros a N. apply action_of_spec in N. congruence. }
    destruct (list_eqb n (str "swupdatestate")) eqn:E4; [apply list_eqb_spec in E4; apply R; subst n; cbn; auto|].
    destruct (list_eqb n (str "lastupdate")) eqn:E5; [apply list_eqb_spec in E5; apply R; subst n; cbn; auto|].
    destruct (list_eqb n (str "updatetime")) eqn:E6.
    { apply list_eqb_spec in E6. subst n. unfold decode_time. cbn [negb andb]. destruct (list_eqb s (str "none")) eqn:F1; [discriminate|]. destruct (list_eqb s (str "now")) eqn:F2; [discriminate|].
      destruct (decode_timestamp hz s) as [t|] eqn:T; [discriminate|]. intros E. right. left. split; [unfold E_VALUE in E; congruence|]. right. exists s. split; [reflexivity|].
      intros [->|[->|(x & W)]]; [discriminate F1|discriminate F2|]. rewrite (timestamp_some hz s x H W) in T. discriminate. }
    destruct (list_eqb n (str "purl")) eqn:E7; [discriminate|]. intros E. right. right. split; [unfold E_PROPERTY in E; congruence|]. split; [discriminate|].
    intros n' s' Eq. assert (n' = n) by congruence. subst n'. intros I. repeat (destruct I as [I|I]; [subst n; rewrite list_eqb_refl in *; discriminate|]). destruct I.
Qed.
Lemma loop_faults hz l : 0 < hz -> bytes_in l -> forall c ok told, exists c' f, decode_loop hz false all l c ok told = (Some (c', ok && (match f with [] => true | _ => false end)), told ++ f) /\ faults l f.
Proof.
  intros H. induction l as [|r l IH]; intros B c ok told.
  - exists c, []. rewrite andb_true_r, app_nil_r. split; [reflexivity|constructor].
  - assert (Bl : bytes_in l) by (intros n s i; apply (B n s); right; exact i). cbn [decode_loop]. destruct (decode_property hz false r c) as [c1|e] eqn:E.
    + destruct (IH Bl c1 ok told) as (c' & f & E' & F). exists c', f. split; [exact E'|]. constructor; [|exact F]. apply (property_inv hz r c c1 H); [|exact E].
      intros s Es. destruct r as [n v]. cbn [snd] in Es. subst v. apply (B n s). left. reflexivity.
    + cbv zeta. change (told_of all told (Some r, e)) with (told ++ [(Some r, e)]). change (go_on all (told ++ [(Some r, e)])) with true. cbv iota.
      destruct (IH Bl c false (told ++ [(Some r, e)])) as (c' & f & E' & F). exists c', ((Some r, e) :: f). rewrite E'.
      cbn [andb]. rewrite andb_false_r, <- app_assoc. split; [reflexivity|]. constructor; [|exact F]. exact (property_fault hz r c e H E).
Qed.
Lemma faults_settable l : faults l [] -> Forall settable l.
Proof. remember [] as f eqn:E. induction 1; [constructor|constructor; auto|discriminate]. Qed.
Lemma time_faults_ok hz now l : 0 < hz -> bytes_in l -> Forall settable l -> modern hz l ->
  time_faults hz now l (if validate_time now (applied hz l nothing) =? 0 then [] else [(None, validate_time now (applied hz l nothing))]).
Proof.
  intros H B F M. pose proof (valid_time_iff hz now l H B F M) as V. destruct (text_cases l (str "updatetime")) as [(s & L)|N].
  - right. exists s. split; [exact L|]. destruct (Z.eqb_spec (validate_time now (applied hz l nothing)) 0) as [E|E].
    + left. split; [|reflexivity]. apply V in E. destruct E as (s' & L' & T). rewrite (text_det _ _ _ _ L L'). exact T.
    + right. split; [intros T; apply E, V; exists s; auto|]. unfold validate_time in *. rewrite (applied_time hz l s (proj1 (last_text_by _ _ _) L)) in *.
      destruct (when_of_some hz s H (in_settable_time l s F (last_in_list _ _ _ L))) as (w & W). rewrite W in *. cbn [orelse] in *. unfold when_of in W.
      destruct w as [|t| |]; [|destruct (t <? now); [reflexivity|elim E; reflexivity]|elim E; reflexivity|elim E; reflexivity].
      destruct (list_eqb s (str "none")); [discriminate|]. destruct (list_eqb s (str "now")); [discriminate|]. destruct (decode_timestamp hz s); discriminate.
  - left. split; [exact N|]. unfold validate_time. rewrite (applied_no_time hz l (proj1 (no_text_by _ _) N)). reflexivity.
Qed.
Lemma url_faults_ok hz im has l : Forall settable l -> plain_urls l ->
  url_faults im has l (if skips has (applied hz l nothing) || (validate_url im (applied hz l nothing) =? 0) then [] else [(None, validate_url im (applied hz l nothing))]).
Proof.
  intros F P. pose proof (valid_url_iff hz im has l F P) as V. destruct (text_cases l (str "purl")) as [(u & L)|N].
  - right. exists u. split; [exact L|]. destruct (skips has (applied hz l nothing) || (validate_url im (applied hz l nothing) =? 0)) eqn:E.
    + left. split; [|reflexivity]. destruct (proj1 V eq_refl) as (u' & L' & T). rewrite (text_det _ _ _ _ L L'). exact T.
    + right. assert (Nu : ~ url_ok im has l u) by (intros T; assert (X : false = true) by (apply V; exists u; auto); discriminate).
      apply orb_false_iff in E. destruct E as [_ E]. unfold validate_url in *. rewrite applied_url in *. change (c_purl nothing) with (@None (list BinNums.N)) in *.
      rewrite (upd_last sel_url None l u (proj1 (last_text_by _ _ _) L)) in *. rewrite (cstr_id u (P u (last_in_list _ _ _ L))) in *.
      destruct (i_url im) as [v|]; [|left; auto]. destruct (v u) eqn:Ev; [discriminate E|]. right. split; [exact Nu|]. split; [exists v; auto|reflexivity].
  - left. split; [exact N|]. unfold validate_url, skips. rewrite applied_url. change (c_purl nothing) with (@None (list BinNums.N)). rewrite (upd_none sel_url l (proj1 (no_text_by _ _) N)).
    destruct (c_action (applied hz l nothing)); reflexivity.
Qed.
Lemma request_faults hz im now has l : 0 < hz -> bytes_in l -> plain_urls l -> modern hz l -> all_faults hz now im has l (snd (decode_request hz im now has all l)).
Proof.
  intros H B P M. destruct (loop_faults hz l H B nothing true []) as (c & f & E & F). cbn [app andb] in E. destruct f as [|x f].
  - right. split; [exact F|]. apply faults_settable in F. pose proof (loop_settable hz all l H F nothing true []) as E2. unfold decode_request. rewrite E2.
    exists (if validate_time now (applied hz l nothing) =? 0 then [] else [(None, validate_time now (applied hz l nothing))]),
      (if skips has (applied hz l nothing) || (validate_url im (applied hz l nothing) =? 0) then [] else [(None, validate_url im (applied hz l nothing))]).
    split; [exact (time_faults_ok hz now l H B F M)|]. split; [exact (url_faults_ok hz im has l F P)|]. fold (skips has (applied hz l nothing)). unfold validate_data.
    cbn [told_of all go_on app negb]. rewrite andb_false_r. destruct (validate_time now (applied hz l nothing) =? 0); destruct (skips has (applied hz l nothing)); cbn [orb]; try reflexivity; destruct (validate_url im (applied hz l nothing) =? 0); reflexivity.
  - left. unfold decode_request. rewrite E. split; [discriminate|exact F].
Qed.

(** Who stops is told the first of the faults. *)
Definition prefix (a b : list report) : Prop := exists c, b = a ++ c.
Lemma loop_grows hz f l : forall c ok told, exists x, snd (decode_loop hz false f l c ok told) = told ++ x.
Proof.
  induction l as [|r l IH]; intros c ok told; [exists []; symmetry; apply app_nil_r|]. cbn [decode_loop]. destruct (decode_property hz false r c) as [c'|e]; [apply IH|].
  assert (X : exists y, told_of f told (Some r, e) = told ++ y) by (unfold told_of; destruct f; [eexists; reflexivity|exists []; symmetry; apply app_nil_r]).
  destruct X as (y & ->). destruct (go_on f _); [destruct (IH c false (told ++ y)) as (x & ->); exists (y ++ x); symmetry; apply app_assoc|]. exists y. reflexivity.
Qed.
Lemma loop_prefix hz g l : forall c ok told, (decode_loop hz false (Some g) l c ok told = decode_loop hz false all l c ok told) \/
  (fst (decode_loop hz false (Some g) l c ok told) = None /\ prefix (snd (decode_loop hz false (Some g) l c ok told)) (snd (decode_loop hz false all l c ok told))).
Proof.
  induction l as [|r l IH]; intros c ok told; [left; reflexivity|]. cbn [decode_loop]. destruct (decode_property hz false r c) as [c'|e]; [apply IH|].
  cbn [told_of all go_on]. match goal with |- context [if g ?x then _ else _] => destruct (g x) end; [apply IH|]. right. split; [reflexivity|]. cbn [snd]. unfold prefix. apply loop_grows.
Qed.
Lemma request_prefix hz im now has g l : prefix (snd (decode_request hz im now has (Some g) l)) (snd (decode_request hz im now has all l)).
Proof.
  unfold decode_request. destruct (loop_prefix hz g l nothing true []) as [E|[E1 E2]].
  - rewrite E. destruct (decode_loop hz false all l nothing true []) as [[[c [|]]|] t]; try (exists []; symmetry; apply app_nil_r).
    fold (skips has c). unfold validate_data. cbn [told_of all go_on]. rewrite andb_false_r. destruct (validate_time now c =? 0); cbn [negb andb].
    + destruct (skips has c); [exists []; symmetry; apply app_nil_r|]. destruct (validate_url im c =? 0); exists []; symmetry; apply app_nil_r.
    + match goal with |- context [negb (g ?x)] => destruct (g x) end; cbn [negb].
      * destruct (skips has c); [exists []; symmetry; apply app_nil_r|]. destruct (validate_url im c =? 0); exists []; symmetry; apply app_nil_r.
      * destruct (skips has c); [exists []; symmetry; apply app_nil_r|]. destruct (validate_url im c =? 0); [exists []; symmetry; apply app_nil_r|eexists; reflexivity].
  - destruct (decode_loop hz false (Some g) l nothing true []) as [o t]. cbn [fst snd] in E1, E2. subst o. cbn [snd]. destruct E2 as (x & E2).
    destruct (decode_loop hz false all l nothing true []) as [[[c [|]]|] t']; cbn [snd] in E2; subst t'; try (eexists; reflexivity).
    fold (skips has c). assert (Y : exists y, snd (validate_data im now c (skips has c) all (t ++ x)) = (t ++ x) ++ y).
    { unfold validate_data. cbn [told_of all go_on]. rewrite andb_false_r. destruct (validate_time now c =? 0); destruct (skips has c); try (exists []; symmetry; apply app_nil_r); try (eexists; reflexivity);
        destruct (validate_url im c =? 0); try (exists []; symmetry; apply app_nil_r); try (eexists; reflexivity). cbn [snd]. eexists. rewrite <- !app_assoc. reflexivity. }
    destruct Y as (y & Y). destruct (validate_data im now c (skips has c) all (t ++ x)) as [ok z]. cbn [snd] in Y |- *. subst z. exists (x ++ y). symmetry. apply app_assoc.
Qed.
