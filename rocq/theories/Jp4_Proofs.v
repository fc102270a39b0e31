From Verif Require Import Common Ep_Model Ep_Spec Ep_Proofs Base64_Model Base64_Spec Base64_Proofs Rep_Model Jp_Model Jp_Spec Jp_Proofs Jp2_Proofs.
From Coq Require Import String.
Local Open Scope string_scope.
Local Open Scope list_scope.
Local Open Scope nat_scope.

(** ** The layout is JSON *)
Lemma ws_nil : ws []. Proof. constructor. Qed.
Lemma ws_app a b : ws a -> ws b -> ws (a ++ b). Proof. intros. apply Forall_app. split; assumption. Qed.
Lemma ws_indent p d : ws (indent p d).
Proof. unfold indent. destruct p; [|apply ws_nil]. apply Forall_forall. intros c Hc. left. exact (repeat_spec _ _ _ Hc). Qed.
Lemma ws_eol p : ws (eol p).
Proof. unfold eol. destruct p; [|apply ws_nil]. constructor; [right; right; left; reflexivity | constructor]. Qed.
Lemma sep_pre {A} (P : A -> list N -> Prop) l u w : ws w -> separated P l u -> separated P l (w ++ u).
Proof.
  intros Hw Hu. destruct Hu as [w' Hw'|a t w1 w2 H1 H2 Ha|a t w1 w2 b l u H1 H2 Ha Hu].
  - apply sep_none, ws_app; assumption.
  - rewrite app_assoc. apply sep_one; try assumption. apply ws_app; assumption.
  - rewrite app_assoc. apply sep_more; try assumption. apply ws_app; assumption.
Qed.
Lemma sep_post {A} (P : A -> list N -> Prop) l u w : ws w -> separated P l u -> separated P l (u ++ w).
Proof.
  intros Hw Hu. induction Hu as [w' Hw'|a t w1 w2 H1 H2 Ha|a t w1 w2 b l u H1 H2 Ha Hu IH].
  - apply sep_none, ws_app; assumption.
  - rewrite <- !app_assoc. apply sep_one; try assumption. apply ws_app; assumption.
  - rewrite <- !app_assoc. apply sep_more; assumption.
Qed.
Lemma sep_weaken {A} (P Q : A -> list N -> Prop) l u : (forall a t, In a l -> P a t -> Q a t) -> separated P l u -> separated Q l u.
Proof.
  intros H Hu. induction Hu as [w' Hw'|a t w1 w2 H1 H2 Ha|a t w1 w2 b l u H1 H2 Ha Hu IH].
  - apply sep_none; assumption.
  - apply sep_one; try assumption. apply H; [left; reflexivity | exact Ha].
  - apply sep_more; try assumption; [apply H; [left; reflexivity | exact Ha] | apply IH; intros; apply H; [right|]; assumption].
Qed.

Lemma dec_lead f : forall n, n <> 0%N -> (n < 2 ^ N.of_nat f)%N -> hd 48%N (dec_aux (S f) n) <> 48%N.
Proof.
  induction f as [|f IH]; intros n H0 L.
  - change (2 ^ N.of_nat 0)%N with 1%N in L. lia.
  - cbn [dec_aux] in *. destruct (n <? 10)%N eqn:E.
    + apply N.ltb_lt in E. cbn [app hd]. rewrite N.mod_small by lia. lia.
    + assert (n / 10 < 2 ^ N.of_nat f)%N by (rewrite Nat2N.inj_succ, N.pow_succ_r' in L; lia).
      apply N.ltb_ge in E. specialize (IH (n / 10)%N ltac:(lia) H).
      destruct ((if (n / 10 <? 10)%N then [] else dec_aux f (n / 10 / 10)) ++ [(48 + n / 10 mod 10)%N]) eqn:Q; [|exact IH].
      apply app_eq_nil in Q. destruct Q. discriminate.
Qed.
Lemma dec_no_lead n : no_lead (dec n).
Proof.
  destruct (N.eq_dec n 0) as [->|H]; [left; reflexivity|]. right. apply dec_lead; [exact H | apply size_lt].
Qed.
Lemma int_dec_ok z : int_text z (int_dec z).
Proof.
  unfold int_dec. destruct (Z.ltb_spec z 0).
  - rewrite <- (Z.opp_involutive z) at 1. rewrite <- (Z2N.id (- z)) at 1 by lia. apply it_neg; [lia | apply dec_ok | apply dec_no_lead].
  - rewrite <- (Z2N.id z) at 1 by lia. apply it_pos; [apply dec_ok | apply dec_no_lead].
Qed.

Section Json.
Variable fmt : N -> list N.
Variable pretty : bool.

Lemma items_json {A} (P : A -> list N -> Prop) (txt : A -> list N) l :
  (forall a, In a l -> P a (txt a)) -> separated P l (items_layout pretty (map txt l)).
Proof.
  induction l as [|a r IH]; intros H; cbn [map items_layout]; [apply sep_none, ws_nil|].
  assert (Ha := H a (or_introl eq_refl)). destruct r as [|b r].
  - cbn [map comma items_layout app]. rewrite app_nil_r. rewrite <- (app_nil_r (txt a)). apply (sep_one P a (txt a) [] []); (apply ws_nil || exact Ha).
  - cbn [map comma]. cbn [map] in IH.
    apply (sep_more P a (txt a) [] [] b r ((if pretty then [32%N] else []) ++ items_layout pretty (txt b :: map txt r))); try apply ws_nil; [exact Ha|].
    apply sep_pre; [destruct pretty; [constructor; [left; reflexivity | constructor] | apply ws_nil]|].
    apply IH. intros x Hx. apply H. right. exact Hx.
Qed.
Lemma lines_json {A} (P : A -> list N -> Prop) (txt : A -> list N) d l :
  (forall a, In a l -> P a (txt a)) -> separated P l (lines_layout pretty d (map txt l)).
Proof.
  induction l as [|a r IH]; intros H; cbn [map lines_layout]; [apply sep_none, ws_nil|].
  assert (Ha := H a (or_introl eq_refl)). destruct r as [|b r].
  - cbn [map comma lines_layout app]. rewrite app_nil_r. apply sep_one; [apply ws_indent | apply ws_eol | exact Ha].
  - cbn [map comma] in *.
    apply (sep_more P a (txt a) (indent pretty (d + 2)) [] b r (eol pretty ++ lines_layout pretty d (txt b :: map txt r))); [apply ws_indent | apply ws_nil | exact Ha|].
    apply sep_pre; [apply ws_eol|]. apply IH. intros x Hx. apply H. right. exact Hx.
Qed.
Lemma block_json {A} (P : A -> list N -> Prop) (txt : A -> list N) d l :
  (forall a, In a l -> P a (txt a)) -> exists u, block_layout pretty d (map txt l) = [91%N] ++ u ++ [93%N] /\ separated P l u.
Proof.
  intros H. exists (eol pretty ++ lines_layout pretty d (map txt l) ++ indent pretty (d + 1)). split.
  - unfold block_layout. rewrite <- !app_assoc. reflexivity.
  - apply sep_pre; [apply ws_eol|]. apply sep_post; [apply ws_indent|]. apply lines_json. exact H.
Qed.

Definition PJ (v : rval) : Prop := forall d n, plain_tree v -> readable n = true -> json_value fmt v (value_layout fmt pretty d n v).
Definition QJ (l : list rep) : Prop := forall d, plain_reps l -> separated (json_member fmt) l (attrs_layout pretty (value_layout fmt pretty d) d l).
Lemma qj_nil : QJ []. Proof. intros d _. apply sep_none, ws_nil. Qed.
Lemma qj_cons n v l : PJ v -> QJ l -> QJ ((n, v) :: l).
Proof.
  intros HP HQ d [(Hn & Hrd & Hv) Hr]. cbn [attrs_layout]. fold (attrs_layout pretty (value_layout fmt pretty d) d).
  assert (Hm : json_member fmt (n, v) ((match n with [] => [] | _ => quote n ++ (if pretty then str " : " else str ":") end) ++ value_layout fmt pretty d n v)).
  { destruct n as [|c n]; [discriminate|]. specialize (HP d (c :: n) Hv Hrd).
    replace ((quote (c :: n) ++ (if pretty then str " : " else str ":")) ++ value_layout fmt pretty d (c :: n) v) with
      (quote (c :: n) ++ (if pretty then [32%N] else []) ++ [58%N] ++ (if pretty then [32%N] else []) ++ value_layout fmt pretty d (c :: n) v)
      by (rewrite <- !app_assoc; destruct pretty; reflexivity).
    apply jm; [exact Hn | | | exact HP]; (destruct pretty; [constructor; [left; reflexivity | constructor] | apply ws_nil]). }
  destruct l as [|b l].
  - cbn [comma app attrs_layout]. rewrite app_nil_r. rewrite (app_assoc _ (value_layout fmt pretty d n v)). apply sep_one; [apply ws_indent | apply ws_eol | exact Hm].
  - cbn [comma]. rewrite app_nil_r. rewrite (app_assoc _ (value_layout fmt pretty d n v)).
    apply (sep_more _ (n, v) _ (indent pretty (d + 1)) [] b l (eol pretty ++ _)); [apply ws_indent | apply ws_nil | exact Hm|].
    apply sep_pre; [apply ws_eol|]. exact (HQ d Hr).
Qed.
Lemma obj_json l d : QJ l -> plain_reps l -> json_object fmt l ([123%N] ++ eol pretty ++ attrs_layout pretty (value_layout fmt pretty d) d l ++ indent pretty d ++ [125%N]).
Proof.
  intros HQ Hp. replace ([123%N] ++ _) with ([123%N] ++ (eol pretty ++ attrs_layout pretty (value_layout fmt pretty d) d l ++ indent pretty d) ++ [125%N]) by (rewrite <- !app_assoc; reflexivity).
  apply jo. apply sep_pre; [apply ws_eol|]. apply sep_post; [apply ws_indent|]. exact (HQ d Hp).
Qed.
Lemma pj_obj l : QJ l -> PJ (RObj l).
Proof. intros HQ d n Hv Hn. apply jv_obj. exact (obj_json l (d + 1) HQ Hv). Qed.

Lemma plain_objs os : plain_tree (RObjArr os) -> Forall plain_reps os.
Proof. intros H. induction os as [|o r IH]; [constructor|]. destruct H as [Ha Hb]. constructor; [exact Ha | exact (IH Hb)]. Qed.
Lemma objs_json d os : os <> [] -> Forall QJ os -> Forall plain_reps os ->
  exists u, objs_layout fmt pretty d os ++ indent pretty (d + 2) ++ [125%N] = u /\ separated (json_object fmt) os u.
Proof.
  intros Hne HQ. induction HQ as [|o r Ho _ IH]; intros Hp; [congruence|]. inversion Hp as [|? ? Hpo Hpr]; subst.
  assert (Hj := obj_json o (d + 2) Ho Hpo). eexists. split; [reflexivity|].
  rewrite objs_layout_cons. unfold between. destruct r as [|o2 r].
  - change (objs_layout fmt pretty d []) with (@nil N). rewrite !app_nil_r.
    replace ((indent pretty (d + 2) ++ _) ++ _) with
      (indent pretty (d + 2) ++ ([123%N] ++ eol pretty ++ attrs_layout pretty (value_layout fmt pretty (d + 2)) (d + 2) o ++ indent pretty (d + 2) ++ [125%N]) ++ [])
      by (rewrite app_nil_r, <- !app_assoc; reflexivity).
    apply sep_one; [apply ws_indent | apply ws_nil | exact Hj].
  - destruct (IH ltac:(discriminate) Hpr) as (u & Hu & Hs).
    replace ((indent pretty (d + 2) ++ _) ++ _) with
      (indent pretty (d + 2) ++ ([123%N] ++ eol pretty ++ attrs_layout pretty (value_layout fmt pretty (d + 2)) (d + 2) o ++ indent pretty (d + 2) ++ [125%N]) ++ [] ++ [44%N] ++ eol pretty ++ u)
      by (rewrite <- Hu, <- !app_assoc; reflexivity).
    apply sep_more; [apply ws_indent | apply ws_nil | exact Hj|]. apply sep_pre; [apply ws_eol | exact Hs].
Qed.
Lemma pj_objs os : Forall QJ os -> tree_ok (RObjArr os) -> PJ (RObjArr os).
Proof.
  intros HQ Hok d n Hv _. destruct (tree_ok_objs _ Hok) as [Hne _].
  change (value_layout fmt pretty d n (RObjArr os)) with ([91%N] ++ eol pretty ++ objs_layout fmt pretty d os ++ indent pretty (d + 2) ++ [125; 93]%N).
  destruct (objs_json d os Hne HQ (plain_objs os Hv)) as (u & Hu & Hs).
  replace ([91%N] ++ _) with ([91%N] ++ (eol pretty ++ u) ++ [93%N]) by (rewrite <- Hu, <- !app_assoc; reflexivity).
  apply jv_objs. apply sep_pre; [apply ws_eol | exact Hs].
Qed.
Lemma pj_leaf v : (forall l, v <> RObj l) -> (forall l, v <> RObjArr l) -> PJ v.
Proof.
  intros H1 H2 d n Hv Hn.
  destruct v as [|z|x|b|b|t|l| |l|l|l|l|l|l]; try (exfalso; eapply H1; reflexivity); try (exfalso; eapply H2; reflexivity);
    cbn [value_layout plain_tree] in *; rewrite ?Hn.
  - apply jv_nil.
  - apply jv_int, int_dec_ok.
  - apply jv_double.
  - apply jv_bool.
  - apply jv_bytes.
  - apply jv_str. exact Hv.
  - destruct Hv.
  - apply jv_ints. apply items_json. intros z _. apply int_dec_ok.
  - apply jv_doubles. apply items_json. reflexivity.
  - apply jv_bools. apply (items_json (fun (b : bool) s => s = if b then str "true" else str "false")). reflexivity.
  - destruct (block_json (fun b s => s = quote (b64_text b)) (fun b => quote (b64_text b)) d l) as (u & -> & Hu); [reflexivity|]. apply jv_byteses. exact Hu.
  - destruct (block_json (fun x s => plain_text x /\ s = quote x) quote d l) as (u & -> & Hu).
    + intros a Ha. split; [exact (proj1 (Forall_forall _ _) Hv a Ha) | reflexivity].
    + apply jv_strs. exact Hu.
Qed.
(** [tree_ok] is threaded through the induction for the arrays of objects. *)
Lemma value_reps_json : (forall v, tree_ok v -> PJ v) /\ (forall l, reps_ok l -> QJ l).
Proof.
  assert (Hn : reps_ok [] -> QJ []) by (intros _; apply qj_nil).
  assert (Hc : forall n v l, (tree_ok v -> PJ v) -> (reps_ok l -> QJ l) -> reps_ok ((n, v) :: l) -> QJ ((n, v) :: l))
    by (intros n v l HP HQ [Hv Hl]; apply qj_cons; [exact (HP Hv) | exact (HQ Hl)]).
  assert (Ho : forall l, (reps_ok l -> QJ l) -> tree_ok (RObj l) -> PJ (RObj l)) by (intros l HQ Hl; apply pj_obj; exact (HQ Hl)).
  assert (Hos : forall os, Forall (fun l => reps_ok l -> QJ l) os -> tree_ok (RObjArr os) -> PJ (RObjArr os)).
  { intros os HQ Hok. apply pj_objs; [|exact Hok]. destruct (tree_ok_objs _ Hok) as [_ Hos]. rewrite Forall_forall in *. intros o Hin. exact (HQ o Hin (Hos o Hin)). }
  assert (Hl : forall v, (forall l, v <> RObj l) -> (forall l, v <> RObjArr l) -> tree_ok v -> PJ v) by (intros v H1 H2 _; apply pj_leaf; assumption).
  split; [exact (rval_ind2 (fun v => tree_ok v -> PJ v) (fun l => reps_ok l -> QJ l) Hn Hc Ho Hos Hl) | exact (reps_ind2 (fun v => tree_ok v -> PJ v) (fun l => reps_ok l -> QJ l) Hn Hc Ho Hos Hl)].
Qed.

Lemma layout_object l : reps_ok l -> plain_reps l -> json_doc fmt l (layout fmt pretty l).
Proof.
  intros Hok Hp.
  assert (E : layout fmt pretty l = [123%N] ++ eol pretty ++ attrs_layout pretty (value_layout fmt pretty 0) 0 l ++ [125%N] ++ eol pretty).
  { destruct l as [|[[|c n] v] r]; try reflexivity. destruct Hp as [(_ & H & _) _]. discriminate. }
  rewrite E. replace ([123%N] ++ _) with (([123%N] ++ eol pretty ++ attrs_layout pretty (value_layout fmt pretty 0) 0 l ++ indent pretty 0 ++ [125%N]) ++ eol pretty)
    by (unfold indent; destruct pretty; cbn [Nat.mul repeat app]; rewrite <- ?app_assoc; cbn [app]; rewrite <- ?app_assoc; reflexivity).
  apply (jd_object fmt l _ []); [|apply ws_nil | apply ws_eol]. apply obj_json; [|exact Hp]. apply (proj2 value_reps_json l Hok).
Qed.

Lemma objects_attrs os d : Forall (fun o => reps_ok o /\ plain_reps o) os ->
  separated (json_object fmt) os (attrs_layout pretty (value_layout fmt pretty d) d (map (fun o => ([], RObj o)) os)).
Proof.
  induction 1 as [|o r [Ho Hp] _ IH]; [apply sep_none, ws_nil|].
  cbn [map attrs_layout]. fold (attrs_layout pretty (value_layout fmt pretty d) d). cbn [value_layout]. fold (attrs_layout pretty (value_layout fmt pretty (d + 1)) (d + 1)).
  assert (Hj := obj_json o (d + 1) (proj2 value_reps_json o Ho) Hp). rewrite (app_nil_l (_ ++ comma _ _ ++ _)).
  destruct r as [|o2 r].
  - cbn [map comma]. change (attrs_layout pretty (value_layout fmt pretty d) d []) with (@nil N). rewrite app_nil_r, app_nil_l. apply sep_one; [apply ws_indent | apply ws_eol | exact Hj].
  - cbn [map comma]. rewrite app_nil_r.
    apply (sep_more _ o _ (indent pretty (d + 1)) [] o2 r (eol pretty ++ _)); [apply ws_indent | apply ws_nil | exact Hj|].
    apply sep_pre; [apply ws_eol | exact IH].
Qed.
Lemma layout_array o os : o <> [] -> Forall (fun o => reps_ok o /\ plain_reps o) (o :: os) ->
  json_doc fmt (map (fun o => ([], RObj o)) (o :: os)) (layout fmt pretty (map (fun o => ([], RObj o)) (o :: os))).
Proof.
  intros Hne H.
  assert (E : layout fmt pretty (map (fun o => ([], RObj o)) (o :: os)) =
    [91%N] ++ (eol pretty ++ attrs_layout pretty (value_layout fmt pretty 0) 0 (map (fun o => ([], RObj o)) (o :: os))) ++ [93%N] ++ eol pretty)
    by (destruct o; [exfalso; apply Hne; reflexivity | cbn [map]; unfold layout; rewrite <- !app_assoc; reflexivity]).
  rewrite E. apply (jd_array fmt (o :: os) _ []); [|apply ws_nil | apply ws_eol]. apply sep_pre; [apply ws_eol|]. apply objects_attrs. exact H.
Qed.
End Json.
