(** The calls that write a payload have the text of the payload, which is a JSON text. *)
From Verif Require Import Common Ep_Model Ep_Spec Rep_Model Je_Model Jp_Spec Jd_Spec Je_Spec Jp_Proofs Jp4_Proofs.
From Coq Require Import String.
Local Open Scope string_scope.
Local Open Scope list_scope.
Local Open Scope nat_scope.

Definition jl (first : bool) (l : list (list N)) : list N := match l with [] => [] | _ => (if first then [] else [44%N]) ++ join l end.
Lemma jl_cons first t r : jl first (t :: r) = (if first then [] else [44%N]) ++ t ++ jl false r.
Proof. unfold jl. cbn [join]. destruct r as [|t2 r]; [rewrite app_nil_r; reflexivity|reflexivity]. Qed.
Lemma jl_true l : jl true l = join l. Proof. destruct l; reflexivity. Qed.

(** [ops] writes the text [t], or fails when [ok] does not hold. *)
Definition emits (ops : list op) (ok : Prop) (t : list N) : Prop := forall rest pl pl' r T, next false pl = Some pl' ->
  (ok /\ calls (ops ++ rest) (pl :: r, T) = calls rest (pl' :: r, T ++ lead pl ++ t)) \/
  (~ ok /\ calls (ops ++ rest) (pl :: r, T) = None).

Lemma emits_iff ops ok ok' t : (ok <-> ok') -> emits ops ok t -> emits ops ok' t.
Proof. intros H HE rest pl pl' r T HN. destruct (HE rest pl pl' r T HN) as [[H1 H2]|[H1 H2]]; [left|right]; (split; [tauto|exact H2]). Qed.

Lemma emits_txt ops (ok : Prop) t t' : (ok -> t = t') -> emits ops ok t -> emits ops ok t'.
Proof. intros H HE rest pl pl' r T HN. destruct (HE rest pl pl' r T HN) as [[H1 H2]|[H1 H2]]; [left|right]; (split; [exact H1|]); [rewrite <- (H H1)|]; exact H2. Qed.

Lemma emits_prim p ok u : is_text p = false -> (ok /\ token p = Some u \/ ~ ok /\ token p = None) -> emits [OPrim p] ok u.
Proof.
  intros HP HT rest pl pl' r T HN. cbn [app calls call]. rewrite HP, HN.
  destruct HT as [[H1 H2]|[H1 H2]]; rewrite H2; [left|right]; (split; [exact H1|reflexivity]).
Qed.
Lemma emits_text s : emits [OPrim (PText s)] True (quote s).
Proof.
  intros rest pl pl' r T HN. left. split; [exact I|]. cbn [app calls call is_text token].
  replace (next true pl) with (Some pl'); [reflexivity|]. destruct pl; cbn in *; congruence.
Qed.

(** Arrays. *)
Lemma items_calls {A} (ops : A -> list op) (ok : A -> Prop) (txt : A -> list N) l : Forall (fun a => emits (ops a) (ok a) (txt a)) l ->
  forall rest first r T,
    (Forall ok l /\ exists first', calls (List.concat (map ops l) ++ rest) (InArray first :: r, T) = calls rest (InArray first' :: r, T ++ jl first (map txt l))) \/
    (~ Forall ok l /\ calls (List.concat (map ops l) ++ rest) (InArray first :: r, T) = None).
Proof.
  induction 1 as [|a l Ha Hl IH]; intros rest first r T.
  - left. split; [constructor|]. exists first. cbn [map List.concat app jl]. rewrite app_nil_r. reflexivity.
  - cbn [map List.concat]. rewrite <- app_assoc.
    destruct (Ha (List.concat (map ops l) ++ rest) (InArray first) (InArray false) r T eq_refl) as [[H1 H2]|[H1 H2]].
    + rewrite H2. destruct (IH rest false r (T ++ lead (InArray first) ++ txt a)) as [[H3 (f' & H4)]|[H3 H4]].
      * left. split; [constructor; assumption|]. exists f'. rewrite H4, jl_cons, <- !app_assoc. destruct first; reflexivity.
      * right. split; [intros H; apply H3; inversion H; assumption|exact H4].
    + right. split; [intros H; apply H1; inversion H; assumption|exact H2].
Qed.
Lemma emits_array {A} (ops : A -> list op) (ok : A -> Prop) (txt : A -> list N) l : Forall (fun a => emits (ops a) (ok a) (txt a)) l ->
  emits (OOpen false :: List.concat (map ops l) ++ [OClose]) (Forall ok l) ([91%N] ++ join (map txt l) ++ [93%N]).
Proof.
  intros HF rest pl pl' r T HN. cbn [app calls call]. rewrite HN, <- app_assoc.
  destruct (items_calls ops ok txt l HF ([OClose] ++ rest) true (pl' :: r) (T ++ lead pl ++ [91%N])) as [[H1 (f' & H2)]|[H1 H2]]; rewrite H2; [left|right].
  - split; [exact H1|]. cbn [app calls call]. rewrite jl_true, <- !app_assoc. reflexivity.
  - split; [exact H1|reflexivity].
Qed.

Section Tree.
Variable fmt : N -> list N.
Definition PV (v : rval) : Prop := emits (value_ops fmt v) (encodable fmt v) (value_text fmt v).
Definition QV (l : list rep) : Prop := forall rest first r T,
    (encodables fmt l /\ exists first', calls (attr_ops (value_ops fmt) l ++ rest) (Name first :: r, T) = calls rest (Name first' :: r, T ++ jl first (members (value_text fmt) l))) \/
    (~ encodables fmt l /\ calls (attr_ops (value_ops fmt) l ++ rest) (Name first :: r, T) = None).

Lemma qv_nil : QV [].
Proof. intros rest first r T. left. split; [exact I|]. exists first. cbn [attr_ops app members map jl]. rewrite app_nil_r. reflexivity. Qed.
Lemma qv_cons n v l : PV v -> QV l -> QV ((n, v) :: l).
Proof.
  intros HV HQ rest first r T. change (attr_ops (value_ops fmt) ((n, v) :: l)) with (OPrim (PText n) :: value_ops fmt v ++ attr_ops (value_ops fmt) l).
  cbn [app]. cbn [calls call is_text token next]. rewrite <- app_assoc. change (encodables fmt ((n, v) :: l)) with (encodable fmt v /\ encodables fmt l).
  destruct (HV (attr_ops (value_ops fmt) l ++ rest) Value (Name false) r (T ++ lead (Name first) ++ quote n) eq_refl) as [[H1 H2]|[H1 H2]].
  - rewrite H2. destruct (HQ rest false r ((T ++ lead (Name first) ++ quote n) ++ lead Value ++ value_text fmt v)) as [[H3 (f' & H4)]|[H3 H4]].
    + left. split; [exact (conj H1 H3)|]. exists f'. rewrite H4. unfold members. cbn [map]. rewrite jl_cons. cbn [fst snd lead]. rewrite <- !app_assoc. destruct first; reflexivity.
    + right. split; [tauto|exact H4].
  - right. split; [tauto|exact H2].
Qed.
Lemma emits_object l : QV l -> emits (OOpen true :: attr_ops (value_ops fmt) l ++ [OClose]) (encodables fmt l) (object_text fmt l).
Proof.
  intros HQ rest pl pl' r T HN. cbn [app calls call]. rewrite HN, <- app_assoc.
  destruct (HQ ([OClose] ++ rest) true (pl' :: r) (T ++ lead pl ++ [123%N])) as [[H1 (f' & H2)]|[H1 H2]]; rewrite H2; [left|right].
  - split; [exact H1|]. cbn [app calls call]. unfold object_text. rewrite jl_true, <- !app_assoc. reflexivity.
  - split; [exact H1|reflexivity].
Qed.
Lemma pv_obj l : QV l -> PV (RObj l).
Proof. exact (emits_object l). Qed.
Lemma encodable_objs os : encodable fmt (RObjArr os) <-> Forall (encodables fmt) os.
Proof.
  induction os as [|o os IH]; [split; intros; constructor|]. change (encodable fmt (RObjArr (o :: os))) with (encodables fmt o /\ encodable fmt (RObjArr os)).
  rewrite IH. split; [intros [H1 H2]; constructor; assumption|intros H; inversion H; auto].
Qed.
Lemma pv_objs os : Forall QV os -> PV (RObjArr os).
Proof.
  intros HQ. unfold PV. apply (emits_iff _ (Forall (encodables fmt) os)); [symmetry; apply encodable_objs|].
  assert (E : value_ops fmt (RObjArr os) = OOpen false :: List.concat (map (fun o => OOpen true :: attr_ops (value_ops fmt) o ++ [OClose]) os) ++ [OClose]).
  { cbn [value_ops]. f_equal. f_equal. clear HQ. induction os as [|o os IH]; [reflexivity|]. cbn [map List.concat]. rewrite IH, <- app_comm_cons, <- app_assoc. reflexivity. }
  rewrite E. apply (emits_array (fun o => OOpen true :: attr_ops (value_ops fmt) o ++ [OClose]) (encodables fmt) (object_text fmt)).
  apply Forall_forall. intros o Ho. apply emits_object. rewrite Forall_forall in HQ. exact (HQ o Ho).
Qed.
Lemma emits_prims {A} (f : A -> prim) (ok : A -> Prop) (txt : A -> list N) l ok' : (forall a, emits [OPrim (f a)] (ok a) (txt a)) -> (Forall ok l <-> ok') ->
  emits (OOpen false :: map (fun a => OPrim (f a)) l ++ [OClose]) ok' ([91%N] ++ join (map txt l) ++ [93%N]).
Proof.
  intros HP HO. apply (emits_iff _ _ _ _ HO). replace (map (fun a => OPrim (f a)) l) with (List.concat (map (fun a => [OPrim (f a)]) l)).
  - apply emits_array. apply Forall_forall. intros a _. exact (HP a).
  - clear HO. induction l as [|a l IH]; [reflexivity|]. cbn [map List.concat]. rewrite IH. reflexivity.
Qed.
Lemma emits_int z : emits [OPrim (PInt z)] (small_int z) (int_dec z).
Proof.
  apply emits_prim; [reflexivity|]. cbn [token]. unfold small_int.
  destruct (- 2 ^ 52 - 1 <=? z)%Z eqn:E1; destruct (z <=? 2 ^ 53)%Z eqn:E2; cbn [andb]; [left|right|right|right]; (split; [lia|reflexivity]).
Qed.
Lemma emits_double d : emits [OPrim (PDouble (fmt d))] (List.length (fmt d) < 320) (fmt d).
Proof. apply emits_prim; [reflexivity|]. cbn [token]. destruct (Nat.ltb_spec (List.length (fmt d)) 320); [left|right]; (split; [lia|reflexivity]). Qed.
Lemma all_true {A} (l : list A) : Forall (fun _ => True) l <-> True.
Proof. split; [auto|]. intros _. apply Forall_forall. auto. Qed.
Lemma pv_leaf v : (forall l, v <> RObj l) -> (forall l, v <> RObjArr l) -> PV v.
Proof.
  intros N1 N2. unfold PV. destruct v as [|z|d|b|s|s|l| |l|l|l|l|l|l]; cbn [value_ops encodable value_text].
  - apply emits_prim; [reflexivity|left; split; [exact I|reflexivity]].
  - apply emits_int.
  - apply emits_double.
  - apply emits_prim; [reflexivity|left; split; [exact I|reflexivity]].
  - apply emits_prim; [reflexivity|right; split; [tauto|reflexivity]].
  - apply emits_text.
  - exfalso. exact (N1 l eq_refl).
  - apply (emits_iff _ (Forall (fun _ : unit => True) [])); [apply all_true|].
    exact (emits_array (fun _ : unit => []) (fun _ => True) (fun _ => []) [] (Forall_nil _)).
  - apply (emits_prims PInt small_int int_dec); [exact emits_int|reflexivity].
  - apply (emits_prims (fun d => PDouble (fmt d)) (fun d => List.length (fmt d) < 320) fmt); [exact emits_double|reflexivity].
  - apply (emits_prims PBool (fun _ => True)); [|apply all_true]. intros b. apply emits_prim; [reflexivity|left; split; [exact I|reflexivity]].
  - apply (emits_txt _ _ ([91%N] ++ join (map (fun _ => []) l) ++ [93%N])); [intros ->; reflexivity|].
    apply (emits_prims (fun _ => PBytes) (fun _ => False)).
    + intros b. apply emits_prim; [reflexivity|right; split; [tauto|reflexivity]].
    + destruct l; split; intros H; try discriminate H; [reflexivity|constructor|inversion H; contradiction].
  - apply (emits_prims PText (fun _ => True)); [exact emits_text|apply all_true].
  - exfalso. exact (N2 l eq_refl).
Qed.
Lemma reps_calls l : QV l.
Proof. exact (reps_ind2 PV QV qv_nil qv_cons pv_obj pv_objs pv_leaf l). Qed.

Lemma payload_calls l :
  (encodables fmt l /\ calls (payload_ops fmt l) ([Top], []) = Some ([Top], object_text fmt l)) \/
  (~ encodables fmt l /\ calls (payload_ops fmt l) ([Top], []) = None).
Proof.
  pose proof (emits_object l (reps_calls l) [] Top Top [] [] eq_refl) as H. rewrite app_nil_r in H. cbn [lead app] in H. exact H.
Qed.

(** ** JSON *)
Lemma join_json {A} (P : A -> list N -> Prop) (txt : A -> list N) l : Forall (fun a => P a (txt a)) l -> separated P l (join (map txt l)).
Proof.
  induction 1 as [|a l Ha Hl IH]; [apply sep_none; apply ws_nil|]. destruct l as [|b l].
  - pose proof (sep_one P a (txt a) [] [] ws_nil ws_nil Ha) as H. rewrite app_nil_r in H. exact H.
  - exact (sep_more P a (txt a) [] [] b l _ ws_nil ws_nil Ha IH).
Qed.
Definition PC (v : rval) : Prop := clean v -> json_value fmt v (value_text fmt v).
Lemma clean_objs os : clean (RObjArr os) <-> Forall cleans os.
Proof.
  induction os as [|o os IH]; [split; intros; constructor|]. change (clean (RObjArr (o :: os))) with (cleans o /\ clean (RObjArr os)).
  rewrite IH. split; [intros [H1 H2]; constructor; assumption|intros H; inversion H; auto].
Qed.
Definition QM (l : list rep) : Prop := cleans l -> Forall (fun p => json_member fmt p (quote (fst p) ++ [58%N] ++ value_text fmt (snd p))) l.
Lemma qm_nil : QM []. Proof. intros _. constructor. Qed.
Lemma qm_cons n v l : PC v -> QM l -> QM ((n, v) :: l).
Proof.
  intros HV HQ [[H1 H2] H3]. constructor; [|exact (HQ H3)]. cbn [fst snd]. exact (jm fmt n v (value_text fmt v) [] [] H1 ws_nil ws_nil (HV H2)).
Qed.
Lemma qm_object l : QM l -> cleans l -> json_object fmt l (object_text fmt l).
Proof. intros HQ HC. unfold object_text. apply jo. unfold members. apply join_json. exact (HQ HC). Qed.
Lemma pc_obj l : QM l -> PC (RObj l).
Proof. intros HQ HC. apply jv_obj. exact (qm_object l HQ HC). Qed.
Lemma pc_objs os : Forall QM os -> PC (RObjArr os).
Proof.
  intros HQ HC. cbn [value_text]. apply jv_objs. apply clean_objs in HC. apply (join_json (json_object fmt) (object_text fmt)).
  rewrite Forall_forall in *. intros o Ho. apply qm_object; auto.
Qed.
Lemma pc_leaf v : (forall l, v <> RObj l) -> (forall l, v <> RObjArr l) -> PC v.
Proof.
  intros N1 N2 HC. destruct v as [|z|d|b|s|s|l| |l|l|l|l|l|l]; cbn [value_text clean] in *; try contradiction.
  - constructor.
  - constructor. apply int_dec_ok.
  - constructor.
  - constructor.
  - constructor. exact HC.
  - exfalso. exact (N1 l eq_refl).
  - apply jv_ints. apply join_json. apply Forall_forall. intros z _. apply int_dec_ok.
  - apply jv_doubles. apply join_json. apply Forall_forall. intros z _. reflexivity.
  - apply jv_bools. apply join_json. apply Forall_forall. intros z _. reflexivity.
  - apply jv_strs. replace (filter not_nil l) with l.
    + apply join_json. rewrite Forall_forall in *. intros s Hs. split; [exact (proj1 (HC s Hs))|reflexivity].
    + symmetry. clear N1 N2. induction HC as [|s l [H1 H2] HL IH]; [reflexivity|]. cbn [filter]. rewrite IH. destruct s; [exfalso; apply H2; reflexivity|reflexivity].
  - exfalso. exact (N2 l eq_refl).
Qed.
Lemma object_json l : cleans l -> json_object fmt l (object_text fmt l).
Proof. apply qm_object. exact (reps_ind2 PC QM qm_nil qm_cons pc_obj pc_objs pc_leaf l). Qed.

Lemma quote_long s : 2 <= List.length (quote s).
Proof. unfold quote. cbn [List.length]. rewrite app_length. cbn [List.length]. lia. Qed.
Lemma object_text_empty l : List.length (object_text fmt l) = 2 <-> l = [].
Proof.
  split; [|intros ->; reflexivity]. destruct l as [|[n v] l]; [reflexivity|]. unfold object_text, members. cbn [map join fst snd]. rewrite !app_length.
  pose proof (quote_long n). match goal with |- context [match ?x with [] => _ | _ :: _ => _ end] => destruct x end; rewrite !app_length; cbn [List.length]; lia.
Qed.
End Tree.
