(** Roles a client may present; what an accepted update has given for OSCORE. *)
From Verif Require Import Common Rep_Model Hex_Model Acl_Model Ob_Model Cred_Model Cred_Spec Cred_Proofs Cred2_Proofs.
From Coq Require Import String.
Local Open Scope string_scope.
Local Open Scope list_scope.
Local Open Scope N_scope.

Definition fine (c : cred) : Prop := allowed_role (od (c_role c)).
Definition fines (s : cs) : Prop := Forall fine (s_roles s).

Lemma role_ok_spec r : role_ok r = true -> allowed_role r.
Proof.
  intros H t Ht. unfold role_ok in H. subst r. replace (list_eqb (firstn 9 (str "oic.role." ++ t)) (str "oic.role.")) with true in H by (cbn; reflexivity).
  apply list_eqb_spec in H. exact H.
Qed.

Lemma create_fines E roles it subj kp id rep s : fines s ->
  match create E roles it subj kp id rep s with AFail s' => fines s' | AOk _ s' _ _ => fines s' | ALoop => True end.
Proof.
  intros F. unfold create. destruct (negb (ce_alloc E (s_next s)) || (roles && negb (i_usage it =? ROLECERT))) eqn:A; [exact F|].
  destruct (if i_usage it =? ROLECERT then _ else Some (None, None)) as [[r0 a0]|] eqn:R; [|exact F].
  destruct (roles && (i_usage it =? ROLECERT) && negb (role_ok (od r0))) eqn:O; [exact F|].
  match goal with |- match (match ?x with Some _ => _ | None => _ end) with _ => _ end => destruct x as [cid|]; [|exact I] end.
  match goal with |- match (match ?x with Some _ => _ | None => _ end) with _ => _ end => destruct x as [pr|]; [|exact F] end.
  destruct roles; [|exact F]. unfold fines. cbn [s_roles]. apply Forall_app. split; [exact F|]. constructor; [|constructor].
  unfold fine. cbn [c_role negb andb]. cbn [andb] in A, O. apply orb_false_iff in A. destruct A as [_ A]. apply negb_false_iff in A. rewrite A in O. cbn [andb] in O. apply negb_false_iff in O.
  apply role_ok_spec. exact O.
Qed.

Lemma add_fines E roles it s : fines s ->
  match add_cred E roles it s with AFail s' => fines s' | AOk _ s' _ _ => fines s' | ALoop => True end.
Proof.
  intros F. unfold add_cred. destruct (if i_type it =? CERT then _ else _) as [key|]; [|exact F].
  destruct (roles && _); [exact F|]. destruct (set_subject _ _) as [subj|]; [|exact F].
  match goal with |- match (match ?x with Some _ => _ | None => _ end) with _ => _ end => destruct x as [kp|]; [|exact F] end.
  destruct roles.
  - destruct (find _ (s_roles s)); [exact F|]. apply create_fines. exact F.
  - destruct (by_id _ _) as [c|].
    + destruct (is_duplicate c it subj); [exact F|]. destruct (find _ _); [exact F|]. apply create_fines. exact F.
    + destruct (find _ _); [exact F|]. apply create_fines. exact F.
Qed.

Definition dfines (r : dres) : Prop := match r with DFail s _ => fines s | DOk s _ => fines s | DLoop => True end.

Lemma item_fines E fs roles it s o : fines s -> dfines (apply_item E fs roles it s o).
Proof.
  intros F. unfold apply_item. pose proof (add_fines E roles it s F) as A. destruct (add_cred E roles it s) as [s'|i s' r b|]; [exact A| |exact I].
  destruct (i =? -1)%Z; [exact A|]. destruct (by_id i (s_creds s')); [|exact A]. cbv zeta. destruct ((some (i_sid it) || some (i_rid it)) && negb (ce_octx E)); exact A.
Qed.

Lemma items_fines E fs roles l : forall s o, fines s -> dfines (apply_items E fs roles l s o).
Proof.
  induction l as [|x l IH]; intros s o F; cbn [apply_items]; [exact F|]. destruct (parse_props fs item0 x) as [it|]; [|exact F]. destruct (osc_ok it); [|exact F].
  destruct x; [apply IH; exact F|]. pose proof (item_fines E fs roles it s o F) as A. destruct (apply_item E fs roles it s o); [exact A|apply IH; exact A|exact I].
Qed.

Lemma props_fines E fs roles l : forall s o, fines s -> dfines (decode_props E fs roles l s o).
Proof.
  induction l as [|r l IH]; intros s o F; cbn [decode_props]; [exact F|]. destruct (snd r); try (apply IH; exact F).
  - apply IH. destruct (list_eqb _ _); exact F.
  - destruct (_ || _); [|apply IH; exact F]. pose proof (items_fines E fs roles l0 s o F) as A. destruct (apply_items E fs roles l0 s o); [exact A|apply IH; exact A|exact I].
Qed.

Lemma apply_fines E roles l s : fines s -> match apply_cred E roles l s with PFail s' => fines s' | POk s' => fines s' | _ => True end.
Proof.
  intros F. unfold apply_cred, decode_cred. assert (A : dfines (if false || roles || forallb (state_ok (ce_state E)) l then decode_props E false roles l s None else DFail s None)).
  { destruct (_ || _); [apply props_fines; exact F|exact F]. }
  destruct (if false || roles || _ then _ else _) as [s' [n|]|s' [n|]|]; try exact A; try exact I; cbn [dfines] in A.
  - destruct (by_name n (s_creds s')); [exact A|exact I].
  - destruct roles; [exact A|]. destruct (by_name n (s_creds s')) as [c|]; [|exact I]. destruct (list_eqb _ _); [|exact A]. destruct (ce_psk E); exact A.
Qed.

Lemma remove_fines i l : Forall fine l -> Forall fine (remove_id i l).
Proof. induction 1; cbn [remove_id]; [constructor|]. destruct (_ =? _)%Z; [assumption|constructor; assumption]. Qed.

Lemma step_fines E o s s' : fines s -> cstep E s o = Some s' -> fines s'.
Proof.
  intros F. destruct o as [l|l|q|it|f|q|]; cbn [cstep].
  - pose proof (apply_fines E false l s F) as A. destruct (apply_cred E false l s); try discriminate; intros [= <-]; exact A.
  - pose proof (apply_fines E true l s F) as A. destruct (apply_cred E true l s); try discriminate; intros [= <-]; exact A.
  - intros [= <-]. unfold delete_cred. destruct (_ =? _); [exact F|]. destruct q; [|exact F]. destruct (_ || _); [exact F|]. destruct (by_id _ _); exact F.
  - match goal with |- context[add_cred E false ?x s] => pose proof (add_fines E false x s F) as A; destruct (add_cred E false x s); try discriminate; intros [= <-]; exact A end.
  - intros [= <-]. exact F.
  - intros [= <-]. unfold delete_role. destruct q as [i|]; [|constructor]. destruct (_ || _); [exact F|]. destruct (by_id _ _); [|exact F]. apply remove_fines. exact F.
  - intros [= <-]. exact F.
Qed.

Lemma reach_fines s : creach s -> fines s.
Proof.
  intros (E0 & st & l & s0 & H1 & H2 & H3 & H4). destruct (load_good _ _ _ H2 H1) as [_ G]. assert (F : fines s0) by (unfold fines; rewrite G; constructor). clear - F H4.
  revert s0 F H4. induction l as [|[E o] l IH]; intros s0 F; cbn [crun]; [intros [= <-]; exact F|].
  destruct (cstep E s0 o) as [s1|] eqn:Es; [|discriminate]. apply IH. exact (step_fines _ _ _ _ F Es).
Qed.

(** * OSCORE *)

Lemma items_read E fs roles l : forall s o s' o', apply_items E fs roles l s o = DOk s' o' -> forall x, In x l -> exists it, parse_props fs item0 x = Some it /\ osc_ok it = true.
Proof.
  induction l as [|y l IH]; intros s o s' o' H x Hx; [contradiction|]. cbn [apply_items] in H. destruct (parse_props fs item0 y) as [it|] eqn:P; [|discriminate]. destruct (osc_ok it) eqn:O; [|discriminate].
  destruct Hx as [<-|Hx]; [exists it; split; assumption|]. destruct y as [|r y]; [exact (IH _ _ _ _ H x Hx)|]. destruct (apply_item E fs roles it s o); try discriminate. exact (IH _ _ _ _ H x Hx).
Qed.

Lemma props_read E fs roles l : forall s o s' o', decode_props E fs roles l s o = DOk s' o' -> forall x, In x (objects l) -> exists it, parse_props fs item0 x = Some it /\ osc_ok it = true.
Proof.
  induction l as [|r l IH]; intros s o s' o' H x Hx; [contradiction|]. cbn [decode_props] in H. unfold objects in Hx. cbn [flat_map] in Hx. destruct (snd r); try exact (IH _ _ _ _ H x Hx).
  destruct (_ || _); [|exact (IH _ _ _ _ H x Hx)]. destruct (apply_items E fs roles l0 s o) as [|s1 o1|] eqn:A; try discriminate. apply in_app_or in Hx. destruct Hx as [Hx|Hx]; [exact (items_read _ _ _ _ _ _ _ _ A x Hx)|exact (IH _ _ _ _ H x Hx)].
Qed.

Lemma apply_read E roles l s s' : apply_cred E roles l s = POk s' -> forall x, In x (objects l) -> exists it, parse_props false item0 x = Some it /\ osc_ok it = true.
Proof.
  unfold apply_cred, decode_cred. destruct (false || roles || forallb (state_ok (ce_state E)) l); [|discriminate]. destruct (decode_props E false roles l s None) as [s1 [n|]|s1 o|] eqn:D; try discriminate.
  - destruct (by_name n (s_creds s1)); discriminate.
  - intros _ x Hx. exact (props_read _ _ _ _ _ _ _ _ D x Hx).
Qed.

Lemma osc_ok_spec it : osc_ok it = true -> oscore_complete it.
Proof.
  unfold osc_ok, oscore_complete. intros H. split; [|split]; intros T; rewrite T in H; cbn [N.eqb Pos.eqb OSC OSC_MC OSC_MS] in H; rewrite ?N.eqb_refl in H; repeat (apply andb_true_iff in H; let X := fresh "X" in destruct H as [H X]);
    repeat match goal with X : negb _ = true |- _ => apply negb_true_iff in X | X : (_ =? _)%nat = true |- _ => apply Nat.eqb_eq in X end;
    repeat match goal with X : some ?a = _ |- _ => destruct a; try discriminate X; clear X end; repeat split; try discriminate; try reflexivity; assumption.
Qed.

Lemma osc_ssn o : forall f, In (str "ssn") (map fst (filter (fun r => match snd r with RInt _ => true | _ => false end) o)) -> parse_osc false f o = None.
Proof.
  induction o as [|r o IH]; intros f H; [contradiction|]. cbn [filter] in H. cbn [parse_osc]. destruct (snd r) eqn:S; try reflexivity.
  - destruct H as [<-|H]; [rewrite list_eqb_refl; reflexivity|]. destruct (list_eqb _ _); reflexivity.
  - destruct (list_eqb _ _); [destruct (osc_id_ok _); [apply IH; exact H|reflexivity]|]. destruct (list_eqb _ _); [destruct (osc_id_ok _); [apply IH; exact H|reflexivity]|]. destruct (list_eqb _ _); [apply IH; exact H|reflexivity].
Qed.

Lemma props_ssn x o z : In (str "oscore", RObj o) x -> In (str "ssn", RInt z) o -> forall i, parse_props false i x = None.
Proof.
  intros Hx Ho. induction x as [|r x IH]; intros i; [contradiction|]. cbn [parse_props]. destruct Hx as [->|Hx].
  - unfold parse_prop. cbn [fst snd]. replace (list_eqb (str "oscore") (str "privatedata")) with false by reflexivity. replace (list_eqb (str "oscore") (str "publicdata")) with false by reflexivity.
    replace (list_eqb (str "oscore") (str "roleid")) with false by reflexivity. rewrite list_eqb_refl. rewrite osc_ssn; [reflexivity|]. apply in_map_iff. exists (str "ssn", RInt z). split; [reflexivity|]. apply filter_In. split; [exact Ho|reflexivity].
  - destruct (parse_prop false i r) as [j|]; [apply IH; exact Hx|reflexivity].
Qed.
