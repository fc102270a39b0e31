(** Proofs about the certificates of the provisioning server. *)
From Verif Require Import Common Rep_Model Hex_Model Base64_Model Acl_Model Ob_Model Cred_Model Ptag_Model Ptag_Spec.
From Coq Require Import String.
Local Open Scope string_scope.
Local Open Scope list_scope.
Local Open Scope N_scope.

Lemma tagged_spec c t : tagged c t = true <-> c_tag c = Some t.
Proof.
  unfold tagged. destruct (c_tag c) as [u|]; [|split; intros H; discriminate H].
  rewrite list_eqb_spec. split; [intros ->; reflexivity|intros H; injection H as H; exact H].
Qed.

Lemma tagged_false c t : tagged c t = false <-> c_tag c <> Some t.
Proof. rewrite <- not_true_iff_false, tagged_spec. tauto. Qed.

Lemma dps_stale : DPS <> STALE.
Proof. vm_compute. intros H. discriminate H. Qed.

Lemma remove_id_sub i l c : In c (remove_id i l) -> In c l.
Proof.
  induction l as [|d t IH]; cbn [remove_id]; [auto|]. destruct (c_id d =? i)%Z; [intros H; right; exact H|].
  intros [<-|H]; [left; reflexivity|right; exact (IH H)].
Qed.

Lemma remove_id_keeps i l c : In c l -> c_id c <> i -> In c (remove_id i l).
Proof.
  induction l as [|d t IH]; cbn [remove_id]; [auto|]. intros I N. destruct (Z.eqb_spec (c_id d) i) as [E|E].
  - destruct I as [->|I]; [contradiction|exact I].
  - destruct I as [->|I]; [left; reflexivity|right; exact (IH I N)].
Qed.

(** A step from the list [l] to the list [l'] for the credential [it]. *)
Definition step (it : item) (l l' : list cred) : Prop :=
  (forall c, In c l' -> (exists d, In d l /\ bare d = bare c) \/ made_of it c) /\
  (forall c, In c l -> c_id c <> i_id it -> exists d, In d l' /\ bare d = bare c).

Lemma step_refl it l : step it l l.
Proof. split; intros c I; [left|intros _]; exists c; auto. Qed.

Lemma step_remove it l : step it l (remove_id (i_id it) l).
Proof.
  split; intros c I.
  - left. exists c. split; [exact (remove_id_sub _ _ _ I)|reflexivity].
  - intros N. exists c. split; [exact (remove_id_keeps _ _ _ I N)|reflexivity].
Qed.

Lemma made_bare it c d : bare c = bare d -> made_of it c -> made_of it d.
Proof.
  destruct c, d. unfold bare, made_of. cbn. intros E. injection E. intros. subst. assumption.
Qed.

Lemma bare_id c d : bare c = bare d -> c_id c = c_id d.
Proof. intros E. change (c_id (bare c) = c_id (bare d)). rewrite E. reflexivity. Qed.

Lemma bare_tag c d : bare c = bare d -> c_tag c = c_tag d.
Proof. intros E. change (c_tag (bare c) = c_tag (bare d)). rewrite E. reflexivity. Qed.

Lemma step_trans it l1 l2 l3 : step it l1 l2 -> step it l2 l3 -> step it l1 l3.
Proof.
  intros [A B] [C D]. split; intros c I.
  - destruct (C c I) as [(d & Id & Ed)|M]; [|right; exact M].
    destruct (A d Id) as [(e & Ie & Ee)|M]; [left; exists e; split; [exact Ie|congruence]|right; exact (made_bare _ _ _ Ed M)].
  - intros N. destruct (B c I N) as (d & Id & Ed). rewrite <- (bare_id _ _ Ed) in N.
    destruct (D d Id N) as (e & Ie & Ee). exists e. split; [exact Ie|congruence].
Qed.

Lemma create_step E it subj kp id rep s : set_subject (i_subject it) (i_usage it) = Some subj ->
  match create E false it subj kp id rep s with
  | AFail s' => s' = s
  | AOk _ s' _ _ => step it (s_creds s) (s_creds s') /\ s_owner s' = s_owner s
  | ALoop => True end.
Proof.
  intros Sj. unfold create. cbn [andb negb orb].
  destruct (negb (ce_alloc E (s_next s)) || false); [reflexivity|].
  match goal with |- context[match ?x with Some _ => _ | None => AFail s end] => destruct x as [[r0 a0]|] end; [|reflexivity].
  match goal with |- context[match ?x with Some _ => _ | None => ALoop end] => destruct x as [cid|] end; [|exact I].
  match goal with |- context[match ?x with Some _ => _ | None => AFail s end] => destruct x as [pr|] end; [|reflexivity].
  cbn [s_creds s_owner]. split; [|reflexivity]. split; intros c Ic.
  - apply in_app_iff in Ic. destruct Ic as [Ic|[<-|[]]]; [left; exists c; auto|]. right. unfold made_of.
    cbn [c_type c_usage c_tag c_subject c_pub]. repeat split; [exact Sj|].
    destruct (sd_data (i_pub it)) as [[|n t]|]; reflexivity.
  - intros _. exists c. split; [apply in_or_app; left; exact Ic|reflexivity].
Qed.

Lemma add_step E it s :
  match add_cred E false it s with
  | AFail s' | AOk _ s' _ _ => step it (s_creds s) (s_creds s') /\ s_owner s' = s_owner s
  | ALoop => True end.
Proof.
  assert (Z : step it (s_creds s) (s_creds s) /\ s_owner s = s_owner s) by (split; [apply step_refl|reflexivity]).
  unfold add_cred. destruct (if i_type it =? CERT then _ else _) as [key|]; [|exact Z]. cbn [andb].
  destruct (set_subject (i_subject it) (i_usage it)) as [subj|] eqn:Sj; [|exact Z].
  match goal with |- context[match ?x with Some _ => _ | None => AFail s end] => destruct x as [kp|] end; [|exact Z].
  destruct (by_id (i_id it) (s_creds s)) as [c|].
  - destruct (is_duplicate c it subj); [exact Z|].
    set (s1 := with_creds s (remove_id (i_id it) (s_creds s))).
    assert (Z1 : step it (s_creds s) (s_creds s1) /\ s_owner s1 = s_owner s) by (split; [apply step_remove|reflexivity]).
    cbv zeta. destruct (find (same_cert it subj) (s_creds s1)) as [d|]; [exact Z1|].
    pose proof (create_step E it subj kp (i_id it) (Some c) s1 Sj) as K.
    destruct (create E false it subj kp (i_id it) (Some c) s1) as [s'|id s' rp cr|]; [rewrite K; exact Z1| |exact I].
    destruct K as [K1 K2], Z1 as [Z1 Z2]. split; [exact (step_trans _ _ _ _ Z1 K1)|congruence].
  - destruct (find (same_cert it subj) (s_creds s)) as [d|]; [exact Z|].
    pose proof (create_step E it subj kp (i_id it) None s Sj) as K.
    destruct (create E false it subj kp (i_id it) None s) as [s'|id s' rp cr|]; [rewrite K; exact Z|exact K|exact I].
Qed.

Lemma upd_step it i f l : (forall c, bare (f c) = bare c) -> step it l (upd i f l).
Proof.
  intros H. induction l as [|d t IH]; [apply step_refl|]. unfold upd. fold (upd i f). destruct (c_id d =? i)%Z.
  - split; intros c [<-|I].
    + left. exists d. split; [left; reflexivity|symmetry; apply H].
    + left. exists c. split; [right; exact I|reflexivity].
    + intros _. exists (f d). split; [left; reflexivity|apply H].
    + intros _. exists c. split; [right; exact I|reflexivity].
  - destruct IH as [A B]. split; intros c [<-|I].
    + left. exists d. split; [left; reflexivity|reflexivity].
    + destruct (A c I) as [(e & Ie & Ee)|M]; [left; exists e; split; [right; exact Ie|exact Ee]|right; exact M].
    + intros _. exists d. split; [left; reflexivity|reflexivity].
    + intros N. destruct (B c I N) as (e & Ie & Ee). exists e. split; [right; exact Ie|exact Ee].
Qed.

Lemma apply_item_step E it s owner : i_type it = CERT ->
  match apply_item E false false it s owner with
  | DFail s' o' | DOk s' o' => step it (s_creds s) (s_creds s') /\ s_owner s' = s_owner s /\ o' = owner
  | DLoop => True end.
Proof.
  intros Ct. unfold apply_item. pose proof (add_step E it s) as K.
  destruct (add_cred E false it s) as [s'|id s' rp cr|]; [destruct K; auto| |exact I]. destruct K as [K1 K2].
  destruct (id =? -1)%Z; [auto|]. destruct (by_id id (s_creds s')) as [c|]; [|auto].
  cbv zeta. rewrite Ct. change (CERT =? PSK) with false. cbn [negb andb].
  destruct ((some (i_sid it) || some (i_rid it)) && negb (ce_octx E)); [auto|].
  split; [|split; [exact K2|reflexivity]]. cbn [with_creds s_creds].
  apply (step_trans _ _ _ _ K1). apply upd_step. intros d. reflexivity.
Qed.

(** Steps for all credentials of an answer. *)
Definition steps (P : item -> Prop) (l l' : list cred) : Prop :=
  (forall c, In c l' -> (exists d, In d l /\ bare d = bare c) \/ exists it, P it /\ made_of it c) /\
  (forall c, In c l -> (forall it, P it -> c_id c <> i_id it) -> exists d, In d l' /\ bare d = bare c).

Lemma steps_refl P l : steps P l l.
Proof. split; intros c I; [left|intros _]; exists c; auto. Qed.

Lemma steps_one (P : item -> Prop) it l l' : P it -> step it l l' -> steps P l l'.
Proof.
  intros Hp [A B]. split; intros c I.
  - destruct (A c I) as [H|H]; [left; exact H|right; exists it; auto].
  - intros N. exact (B c I (N it Hp)).
Qed.

Lemma steps_trans P l1 l2 l3 : steps P l1 l2 -> steps P l2 l3 -> steps P l1 l3.
Proof.
  intros [A B] [C D]. split; intros c I.
  - destruct (C c I) as [(d & Id & Ed)|M]; [|right; exact M].
    destruct (A d Id) as [(e & Ie & Ee)|(it & Hp & M)]; [left; exists e; split; [exact Ie|congruence]|right; exists it; split; [exact Hp|exact (made_bare _ _ _ Ed M)]].
  - intros N. destruct (B c I N) as (d & Id & Ed). rewrite <- (bare_id _ _ Ed) in N.
    destruct (D d Id N) as (e & Ie & Ee). exists e. split; [exact Ie|congruence].
Qed.

Lemma apply_items_steps E (P : item -> Prop) : (forall it, P it -> i_type it = CERT) -> forall l s owner,
  (forall x it, In x l -> parse_props false item0 x = Some it -> P it) ->
  match apply_items E false false l s owner with
  | DFail s' o' | DOk s' o' => steps P (s_creds s) (s_creds s') /\ s_owner s' = s_owner s /\ o' = owner
  | DLoop => True end.
Proof.
  intros Hc. induction l as [|x t IH]; intros s owner H; cbn [apply_items].
  - split; [apply steps_refl|auto].
  - destruct (parse_props false item0 x) as [it|] eqn:Px; [|split; [apply steps_refl|auto]].
    assert (Hp := H x it (or_introl eq_refl) Px).
    assert (H' : forall y i, In y t -> parse_props false item0 y = Some i -> P i) by (intros y i Iy; exact (H y i (or_intror Iy))).
    destruct (osc_ok it); [|split; [apply steps_refl|auto]].
    destruct x as [|r x']; [exact (IH s owner H')|].
    pose proof (apply_item_step E it s owner (Hc it Hp)) as K.
    destruct (apply_item E false false it s owner) as [s1 o1|s1 o1|]; [| |exact I]; destruct K as (K1 & K2 & K3).
    + split; [exact (steps_one _ _ _ _ Hp K1)|auto].
    + specialize (IH s1 o1 H'). rewrite K3 in *. destruct (apply_items E false false t s1 owner) as [s2 o2|s2 o2|]; [| |exact I];
      destruct IH as (I1 & I2 & I3); (split; [exact (steps_trans _ _ _ _ (steps_one _ _ _ _ Hp K1) I1)|split; [congruence|exact I3]]).
Qed.

Lemma decode_props_steps E (P : item -> Prop) : (forall it, P it -> i_type it = CERT) -> forall o s owner,
  (forall it, sent o it -> P it) -> (forall v, ~ In (str "rowneruuid", RStr v) o) ->
  match decode_props E false false o s owner with
  | DFail s' o' | DOk s' o' => steps P (s_creds s) (s_creds s') /\ s_owner s' = s_owner s /\ o' = owner
  | DLoop => True end.
Proof.
  intros Hc. induction o as [|r t IH]; intros s owner H R; cbn [decode_props].
  - split; [apply steps_refl|auto].
  - assert (H' : forall it, sent t it -> P it).
    { intros it (z & a & x & A & B). apply H. exists z, a, x. split; [right; exact A|exact B]. }
    assert (R' : forall v, ~ In (str "rowneruuid", RStr v) t) by (intros v I; exact (R v (or_intror I))).
    destruct r as [nm v]. cbn [snd fst]. destruct v eqn:Ev; try exact (IH s owner H' R').
    + destruct (list_eqb nm (str "rowneruuid")) eqn:En; [|exact (IH s owner H' R')].
      apply list_eqb_spec in En. exfalso. eapply R. left. rewrite En. reflexivity.
    +
    destruct (list_eqb nm (str "creds") || list_eqb nm (str "roles")); [|exact (IH s owner H' R')].
    match goal with |- context[apply_items E false false ?l s owner] =>
      pose proof (apply_items_steps E P Hc l s owner) as K;
      assert (G : forall x it, In x l -> parse_props false item0 x = Some it -> P it)
        by (intros x it Ix Px; apply H; eexists; exists l, x; split; [left; reflexivity|auto]);
      specialize (K G); destruct (apply_items E false false l s owner) as [s1 o1|s1 o1|] end; [exact K| |exact I].
    destruct K as (K1 & K2 & K3). specialize (IH s1 o1 H' R'). rewrite K3 in *.
    destruct (decode_props E false false t s1 owner) as [s2 o2|s2 o2|]; [| |exact I];
      destruct IH as (I1 & I2 & I3); (split; [exact (steps_trans _ _ _ _ K1 I1)|split; [congruence|exact I3]]).
Qed.

Lemma apply_cred_steps E o s : certificates o -> ce_state E = S_RFPRO ->
  match apply_cred E false o s with
  | PFail s' | POk s' => steps (sent o) (s_creds s) (s_creds s') /\ s_owner s' = s_owner s
  | PLoop => True | PUB => False end.
Proof.
  intros C St. unfold apply_cred, decode_cred. cbn [orb].
  destruct (forallb (state_ok (ce_state E)) o) eqn:F.
  - assert (R : forall v, ~ In (str "rowneruuid", RStr v) o).
    { intros v I. rewrite forallb_forall in F. specialize (F _ I). rewrite St in F. vm_compute in F. discriminate F. }
    pose proof (decode_props_steps E (sent o) C o s None (fun it Hi => Hi) R) as K.
    destruct (decode_props E false false o s None) as [s' o'|s' o'|]; [| |exact I]; destruct K as (K1 & K2 & ->); auto.
  - split; [apply steps_refl|reflexivity].
Qed.
