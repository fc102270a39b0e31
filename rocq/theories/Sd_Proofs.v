(** Proofs about the security domain. *)
From Verif Require Import Common Hex_Model Hex_Spec Hex_Proofs Rep_Model Repd_Model Repd_Spec Repd_Proofs Acl_Model Acl_Spec Acl2_Proofs Ob_Model Ob_Proofs Ael2_Proofs Sd_Model Sd_Spec.
From Coq Require Import String.
Notation rep := Rep_Model.rep.
Local Open Scope string_scope.
Local Open Scope list_scope.
Local Open Scope N_scope.

(** * The last value of a kind *)
Definition upd {A} (f : rep -> option A) (acc : option A) (l : list rep) : option A :=
  fold_left (fun a r => match f r with Some v => Some v | None => a end) l acc.
Definition last_by {A} (f : rep -> option A) (l : list rep) (v : A) : Prop :=
  exists a r b, l = a ++ r :: b /\ f r = Some v /\ Forall (fun x => f x = None) b.

Lemma upd_app {A} (f : rep -> option A) acc a b : upd f acc (a ++ b) = upd f (upd f acc a) b.
Proof. apply fold_left_app. Qed.
Lemma upd_none {A} (f : rep -> option A) l : Forall (fun x => f x = None) l -> forall acc, upd f acc l = acc.
Proof. induction 1 as [|r l H _ IH]; intros acc; [reflexivity|]. unfold upd in *. cbn [fold_left]. rewrite H. apply IH. Qed.
Lemma upd_last {A} (f : rep -> option A) acc l v : last_by f l v -> upd f acc l = Some v.
Proof.
  intros (a & r & b & -> & H & N). rewrite upd_app. change (r :: b) with ([r] ++ b). rewrite upd_app, upd_none by exact N.
  unfold upd. cbn [fold_left]. rewrite H. reflexivity.
Qed.
Lemma upd_cases {A} (f : rep -> option A) l : (exists v, last_by f l v) \/ Forall (fun x => f x = None) l.
Proof.
  induction l as [|r l [(v & a & x & b & -> & H & N) | N]]; [right; constructor|left; exists v, (r :: a), x, b; auto|].
  destruct (f r) as [v|] eqn:E; [left; exists v, [], r, l; auto|right; constructor; assumption].
Qed.

Definition text_sel (name : list N) (r : rep) : option (list N) := match snd r with RStr s => if list_eqb (fst r) name then Some s else None | _ => None end.
Definition flag_sel (name : list N) (r : rep) : option bool := match snd r with RBool s => if list_eqb (fst r) name then Some s else None | _ => None end.
Definition texts_sel (name : list N) (r : rep) : option (list (list N)) := match snd r with RStrArr s => if list_eqb (fst r) name then Some s else None | _ => None end.

Lemma text_sel_spec name r s : text_sel name r = Some s <-> r = (name, RStr s).
Proof.
  unfold text_sel. destruct r as [n v]. cbn [fst snd]. split.
  - destruct v; try discriminate. destruct (list_eqb n name) eqn:E; [|discriminate]. apply list_eqb_spec in E. congruence.
  - intros H. assert (n = name /\ v = RStr s) as [-> ->] by (split; congruence). rewrite list_eqb_refl. reflexivity.
Qed.
Lemma flag_sel_spec name r s : flag_sel name r = Some s <-> r = (name, RBool s).
Proof.
  unfold flag_sel. destruct r as [n v]. cbn [fst snd]. split.
  - destruct v; try discriminate. destruct (list_eqb n name) eqn:E; [|discriminate]. apply list_eqb_spec in E. congruence.
  - intros H. assert (n = name /\ v = RBool s) as [-> ->] by (split; congruence). rewrite list_eqb_refl. reflexivity.
Qed.
Lemma texts_sel_spec name r s : texts_sel name r = Some s <-> r = (name, RStrArr s).
Proof.
  unfold texts_sel. destruct r as [n v]. cbn [fst snd]. split.
  - destruct v; try discriminate. destruct (list_eqb n name) eqn:E; [|discriminate]. apply list_eqb_spec in E. congruence.
  - intros H. assert (n = name /\ v = RStrArr s) as [-> ->] by (split; congruence). rewrite list_eqb_refl. reflexivity.
Qed.

Section Sel.
Context {A : Type} (f : rep -> option A) (mk : A -> rep).
Hypothesis Hf : forall r s, f r = Some s <-> r = mk s.
Lemma sel_none l : Forall (fun x => f x = None) l <-> forall s, ~ In (mk s) l.
Proof.
  rewrite Forall_forall. split.
  - intros H s Hi. specialize (H _ Hi). rewrite (proj2 (Hf (mk s) s) eq_refl) in H. discriminate.
  - intros H x Hi. destruct (f x) as [s|] eqn:E; [|reflexivity]. apply Hf in E. subst x. destruct (H s Hi).
Qed.
Lemma sel_last l s : last_by f l s <-> exists a b, l = a ++ mk s :: b /\ forall s', ~ In (mk s') b.
Proof.
  split.
  - intros (a & r & b & -> & E & N). apply Hf in E. subst r. exists a, b. split; [reflexivity|]. apply sel_none, N.
  - intros (a & b & -> & N). exists a, (mk s), b. split; [reflexivity|]. split; [apply Hf; reflexivity|]. apply sel_none, N.
Qed.
End Sel.

Lemma last_text_by l n s : last_text l n s <-> last_by (text_sel n) l s.
Proof. symmetry. apply (sel_last (text_sel n) (fun s => (n, RStr s)) (text_sel_spec n)). Qed.
Lemma no_text_by l n : no_text l n <-> Forall (fun x => text_sel n x = None) l.
Proof. symmetry. apply (sel_none (text_sel n) (fun s => (n, RStr s)) (text_sel_spec n)). Qed.
Lemma last_flag_by l n s : last_flag l n s <-> last_by (flag_sel n) l s.
Proof. symmetry. apply (sel_last (flag_sel n) (fun s => (n, RBool s)) (flag_sel_spec n)). Qed.
Lemma no_flag_by l n : no_flag l n <-> Forall (fun x => flag_sel n x = None) l.
Proof. symmetry. apply (sel_none (flag_sel n) (fun s => (n, RBool s)) (flag_sel_spec n)). Qed.
Lemma last_texts_by l n s : last_texts l n s <-> last_by (texts_sel n) l s.
Proof. symmetry. apply (sel_last (texts_sel n) (fun s => (n, RStrArr s)) (texts_sel_spec n)). Qed.
Lemma no_texts_by l n : no_texts l n <-> Forall (fun x => texts_sel n x = None) l.
Proof. symmetry. apply (sel_none (texts_sel n) (fun s => (n, RStrArr s)) (texts_sel_spec n)). Qed.

(** * Decoding *)
Definition prop_ok (st : N) (fs : bool) (r : rep) : bool :=
  match text_sel (str "uuid") r with
  | Some s => (fs || (st =? RFOTM)) && (36 <=? List.length s)%nat
  | None => match text_sel (str "name") r with
            | Some _ => fs || name_state st
            | None => match flag_sel (str "priv") r with Some _ => fs || name_state st | None => true end
            end
  end.

Lemma sdi_prop_spec st fs d r :
  sdi_prop st fs d r = if prop_ok st fs r
    then Some (mkData (match text_sel (str "uuid") r with Some v => Some v | None => x_uuid d end)
                      (match text_sel (str "name") r with Some v => Some v | None => x_name d end)
                      (match flag_sel (str "priv") r with Some v => Some v | None => x_priv d end))
    else None.
Proof.
  destruct r as [n v]. unfold sdi_prop, prop_ok, text_sel, flag_sel. cbn [fst snd]. destruct d as [u m p]. cbn [x_uuid x_name x_priv].
  destruct v; try reflexivity.
  - destruct (list_eqb n (str "priv")); [|reflexivity]. destruct fs, (name_state st); reflexivity.
  - destruct (list_eqb n (str "uuid")) eqn:E.
    + apply list_eqb_spec in E. subst n. change (list_eqb (str "uuid") (str "name")) with false. cbv iota.
      destruct fs, (st =? RFOTM); cbn [negb andb orb]; try reflexivity;
        match goal with |- context [(List.length ?s <? 36)%nat] => destruct (Nat.ltb_spec (List.length s) 36), (Nat.leb_spec 36 (List.length s)); try lia; reflexivity end.
    + destruct (list_eqb n (str "name")); [|reflexivity]. destruct fs, (name_state st); reflexivity.
Qed.

Lemma sdi_props_spec st fs l : forall d,
  sdi_props st fs d l = if forallb (prop_ok st fs) l
    then Some (mkData (upd (text_sel (str "uuid")) (x_uuid d) l) (upd (text_sel (str "name")) (x_name d) l) (upd (flag_sel (str "priv")) (x_priv d) l))
    else None.
Proof.
  induction l as [|r l IH]; intros d; [destruct d; reflexivity|]. cbn [sdi_props forallb]. rewrite sdi_prop_spec.
  destruct (prop_ok st fs r); [|reflexivity]. cbn [andb]. rewrite IH. reflexivity.
Qed.

Lemma name_state_spec st : name_state st = true <-> setup st.
Proof. unfold name_state, setup, RFOTM, RFPRO, SRESET. rewrite !orb_true_iff, !N.eqb_eq. tauto. Qed.

Lemma props_ok_spec st l : forallb (prop_ok st false) l = true <->
  (forall s, In (str "uuid", RStr s) l -> st = 1 /\ (36 <= List.length s)%nat) /\
  (forall s, In (str "name", RStr s) l -> setup st) /\ (forall b, In (str "priv", RBool b) l -> setup st).
Proof.
  rewrite forallb_forall. split.
  - intros H. split; [|split]; intros x Hx; specialize (H _ Hx); unfold prop_ok in H.
    + rewrite (proj2 (text_sel_spec (str "uuid") _ x) eq_refl) in H. cbn [orb] in H. apply andb_prop in H. destruct H as [A B].
      apply N.eqb_eq in A. apply Nat.leb_le in B. split; assumption.
    + change (text_sel (str "uuid") (str "name", RStr x)) with (@None (list N)) in H. rewrite (proj2 (text_sel_spec (str "name") _ x) eq_refl) in H.
      cbn [orb] in H. apply name_state_spec, H.
    + change (text_sel (str "uuid") (str "priv", RBool x)) with (@None (list N)) in H. change (text_sel (str "name") (str "priv", RBool x)) with (@None (list N)) in H.
      rewrite (proj2 (flag_sel_spec (str "priv") _ x) eq_refl) in H. cbn [orb] in H. apply name_state_spec, H.
  - intros (A & B & C) r Hr. unfold prop_ok. cbn [orb].
    destruct (text_sel (str "uuid") r) as [s|] eqn:E.
    { apply text_sel_spec in E. subst r. destruct (A s Hr) as [-> L]. apply Nat.leb_le in L. rewrite L. reflexivity. }
    destruct (text_sel (str "name") r) as [s|] eqn:E2.
    { apply text_sel_spec in E2. subst r. apply name_state_spec, (B s Hr). }
    destruct (flag_sel (str "priv") r) as [s|] eqn:E3; [|reflexivity].
    apply flag_sel_spec in E3. subst r. apply name_state_spec, (C s Hr).
Qed.

Lemma last_in {A} (f : rep -> option A) l v : last_by f l v -> exists r, In r l /\ f r = Some v.
Proof. intros (a & r & b & -> & H & _). exists r. split; [apply in_elt|exact H]. Qed.

Lemma decode_yes st l s : may_update st l -> exists u,
  sdi_decode st false l s = Some (mkSdi (match u with Some t => uuid_of t (s_uuid s) | None => s_uuid s end)
     (match upd (text_sel (str "name")) None l with Some n => n | None => s_name s end)
     (match upd (flag_sel (str "priv")) None l with Some b => b | None => s_priv s end)) /\ u = upd (text_sel (str "uuid")) None l.
Proof.
  intros (A & B & C & D). exists (upd (text_sel (str "uuid")) None l). split; [|reflexivity]. unfold sdi_decode. rewrite sdi_props_spec, (proj2 (props_ok_spec st l)) by auto. cbn [x_uuid x_name x_priv].
  set (u := upd (text_sel (str "uuid")) None l). set (n := upd (text_sel (str "name")) None l). set (p := upd (flag_sel (str "priv")) None l).
  assert (H : u <> None \/ n <> None \/ p <> None).
  { destruct D as [(x & D) | [(x & D) | (x & D)]].
    - left. destruct (upd_cases (text_sel (str "uuid")) l) as [(v & L)|N]; [unfold u; rewrite (upd_last _ _ _ _ L); discriminate|].
      destruct (proj2 (no_text_by l (str "uuid")) N x D).
    - right. left. destruct (upd_cases (text_sel (str "name")) l) as [(v & L)|N]; [unfold n; rewrite (upd_last _ _ _ _ L); discriminate|].
      destruct (proj2 (no_text_by l (str "name")) N x D).
    - right. right. destruct (upd_cases (flag_sel (str "priv")) l) as [(v & L)|N]; [unfold p; rewrite (upd_last _ _ _ _ L); discriminate|].
      destruct (proj2 (no_flag_by l (str "priv")) N x D). }
  destruct u, n, p; try reflexivity. destruct H as [H|[H|H]]; destruct (H eq_refl).
Qed.
Lemma decode_no st l s : ~ may_update st l -> sdi_decode st false l s = None.
Proof.
  intros H. unfold sdi_decode. rewrite sdi_props_spec. destruct (forallb (prop_ok st false) l) eqn:E; [|reflexivity]. cbn [x_uuid x_name x_priv].
  apply props_ok_spec in E. destruct E as (A & B & C).
  destruct (upd_cases (text_sel (str "uuid")) l) as [(v & L)|N1].
  { destruct H. split; [exact A|]. split; [exact B|]. split; [exact C|]. left. destruct (last_in _ _ _ L) as (r & Hr & E). apply text_sel_spec in E. subst r. eauto. }
  destruct (upd_cases (text_sel (str "name")) l) as [(v & L)|N2].
  { destruct H. split; [exact A|]. split; [exact B|]. split; [exact C|]. right. left. destruct (last_in _ _ _ L) as (r & Hr & E). apply text_sel_spec in E. subst r. eauto. }
  destruct (upd_cases (flag_sel (str "priv")) l) as [(v & L)|N3].
  { destruct H. split; [exact A|]. split; [exact B|]. split; [exact C|]. right. right. destruct (last_in _ _ _ L) as (r & Hr & E). apply flag_sel_spec in E. subst r. eauto. }
  rewrite !upd_none by assumption. reflexivity.
Qed.

(** * The text of an identifier *)
Lemma reads_as_nz c v : reads_as c v -> c <> 0.
Proof.
  intros [H E]. assert (Hs : forallb (fun v => negb (nth (N.to_nat v) hexdigits 0 =? 0) && negb (nth (N.to_nat v) HEXDIGITS 0 =? 0))
    [0;1;2;3;4;5;6;7;8;9;10;11;12;13;14;15] = true) by reflexivity.
  rewrite forallb_forall in Hs. assert (Hin : In v [0;1;2;3;4;5;6;7;8;9;10;11;12;13;14;15]).
  { cbn [In]. lia. }
  specialize (Hs v Hin). apply andb_prop in Hs. destruct Hs as [A B]. apply negb_true_iff, N.eqb_neq in A. apply negb_true_iff, N.eqb_neq in B.
  destruct E as [-> | ->]; assumption.
Qed.
Lemma hex_text_nz s l : hex_text s l -> Forall (fun c => c <> 0) s.
Proof. induction 1 as [|c d hi lo s l A B _ IH]; [constructor|]. constructor; [exact (reads_as_nz _ _ A)|]. constructor; [exact (reads_as_nz _ _ B)|exact IH]. Qed.
Lemma uuid_text_nz s u : uuid_text s u -> Forall (fun c => c <> 0) s /\ List.length s = 36%nat.
Proof.
  intros (s1 & s2 & s3 & s4 & s5 & u1 & u2 & u3 & u4 & u5 & -> & -> & A & B & C & D & E & L1 & L2 & L3 & L4 & L5). split.
  - repeat (apply Forall_app; split); try (eapply hex_text_nz; eassumption); repeat constructor; discriminate.
  - rewrite !app_length. cbn [List.length]. apply hex_text_len in A, B, C, D, E. lia.
Qed.
Lemma uuid_of_text s u old : uuid_text s u -> uuid_of s old = u.
Proof.
  intros H. destruct (uuid_text_nz _ _ H) as [Z L]. unfold uuid_of. rewrite (cstr_nz _ Z), firstn_all2 by lia. rewrite (str_to_uuid_text _ _ H). reflexivity.
Qed.
