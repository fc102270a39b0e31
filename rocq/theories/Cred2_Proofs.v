(** Proofs about credentials: whole requests and histories. *)
From Verif Require Import Common Rep_Model Hex_Model Acl_Model Acl_Spec Acl2_Proofs Ob_Model Ob_Spec Ob_Proofs Cred_Model Cred_Spec Cred_Proofs.
From Coq Require Import String.
Local Open Scope string_scope.
Local Open Scope list_scope.
Local Open Scope N_scope.

Definition nm (roles : bool) (l : list Z) (i : Z) : Prop := roles = false /\ In i l.

Lemma same_name l a b : NoDup (map c_name l) -> In a l -> In b l -> c_name a = c_name b -> a = b.
Proof.
  induction l as [|c l IH]; intros N Ha Hb E; [contradiction|]. cbn [map] in N. inversion N as [|? ? N1 N2]; subst.
  destruct Ha as [->|Ha], Hb as [->|Hb]; auto; exfalso; apply N1; [rewrite E|rewrite <- E]; apply in_map; assumption.
Qed.

Lemma own_weaken n0 (P Q : Z -> Prop) s o : (forall i, P i -> Q i) -> own_ok n0 P s o -> own_ok n0 Q s o.
Proof. intros H X n c E Hc Hn. destruct (X n c E Hc Hn); auto. Qed.

(** Effects whose names may grow. *)
Record eff (roles : bool) (named : Z -> Prop) (s : cs) (o : option nat) (s' : cs) (o' : option nat) : Prop := {
  e_good : good s';
  e_next : (s_next s <= s_next s')%nat;
  e_surv : surv roles named s s';
  e_from : from s s';
  e_own : forall n0 (Q : Z -> Prop), (forall i, named i -> Q i) -> (n0 <= s_next s)%nat -> own_ok n0 Q s o -> own_ok n0 Q s' o';
  e_roles : roles = false -> s_roles s' = s_roles s;
  e_handle : roles = true -> o' = o }.

Lemma eff_refl r P s o : good s -> eff r P s o s o.
Proof. intros G. constructor; auto. apply surv_refl. apply from_refl. Qed.
Lemma eff_trans r P a o b o' c o'' : eff r P a o b o' -> eff r P b o' c o'' -> eff r P a o c o''.
Proof.
  intros [A1 A2 A3 A4 A5 A6 A7] [B1 B2 B3 B4 B5 B6 B7]. constructor.
  - exact B1.
  - lia.
  - exact (surv_trans _ _ _ _ _ A3 B3).
  - exact (from_trans _ _ _ A2 A4 B4).
  - intros n0 Q HQ L H. apply B5; [exact HQ|lia|]. apply A5; assumption.
  - intros H. rewrite (B6 H). apply (A6 H).
  - intros H. rewrite (B7 H). apply (A7 H).
Qed.
Lemma eff_weaken r (P Q : Z -> Prop) s o s' o' : (forall i, P i -> Q i) -> eff r P s o s' o' -> eff r Q s o s' o'.
Proof. intros H [A1 A2 A3 A4 A5 A6 A7]. constructor; auto. exact (surv_weaken _ _ _ _ _ H A3). Qed.

Definition eres (roles : bool) (named : Z -> Prop) (s : cs) (o : option nat) (r : dres) : Prop :=
  match r with DLoop => True | DFail s' o' => eff roles named s o s' o' | DOk s' o' => eff roles named s o s' o' end.

Lemma item_eff E fs roles it s o : good s -> keys_ok E -> item_ok it -> eres roles (nm roles [i_id it]) s o (apply_item E fs roles it s o).
Proof.
  intros G K I. assert (W : forall Q : Z -> Prop, (forall i, nm roles [i_id it] i -> Q i) -> match apply_item E fs roles it s o with DLoop => True | DFail s' o' => effect E roles Q s o s' o' | DOk s' o' => effect E roles Q s o s' o' end).
  { intros Q HQ. destruct roles.
    - pose proof (apply_item_role E fs it s o G I) as H. destruct (apply_item E fs true it s o) as [s' o'|s' o'|]; auto; (apply (effect_weaken E true (fun _ => False)); [tauto|exact G|apply H| |exact H]); intros n _; left; symmetry; apply (ef_handle _ _ _ _ _ _ _ H); reflexivity.
    - pose proof (apply_item_dev E fs it s o G K I) as H. destruct (apply_item E fs false it s o) as [s' o'|s' o'|]; auto; destruct H as [H H'].
      + apply (effect_weaken E false (eq (i_id it))); [intros i <-; apply HQ; split; [reflexivity|left; reflexivity]|exact G|apply H| |exact H]. intros n _. left. auto.
      + apply (effect_weaken E false (eq (i_id it))); [intros i <-; apply HQ; split; [reflexivity|left; reflexivity]|exact G|apply H| |exact H]. intros n En. destruct (H' n En) as [X|(c & C1 & C2 & C3)]; [left; exact X|]. right.
        intros d Hd Hn. assert (d = c); [|subst d; tauto].
        exact (same_name _ _ _ (proj2 (gd_names _ (ef_good _ _ _ _ _ _ _ H))) Hd C1 ltac:(congruence)). }
  pose proof (W _ (fun i H => H)) as H0. unfold eres. destruct (apply_item E fs roles it s o) as [s' o'|s' o'|]; auto; destruct H0 as [A1 A2 A3 A4 A5 A6 A7]; constructor; auto; intros n0 Q HQ L X; exact (ef_own _ _ _ _ _ _ _ (W Q HQ) n0 L X).
Qed.

Lemma items_eff E fs roles l : keys_ok E -> forall s o, good s -> eres roles (nm roles (map given_id l)) s o (apply_items E fs roles l s o).
Proof.
  intros K. induction l as [|x l IH]; intros s o G; cbn [apply_items map].
  - apply eff_refl. exact G.
  - destruct (parse_props fs item0 x) as [it|] eqn:P; [|apply eff_refl; exact G]. destruct (osc_ok it) eqn:O; [|apply eff_refl; exact G].
    destruct (parse_ok _ _ _ P O) as [I Hid]. assert (W : forall i, nm roles (map given_id l) i -> nm roles (given_id x :: map given_id l) i) by (intros i [H1 H2]; split; [exact H1|right; exact H2]).
    assert (W1 : forall i, nm roles [i_id it] i -> nm roles (given_id x :: map given_id l) i) by (intros i [H1 [H2|[]]]; split; [exact H1|left; congruence]).
    destruct x as [|r x].
    + specialize (IH s o G). destruct (apply_items E fs roles l s o) as [s' o'|s' o'|]; [| |exact Logic.I]; exact (eff_weaken _ _ _ _ _ _ _ W IH).
    + pose proof (item_eff E fs roles it s o G K I) as H. destruct (apply_item E fs roles it s o) as [s' o'|s' o'|]; [exact (eff_weaken _ _ _ _ _ _ _ W1 H)| |exact Logic.I].
      specialize (IH s' o' (e_good _ _ _ _ _ _ H)). cbn [eres] in H. apply (eff_weaken _ _ _ _ _ _ _ W1) in H.
      destruct (apply_items E fs roles l s' o') as [s2 o2|s2 o2|]; [| |exact Logic.I]; (apply (eff_weaken _ _ _ _ _ _ _ W) in IH; exact (eff_trans _ _ _ _ _ _ _ _ H IH)).
Qed.

Lemma props_eff E fs roles l : keys_ok E -> forall s o, good s -> eres roles (nm roles (given_ids l)) s o (decode_props E fs roles l s o).
Proof.
  intros K. induction l as [|r l IH]; intros s o G; cbn [decode_props]; [apply eff_refl; exact G|].
  assert (W : forall i, nm roles (given_ids l) i -> nm roles (given_ids (r :: l)) i).
  { intros i [H1 H2]. split; [exact H1|]. unfold given_ids, objects in *. cbn [flat_map]. rewrite map_app. apply in_or_app. right. exact H2. }
  assert (Skip : forall s o, good s -> eres roles (nm roles (given_ids (r :: l))) s o (decode_props E fs roles l s o)).
  { clear s o G. intros s o G. specialize (IH s o G). destruct (decode_props E fs roles l s o) as [s2 o2|s2 o2|]; [| |exact Logic.I]; exact (eff_weaken _ _ _ _ _ _ _ W IH). }
  destruct (snd r) as [|z|b|b|v|v|x| | | | | | |a] eqn:Er; try (apply Skip; exact G).
  - destruct (list_eqb (fst r) (str "rowneruuid")); [|apply Skip; exact G]. set (s1 := mk_cs _ _ _ _).
    assert (H : eff roles (nm roles (given_ids (r :: l))) s o s1 o).
    { pose proof G as [G1 G2 G3 G5 G6 G7 G8]. constructor; auto.
      - constructor; auto. apply uuid_of_typed. exact G6.
      - intros c Hc _. exists c. split; [exact Hc|]. split; [apply kept_refl|reflexivity].
      - intros c Hc. left. exists c. auto. }
    specialize (Skip s1 o (e_good _ _ _ _ _ _ H)). destruct (decode_props E fs roles l s1 o) as [s2 o2|s2 o2|]; [| |exact Logic.I]; exact (eff_trans _ _ _ _ _ _ _ _ H Skip).
  - destruct (list_eqb (fst r) (str "creds") || list_eqb (fst r) (str "roles")) eqn:En; [|apply Skip; exact G].
    pose proof (items_eff E fs roles a K s o G) as H.
    assert (W1 : forall i, nm roles (map given_id a) i -> nm roles (given_ids (r :: l)) i).
    { intros i [H1 H2]. split; [exact H1|]. unfold given_ids, objects. cbn [flat_map]. rewrite Er, En, map_app. apply in_or_app. left. exact H2. }
    destruct (apply_items E fs roles a s o) as [s' o'|s' o'|]; [exact (eff_weaken _ _ _ _ _ _ _ W1 H)| |exact Logic.I].
    specialize (Skip s' o' (e_good _ _ _ _ _ _ H)). apply (eff_weaken _ _ _ _ _ _ _ W1) in H.
    destruct (decode_props E fs roles l s' o') as [s2 o2|s2 o2|]; [| |exact Logic.I]; exact (eff_trans _ _ _ _ _ _ _ _ H Skip).
Qed.

Lemma decode_eff E fs roles l s : keys_ok E -> good s -> eres roles (nm roles (given_ids l)) s None (decode_cred E fs roles l s).
Proof. intros K G. unfold decode_cred. destruct (fs || roles || _); [apply props_eff; assumption|apply eff_refl; exact G]. Qed.

Lemma by_name_some n l c : by_name n l = Some c -> In c l /\ c_name c = n.
Proof. unfold by_name. intros H. apply find_some in H. destruct H as [H1 H2]. apply Nat.eqb_eq in H2. auto. Qed.

Lemma same_id l a b : NoDup (ids l) -> In a l -> In b l -> c_id a = c_id b -> a = b.
Proof. intros N Ha Hb E. pose proof (by_id_in _ _ N Ha) as H1. pose proof (by_id_in _ _ N Hb) as H2. rewrite E, H2 in H1. congruence. Qed.

(** A whole update: other credentials survive, whatever the outcome. *)
Lemma apply_eff E roles l s : keys_ok E -> good s ->
  match apply_cred E roles l s with
  | PFail s' => good s' /\ surv roles (nm roles (given_ids l)) s s' /\ (roles = false -> s_roles s' = s_roles s)
  | POk s' => good s' /\ surv roles (nm roles (given_ids l)) s s' /\ (roles = false -> s_roles s' = s_roles s)
  | _ => True
  end.
Proof.
  intros K G. pose proof (decode_eff E false roles l s K G) as H. unfold apply_cred.
  assert (Fin : forall s' n c f, eff roles (nm roles (given_ids l)) s None s' (Some n) -> by_name n (s_creds s') = Some c ->
     (f = (fun l => remove_id (c_id c) l) \/ exists k, List.length k = 16%nat /\ f = upd (c_id c) (fun c => mk_cred (c_name c) (c_id c) (c_type c) (c_usage c) (c_subject c) (mk_cd (Some k) E_RAW) (c_pub c) (c_role c) (c_auth c) (c_tag c) (c_owner c) (c_osc c))) ->
     good (with_creds s' (f (s_creds s'))) /\ surv roles (nm roles (given_ids l)) s (with_creds s' (f (s_creds s'))) /\ (roles = false -> s_roles (with_creds s' (f (s_creds s'))) = s_roles s)).
  { intros s' n c f A B Hf. apply by_name_some in B. destruct B as [B1 B2]. split; [|split].
    - destruct Hf as [->|(k & Lk & ->)]; [apply good_without; apply A|]. apply good_upd; [intros x; split; reflexivity| |intros x y Hxy; split; exact Hxy|apply A].
      intros x _ _ [O1 O2 O3 O4 O5 O6 O7 O8 O9]. assert (k <> []) by (intros ->; discriminate). constructor; cbn [c_id c_type c_usage c_subject c_priv c_pub cd_data od]; auto.
      + split; [cbn; unfold E_RAW; lia|exact H0].
      + intros _ k' [= <-]. split; [rewrite Lk; reflexivity|discriminate].
      + discriminate.
    - intros x Hx Hn. destruct (e_surv _ _ _ _ _ _ A x Hx Hn) as (y & Hy & Ky & Ty). exists y. split; [|split; [exact Ky|exact Ty]].
      assert (Ne : c_id y <> c_id c).
      { intros Eq. assert (y = c) by (exact (same_id _ _ _ (gd_ids _ (e_good _ _ _ _ _ _ A)) Hy B1 Eq)). subst y.
        destruct (e_own _ _ _ _ _ _ A (s_next s) _ (fun i H => H) (Nat.le_refl _) ltac:(intros ? ? ?; discriminate) n c eq_refl B1 B2) as [X|X].
        - apply Hn. destruct Ky as (_ & Ei & _). rewrite <- Ei. exact X.
        - pose proof (proj1 (gd_names _ G)) as N. rewrite Forall_forall in N. specialize (N x Hx). cbn beta in N. destruct Ky as (En & _). lia. }
      destruct Hf as [->|(k & Lk & ->)]; cbn [with_creds s_creds].
      + rewrite remove_without by (apply (gd_ids _ (e_good _ _ _ _ _ _ A))). apply without_in. auto.
      + match goal with |- In y (upd ?i ?g ?l) => pose proof (in_upd i g l y (gd_ids _ (e_good _ _ _ _ _ _ A)) Hy) as X end. destruct (Z.eqb_spec (c_id y) (c_id c)); [contradiction|exact X].
    - intros Hr. cbn [with_creds s_roles]. apply (e_roles _ _ _ _ _ _ A Hr). }
  destruct (decode_cred E false roles l s) as [s' o|s' o|]; [| |exact Logic.I]; cbn [eres] in H.
  - destruct o as [n|]; [|split; [apply H|split; apply H]]. destruct (by_name n (s_creds s')) as [c|] eqn:B; [|exact Logic.I].
    exact (Fin s' n c (fun l => remove_id (c_id c) l) H B (or_introl eq_refl)).
  - destruct o as [n|]; [|split; [apply H|split; apply H]]. destruct roles eqn:Er; [split; [apply H|split; apply H]|]. destruct (by_name n (s_creds s')) as [c|] eqn:B; [|exact Logic.I].
    destruct (list_eqb (c_subject c) (s_owner s')); [|split; [apply H|split; apply H]]. destruct (ce_psk E) as [k|] eqn:P.
    + refine (Fin s' n c _ H B (or_intror _)). exists k. split; [apply K; exact P|reflexivity].
    + exact (Fin s' n c (fun l => remove_id (c_id c) l) H B (or_introl eq_refl)).
Qed.

(** * The handle of the owner credential *)

Definition tail_free (l : list Z) : Prop := NoDup l /\ ~ In (-1)%Z (removelast l).
Definition inv (rest : list Z) (s : cs) (o : option nat) : Prop := forall n, o = Some n -> exists c, In c (s_creds s) /\ c_name c = n /\ ~ In (c_id c) rest.
Definition live (s : cs) (o : option nat) : Prop := forall n, o = Some n -> exists c, In c (s_creds s) /\ c_name c = n.

Lemma inv_live r s o : inv r s o -> live s o.
Proof. intros H n E. destruct (H n E) as (c & H1 & H2 & _). eauto. Qed.
Lemma inv_less a r s o : inv (a ++ r) s o -> inv r s o.
Proof. intros H n E. destruct (H n E) as (c & H1 & H2 & H3). exists c. split; [exact H1|]. split; [exact H2|]. intros X. apply H3. apply in_or_app. right. exact X. Qed.
Lemma tail_free_cons x l : tail_free (x :: l) -> ~ In x l /\ (x <> (-1)%Z \/ l = []) /\ tail_free l.
Proof.
  intros [H1 H2]. inversion H1 as [|? ? N1 N2]; subst. split; [exact N1|]. destruct l as [|y l]; [split; [auto|]; split; [constructor|intros []]|]. cbn [removelast] in H2. split; [left; intros ->; apply H2; left; reflexivity|].
  split; [exact N2|]. intros X. apply H2. right. exact X.
Qed.

Lemma items_inv E fs l rest : keys_ok E -> tail_free (map given_id l ++ rest) -> forall s o, good s -> inv (map given_id l ++ rest) s o ->
  match apply_items E fs false l s o with DLoop => True | DFail s' o' => live s' o' | DOk s' o' => inv rest s' o' end.
Proof.
  intros K. induction l as [|x l IH]; intros T s o G H; cbn [apply_items map app] in *; [exact H|].
  apply tail_free_cons in T. destruct T as (T1 & T2 & T3).
  destruct (parse_props fs item0 x) as [it|] eqn:P; [|exact (inv_live _ _ _ H)]. destruct (osc_ok it) eqn:O; [|exact (inv_live _ _ _ H)].
  destruct (parse_ok _ _ _ P O) as [I Hid]. destruct x as [|r x]; [apply (IH T3 s o G); exact (inv_less [_] _ _ _ H)|].
  pose proof (apply_item_dev E fs it s o G K I) as A. destruct (apply_item E fs false it s o) as [s' o'|s' o'|]; [| |exact Logic.I]; destruct A as [A A'].
  - subst o'. intros n En. destruct (H n En) as (c & H1 & H2 & H3). destruct (ef_surv _ _ _ _ _ _ _ A c H1) as (c' & C1 & C2 & _); [intros X; apply H3; left; congruence|]. exists c'. split; [exact C1|]. destruct C2 as (C2 & _). congruence.
  - apply (IH T3 s' o' (ef_good _ _ _ _ _ _ _ A)). intros n En. destruct (A' n En) as [X|(c & C1 & C2 & [C3|[C3 C4]])].
    + rewrite <- X in En. clear X. destruct (H n En) as (c & H1 & H2 & H3). destruct (ef_surv _ _ _ _ _ _ _ A c H1) as (c' & C1 & C2 & _); [intros X; apply H3; left; congruence|]. exists c'. split; [exact C1|]. destruct C2 as (C2 & C3 & _). split; [congruence|]. rewrite C3. intros X. apply H3. right. exact X.
    + exists c. split; [exact C1|]. split; [exact C2|]. rewrite <- C3, Hid. exact T1.
    + exists c. split; [exact C1|]. split; [exact C2|]. destruct T2 as [T2| ->]; [congruence|intros []].
Qed.

Lemma props_inv E fs l : keys_ok E -> tail_free (given_ids l) -> forall s o, good s -> inv (given_ids l) s o ->
  match decode_props E fs false l s o with DLoop => True | DFail s' o' => live s' o' | DOk s' o' => live s' o' end.
Proof.
  intros K. induction l as [|r l IH]; intros T s o G H; cbn [decode_props]; [exact (inv_live _ _ _ H)|].
  assert (X : given_ids (r :: l) = map given_id (match snd r with RObjArr a => if list_eqb (fst r) (str "creds") || list_eqb (fst r) (str "roles") then a else [] | _ => [] end) ++ given_ids l) by (unfold given_ids, objects; cbn [flat_map]; apply map_app).
  rewrite X in *.
  destruct (snd r) as [|z|b|b|v|v|x| | | | | | |a] eqn:Er; try (apply (IH T s o G H)).
  - destruct (list_eqb (fst r) (str "rowneruuid")); [|apply (IH T s o G H)]. apply IH; [exact T| |exact H]. pose proof G as [G1 G2 G3 G5 G6 G7 G8]. constructor; auto. apply uuid_of_typed. exact G6.
  - destruct (list_eqb (fst r) (str "creds") || list_eqb (fst r) (str "roles")) eqn:En; [|apply (IH T s o G H)].
    pose proof (items_inv E fs a (given_ids l) K T s o G H) as Y. pose proof (items_eff E fs false a K s o G) as Z. destruct (apply_items E fs false a s o) as [s' o'|s' o'|]; [exact Y| |exact Logic.I].
    apply IH; [|apply Z|exact Y]. clear -T. induction (map given_id a) as [|x m IHm]; [exact T|]. apply IHm. cbn [app] in T. apply tail_free_cons in T. tauto.
Qed.

Lemma no_dangling E l s : keys_ok E -> good s -> tail_free (given_ids l) -> apply_cred E false l s <> PUB.
Proof.
  intros K G T. unfold apply_cred.
  assert (L : match decode_cred E false false l s with DLoop => True | DFail s' o' => live s' o' | DOk s' o' => live s' o' end).
  { unfold decode_cred. destruct (false || false || _); [|intros n En; discriminate]. apply props_inv; [exact K|exact T|exact G|]. intros n En. discriminate. }
  assert (B : forall s' n, live s' (Some n) -> by_name n (s_creds s') <> None).
  { intros s' n X E0. destruct (X n eq_refl) as (c & C1 & C2). unfold by_name in E0. pose proof (find_none _ _ E0 c C1) as Y. cbn beta in Y. apply Nat.eqb_neq in Y. contradiction. }
  destruct (decode_cred E false false l s) as [s' [n|]|s' [n|]|]; try discriminate.
  - specialize (B s' n L). destruct (by_name n (s_creds s')); [discriminate|contradiction].
  - specialize (B s' n L). destruct (by_name n (s_creds s')) as [c|]; [|contradiction]. destruct (list_eqb _ _); [|discriminate]. destruct (ce_psk E); discriminate.
Qed.

(** * Histories *)

Lemma start_good : good (mk_cs [] nil_uuid [] 0).
Proof. constructor; cbn [s_creds s_owner s_roles s_next ids map]; first [exact nil_typed|repeat constructor]. Qed.

Lemma load_good E st s : keys_ok E -> load E st = Some s -> good s /\ s_roles s = [].
Proof.
  intros K. unfold load. pose proof (decode_eff E true false st _ K start_good) as H. destruct (decode_cred E true false st _) as [s' o|s' o|]; [| |discriminate]; intros [= <-]; (split; [apply H|apply (e_roles _ _ _ _ _ _ H eq_refl)]).
Qed.

Lemma step_good E o s s' : keys_ok E -> cop_ok o -> good s -> cstep E s o = Some s' -> good s'.
Proof.
  intros K C G. destruct o as [l|l|q|it|f|q|]; cbn [cstep].
  - pose proof (apply_eff E false l s K G) as H. destruct (apply_cred E false l s); try discriminate; intros [= <-]; apply H.
  - pose proof (apply_eff E true l s K G) as H. destruct (apply_cred E true l s); try discriminate; intros [= <-]; apply H.
  - intros [= <-]. unfold delete_cred. destruct (ce_state E =? S_RFNOP); [exact G|]. destruct q as [i|].
    + destruct ((i <? 0)%Z || (2147483647 <? i)%Z); [exact G|]. destruct (by_id i (s_creds s)); [apply good_without; exact G|exact G].
    + pose proof (good_filter s (fun _ => false) G) as X. replace (filter (fun _ : cred => false) (s_creds s)) with (@nil cred) in X; [exact X|]. clear. induction (s_creds s); [reflexivity|assumption].
  - match goal with |- context[add_cred E false ?x s] => assert (I : item_ok x); [|pose proof (add_dev E x s G K I) as H; destruct (add_cred E false x s) as [s1|i s1 r b|]; try discriminate; intros [= <-]; apply H] end.
    destruct C as (C1 & C2 & C3 & C4). unfold item_ok. cbn [i_id i_type i_usage i_priv i_pub]. split; [unfold typed_int; lia|]. split; [destruct C1 as [<-|[<-|[]]]; reflexivity|]. repeat (split; [assumption|]).
    intros H. exfalso. unfold PSK, CERT, OSC, OSC_MC, OSC_MS in *. cbn [In] in *. lia.
  - intros [= <-]. apply good_filter. exact G.
  - intros [= <-]. unfold delete_role. pose proof G as [G1 G2 G3 G5 G6 G7 G8]. assert (Sub : forall l, NoDup (ids l) -> Forall (fun c => typed_int (c_id c) /\ c_id c <> (-1)%Z) l -> good (with_roles s l)) by (intros l L1 L2; constructor; assumption).
    destruct q as [i|]; [|apply Sub; constructor]. destruct ((i <? 0)%Z || (2147483647 <? i)%Z); [exact G|]. destruct (by_id i (s_roles s)); [|exact G]. cbn [snd]. rewrite remove_without by exact G7. apply Sub; [apply nodup_filter; exact G7|apply forall_filter; exact G8].
  - intros [= <-]. pose proof G as [G1 G2 G3 G5 G6 G7 G8]. constructor; cbn [s_creds s_owner s_roles s_next]; auto; first [exact nil_typed|repeat constructor].
Qed.

Lemma reach_good s : creach s -> good s.
Proof.
  intros (E0 & st & l & s0 & H1 & H2 & H3 & H4). pose proof (proj1 (load_good _ _ _ H2 H1)) as G. clear H1. revert s0 G H4. induction l as [|[E o] l IH]; intros s0 G; cbn [crun]; [intros [= <-]; exact G|].
  inversion H3 as [|? ? [X1 X2] X3]; subst. destruct (cstep E s0 o) as [s1|] eqn:Es; [|discriminate]. intros H. apply (IH X3 s1); [|exact H]. exact (step_good _ _ _ _ X1 X2 G Es).
Qed.
