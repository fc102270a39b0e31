(** The batch observers of /oic/res: what they are told in the end. *)
From Coq Require Import PeanoNat Lia.
From Verif Require Import Common Ntf_Model Ntf_Spec Ntf_Proofs Ntf2_Proofs Ntf3_Proofs Ntf4_Proofs.
Local Open Scope nat_scope.

(** ** Lists *)
Lemma filter_split {A} (f : A -> bool) l a e b : filter f l = a ++ e :: b -> exists a' b', l = a' ++ e :: b' /\ filter f b' = b /\ f e = true.
Proof.
  revert a. induction l as [|x l IH]; intros a H; cbn [filter] in H; [destruct a; discriminate|].
  destruct (f x) eqn:F.
  - destruct a as [|y a]; cbn [app] in H.
    + injection H as -> H. exists [], l. auto.
    + injection H as -> H. destruct (IH a H) as (a' & b' & E & G & X). exists (y :: a'), b'. subst l. auto.
  - destruct (IH a H) as (a' & b' & E & G & X). exists (x :: a'), b'. subst l. auto.
Qed.
Lemma app_split {A} (l k : list A) a e b : l ++ k = a ++ e :: b -> (exists b', l = a ++ e :: b' /\ b = b' ++ k) \/ (In e k /\ exists a', k = a' ++ e :: b).
Proof.
  revert a. induction l as [|x l IH]; intros a H; cbn [app] in H.
  - right. subst k. split; [apply in_app_iff; right; now left|now exists a].
  - destruct a as [|y a]; cbn [app] in H; injection H as -> H.
    + left. exists l. auto.
    + destruct (IH a H) as [(b' & E & F)|X]; [left|now right]. exists b'. subst l. auto.
Qed.

(** ** The order of the entries *)
Definition ordered (es : list ent) (rs : list res) : Prop :=
  forall a e b r, es = a ++ e :: b -> In r rs -> e_what e = Gone (r_uri r) -> In (mk_ent (e_obs e) (Live (r_id r))) b.
Lemma ord_filter p es rs : ordered es rs -> ordered (filter (fun e => p (e_obs e)) es) rs.
Proof.
  intros O a e b r E R W. destruct (filter_split _ _ _ _ _ E) as (a' & b' & E' & F & P). subst b. apply filter_In.
  split; [now apply (O a' e b' r)|exact P].
Qed.
Lemma ord_live es l rs : ordered es rs -> (forall e, In e l -> exists i, e_what e = Live i) -> ordered (es ++ l) rs.
Proof.
  intros O L a e b r E R W. destruct (app_split _ _ _ _ _ E) as [(b' & E' & ->)|(X & _)].
  - apply in_app_iff. left. now apply (O a e b' r).
  - destruct (L e X) as (i & Y). congruence.
Qed.
Lemma ord_res es rs rs' : ordered es rs -> (forall r, In r rs' -> exists q, In q rs /\ r_id q = r_id r /\ r_uri q = r_uri r) -> ordered es rs'.
Proof.
  intros O H a e b r E R W. destruct (H r R) as (q & Q & Q1 & Q2). rewrite <- Q1. apply (O a e b q); [exact E|exact Q|congruence].
Qed.

(** ** What was heard *)
Lemma last_about_app u a b acc : last_about u (a ++ b) acc = last_about u b (last_about u a acc).
Proof. revert acc. induction a as [|(x & v) a IH]; intros acc; cbn [app last_about]; [reflexivity|apply IH]. Qed.
Lemma heard_app o u a b acc : heard o u (a ++ b) acc = heard o u b (heard o u a acc).
Proof. revert acc. induction a as [|m a IH]; intros acc; cbn [app heard]; [reflexivity|apply IH]. Qed.
Lemma heard_none o u ms acc : (forall m, In m ms -> m_obs m = o -> match m_body m with BDisc _ => False | _ => True end) -> heard o u ms acc = acc.
Proof.
  revert acc. induction ms as [|m ms IH]; intros acc H; cbn [heard]; [reflexivity|]. rewrite IH by (intros x X; apply H; now right).
  destruct (m_obs m =? o) eqn:E; [|reflexivity]. apply Nat.eqb_eq in E. specialize (H m (or_introl eq_refl) E). destruct (m_body m); tauto.
Qed.

Section Told.
Variable may : nat -> nat -> bool.
Notation inv := (inv may).

(** Every message went to an observer, and the batches only mention what the client may read. *)
Definition proper (m : msg) : Prop := forall l u v, m_body m = BDisc l -> In (u, v) l -> may (m_cl m) u = true.
Definition known (s : st) : Prop := forall m, In m (s_out s) -> m_obs m < s_next s /\ proper m.
Definition kinv (s : st) : Prop :=
  forall o u, batch_observer s o -> may (o_cl o) u = true -> ~ blank s u -> heard (o_id o) u (s_out s) None = truth s u \/ owed s (o_id o) u.
Definition gk (s : st) : Prop := ordered (s_ent s) (s_res s) /\ known s /\ kinv s.

Lemma uri_inj s r q : inv s -> In r (s_res s) -> In q (s_res s) -> r_uri r = r_uri q -> r = q.
Proof. intros I R Q E. apply (nodup_inj r_uri (s_res s)); [apply (i_uris may s I)|exact R|exact Q|exact E]. Qed.
Lemma id_inj s r q : inv s -> In r (s_res s) -> In q (s_res s) -> r_id r = r_id q -> r = q.
Proof. intros I R Q E. apply (nodup_inj r_id (s_res s)); [apply (i_ids may s I)|exact R|exact Q|exact E]. Qed.
Lemma truth_in s r : inv s -> In r (s_res s) -> truth s (r_uri r) = if r_disc r then Some (content_of r) else None.
Proof.
  intros I R. unfold truth. destruct (find _ (s_res s)) as [q|] eqn:E.
  - apply find_some in E. destruct E as (Q & E). apply andb_true_iff in E. destruct E as (E & D). apply Nat.eqb_eq in E.
    assert (q = r) by (now apply (uri_inj s)). subst q. now rewrite D.
  - pose proof (find_none _ _ E r R) as X. cbn beta in X. rewrite Nat.eqb_refl in X. cbn in X. now rewrite X.
Qed.
Lemma truth_none s u : (forall r, In r (s_res s) -> r_uri r = u -> r_disc r = false) -> truth s u = None.
Proof.
  intros H. unfold truth. destruct (find _ (s_res s)) as [q|] eqn:E; [|reflexivity]. apply find_some in E. destruct E as (Q & E).
  apply andb_true_iff in E. destruct E as (E & D). apply Nat.eqb_eq in E. rewrite (H q Q E) in D. discriminate.
Qed.
Lemma about_same s t u : inv s -> inv t -> (forall r, r_uri r = u -> (In r (s_res s) <-> In r (s_res t))) ->
  truth t u = truth s u /\ (blank s u -> blank t u).
Proof.
  intros I J H. split.
  - destruct (find (fun r => r_uri r =? u) (s_res s)) as [q|] eqn:E.
    + apply find_some in E. destruct E as (Q & E). apply Nat.eqb_eq in E. rewrite <- E. rewrite (truth_in s q I Q).
      apply (truth_in t q J). now apply H.
    + assert (N : forall r, In r (s_res s) -> r_uri r <> u).
      { intros r R X. pose proof (find_none _ _ E r R) as Y. cbn beta in Y. apply Nat.eqb_neq in Y. contradiction. }
      rewrite !truth_none; [reflexivity| |]; intros r R X; exfalso; apply (N r); try exact X; [exact R|now apply H].
  - intros (r & R & U & X). exists r. split; [now apply H|]. now split.
Qed.
Lemma about_hidden s t u :
  (forall r, In r (s_res s) -> r_uri r = u -> r_disc r = false) -> (forall r, In r (s_res t) -> r_uri r = u -> r_disc r = false) ->
  truth t u = truth s u /\ (blank s u -> blank t u).
Proof.
  intros H K. split; [now rewrite !truth_none|]. intros (r & R & U & D & _). rewrite (H r R U) in D. discriminate.
Qed.

Lemma kinv_step s t ms :
  kinv s -> s_out t = s_out s ++ ms -> (forall m, In m ms -> match m_body m with BDisc _ => False | _ => True end) ->
  (forall o, batch_observer t o -> batch_observer s o) ->
  (forall o u, batch_observer t o -> may (o_cl o) u = true -> (truth t u = truth s u /\ (blank s u -> blank t u)) \/ owed t (o_id o) u) ->
  (forall o u, batch_observer t o -> may (o_cl o) u = true -> owed s (o_id o) u -> owed t (o_id o) u) ->
  kinv t.
Proof.
  intros K EO EB BO TR OW o u O M N. rewrite EO, heard_app. rewrite (heard_none _ _ ms) by (intros m X _; now apply EB).
  destruct (TR o u O M) as [(T & Bl)|X]; [|now right]. rewrite T.
  destruct (K o u (BO o O) M) as [H|H]; [intros X; apply N; now apply Bl|now left|]. right. now apply OW.
Qed.
Lemma known_step s t ms : known s -> inv s -> s_out t = s_out s ++ ms -> s_next s <= s_next t ->
  (forall m, In m ms -> (exists o, In o (s_obs s) /\ m_obs m = o_id o) /\ proper m) -> known t.
Proof.
  intros K I E N H m M. rewrite E in M. apply in_app_iff in M. destruct M as [M|M].
  - destruct (K m M) as (A & C). split; [lia|exact C].
  - destruct (H m M) as ((o & O & ->) & C). pose proof (i_onew may s I o O). split; [lia|exact C].
Qed.

Lemma add_fold_app r rm os es : exists l, fold_left (add_one may r rm) os es = es ++ l /\ forall e, In e l -> e_what e = (if rm then Gone (r_uri r) else Live (r_id r)).
Proof.
  revert es. induction os as [|o os IH]; intros es; cbn [fold_left].
  - exists []. rewrite app_nil_r. split; [reflexivity|intros e []].
  - destruct (IH (add_one may r rm es o)) as (l & E & H). rewrite E. unfold add_one.
    destruct (_ && _); [|now exists l]. exists (mk_ent (o_id o) (if rm then Gone (r_uri r) else Live (r_id r)) :: l). rewrite <- app_assoc.
    split; [reflexivity|]. intros e [X|X]; [now subst e|now apply H].
Qed.

Lemma batch_obs s t o : s_obs t = s_obs s -> batch_observer t o -> batch_observer s o.
Proof. intros E (A & C). split; [now rewrite E in A|exact C]. Qed.
Lemma batch_is s o : batch_observer s o -> is_batch o = true.
Proof. intros (_ & A & C). apply is_batch_eq. now split. Qed.

(** A resource that was changed or has to be announced. *)
Lemma gk_touch s t ms r f l :
  inv s -> inv t -> gk s -> In r (s_res s) ->
  (forall q, r_id (f q) = r_id q) -> (forall q, r_uri (f q) = r_uri q) -> (forall q, r_disc (f q) = r_disc q) ->
  s_res t = s_res (upd_res (r_id r) f s) -> s_obs t = s_obs s -> s_ent t = s_ent s ++ l ->
  (forall e, In e l -> exists i, e_what e = Live i) ->
  (forall o, batch_observer t o -> may (o_cl o) (r_uri r) = true ->
     (exists e, In e (s_ent t) /\ e_obs e = o_id o /\ e_what e = Live (r_id r)) \/ In (r_id r) (s_chg t) \/ In (r_id r) (s_ntf t)) ->
  (forall j, j <> r_id r -> In j (s_chg s) -> In j (s_chg t)) -> (forall j, j <> r_id r -> In j (s_ntf s) -> In j (s_ntf t)) ->
  s_out t = s_out s ++ ms -> (forall m, In m ms -> match m_body m with BDisc _ => False | _ => True end /\ exists o, In o (s_obs s) /\ m_obs m = o_id o) ->
  s_next s <= s_next t -> gk t.
Proof.
  intros I J (G & KN & K) R FI FU FD ER EO EE LL_ TC HC HN EM MB NX.
  assert (RT : In (f r) (s_res t)).
  { rewrite ER. pose proof (upd_has (r_id r) f s r R) as X. now rewrite Nat.eqb_refl in X. }
  assert (TT : forall q, In q (s_res t) -> exists q0, In q0 (s_res s) /\ r_id q0 = r_id q /\ r_uri q0 = r_uri q /\ r_disc q0 = r_disc q /\ (r_uri q <> r_uri r -> q0 = q)).
  { intros q Q. rewrite ER in Q. apply upd_in in Q. destruct Q as (q0 & Q & X). exists q0. split; [exact Q|]. destruct (r_id q0 =? r_id r) eqn:Z.
    - subst q. split; [symmetry; apply FI|]. split; [symmetry; apply FU|]. split; [symmetry; apply FD|]. intros D. exfalso. apply D. rewrite FU. apply Nat.eqb_eq in Z. now rewrite (id_inj s q0 r I Q R Z).
    - subst q. auto. }
  assert (SS : forall q, In q (s_res s) -> exists q1, In q1 (s_res t) /\ r_id q1 = r_id q /\ r_uri q1 = r_uri q /\ r_disc q1 = r_disc q /\ (r_uri q <> r_uri r -> q1 = q)).
  { intros q Q. exists (if r_id q =? r_id r then f q else q). split; [rewrite ER; now apply upd_has|]. destruct (r_id q =? r_id r) eqn:Z; [|auto].
    split; [apply FI|]. split; [apply FU|]. split; [apply FD|]. intros D. exfalso. apply D. apply Nat.eqb_eq in Z. now rewrite (id_inj s q r I Q R Z). }
  assert (OWE : forall o, batch_observer t o -> may (o_cl o) (r_uri r) = true -> r_disc r = true -> owed t (o_id o) (r_uri r)).
  { intros o O M D. destruct (TC o O M) as [(e & E1 & E2 & E3)|X].
    - left. exists e. split; [exact E1|]. split; [exact E2|]. right. exists (f r). rewrite FI, FU, FD. auto.
    - right. exists (f r). rewrite FI, FU, FD. auto. }
  split; [|split].
  - rewrite EE. apply ord_live; [|exact LL_]. apply (ord_res _ (s_res s)); [exact G|]. intros q Q. destruct (TT q Q) as (q0 & A1 & A2 & A3 & _). now exists q0.
  - apply (known_step s t ms); try assumption. intros m M. destruct (MB m M) as (A & C). split; [exact C|].
    intros x u v E. rewrite E in A. destruct A.
  - apply (kinv_step s t ms); try assumption.
    + intros m M. apply (MB m M).
    + intros o. now apply batch_obs.
    + intros o u O M. destruct (Nat.eq_dec u (r_uri r)) as [->|N].
      * destruct (r_disc r) eqn:D; [right; now apply OWE|]. left. apply about_hidden.
        -- intros q Q U. now rewrite (uri_inj s q r I Q R U).
        -- intros q Q U. rewrite <- (FU r) in U. rewrite (uri_inj t q (f r) J Q RT U). now rewrite FD.
      * left. apply about_same; [exact I|exact J|]. intros q U. split; intros Q.
        -- destruct (SS q Q) as (q1 & A1 & _ & _ & _ & A2). rewrite A2 in A1 by congruence. exact A1.
        -- destruct (TT q Q) as (q1 & A1 & _ & _ & _ & A2). rewrite A2 in A1 by congruence. exact A1.
    + intros o u O M [(e & E1 & E2 & [E3|(q & Q & U & D & E3)])|(q & Q & U & D & T)].
      * left. exists e. split; [rewrite EE; apply in_app_iff; now left|]. split; [exact E2|now left].
      * left. exists e. split; [rewrite EE; apply in_app_iff; now left|]. split; [exact E2|]. right. destruct (SS q Q) as (q1 & A1 & A2 & A3 & A4 & _).
        exists q1. split; [exact A1|]. split; [congruence|]. split; congruence.
      * destruct (Nat.eq_dec (r_id q) (r_id r)) as [Z|Z].
        -- rewrite (id_inj s q r I Q R Z) in *. subst u. now apply OWE.
        -- right. destruct (SS q Q) as (q1 & A1 & A2 & A3 & A4 & _). exists q1. split; [exact A1|]. split; [congruence|]. split; [congruence|].
           rewrite A2. destruct T as [T|T]; [left; now apply HC|right; now apply HN].
Qed.

(** A resource that is removed. *)
Lemma gk_gone s t r p :
  inv s -> inv t -> gk s -> In r (s_res s) ->
  s_res t = filter (fun x => negb (r_id x =? r_id r)) (s_res s) -> (forall o, In o (s_obs t) -> In o (s_obs s) /\ p (o_id o) = true) ->
  s_ent t = fold_left (add_one may r true) (s_obs t) (filter (fun e => negb (ent_of_res (r_id r) e)) (filter (fun e => p (e_obs e)) (s_ent s))) ->
  (forall j, j <> r_id r -> In j (s_chg s) -> In j (s_chg t)) -> (forall j, j <> r_id r -> In j (s_ntf s) -> In j (s_ntf t)) ->
  s_out t = s_out s -> s_next t = s_next s -> gk t.
Proof.
  intros I J (G & KN & K) R ER EO EE HC HN EM NX.
  assert (RR : forall q, In q (s_res t) <-> In q (s_res s) /\ r_id q <> r_id r).
  { intros q. rewrite ER, filter_In, negb_true_iff, Nat.eqb_neq. reflexivity. }
  assert (NU : forall q, In q (s_res t) -> r_uri q <> r_uri r).
  { intros q Q U. apply RR in Q. destruct Q as (Q & N). apply N. now rewrite (uri_inj s q r I Q R U). }
  assert (EK : forall e, In e (s_ent s) -> p (e_obs e) = true -> e_what e <> Live (r_id r) -> In e (s_ent t)).
  { intros e E P W. rewrite EE. apply add_fold_keeps. apply filter_In. split; [apply filter_In; now split|].
    unfold ent_of_res. destruct (e_what e) as [i|u]; [|reflexivity]. rewrite negb_true_iff, Nat.eqb_neq. congruence. }
  assert (OWE : forall o, batch_observer t o -> may (o_cl o) (r_uri r) = true -> owed t (o_id o) (r_uri r)).
  { intros o O M. left. pose proof (add_fold_has may r true (s_obs t) (filter (fun e => negb (ent_of_res (r_id r) e)) (filter (fun e => p (e_obs e)) (s_ent s))) o (proj1 O) (batch_is t o O) M) as X.
    rewrite <- EE in X. apply existsb_exists in X. destruct X as (e & E & X). exists e. unfold same_entry in X. apply andb_true_iff in X.
    destruct X as (X1 & X2). apply Nat.eqb_eq in X1. split; [exact E|]. split; [exact X1|]. left.
    destruct (e_what e) as [i|u] eqn:W; cbn [andb] in X2; apply Nat.eqb_eq in X2; [|now subst u].
    exfalso. destruct (i_ent may t J e E) as (o' & _ & _ & _ & Y). rewrite W in Y. destruct Y as (q & Q & QI & _). apply RR in Q. destruct Q. congruence. }
  split; [|split].
  - rewrite EE. destruct (add_fold_app r true (s_obs t) (filter (fun e => negb (ent_of_res (r_id r) e)) (filter (fun e => p (e_obs e)) (s_ent s)))) as (l & -> & L).
    intros a e b q E Q W. destruct (app_split _ _ _ _ _ E) as [(b' & E' & ->)|(X & _)].
    + apply in_app_iff. left. destruct (filter_split _ _ _ _ _ E') as (a1 & b1 & E1 & F1 & _). subst b'.
      destruct (filter_split _ _ _ _ _ E1) as (a2 & b2 & E2 & F2 & P2). subst b1.
      pose proof (proj1 (RR q) Q) as (Q1 & Q2). pose proof (G a2 e b2 q E2 Q1 W) as Y. apply filter_In. split; [apply filter_In; split; [exact Y|exact P2]|].
      cbn. rewrite negb_true_iff, Nat.eqb_neq. exact Q2.
    + exfalso. rewrite (L e X) in W. injection W as W. now apply (NU q Q).
  - intros m M. rewrite EM in M. rewrite NX. now apply KN.
  - apply (kinv_step s t []); try assumption.
    + rewrite EM. apply no_msgs.
    + intros m [].
    + intros o (A & C). split; [now apply EO|exact C].
    + intros o u O M. destruct (Nat.eq_dec u (r_uri r)) as [->|N]; [right; now apply OWE|]. left. apply about_same; [exact I|exact J|].
      intros q U. rewrite RR. split; [|tauto]. intros Q. split; [exact Q|]. intros Z. apply N. now rewrite <- U, (id_inj s q r I Q R Z).
    + intros o u O M H. destruct (Nat.eq_dec u (r_uri r)) as [->|N]; [now apply OWE|].
      assert (QQ : forall q, In q (s_res s) -> r_uri q = u -> r_id q <> r_id r).
      { intros q Q U Z. apply N. now rewrite <- U, (id_inj s q r I Q R Z). }
      destruct (EO o (proj1 O)) as (_ & PO).
      destruct H as [(e & E1 & E2 & [E3|(q & Q & U & D & E3)])|(q & Q & U & D & T)].
      * left. exists e. split; [apply EK; [exact E1|congruence|congruence]|]. split; [exact E2|now left].
      * left. exists e. split; [apply EK; [exact E1|congruence|]|].
        -- rewrite E3. intros Z. injection Z as Z. now apply (QQ q).
        -- split; [exact E2|]. right. exists q. rewrite RR. auto.
      * right. exists q. rewrite RR. split; [split; [exact Q|now apply QQ]|]. split; [exact U|]. split; [exact D|].
        destruct T as [T|T]; [left; apply HC|right; apply HN]; auto.
Qed.

(** Nothing about resources changes. *)
Lemma gk_quiet s t ms p :
  inv s -> gk s -> s_res t = s_res s -> (forall o, In o (s_obs t) -> In o (s_obs s) /\ p (o_id o) = true) ->
  s_ent t = filter (fun e => p (e_obs e)) (s_ent s) -> s_chg t = s_chg s -> s_ntf t = s_ntf s ->
  s_out t = s_out s ++ ms -> (forall m, In m ms -> match m_body m with BDisc _ => False | _ => True end /\ exists o, In o (s_obs s) /\ m_obs m = o_id o) ->
  s_next s <= s_next t -> gk t.
Proof.
  intros I (G & KN & K) ER EO EE EC EN EM MB NX. split; [|split].
  - rewrite EE, ER. now apply ord_filter.
  - apply (known_step s t ms); try assumption. intros m M. destruct (MB m M) as (A & C). split; [exact C|].
    intros x u v E. rewrite E in A. destruct A.
  - apply (kinv_step s t ms); try assumption.
    + intros m M. apply (MB m M).
    + intros o (A & C). split; [now apply EO|exact C].
    + intros o u O M. left. unfold truth, blank. rewrite ER. auto.
    + intros o u O M H. unfold owed in *. rewrite ER, EC, EN. destruct H as [(e & E1 & E2 & H)|H]; [|now right]. left. exists e.
      split; [|now split]. rewrite EE. apply filter_In. split; [exact E1|]. rewrite E2. now apply EO, (proj1 O).
Qed.
Lemma gk_frame s t ms :
  inv s -> gk s -> frame s t -> s_out t = s_out s ++ ms ->
  (forall m, In m ms -> match m_body m with BDisc _ => False | _ => True end /\ exists o, In o (s_obs s) /\ m_obs m = o_id o) -> gk t.
Proof.
  intros I K (F1 & F2 & F3 & F4 & F5 & F6 & F7 & F8 & F9 & F10) E M. apply (gk_quiet s t ms (fun _ => true)); try assumption.
  - intros o O. rewrite F2 in O. now split.
  - rewrite F3. symmetry. now apply filter_all.
  - rewrite F9. auto.
Qed.
Lemma gk_same s t :
  inv s -> gk s -> s_res t = s_res s -> s_obs t = s_obs s -> s_ent t = s_ent s -> s_chg t = s_chg s -> s_ntf t = s_ntf s -> s_out t = s_out s -> s_next t = s_next s -> gk t.
Proof.
  intros I K F1 F2 F3 F4 F5 F6 F7. apply (gk_quiet s t [] (fun _ => true)); try assumption.
  - intros o O. rewrite F2 in O. now split.
  - rewrite F3. symmetry. now apply filter_all.
  - rewrite F6. apply no_msgs.
  - intros m [].
  - rewrite F7. auto.
Qed.

Lemma upd_same_res i s : s_res (upd_res i (fun r => r) s) = s_res s.
Proof.
  unfold upd_res. cbn. rewrite <- (map_id (s_res s)) at 2. apply map_ext. intros q. now destruct (r_id q =? i).
Qed.
Lemma ents_have r s o : In o (s_obs s) -> is_batch o = true -> may (o_cl o) (r_uri r) = true ->
  exists e, In e (ents_of may r false s) /\ e_obs e = o_id o /\ e_what e = Live (r_id r).
Proof.
  intros O Bo M. pose proof (add_fold_has may r false (s_obs s) (s_ent s) o O Bo M) as X. apply existsb_exists in X. destruct X as (e & E & X).
  exists e. unfold same_entry in X. apply andb_true_iff in X. destruct X as (X1 & X2). apply Nat.eqb_eq in X1. split; [exact E|]. split; [exact X1|].
  destruct (e_what e); [apply Nat.eqb_eq in X2; congruence|discriminate].
Qed.
Lemma ents_app r s : exists l, ents_of may r false s = s_ent s ++ l /\ forall e, In e l -> exists i, e_what e = Live i.
Proof. destruct (add_fold_app r false (s_obs s) (s_ent s)) as (l & E & H). exists l. split; [exact E|]. intros e X. exists (r_id r). exact (H e X). Qed.

(** oc_collection_notify_resource_changed after a change of the links. *)
Lemma gk_coll c d s k l :
  inv s -> gk s -> find_res s c = Some k -> inv (coll_changed may (with_links l k) d (upd_res c (with_links l) s)) ->
  gk (coll_changed may (with_links l k) d (upd_res c (with_links l) s)).
Proof.
  intros I K E J. destruct (find_res_some _ _ _ E) as (KI & KE). subst c.
  destruct (coll_changed_frame may (with_links l k) d (upd_res (r_id k) (with_links l) s)) as (B1 & B2 & B3 & B4 & B5 & B6 & B7 & B8 & B9 & B10 & B11 & B12 & B13).
  set (t := coll_changed may (with_links l k) d (upd_res (r_id k) (with_links l) s)) in *. clearbody t.
  destruct (add_fold_app (with_links l k) false (s_obs s) (s_ent s)) as (x & X1 & X2).
  apply (gk_touch s t [] k (with_links l) x); try assumption; try reflexivity.
  - rewrite B3. exact X1.
  - intros e Y. exists (r_id k). now apply X2.
  - intros o O M. left. assert (O' : In o (s_obs s)) by (destruct O as (O & _); rewrite B2 in O; exact O).
    destruct (ents_have (with_links l k) (upd_res (r_id k) (with_links l) s) o) as (e & Y).
    + exact O'.
    + now apply (batch_is t).
    + exact M.
    + exists e. rewrite B3. exact Y.
  - intros j _ Y. rewrite B5. exact Y.
  - intros j _ Y. rewrite B6. exact Y.
  - rewrite B12. exact (no_msgs s).
  - intros m [].
  - rewrite B9. apply Nat.le_refl.
Qed.

Lemma gk_notify s s1 big t r f :
  inv s -> inv t -> gk s -> In r (s_res s) ->
  (forall q, r_id (f q) = r_id q) -> (forall q, r_uri (f q) = r_uri q) -> (forall q, r_disc (f q) = r_disc q) ->
  s_res s1 = s_res (upd_res (r_id r) f s) -> s_obs s1 = s_obs s -> s_ent s1 = s_ent s -> s_out s1 = s_out s -> s_next s1 = s_next s ->
  (forall j, j <> r_id r -> In j (s_chg s) -> In j (s_chg s1)) -> (forall j, j <> r_id r -> In j (s_ntf s) -> In j (s_ntf s1)) ->
  notify may big (r_id r) s1 = Some t -> gk t.
Proof.
  intros I J K R FI FU FD E1 E2 E3 E4 E5 E6 E7 H.
  assert (FR : find_res s1 (r_id r) = Some (f r)).
  { unfold find_res. rewrite E1. pose proof (upd_has (r_id r) f s r R) as X. rewrite Nat.eqb_refl in X.
    change (find_res (upd_res (r_id r) f s) (r_id r) = Some (f r)). rewrite <- (FI r) at 2. apply find_res_in; [|exact X].
    rewrite upd_ids by exact FI. apply (i_ids may s I). }
  destruct (notify_msgs may big (r_id r) s1 t (f r) H FR) as (ms & M1 & _ & M2 & N1 & N2 & N3 & _ & _ & N4 & N5 & N6 & _).
  destruct (ents_app (f r) s1) as (l & L1 & L2). apply (gk_touch s t ms r f l); try assumption.
  - congruence.
  - congruence.
  - congruence.
  - intros o O M. left. destruct (ents_have (f r) s1 o) as (e & Y1 & Y2 & Y3).
    + rewrite <- N2. exact (proj1 O).
    + now apply (batch_is t).
    + now rewrite FU.
    + exists e. rewrite N3, <- (FI r). auto.
  - intros j N X. rewrite N4. now apply E6.
  - intros j N X. rewrite N5. now apply E7.
  - rewrite M1. now rewrite E4.
  - intros m M. rewrite <- E2. now apply M2.
  - rewrite N6, E5. apply Nat.le_refl.
Qed.

(** One message to a batch observer. *)
Lemma items_last s o u k es its :
  inv s -> ordered es (s_res s) -> (forall e, In e es -> e_obs e = k) -> may (o_cl o) u = true -> ~ blank s u -> items may s o es = Some its ->
  forall acc,
    (last_about u its acc = acc
     /\ ~ exists e, In e es /\ (e_what e = Gone u \/ exists r, In r (s_res s) /\ r_uri r = u /\ r_disc r = true /\ e_what e = Live (r_id r)))
    \/ last_about u its acc = truth s u.
Proof.
  intros I. revert its. induction es as [|e es IH]; intros its O K M Bl H acc; cbn [items] in H.
  - injection H as <-. left. split; [reflexivity|]. intros (e & [] & _).
  - destruct (item may s o (e_what e)) as [a|] eqn:A; cbn [bind] in H; [|discriminate].
    destruct (items may s o es) as [b|] eqn:B_; cbn [bind] in H; [|discriminate]. injection H as <-. rewrite last_about_app.
    assert (O' : ordered es (s_res s)).
    { intros x y z r E R W. apply (O (e :: x) y z r); [now rewrite E|exact R|exact W]. }
    specialize (IH b O' (fun x X => K x (or_intror X)) M Bl eq_refl).
    destruct (e_what e) as [i|v] eqn:W; cbn [item] in A.
    + destruct (find_res s i) as [r|] eqn:F; cbn [bind] in A; [|discriminate]. destruct (find_res_some _ _ _ F) as (R & RI).
      destruct (r_disc r && may (o_cl o) (r_uri r) && negb (negb (r_coll r) && (r_val r =? 0))) eqn:C; injection A as <-; cbn [last_about].
      * apply andb_true_iff in C. destruct C as (C & _). apply andb_true_iff in C. destruct C as (D & _).
        destruct (r_uri r =? u) eqn:U.
        -- apply Nat.eqb_eq in U. right. assert (T : truth s u = Some (content_of r)) by (rewrite <- U, (truth_in s r I R), D; reflexivity).
           destruct (IH (Some (content_of r))) as [(X & _)|X]; congruence.
        -- apply Nat.eqb_neq in U. destruct (IH acc) as [(X & N)|X]; [left|now right]. split; [exact X|].
           intros (x & [Y|Y] & Z); [|apply N; now exists x]. subst x. destruct Z as [Z|(q & Q & QU & QD & Z)]; [congruence|].
           apply U. rewrite <- QU. f_equal. apply (id_inj s r q I R Q). congruence.
      * destruct (IH acc) as [(X & N)|X]; [left|now right]. split; [exact X|].
        intros (x & [Y|Y] & Z); [|apply N; now exists x]. subst x. destruct Z as [Z|(q & Q & QU & QD & Z)]; [congruence|].
        assert (r = q) by (apply (id_inj s r q I R Q); congruence). subst q. apply Bl. exists r.
        rewrite QU, M, QD in C. cbn [andb] in C. rewrite negb_false_iff in C. apply andb_true_iff in C. destruct C as (C1 & C2).
        rewrite negb_true_iff in C1. apply Nat.eqb_eq in C2. repeat split; assumption.
    + injection A as <-. cbn [last_about]. destruct (v =? u) eqn:U.
      * apply Nat.eqb_eq in U. subst v. right. destruct (IH None) as [(X & N)|X]; [|exact X]. rewrite X.
        destruct (truth s u) as [c|] eqn:T; [|reflexivity]. exfalso. unfold truth in T. destruct (find _ (s_res s)) as [r|] eqn:F; [|discriminate].
        apply find_some in F. destruct F as (R & F). apply andb_true_iff in F. destruct F as (F1 & F2). apply Nat.eqb_eq in F1.
        apply N. exists (mk_ent (e_obs e) (Live (r_id r))). split.
        -- apply (O [] e es r); [reflexivity|exact R|congruence].
        -- right. exists r. auto.
      * apply Nat.eqb_neq in U. destruct (IH acc) as [(X & N)|X]; [left|now right]. split; [exact X|].
        intros (x & [Y|Y] & Z); [|apply N; now exists x]. subst x. destruct Z as [Z|(q & Q & QU & QD & Z)]; congruence.
Qed.

Lemma send_free big fin o b s : existsb (xfer_for o) (s_bw s) = false ->
  s_out (send big fin true o b s) = s_out s ++ [mk_msg (o_id o) (o_cl o) b].
Proof.
  intros H. unfold send. rewrite andb_false_r. destruct (mem (o_id o) big); [|reflexivity].
  destruct (existsb (fun x => xfer_for o x && negb (x_done x)) (s_bw s)) eqn:E.
  - apply existsb_exists in E. destruct E as (x & X & E). apply andb_true_iff in E. destruct E as (E & _).
    assert (existsb (xfer_for o) (s_bw s) = true) by (apply existsb_exists; now exists x). congruence.
  - cbn. unfold free_bw. destruct (existsb (fun x => xfer_for o x && x_fin x) (s_bw s)); reflexivity.
Qed.

Lemma items_may s o es its : inv s -> In o (s_obs s) -> (forall e, In e es -> In e (s_ent s) /\ e_obs e = o_id o) ->
  items may s o es = Some its -> forall u v, In (u, v) its -> may (o_cl o) u = true.
Proof.
  intros I O. revert its. induction es as [|e es IH]; intros its H E u v X; cbn [items] in E; [injection E as <-; destruct X|].
  destruct (item may s o (e_what e)) as [a|] eqn:A; cbn [bind] in E; [|discriminate].
  destruct (items may s o es) as [b|] eqn:B_; cbn [bind] in E; [|discriminate]. injection E as <-. apply in_app_iff in X.
  destruct X as [X|X]; [|apply (IH b (fun x Y => H x (or_intror Y)) eq_refl u v X)].
  destruct (H e (or_introl eq_refl)) as (EI & EO). destruct (i_ent may s I e EI) as (p & P & PI & _ & Y).
  assert (p = o) by (apply (nodup_inj o_id (s_obs s)); [apply (i_oids may s I)|exact P|exact O|congruence]). subst p.
  destruct (e_what e) as [i|w]; cbn [item] in A.
  - destruct (find_res s i) as [r|]; cbn [bind] in A; [|discriminate].
    destruct (r_disc r && may (o_cl o) (r_uri r) && negb (negb (r_coll r) && (r_val r =? 0))) eqn:C; injection A as <-; [|destruct X].
    destruct X as [X|[]]. injection X as <- _. apply andb_true_iff in C. destruct C as (C & _). now apply andb_true_iff in C.
  - injection A as <-. destruct X as [X|[]]. injection X as <- _. tauto.
Qed.

(** One round of the processing of batch observers. *)
Definition served (s : st) (o : obs) (its : list (nat * option content)) (big : list nat) : st :=
  let s1 := set_ent (filter (fun x => negb (e_obs x =? o_id o)) (s_ent s)) s in
  match its with [] => s1 | _ => send big true true o (BDisc its) s1 end.
Lemma served_frame s o its big : frame (set_ent (filter (fun x => negb (e_obs x =? o_id o)) (s_ent s)) s) (served s o its big).
Proof. unfold served. destruct its; [apply frame_refl|apply frame_send]. Qed.
Lemma served_out s o its big : existsb (xfer_for o) (s_bw s) = false ->
  s_out (served s o its big) = s_out s ++ match its with [] => [] | _ => [mk_msg (o_id o) (o_cl o) (BDisc its)] end.
Proof. intros H. unfold served. destruct its; [cbn; now rewrite app_nil_r|]. exact (send_free big true o _ (set_ent _ s) H). Qed.
Lemma process_round n big s t : inv s -> process may (S n) big s = Some t ->
  (t = s /\ (forall e, In e (s_ent s) -> busy s e = true))
  \/ exists e o its, In e (s_ent s) /\ In o (s_obs s) /\ o_id o = e_obs e /\ is_batch o = true /\ existsb (xfer_for o) (s_bw s) = false
     /\ items may s o (filter (fun x => e_obs x =? o_id o) (s_ent s)) = Some its /\ inv (served s o its big)
     /\ process may n big (served s o its big) = Some t.
Proof.
  intros I H. cbn [process] in H. destruct (find _ (s_ent s)) as [e|] eqn:F.
  - right. apply find_some in F. destruct F as (E & F). destruct (i_ent may s I e E) as (o & O & OI & OB & _).
    rewrite <- OI in H. rewrite (find_obs_in s o (i_oids may s I) O) in H. cbn [bind] in H.
    destruct (items may s o _) as [its|] eqn:IT; cbn [bind] in H; [|discriminate]. cbv zeta in H.
    exists e, o, its. split; [exact E|]. split; [exact O|]. split; [exact OI|]. split; [exact OB|]. split.
    { unfold busy in F. rewrite <- OI, (find_obs_in s o (i_oids may s I) O) in F. now apply negb_true_iff in F. }
    split; [exact IT|]. split; [|exact H]. eapply inv_frame; [apply served_frame|]. apply inv_ents; [exact I|].
    intros x X. apply filter_In in X. now apply (i_ent may s I).
  - left. split; [congruence|]. intros e E. pose proof (find_none _ _ F e E) as X. cbn beta in X. now apply negb_false_iff in X.
Qed.

Lemma gk_served big s o its :
  inv s -> gk s -> In o (s_obs s) -> is_batch o = true -> existsb (xfer_for o) (s_bw s) = false ->
  items may s o (filter (fun x => e_obs x =? o_id o) (s_ent s)) = Some its -> gk (served s o its big).
Proof.
  intros I (G & KN & K) O OB BU IT. pose proof (served_out s o its big BU) as EO. destruct (served_frame s o its big) as (F1 & F2 & F3 & F4 & F5 & F6 & F7 & F8 & F9 & F10).
  set (t := served s o its big) in *. clearbody t. cbn in F1, F2, F3, F4, F5, F6, F7, F8, F9, F10.
  assert (MS : forall m, In m (match its with [] => [] | _ => [mk_msg (o_id o) (o_cl o) (BDisc its)] end) -> m = mk_msg (o_id o) (o_cl o) (BDisc its)).
  { destruct its; intros m X; [destruct X|]. destruct X as [X|[]]. now symmetry. }
  split; [|split].
  - rewrite F3, F1. exact (ord_filter (fun k => negb (k =? o_id o)) _ _ G).
  - eapply known_step; [exact KN|exact I|exact EO|rewrite F9; apply Nat.le_refl|]. intros m M. rewrite (MS m M). split; [exists o; now split|].
    intros l u v E X. cbn in E |- *. assert (l = its) by congruence. subst l. refine (items_may s o _ its I O _ IT u v X).
    intros e F. apply filter_In in F. destruct F as (F & Z). apply Nat.eqb_eq in Z. now split.
  - intros p u P M N. rewrite EO, heard_app.
    assert (P' : batch_observer s p) by (now apply (batch_obs s t)).
    assert (N' : ~ blank s u) by (unfold blank in *; now rewrite F1 in N).
    assert (TT : truth t u = truth s u) by (unfold truth; now rewrite F1). rewrite TT.
    destruct (Nat.eq_dec (o_id p) (o_id o)) as [Z|Z].
    + assert (p = o) by (apply (nodup_inj o_id (s_obs s)); [apply (i_oids may s I)|exact (proj1 P')|exact O|exact Z]). subst p.
      assert (HE : heard (o_id o) u (match its with [] => [] | _ => [mk_msg (o_id o) (o_cl o) (BDisc its)] end) (heard (o_id o) u (s_out s) None)
                   = last_about u its (heard (o_id o) u (s_out s) None)).
      { destruct its; [reflexivity|]. cbn [heard m_obs m_body]. now rewrite Nat.eqb_refl. }
      rewrite HE.
      assert (OR : ordered (filter (fun x => e_obs x =? o_id o) (s_ent s)) (s_res s)) by (exact (ord_filter (fun k => k =? o_id o) _ _ G)).
      destruct (items_last s o u (o_id o) _ its I OR) with (acc := heard (o_id o) u (s_out s) None) as [(X & NR)|X]; try assumption.
      * intros e E. apply filter_In in E. now apply Nat.eqb_eq.
      * rewrite X. destruct (K o u P' M N') as [Y|Y]; [now left|]. right. destruct Y as [(e & E1 & E2 & Y)|Y].
        -- exfalso. apply NR. exists e. split; [|exact Y]. apply filter_In. split; [exact E1|now apply Nat.eqb_eq].
        -- right. rewrite F1, F5, F6. exact Y.
      * now left.
    + rewrite (heard_none (o_id p) u) by (intros m X Y; rewrite (MS m X) in Y; cbn in Y; congruence).
      destruct (K p u P' M N') as [Y|Y]; [now left|]. right. unfold owed in *. rewrite F1, F5, F6. destruct Y as [(e & E1 & E2 & Y)|Y]; [left|now right].
      exists e. split; [|now split]. rewrite F3. apply filter_In. split; [exact E1|]. rewrite negb_true_iff, Nat.eqb_neq. congruence.
Qed.
Lemma gk_process n big s t : inv s -> gk s -> process may n big s = Some t -> gk t.
Proof.
  revert s. induction n as [|n IH]; intros s I K H; [cbn in H; injection H as <-; exact K|].
  destruct (process_round n big s t I H) as [(-> & _)|(e & o & its & E & O & OI & OB & BU & IT & J & H')]; [exact K|].
  apply (IH _ J); [|exact H']. now apply gk_served.
Qed.

Lemma gk_init : gk init.
Proof.
  split; [|split].
  - intros a e b r E. destruct a; discriminate.
  - intros m [].
  - intros o u ([] & _).
Qed.

Lemma drop_ents f s t : inv s -> drop_observers f s = Some t ->
  exists p, s_ent t = filter (fun e => p (e_obs e)) (s_ent s) /\ (forall o, In o (s_obs t) -> In o (s_obs s) /\ p (o_id o) = true).
Proof.
  intros I H. unfold drop_observers in H. destruct (drop_list_ok may (filter f (s_obs s)) s) as (t' & E & _ & _ & _ & _ & _ & _ & _ & _ & _ & _ & _ & _ & A & A').
  - exact I.
  - intros o O. now apply filter_In in O.
  - apply nodup_map_filter. apply (i_oids may s I).
  - rewrite E in H. injection H as <-. exists (fun k => negb (existsb (fun p => o_id p =? k) (filter f (s_obs s)))). split; [exact A'|].
    intros o O. rewrite A in O. now apply filter_In in O.
Qed.

Lemma gk_fold_unlink i cs s :
  inv s -> gk s -> (forall c, In c cs -> In c (s_res s) /\ r_coll c = true) -> NoDup (map r_id cs) -> gk (fold_left (unlink_one may i) cs s).
Proof.
  revert s. induction cs as [|c cs IH]; intros s I K H D; cbn [fold_left]; [exact K|].
  cbn [map] in D. inversion D as [|u v N D']; subst. destruct (H c (or_introl eq_refl)) as (C & CC).
  pose proof (unlink_one_ok may i s c I C CC) as J. apply IH.
  - exact J.
  - apply gk_coll; [exact I|exact K| |exact J]. apply find_res_in; [apply (i_ids may s I)|exact C].
  - intros d X. destruct (H d (or_intror X)) as (D1 & D2). split; [|exact D2].
    destruct (coll_changed_frame may (with_links (remove1 i (r_links c)) c) false (upd_res (r_id c) (with_links (remove1 i (r_links c))) s)) as (R & _).
    unfold unlink_one. rewrite R. pose proof (upd_has (r_id c) (with_links (remove1 i (r_links c))) s d D1) as Y.
    destruct (r_id d =? r_id c) eqn:Z; [|exact Y]. exfalso. apply N. apply Nat.eqb_eq in Z. rewrite <- Z. now apply in_map.
  - exact D'.
Qed.

Lemma gk_delete i s t : inv s -> inv t -> gk s -> delete_resource may i s = Some t -> gk t.
Proof.
  intros I J K H. unfold delete_resource in H. destruct (find_res s i) as [r|] eqn:E; [|inversion H; subst; exact K].
  destruct (r_coll r) eqn:RC; [inversion H; subst; exact K|]. cbv zeta in H.
  destruct (holders_ok may i s I) as (HC & HD). destruct (unlink_fold may i (filter (linking i) (s_res s)) s I HC HD) as (J1 & A1 & _).
  pose proof (gk_fold_unlink i _ s I K HC HD) as K1.
  destruct (find_res_some _ _ _ E) as (R & RE).
  assert (R1 : In r (s_res (fold_left (unlink_one may i) (filter (linking i) (s_res s)) s))).
  { rewrite A1. apply in_map_iff. exists r. split; [|exact R]. unfold unlinked. destruct (mem (r_id r) _) eqn:M; [|reflexivity].
    apply mem_in in M. apply in_map_iff in M. destruct M as (q & Q1 & Q2). destruct (HC q Q2) as (Q3 & Q4). rewrite (id_inj s q r I Q3 R Q1) in Q4. congruence. }
  set (s1 := fold_left (unlink_one may i) (filter (linking i) (s_res s)) s) in *. clearbody s1.
  set (s2 := set_chg (without i (s_chg s1)) (set_ntf (without i (s_ntf s1)) s1)) in *.
  assert (J2 : inv s2).
  { unfold s2. apply inv_chg; [apply inv_ntf; [exact J1|]|]; intros j X; apply without_in in X; [now apply (i_ntf may s1 J1)|now apply (i_chg may s1 J1)]. }
  destruct (drop_observers_ok may (is_tgt i) s2 J2) as (s3 & D & J3 & T). pose proof (drop_ents (is_tgt i) s2 s3 J2 D) as (p & P1 & P2).
  rewrite D in H. cbn [bind] in H. destruct T as (T1 & T2 & T3 & T4 & T5 & T6 & T7 & T8 & T9 & T10 & T11 & _).
  destruct (removed_fields may r s3) as (F1 & F2 & F3 & F4 & F5 & F6 & F7 & F8 & F9 & F10 & F11 & F12 & F13).
  assert (t = set_res (filter (fun x => negb (r_id x =? i)) (s_res s3)) (notify_removed may r s3)) by congruence. subst t. clear H.
  apply (gk_gone s1 _ r p); cbn [s_res s_obs s_ent s_chg s_ntf s_out s_next set_res]; try assumption.
  - rewrite T1, RE. reflexivity.
  - rewrite F3, F2, P1. reflexivity.
  - intros j N X. rewrite F5, T3. cbn. apply without_in. split; [exact X|congruence].
  - intros j N X. rewrite F6, T4. cbn. apply without_in. split; [exact X|congruence].
Qed.

Lemma gk_delete_coll i s t : inv s -> inv t -> gk s -> delete_collection may i s = Some t -> gk t.
Proof.
  intros I J K H. unfold delete_collection in H. destruct (find_res s i) as [r|] eqn:E; [|inversion H; subst; exact K].
  destruct (r_coll r); [|inversion H; subst; exact K]. cbv zeta in H. destruct (find_res_some _ _ _ E) as (R & RE).
  destruct (removed_fields may r s) as (F1 & F2 & F3 & F4 & F5 & F6 & F7 & F8 & F9 & F10 & F11 & F12 & F13).
  set (s1 := notify_removed may r s) in *. clearbody s1.
  assert (t = set_res (filter (fun x => negb (r_id x =? i)) (s_res s1)) (set_ll (without i (s_ll s1)) (set_base (without i (s_base s1)) s1))) by (now inversion H). subst t. clear H.
  apply (gk_gone s _ r (fun _ => true)); cbn [s_res s_obs s_ent s_chg s_ntf s_out s_next set_res set_ll set_base]; try assumption.
  - rewrite F1, RE. reflexivity.
  - intros o O. rewrite F2 in O. now split.
  - rewrite F3, F2. f_equal. f_equal. symmetry. now apply filter_all.
  - intros j N X. now rewrite F5.
  - intros j N X. now rewrite F6.
Qed.

Lemma gk_add u v coll def disc obsv get s : inv s -> gk s -> gk (add_resource may u v coll def disc obsv get s).
Proof.
  intros I K0. pose proof (inv_add may u v coll def disc obsv get s I) as J. unfold add_resource in *.
  destruct ((u =? 0) || existsb (fun r => r_uri r =? u) (s_res s)) eqn:C; [exact K0|]. cbv zeta in *. destruct K0 as (G & KN & K).
  apply orb_false_iff in C. destruct C as (_ & C).
  assert (NU : forall q, In q (s_res s) -> r_uri q <> u).
  { intros q Q U. rewrite <- not_true_iff_false in C. apply C. apply existsb_exists. exists q. split; [exact Q|now apply Nat.eqb_eq]. }
  set (r := mk_res (s_next s) u v coll def [] disc obsv get) in *.
  set (s0 := set_next (S (s_next s)) (set_res (s_res s ++ [r]) s)) in *.
  assert (EE : s_ent (notify_added may r s0) = fold_left (add_one may r false) (s_obs s) (s_ent s)) by reflexivity.
  assert (ER : s_res (notify_added may r s0) = s_res s ++ [r]) by reflexivity.
  assert (RI : forall q, In q (s_res s) -> r_id q <> r_id r).
  { intros q Q. destruct (i_new may s I q Q) as (X & _). cbn. lia. }
  assert (HAS : forall o, In o (s_obs s) -> is_batch o = true -> may (o_cl o) u = true ->
            In (mk_ent (o_id o) (Live (r_id r))) (fold_left (add_one may r false) (s_obs s) (s_ent s))).
  { intros o O Bo M. destruct (ents_have r s o O Bo M) as (e & E1 & E2 & E3). destruct e as [k w]. cbn in E2, E3. subst. exact E1. }
  assert (FRESH : forall k, ~ In (mk_ent k (Live (r_id r))) (s_ent s)).
  { intros k X. destruct (i_ent may s I _ X) as (o & _ & _ & _ & Y). cbn [e_what] in Y. destruct Y as (q & Q & Y & _). now apply (RI q Q). }
  split; [|split].
  - rewrite EE, ER. destruct (add_fold_app r false (s_obs s) (s_ent s)) as (l & L1 & L2). rewrite L1 in *.
    intros a e b q E Q W. destruct (app_split _ _ _ _ _ E) as [(b' & E' & ->)|(X & _)]; [|rewrite (L2 e X) in W; discriminate].
    apply in_app_iff. apply in_app_iff in Q. destruct Q as [Q|[Q|[]]]; [left; now apply (G a e b' q)|]. subst q. right.
    assert (EI : In e (s_ent s)) by (rewrite E'; apply in_app_iff; right; now left).
    destruct (i_ent may s I e EI) as (o & O & OI & OB & Y). rewrite W in Y. destruct Y as (Y & _). cbn in Y.
    specialize (HAS o O OB Y). apply in_app_iff in HAS. destruct HAS as [X|X]; [exfalso; now apply (FRESH (o_id o))|]. rewrite <- OI. exact X.
  - intros m M. change (In m (s_out s)) in M. change (m_obs m < S (s_next s) /\ proper m). destruct (KN m M) as (X & Y). split; [lia|exact Y].
  - apply (kinv_step s _ []); [exact K|exact (no_msgs s)|intros m []| | |].
    + intros o O. exact O.
    + intros o w O M. destruct (Nat.eq_dec w u) as [->|N].
      * destruct disc eqn:D.
        -- right. left. exists (mk_ent (o_id o) (Live (r_id r))). split; [apply HAS; [exact (proj1 O)|now apply (batch_is s)|exact M]|].
           split; [reflexivity|]. right. exists r. split; [rewrite ER; apply in_app_iff; right; now left|]. auto.
        -- left. apply about_hidden; intros q Q U; [exfalso; now apply (NU q Q)|]. rewrite ER in Q. apply in_app_iff in Q.
           destruct Q as [Q|[Q|[]]]; [exfalso; now apply (NU q Q)|now subst q].
      * left. apply about_same; [exact I|exact J|]. intros q U. rewrite ER, in_app_iff. split; [now left|]. intros [Q|[Q|[]]]; [exact Q|]. subst q. cbn in U. congruence.
    + intros o w O M [(e & E1 & E2 & E3)|(q & Q & X)].
      * left. exists e. split; [rewrite EE; now apply add_fold_keeps|]. split; [exact E2|]. destruct E3 as [E3|(q & Q & X)]; [now left|right].
        exists q. split; [rewrite ER; apply in_app_iff; now left|exact X].
      * right. exists q. split; [rewrite ER; apply in_app_iff; now left|exact X].
Qed.

Lemma answer_last s cl u l : inv s -> may cl u = true -> l = filter (fun r => r_disc r && may cl (r_uri r)) (s_res s) ->
  last_about u (map (fun r => (r_uri r, Some (content_of r))) l) None = truth s u.
Proof.
  intros I M ->.
  assert (X : forall rs acc, (forall r, In r rs -> In r (s_res s)) ->
    (last_about u (map (fun r => (r_uri r, Some (content_of r))) (filter (fun r => r_disc r && may cl (r_uri r)) rs)) acc = acc
     /\ (forall r, In r rs -> r_uri r = u -> r_disc r = false))
    \/ last_about u (map (fun r => (r_uri r, Some (content_of r))) (filter (fun r => r_disc r && may cl (r_uri r)) rs)) acc = truth s u).
  { induction rs as [|r rs IH]; intros acc H; cbn [filter map]; [left; split; [reflexivity|intros r []]|].
    assert (H' : forall q, In q rs -> In q (s_res s)) by (intros q Q; apply H; now right).
    destruct (r_disc r && may cl (r_uri r)) eqn:C; cbn [map last_about].
    - destruct (r_uri r =? u) eqn:U.
      + apply Nat.eqb_eq in U. apply andb_true_iff in C. destruct C as (D & _). right.
        assert (T : truth s u = Some (content_of r)) by (rewrite <- U, (truth_in s r I), D; [reflexivity|apply H; now left]).
        destruct (IH (Some (content_of r)) H') as [(X & _)|X]; congruence.
      + destruct (IH acc H') as [(X & N)|X]; [left|now right]. split; [exact X|]. intros q [Q|Q]; [subst q; apply Nat.eqb_neq in U; contradiction|now apply N].
    - destruct (IH acc H') as [(X & N)|X]; [left|now right]. split; [exact X|]. intros q [Q|Q] U; [|now apply N].
      subst q. rewrite U, M, andb_true_r in C. exact C. }
  destruct (X (s_res s) None (fun r R => R)) as [(E & N)|E]; [|exact E]. rewrite E. symmetry. now apply truth_none.
Qed.

Lemma gk_register big cl t f s s' : inv s -> gk s -> register may big cl t f s = Some s' -> gk s'.
Proof.
  intros I K H. unfold register in H. destruct (answer may s cl t f) as [(u & b)|] eqn:E; [|inversion H; subst; exact K]. cbv zeta in H.
  assert (J : inv (free_bw (xfer_of cl u f) s)) by (eapply inv_frame; [apply frame_free|exact I]).
  assert (FO : s_out (free_bw (xfer_of cl u f) s) = s_out s) by (unfold free_bw; destruct (existsb _ _); reflexivity).
  assert (K1 : gk (free_bw (xfer_of cl u f) s)).
  { apply (gk_frame s _ []); [exact I|exact K|apply frame_free|rewrite FO; apply no_msgs|intros m []]. }
  destruct (frame_free (xfer_of cl u f) s) as (F1 & F2 & F3 & F4 & F5 & F6 & F7 & F8 & F9 & F10).
  set (s1 := free_bw (xfer_of cl u f) s) in *. clearbody s1.
  destruct (drop_observers_ok may (fun o => (o_cl o =? cl) && (o_url o =? u) && (o_if o =? f)%N) _ J) as (s2 & D & J2 & T).
  pose proof (drop_ents _ s1 s2 J D) as (p & P1 & P2).
  rewrite D in H. cbn [bind] in H. destruct T as (T1 & T2 & T3 & T4 & T5 & T6 & T7 & T8 & T9 & T10 & T11 & T12 & T13).
  assert (K2 : gk s2).
  { apply (gk_quiet s1 s2 [] p); try assumption; [rewrite T11; apply no_msgs|intros m []|rewrite T7; apply Nat.le_refl]. }
  set (o := mk_obs (s_next s2) cl t u f) in *.
  assert (X : s_out s' = s_out s2 ++ [mk_msg (o_id o) cl b] /\ s_res s' = s_res s2 /\ s_obs s' = s_obs s2 ++ [o] /\ s_ent s' = s_ent s2 /\ s_chg s' = s_chg s2 /\ s_ntf s' = s_ntf s2
              /\ s_next s' = S (s_next s2)).
  { injection H as <-. destruct big; cbn; repeat split. }
  destruct X as (X1 & X2 & X3 & X4 & X5 & X6 & X7). destruct K2 as (G & KN & K2). split; [|split].
  - rewrite X4, X2. exact G.
  - intros m M. rewrite X1 in M. rewrite X7. apply in_app_iff in M. destruct M as [M|[M|[]]]; [destruct (KN m M) as (X & Y); split; [lia|exact Y]|].
    subst m. split; [cbn; lia|]. intros l w v EB X. cbn [m_body m_cl] in EB |- *. subst b. unfold answer in E. destruct t as [|i].
    + destruct (f =? B)%N; inversion E; subst l u. apply in_map_iff in X. destruct X as (r & Y & Z). inversion Y; subst w v. apply filter_In in Z.
      destruct Z as (_ & Z). now apply andb_true_iff in Z.
    + destruct (find_res s i); cbn [bind] in E; [|discriminate]. destruct (negb _); inversion E.
  - intros q w (Q & QT & QI) M N.
    assert (TT : truth s' w = truth s2 w) by (unfold truth; now rewrite X2). rewrite TT, X1, heard_app. rewrite X3 in Q. apply in_app_iff in Q.
    destruct Q as [Q|[Q|[]]].
    + rewrite (heard_none (o_id q) w [_]).
      2:{ intros m [Y|[]] Z. subst m. cbn in Z. pose proof (i_onew may s2 J2 q Q). lia. }
      destruct (K2 q w) as [Y|Y]; [now split|exact M|unfold blank in *; now rewrite X2 in N|now left|]. right. unfold owed in *. rewrite X2, X4, X5, X6. exact Y.
    + left. subst q. cbn [o_tgt o_if o_cl o_id o] in *. subst t f.
      rewrite (heard_none (s_next s2) w (s_out s2)).
      2:{ intros m Y Z. destruct (KN m Y) as (W & _). lia. }
      cbn [heard m_obs m_body]. rewrite Nat.eqb_refl. unfold answer in E. change (8 =? B)%N with true in E. cbn iota in E. inversion E; subst b u.
      replace (truth s2 w) with (truth s w) by (unfold truth; now rewrite T1, F1). now apply (answer_last s cl w _ I M).
Qed.

Lemma gk_fire big t s s' : inv s -> inv s' -> gk s -> fire may big t s = Some s' -> gk s'.
Proof.
  intros I I' K H. destruct t as [| |i|i|i|i]; cbn [fire] in H.
  - destruct (s_disp s); [|inversion H; subst; exact K]. refine (gk_process _ _ _ _ _ _ H); [now apply inv_disp|].
    apply (gk_same s); try reflexivity; [exact I|exact K].
  - destruct (s_added s); [|inversion H; subst; exact K].
    assert (I1 : inv (set_added false s)) by now apply inv_added.
    assert (K1 : gk (set_added false s)) by (apply (gk_same s); try reflexivity; [exact I|exact K]).
    assert (I2 : inv (notify_disc big (set_added false s))) by (eapply inv_frame; [apply frame_disc|exact I1]).
    refine (gk_process _ _ _ _ I2 _ H). destruct (disc_msgs big (set_added false s)) as (ms & M1 & M2).
    apply (gk_frame (set_added false s) _ ms); try assumption; [apply frame_disc|]. intros m M. destruct (M2 m M) as ([Y|(y & Y)] & Z); (split; [rewrite Y; exact Coq.Init.Logic.I|exact Z]).
  - destruct (mem i (s_chg s)) eqn:M; [|inversion H; subst; exact K]. apply mem_in in M. destruct (alive_ex _ _ (i_chg may s I i M)) as (r & R & <-).
    refine (gk_notify s _ big s' r (fun q => q) I I' K R _ _ _ _ _ _ _ _ _ _ H); try reflexivity.
    + cbn. symmetry. apply upd_same_res.
    + intros j N X. cbn. apply without_in. now split.
    + intros j N X. exact X.
  - destruct (mem i (s_ntf s)) eqn:M; [|inversion H; subst; exact K]. apply mem_in in M. destruct (alive_ex _ _ (i_ntf may s I i M)) as (r & R & <-).
    refine (gk_notify s _ big s' r (fun q => q) I I' K R _ _ _ _ _ _ _ _ _ _ H); try reflexivity.
    + cbn. symmetry. apply upd_same_res.
    + intros j N X. exact X.
    + intros j N X. cbn. apply without_in. now split.
  - destruct (mem i (s_ll s)) eqn:M; [|inversion H; subst; exact K].
    destruct (find_res s i) as [c|]; cbn [bind] in H; [|discriminate]. destruct (links_uris s c); cbn [bind] in H; [|discriminate]. cbv zeta in H.
    set (s1 := set_ll (without i (s_ll s)) s) in *.
    destruct (coll_msgs big c LL (BLinks i LL (r_links c)) s1) as (ms & M1 & M2). destruct (frame_coll big c LL (BLinks i LL (r_links c)) s1) as (F1 & F2 & F3 & F4 & F5 & F6 & F7 & F8 & F9 & F10).
    set (s2 := notify_coll big c LL (BLinks i LL (r_links c)) s1) in *. clearbody s2.
    assert (s' = set_base (reset_timer i (s_base s2)) s2) by congruence. subst s'.
    apply (gk_quiet s _ ms (fun _ => true)); try assumption.
    + intros o O. cbn in O. rewrite F2 in O. now split.
    + cbn. rewrite F3. symmetry. now apply filter_all.
    + intros m Q. destruct (M2 m Q) as (Y & Z). split; [rewrite Y; exact Coq.Init.Logic.I|exact Z].
    + cbn. rewrite F9. apply Nat.le_refl.
  - destruct (mem i (s_base s)) eqn:M; [|inversion H; subst; exact K].
    destruct (find_res s i) as [c|]; cbn [bind] in H; [|discriminate]. destruct (links_uris s c); cbn [bind] in H; [|discriminate].
    set (s1 := set_base (without i (s_base s)) s) in *.
    destruct (coll_msgs big c BASELINE (BLinks i BASELINE (r_links c)) s1) as (ms & M1 & M2). destruct (frame_coll big c BASELINE (BLinks i BASELINE (r_links c)) s1) as (F1 & F2 & F3 & F4 & F5 & F6 & F7 & F8 & F9 & F10).
    set (s2 := notify_coll big c BASELINE (BLinks i BASELINE (r_links c)) s1) in *. clearbody s2.
    assert (s' = s2) by congruence. subst s'.
    apply (gk_quiet s _ ms (fun _ => true)); try assumption.
    + intros o O. rewrite F2 in O. now split.
    + rewrite F3. symmetry. now apply filter_all.
    + intros m Q. destruct (M2 m Q) as (Y & Z). split; [rewrite Y; exact Coq.Init.Logic.I|exact Z].
    + rewrite F9. apply Nat.le_refl.
Qed.

Lemma some_inj {A} (x y : A) : Some x = Some y -> x = y.
Proof. congruence. Qed.

Lemma gk_ok s p t : inv s -> inv t -> gk s -> step may s p = Some t -> gk t.
Proof.
  intros I J K H. destruct p as [u v coll def disc obsv get|i|i|c i|c i|big cl tg f|i|big i v|i v|i v|big tm|cl u f|cl u f|b]; cbn [step] in H.
  - apply some_inj in H. subst t. now apply gk_add.
  - now apply (gk_delete i s).
  - now apply (gk_delete_coll i s).
  - unfold add_link in H. destruct (find_res s c) as [k|] eqn:E; [|apply some_inj in H; now subst t]. destruct (find_res s i) as [r|]; [|apply some_inj in H; now subst t].
    destruct (r_coll k); [|apply some_inj in H; now subst t]. destruct (links_uris s k); cbn [bind] in H; [|discriminate]. cbv zeta in H.
    apply some_inj in H. subst t. now apply gk_coll.
  - unfold remove_link in H. destruct (find_res s c) as [k|] eqn:E; [|apply some_inj in H; now subst t].
    destruct (r_coll k && mem i (r_links k)); [|apply some_inj in H; now subst t]. cbv zeta in H. apply some_inj in H. subst t. now apply gk_coll.
  - now apply (gk_register big cl tg f s).
  - destruct (find_obs s i) as [o|] eqn:E; [|apply some_inj in H; now subst t]. unfold drop_observer in H. destruct (target_alive s o); [|discriminate].
    apply some_inj in H. subst t. apply (gk_quiet s _ [] (fun k => negb (k =? o_id o))); try reflexivity; try assumption.
    + intros q Q. cbn in Q. now apply filter_In in Q.
    + exact (no_msgs s).
    + intros m [].
  - destruct (find_res s i) as [r|] eqn:E; [|apply some_inj in H; now subst t]. destruct (find_res_some _ _ _ E) as (R & <-).
    refine (gk_notify s _ big t r (with_val v) I J K R _ _ _ _ _ _ _ _ _ _ H); try reflexivity; intros j _ X; exact X.
  - destruct (find_res s i) as [r|] eqn:E; [|apply some_inj in H; now subst t]. destruct (find_res_some _ _ _ E) as (R & <-). cbv zeta in H.
    apply some_inj in H. subst t. apply (gk_touch s _ [] r (with_val v) []); try assumption; try reflexivity.
    + cbn. now rewrite app_nil_r.
    + intros e [].
    + intros o _ _. right. left. cbn. apply reset_in. now right.
    + intros j _ X. cbn. apply reset_in. now left.
    + intros j _ X. exact X.
    + exact (no_msgs s).
    + intros m [].
  - destruct (find_res s i) as [r|] eqn:E; [|apply some_inj in H; now subst t]. destruct (find_res_some _ _ _ E) as (R & <-). cbv zeta in H.
    apply some_inj in H. subst t. apply (gk_touch s _ [] r (with_val v) []); try assumption; try reflexivity.
    + destruct (is_observed _ _); reflexivity.
    + destruct (is_observed _ _); reflexivity.
    + destruct (is_observed _ _); cbn; now rewrite app_nil_r.
    + intros e [].
    + intros o (O & OT & OI) _. right. right.
      assert (Z : is_observed (upd_res (r_id r) (with_val v) s) (r_id r) = true).
      { unfold is_observed. apply existsb_exists. exists o. split; [destruct (is_observed _ _) in O; exact O|]. unfold is_disc. rewrite OT, OI. apply orb_true_r. }
      rewrite Z. cbn. apply reset_in. now right.
    + intros j _ X. destruct (is_observed _ _); exact X.
    + intros j _ X. destruct (is_observed _ _); [cbn; apply reset_in; now left|exact X].
    + destruct (is_observed _ _); exact (no_msgs s).
    + intros m [].
    + destruct (is_observed _ _); apply Nat.le_refl.
  - now apply (gk_fire big tm s).
  - apply some_inj in H. subst t. apply (gk_frame s _ []); [exact I|exact K|apply frame_free| |intros m []].
    unfold free_bw. destruct (existsb _ _); exact (no_msgs s).
  - apply some_inj in H. subst t. apply (gk_same s); try reflexivity; assumption.
  - apply some_inj in H. subst t. apply (gk_same s); try reflexivity; assumption.
Qed.

Lemma gk_run ps s t : inv s -> gk s -> careful may s ps -> run may s ps = Some t -> gk t.
Proof.
  revert s. induction ps as [|p ps IH]; intros s I K C H; cbn [run] in H; [apply some_inj in H; now subst t|].
  cbn [careful] in C. destruct C as (C1 & C2). destruct (step_ok may s p I C1) as (s1 & E & J). rewrite E in H. cbn [bind] in H.
  apply (IH s1); [exact J|now apply (gk_ok s p)|now apply C2|exact H].
Qed.
Lemma gk_reach ps t : careful may init ps -> run may init ps = Some t -> gk t.
Proof. intros C H. apply (gk_run ps init t); [apply inv_init|apply gk_init|exact C|exact H]. Qed.
End Told.
