(** Lifetimes: the invariant and its preservation. *)
From Coq Require Import PeanoNat Lia.
From Verif Require Import Common Ntf_Model Ntf_Spec.
Local Open Scope nat_scope.

(** ** Lists *)
Lemma mem_in i l : mem i l = true <-> In i l.
Proof.
  unfold mem. rewrite existsb_exists. split.
  - intros (x & I & E). apply Nat.eqb_eq in E. now subst.
  - intros I. exists i. split; [exact I|apply Nat.eqb_refl].
Qed.
Lemma without_in i j l : In j (without i l) <-> In j l /\ j <> i.
Proof.
  unfold without. rewrite filter_In. rewrite negb_true_iff, Nat.eqb_neq. tauto.
Qed.
Lemma reset_in i j l : In j (reset_timer i l) <-> In j l \/ j = i.
Proof.
  unfold reset_timer. rewrite in_app_iff, without_in. cbn [In]. split.
  - intros [[A _]|[A|[]]]; [now left|right; now subst].
  - intros [A|A]; [destruct (Nat.eq_dec j i) as [E|E]; [right; left; now subst|left; now split]|right; left; now subst].
Qed.
Lemma remove1_in i j l : In j (remove1 i l) -> In j l.
Proof.
  induction l as [|a l IH]; cbn [remove1]; [tauto|]. destruct (a =? i); cbn [In]; intros H; tauto.
Qed.
Lemma remove1_keeps i j l : In j l -> j <> i -> In j (remove1 i l).
Proof.
  induction l as [|a l IH]; cbn [remove1 In]; [tauto|].
  intros [A|A] H.
  - subst a. destruct (j =? i) eqn:E; [apply Nat.eqb_eq in E; contradiction|now left].
  - destruct (a =? i); [exact A|right; now apply IH].
Qed.
Lemma remove1_nodup i l : NoDup l -> NoDup (remove1 i l).
Proof.
  induction 1 as [|a l N D IH]; cbn [remove1]; [constructor|].
  destruct (a =? i); [exact D|]. constructor; [|exact IH]. intros I. apply N. now apply remove1_in in I.
Qed.
Lemma remove1_gone i l : NoDup l -> ~ In i (remove1 i l).
Proof.
  induction 1 as [|a l N D IH]; cbn [remove1]; [tauto|].
  destruct (a =? i) eqn:E; [apply Nat.eqb_eq in E; now subst|].
  intros [A|A]; [subst; rewrite Nat.eqb_refl in E; discriminate|now apply IH].
Qed.
Lemma nodup_map_filter {A B} (g : A -> B) f (l : list A) : NoDup (map g l) -> NoDup (map g (filter f l)).
Proof.
  induction l as [|a l IH]; cbn [map filter]; intros H; [exact H|].
  inversion H as [|x y N D]; subst. destruct (f a); [|now apply IH].
  cbn [map]. constructor; [|now apply IH].
  intros I. apply N. apply in_map_iff in I. destruct I as (z & E & I). apply filter_In in I.
  apply in_map_iff. exists z. tauto.
Qed.
Lemma filter_all {A} f (l : list A) : (forall a, f a = true) -> filter f l = l.
Proof. intros H. induction l as [|a l IH]; cbn [filter]; [reflexivity|]. now rewrite H, IH. Qed.
Lemma nodup_snoc {A} (l : list A) a : NoDup l -> ~ In a l -> NoDup (l ++ [a]).
Proof.
  induction 1 as [|b l N D IH]; cbn [app]; intros H; [constructor; [tauto|constructor]|].
  constructor; [|apply IH; intros I; apply H; now right].
  intros I. apply in_app_iff in I. destruct I as [I|[I|[]]]; [now apply N|apply H; now left].
Qed.
Lemma nodup_inj {A B} (g : A -> B) (l : list A) x y : NoDup (map g l) -> In x l -> In y l -> g x = g y -> x = y.
Proof.
  induction l as [|a l IH]; cbn [map In]; [tauto|]. intros H X Y E. inversion H as [|u v N D]; subst.
  destruct X as [X|X], Y as [Y|Y].
  - congruence.
  - subst a. exfalso. apply N. rewrite E. now apply in_map.
  - subst a. exfalso. apply N. rewrite <- E. now apply in_map.
  - now apply IH.
Qed.

(** ** Looking things up *)
Lemma find_res_some s i r : find_res s i = Some r -> In r (s_res s) /\ r_id r = i.
Proof. unfold find_res. intros H. apply find_some in H. rewrite Nat.eqb_eq in H. exact H. Qed.
Lemma find_res_none s i : find_res s i = None -> ~ In i (map r_id (s_res s)).
Proof.
  unfold find_res. intros H I. apply in_map_iff in I. destruct I as (r & E & I).
  pose proof (find_none _ _ H r I) as F. cbn beta in F. rewrite E, Nat.eqb_refl in F. discriminate.
Qed.
Lemma find_res_in s r : NoDup (map r_id (s_res s)) -> In r (s_res s) -> find_res s (r_id r) = Some r.
Proof.
  intros D I. destruct (find_res s (r_id r)) as [q|] eqn:E.
  - destruct (find_res_some _ _ _ E) as (J & F). f_equal. now apply (nodup_inj r_id (s_res s)).
  - exfalso. apply (find_res_none _ _ E). now apply in_map.
Qed.
Lemma find_obs_some s i o : find_obs s i = Some o -> In o (s_obs s) /\ o_id o = i.
Proof. unfold find_obs. intros H. apply find_some in H. rewrite Nat.eqb_eq in H. exact H. Qed.
Lemma find_obs_in s o : NoDup (map o_id (s_obs s)) -> In o (s_obs s) -> find_obs s (o_id o) = Some o.
Proof.
  intros D I. destruct (find_obs s (o_id o)) as [q|] eqn:E.
  - destruct (find_obs_some _ _ _ E) as (J & F). f_equal. now apply (nodup_inj o_id (s_obs s)).
  - exfalso. unfold find_obs in E. pose proof (find_none _ _ E o I) as F. cbn beta in F.
    rewrite Nat.eqb_refl in F. discriminate.
Qed.

Definition alive (s : st) (i : nat) : Prop := In i (map r_id (s_res s)).
Definition acoll (s : st) (i : nat) : Prop := exists c, In c (s_res s) /\ r_id c = i /\ r_coll c = true.
Lemma alive_find s i : alive s i -> exists r, find_res s i = Some r.
Proof.
  intros A. destruct (find_res s i) as [r|] eqn:E; [now exists r|]. exfalso. now apply (find_res_none _ _ E).
Qed.
Lemma is_tgt_eq i o : is_tgt i o = true <-> o_tgt o = TRes i.
Proof.
  unfold is_tgt. destruct (o_tgt o) as [|j]; [split; discriminate|]. rewrite Nat.eqb_eq. split; [now intros ->|congruence].
Qed.
Lemma is_batch_eq o : is_batch o = true <-> o_tgt o = TDisc /\ o_if o = B.
Proof.
  unfold is_batch, is_disc. rewrite andb_true_iff, N.eqb_eq. destruct (o_tgt o); split; intros H; try tauto; destruct H; discriminate.
Qed.

(** ** The parts a notification does not touch *)
Definition frame (s t : st) : Prop :=
  s_res t = s_res s /\ s_obs t = s_obs s /\ s_ent t = s_ent s /\ s_added t = s_added s /\ s_chg t = s_chg s
  /\ s_ntf t = s_ntf s /\ s_ll t = s_ll s /\ s_base t = s_base s /\ s_next t = s_next s /\ s_nop t = s_nop s.
Ltac fr := unfold frame; cbn; repeat split; reflexivity.
Lemma frame_refl s : frame s s.
Proof. fr. Qed.
Lemma frame_trans s t u : frame s t -> frame t u -> frame s u.
Proof.
  unfold frame. intros (A1 & A2 & A3 & A4 & A5 & A6 & A7 & A8 & A9 & A10) (B1 & B2 & B3 & B4 & B5 & B6 & B7 & B8 & B9 & B10).
  repeat split; congruence.
Qed.
Lemma frame_free f s : frame s (free_bw f s).
Proof. unfold free_bw. destruct (existsb _ _); fr. Qed.
Lemma frame_emit o b s : frame s (emit o b s).
Proof. fr. Qed.
Lemma frame_send big fin ig o b s : frame s (send big fin ig o b s).
Proof.
  unfold send. destruct (_ && _); [fr|]. destruct (mem _ _); [|fr]. destruct (existsb _ _); [fr|].
  cbv zeta. eapply frame_trans; [apply (frame_free (xfer_for o))|]. fr.
Qed.
Lemma frame_fold {A} (f : A -> st -> st) l s : (forall a t, frame t (f a t)) -> frame s (fold_left (fun t a => f a t) l s).
Proof.
  intros H. revert s. induction l as [|a l IH]; intros s; cbn [fold_left]; [apply frame_refl|].
  eapply frame_trans; [apply (H a)|apply IH].
Qed.
Lemma frame_foldo f s : (forall a t, frame t (f a t)) -> frame s (foldo f s).
Proof. intros H. unfold foldo. now apply frame_fold. Qed.
Lemma frame_iterate big r s : frame s (iterate big r s).
Proof. apply frame_foldo. intros o t. destruct (eligible r o); [apply frame_send|apply frame_refl]. Qed.
Lemma frame_coll big c f b s : frame s (notify_coll big c f b s).
Proof. apply frame_foldo. intros o t. destruct (coll_match c f o); [apply frame_send|apply frame_refl]. Qed.
Lemma frame_disc big s : frame s (notify_disc big s).
Proof. apply frame_foldo. intros o t. destruct (_ && _); [apply frame_send|apply frame_refl]. Qed.
Lemma frame_colls big r s : frame s (notify_collections big r s).
Proof.
  unfold notify_collections.
  apply (frame_fold (fun c a => notify_coll big c B (BBatch (r_id c) [(r_uri r, r_val r)]) a)).
  intros c t. apply frame_coll.
Qed.

(** ** The invariant *)
Section Inv.
Variable may : nat -> nat -> bool.

Definition ent_ok (s : st) (e : ent) : Prop :=
  (exists o, In o (s_obs s) /\ o_id o = e_obs e /\ is_batch o = true
     /\ match e_what e with
        | Live i => exists r, In r (s_res s) /\ r_id r = i /\ may (o_cl o) (r_uri r) = true
        | Gone u => may (o_cl o) u = true /\ u <> 0
        end).
Definition obs_ok (s : st) (o : obs) : Prop :=
  match o_tgt o with
  | TDisc => o_url o = 0
  | TRes i => exists r, In r (s_res s) /\ r_id r = i /\ r_uri r = o_url o
  end.
Record inv (s : st) : Prop := {
  i_ids : NoDup (map r_id (s_res s));
  i_uris : NoDup (map r_uri (s_res s));
  i_new : forall r, In r (s_res s) -> r_id r < s_next s /\ r_uri r <> 0;
  i_oids : NoDup (map o_id (s_obs s));
  i_onew : forall o, In o (s_obs s) -> o_id o < s_next s;
  i_obs : forall o, In o (s_obs s) -> obs_ok s o;
  i_ent : forall e, In e (s_ent s) -> ent_ok s e;
  i_links : forall c i, In c (s_res s) -> In i (r_links c) -> alive s i /\ r_coll c = true;
  i_once : forall c, In c (s_res s) -> NoDup (r_links c);
  i_chg : forall i, In i (s_chg s) -> alive s i;
  i_ntf : forall i, In i (s_ntf s) -> alive s i;
  i_ll : forall i, In i (s_ll s) -> acoll s i;
  i_base : forall i, In i (s_base s) -> acoll s i }.

Lemma inv_init : inv init.
Proof.
  constructor; cbn; try (constructor; fail); try (intros; contradiction).
Qed.

Lemma inv_frame s t : frame s t -> inv s -> inv t.
Proof.
  intros (A1 & A2 & A3 & A4 & A5 & A6 & A7 & A8 & A9 & A10) [].
  constructor; unfold alive, acoll, ent_ok, obs_ok in *; rewrite ?A1, ?A2, ?A3, ?A5, ?A6, ?A7, ?A8, ?A9; assumption.
Qed.

(** Changes of a timer list. *)
Lemma inv_chg s l : inv s -> (forall i, In i l -> alive s i) -> inv (set_chg l s).
Proof. intros [] H. constructor; try assumption. Qed.
Lemma inv_ntf s l : inv s -> (forall i, In i l -> alive s i) -> inv (set_ntf l s).
Proof. intros [] H. constructor; try assumption. Qed.
Lemma inv_ll s l : inv s -> (forall i, In i l -> acoll s i) -> inv (set_ll l s).
Proof. intros [] H. constructor; try assumption. Qed.
Lemma inv_base s l : inv s -> (forall i, In i l -> acoll s i) -> inv (set_base l s).
Proof. intros [] H. constructor; try assumption. Qed.
Lemma inv_disp s b : inv s -> inv (set_disp b s).
Proof. intros []. constructor; assumption. Qed.
Lemma inv_added s b : inv s -> inv (set_added b s).
Proof. intros []. constructor; assumption. Qed.
Lemma inv_nop s b : inv s -> inv (set_nop b s).
Proof. intros []. constructor; assumption. Qed.
Lemma inv_bw s l : inv s -> inv (set_bw l s).
Proof. intros []. constructor; assumption. Qed.
Lemma inv_ents s l : inv s -> (forall e, In e l -> ent_ok s e) -> inv (set_ent l s).
Proof. intros [] H. constructor; try assumption. Qed.

(** Adding entries. *)
Lemma add_one_in r rm es o e :
  In e (add_one may r rm es o) <->
  In e es \/ (is_batch o = true /\ may (o_cl o) (r_uri r) = true /\ existsb (same_entry o r rm) es = false
              /\ e = mk_ent (o_id o) (if rm then Gone (r_uri r) else Live (r_id r))).
Proof.
  unfold add_one. destruct (is_batch o); [|cbn [andb]; split; [tauto|intros [A|(A & _)]; [exact A|discriminate]]].
  destruct (may (o_cl o) (r_uri r)); [|cbn [andb]; split; [tauto|intros [A|(_ & A & _)]; [exact A|discriminate]]].
  destruct (existsb (same_entry o r rm) es); cbn [andb negb]; [split; [tauto|intros [A|(_ & _ & A & _)]; [exact A|discriminate]]|].
  rewrite in_app_iff. cbn [In]. split; [intros [A|[A|[]]]; [now left|right; auto]|intros [A|(_ & _ & _ & A)]; [now left|right; now left]].
Qed.
Lemma add_fold_in r rm os es e :
  In e (fold_left (add_one may r rm) os es) ->
  In e es \/ (exists o, In o os /\ is_batch o = true /\ may (o_cl o) (r_uri r) = true
              /\ e = mk_ent (o_id o) (if rm then Gone (r_uri r) else Live (r_id r))).
Proof.
  revert es. induction os as [|o os IH]; intros es; cbn [fold_left]; [tauto|].
  intros H. apply IH in H. destruct H as [H|(p & I & H)]; [|right; exists p; split; [now right|exact H]].
  apply add_one_in in H. destruct H as [H|(A & C & _ & E)]; [now left|].
  right. exists o. split; [now left|auto].
Qed.
Lemma add_fold_keeps r rm os es e : In e es -> In e (fold_left (add_one may r rm) os es).
Proof.
  revert es. induction os as [|o os IH]; intros es H; cbn [fold_left]; [exact H|].
  apply IH. apply add_one_in. now left.
Qed.
Lemma add_fold_has r rm os es o :
  In o os -> is_batch o = true -> may (o_cl o) (r_uri r) = true ->
  existsb (same_entry o r rm) (fold_left (add_one may r rm) os es) = true.
Proof.
  intros I Bo M. revert es. induction os as [|p os IH]; intros es; [destruct I|]. cbn [fold_left].
  destruct I as [I|I]; [|now apply IH]. subst p.
  assert (H : existsb (same_entry o r rm) (add_one may r rm es o) = true).
  { unfold add_one. rewrite Bo, M. cbn [andb]. destruct (existsb (same_entry o r rm) es) eqn:E; cbn [negb]; [exact E|].
    rewrite existsb_app. cbn [existsb]. unfold same_entry at 2. cbn [e_obs e_what]. rewrite Nat.eqb_refl.
    destruct rm; rewrite Nat.eqb_refl; cbn; apply orb_true_r. }
  apply existsb_exists in H. destruct H as (e & A & C). apply existsb_exists. exists e. split; [|exact C].
  now apply add_fold_keeps.
Qed.

Definition ents_of (r : res) (rm : bool) (s : st) : list ent := fold_left (add_one may r rm) (s_obs s) (s_ent s).
Lemma add_ents_eq r rm d s :
  frame (set_ent (ents_of r rm s) s) (add_ents may r rm d s)
  /\ s_bw (add_ents may r rm d s) = s_bw s /\ s_out (add_ents may r rm d s) = s_out s
  /\ s_disp (add_ents may r rm d s) = (d || s_disp s).
Proof. unfold add_ents, ents_of. destruct d; cbn; repeat split; reflexivity. Qed.
Lemma add_ents_live r d s : inv s -> In r (s_res s) -> inv (add_ents may r false d s).
Proof.
  intros I A. destruct (add_ents_eq r false d s) as (F & _). eapply inv_frame; [exact F|]. apply inv_ents; [exact I|].
  intros e H. apply add_fold_in in H. destruct H as [H|(o & O & Bo & M & ->)]; [now apply (i_ent s I)|].
  exists o. cbn [e_obs e_what]. repeat split; try assumption. now exists r.
Qed.
Lemma add_ents_gone r d s : inv s -> r_uri r <> 0 -> inv (add_ents may r true d s).
Proof.
  intros I A. destruct (add_ents_eq r true d s) as (F & _). eapply inv_frame; [exact F|]. apply inv_ents; [exact I|].
  intros e H. apply add_fold_in in H. destruct H as [H|(o & O & Bo & M & ->)]; [now apply (i_ent s I)|].
  exists o. cbn [e_obs e_what]. repeat split; assumption.
Qed.

(** Changing a resource but not its identity. *)
Lemma upd_ids i f s : (forall r, r_id (f r) = r_id r) -> map r_id (s_res (upd_res i f s)) = map r_id (s_res s).
Proof.
  intros H. unfold upd_res. cbn. rewrite map_map. apply map_ext. intros r. destruct (r_id r =? i); [apply H|reflexivity].
Qed.
Lemma upd_uris i f s : (forall r, r_uri (f r) = r_uri r) -> map r_uri (s_res (upd_res i f s)) = map r_uri (s_res s).
Proof.
  intros H. unfold upd_res. cbn. rewrite map_map. apply map_ext. intros r. destruct (r_id r =? i); [apply H|reflexivity].
Qed.
Lemma upd_in i f s r : In r (s_res (upd_res i f s)) <->
  exists q, In q (s_res s) /\ r = (if r_id q =? i then f q else q).
Proof.
  unfold upd_res. cbn. rewrite in_map_iff. split; intros (q & A & C); exists q; [now split|split; congruence].
Qed.
Lemma upd_has i f s q : In q (s_res s) -> In (if r_id q =? i then f q else q) (s_res (upd_res i f s)).
Proof. intros H. apply upd_in. now exists q. Qed.

Lemma inv_upd i f s :
  inv s -> (forall r, r_id (f r) = r_id r) -> (forall r, r_uri (f r) = r_uri r) -> (forall r, r_coll (f r) = r_coll r) ->
  (forall r, In r (s_res s) -> r_id r = i -> NoDup (r_links (f r)) /\ (forall j, In j (r_links (f r)) -> alive s j /\ r_coll (f r) = true)) ->
  inv (upd_res i f s).
Proof.
  intros I HI HU HC HL.
  assert (K : forall r, In r (s_res (upd_res i f s)) -> exists q, In q (s_res s) /\ r_id q = r_id r /\ r_uri q = r_uri r
                /\ (r = q \/ (r_id q = i /\ r = f q))).
  { intros r R. apply upd_in in R. destruct R as (q & Q & E). exists q. destruct (r_id q =? i) eqn:X.
    - apply Nat.eqb_eq in X. subst r. rewrite HI, HU. auto 10.
    - subst r. auto 10. }
  assert (K2 : forall q, In q (s_res s) -> exists r, In r (s_res (upd_res i f s)) /\ r_id r = r_id q /\ r_uri r = r_uri q).
  { intros q Q. exists (if r_id q =? i then f q else q). split; [now apply upd_has|]. destruct (r_id q =? i); auto. }
  assert (K3 : forall j, acoll s j -> acoll (upd_res i f s) j).
  { intros j (c & C & E & X). exists (if r_id c =? i then f c else c). split; [now apply upd_has|].
    destruct (r_id c =? i); rewrite ?HI, ?HC; auto. }
  constructor.
  - rewrite upd_ids by exact HI. apply (i_ids s I).
  - rewrite upd_uris by exact HU. apply (i_uris s I).
  - intros r R. apply K in R. destruct R as (q & Q & E1 & E2 & _). cbn. rewrite <- E1, <- E2. now apply (i_new s I).
  - apply (i_oids s I).
  - apply (i_onew s I).
  - intros o O. pose proof (i_obs s I o O) as X. unfold obs_ok in *. destruct (o_tgt o); [exact X|].
    destruct X as (q & Q & E1 & E2). destruct (K2 q Q) as (r & R & F1 & F2). exists r. repeat split; congruence.
  - intros e E. destruct (i_ent s I e E) as (o & O & E1 & E2 & X). exists o. repeat split; try assumption.
    destruct (e_what e); [|exact X]. destruct X as (q & Q & F1 & F2). destruct (K2 q Q) as (r & R & G1 & G2).
    exists r. repeat split; congruence.
  - intros c j C J. unfold alive. rewrite upd_ids by exact HI. apply K in C.
    destruct C as (q & Q & _ & _ & [E|(X & E)]); subst c; [now apply (i_links s I q)|now apply HL].
  - intros c C. apply K in C. destruct C as (q & Q & _ & _ & [E|(X & E)]); subst c; [now apply (i_once s I)|now apply HL].
  - intros j J. unfold alive. rewrite upd_ids by exact HI. now apply (i_chg s I).
  - intros j J. unfold alive. rewrite upd_ids by exact HI. now apply (i_ntf s I).
  - intros j J. apply K3. now apply (i_ll s I).
  - intros j J. apply K3. now apply (i_base s I).
Qed.
Lemma inv_val i v s : inv s -> inv (upd_res i (with_val v) s).
Proof.
  intros I. apply inv_upd; [exact I|reflexivity|reflexivity|reflexivity|].
  intros r R E. cbn. split; [now apply (i_once s I)|]. intros j J. now apply (i_links s I r).
Qed.
Lemma alive_upd i f s j : (forall r, r_id (f r) = r_id r) -> alive (upd_res i f s) j <-> alive s j.
Proof. intros H. unfold alive. rewrite upd_ids by exact H. reflexivity. Qed.

(** oc_collection_notify_resource_changed. *)
Lemma inv_coll_changed c d s : inv s -> In c (s_res s) -> r_coll c = true -> inv (coll_changed may c d s).
Proof.
  intros I C CC. unfold coll_changed. apply add_ents_live; [|exact C]. apply inv_ll; [exact I|].
  intros i H. apply reset_in in H. destruct H as [H|H]; [now apply (i_ll s I)|]. subst i. now exists c.
Qed.

(** Dropping observers. *)
Lemma target_ok s o : inv s -> In o (s_obs s) -> target_alive s o = true.
Proof.
  intros I O. pose proof (i_obs s I o O) as X. unfold obs_ok in X. unfold target_alive. destruct (o_tgt o) as [|i]; [reflexivity|].
  destruct X as (r & R & E & _). assert (A : alive s i) by (unfold alive; rewrite <- E; now apply in_map).
  destruct (alive_find s i A) as (q & ->). reflexivity.
Qed.
Definition dropped (o : obs) (s : st) : st :=
  drop_obs_ents (o_id o) (set_obs (filter (fun p => negb (o_id p =? o_id o)) (s_obs s)) s).
Lemma drop_observer_eq o s : target_alive s o = true -> drop_observer o s = Some (dropped o s).
Proof. unfold drop_observer. now intros ->. Qed.
Lemma inv_dropped o s : inv s -> inv (dropped o s).
Proof.
  intros I. constructor.
  - apply (i_ids s I).
  - apply (i_uris s I).
  - apply (i_new s I).
  - cbn. apply nodup_map_filter. apply (i_oids s I).
  - cbn. intros p P. apply filter_In in P. now apply (i_onew s I).
  - cbn. intros p P. apply filter_In in P. now apply (i_obs s I).
  - cbn. intros e E. apply filter_In in E. destruct E as (E & X). destruct (i_ent s I e E) as (p & P & E1 & E2 & E3).
    exists p. cbn. repeat split; try assumption. apply filter_In. split; [exact P|]. now rewrite E1.
  - apply (i_links s I).
  - apply (i_once s I).
  - apply (i_chg s I).
  - apply (i_ntf s I).
  - apply (i_ll s I).
  - apply (i_base s I).
Qed.
(** The observers selected are gone, and their entries. *)
Definition thin (f : obs -> bool) (s t : st) : Prop :=
  s_res t = s_res s /\ s_added t = s_added s /\ s_chg t = s_chg s /\ s_ntf t = s_ntf s /\ s_ll t = s_ll s
  /\ s_base t = s_base s /\ s_next t = s_next s /\ s_nop t = s_nop s /\ s_disp t = s_disp s /\ s_bw t = s_bw s
  /\ s_out t = s_out s
  /\ (forall o, In o (s_obs t) <-> In o (s_obs s) /\ f o = false)
  /\ (forall e, In e (s_ent t) <-> In e (s_ent s) /\ (forall o, In o (s_obs s) -> f o = true -> o_id o <> e_obs e)).
Lemma drop_list_ok l s :
  inv s -> (forall o, In o l -> In o (s_obs s)) -> NoDup (map o_id l) ->
  exists t, fold_left (fun a o => bind a (drop_observer o)) l (Some s) = Some t /\ inv t
    /\ s_res t = s_res s /\ s_added t = s_added s /\ s_chg t = s_chg s /\ s_ntf t = s_ntf s /\ s_ll t = s_ll s
    /\ s_base t = s_base s /\ s_next t = s_next s /\ s_nop t = s_nop s /\ s_disp t = s_disp s /\ s_bw t = s_bw s
    /\ s_out t = s_out s
    /\ s_obs t = filter (fun o => negb (existsb (fun p => o_id p =? o_id o) l)) (s_obs s)
    /\ s_ent t = filter (fun e => negb (existsb (fun p => o_id p =? e_obs e) l)) (s_ent s).
Proof.
  revert s. induction l as [|o l IH]; intros s I H D.
  - cbn [fold_left existsb]. exists s. split; [reflexivity|]. split; [exact I|].
    repeat split; symmetry; apply filter_all; reflexivity.
  - cbn [fold_left bind]. rewrite drop_observer_eq by (apply target_ok; [exact I|apply H; now left]).
    cbn [map] in D. inversion D as [|u v N D']; subst.
    destruct (IH (dropped o s)) as (t & E & J & A1 & A2 & A3 & A4 & A5 & A6 & A7 & A8 & A9 & A10 & A11 & A12 & A13).
    { now apply inv_dropped. }
    { intros p P. cbn. apply filter_In. split; [apply H; now right|]. rewrite negb_true_iff, Nat.eqb_neq.
      intros F. apply N. rewrite <- F. now apply in_map. }
    { exact D'. }
    exists t. split; [exact E|]. split; [exact J|].
    assert (FF : forall {A} (g h : A -> bool) k, filter g (filter h k) = filter (fun x => h x && g x) k).
    { intros A g h k. induction k as [|a k IHk]; cbn; [reflexivity|]. destruct (h a) eqn:X; cbn; rewrite ?X; cbn; now rewrite IHk. }
    do 11 (split; [assumption|]). split.
    + rewrite A12. cbn. rewrite FF. apply filter_ext. intros p. cbn [existsb]. rewrite negb_orb, (Nat.eqb_sym (o_id o)). reflexivity.
    + rewrite A13. cbn. rewrite FF. apply filter_ext. intros p. cbn [existsb]. rewrite negb_orb, (Nat.eqb_sym (o_id o)). reflexivity.
Qed.
Lemma drop_observers_ok f s : inv s -> exists t, drop_observers f s = Some t /\ inv t /\ thin f s t.
Proof.
  intros I. unfold drop_observers.
  destruct (drop_list_ok (filter f (s_obs s)) s) as (t & E & J & A1 & A2 & A3 & A4 & A5 & A6 & A7 & A8 & A9 & A10 & A11 & A12 & A13).
  - exact I.
  - intros o O. now apply filter_In in O.
  - apply nodup_map_filter. apply (i_oids s I).
  - exists t. split; [exact E|]. split; [exact J|]. unfold thin. do 11 (split; [assumption|]). split.
    + intros o. rewrite A12, filter_In, negb_true_iff. split; intros (O & X); (split; [exact O|]).
      * destruct (f o) eqn:F; [|reflexivity]. exfalso. rewrite <- not_true_iff_false in X. apply X.
        apply existsb_exists. exists o. rewrite filter_In, Nat.eqb_refl. auto.
      * apply not_true_iff_false. intros Y. apply existsb_exists in Y. destruct Y as (p & P & Y).
        apply filter_In in P. apply Nat.eqb_eq in Y. assert (p = o) by (apply (nodup_inj o_id (s_obs s)); [apply (i_oids s I)|tauto|exact O|exact Y]).
        subst p. destruct P. congruence.
    + intros e. rewrite A13, filter_In, negb_true_iff. split; intros (O & X); (split; [exact O|]).
      * intros o P F Y. rewrite <- not_true_iff_false in X. apply X. apply existsb_exists. exists o.
        rewrite filter_In, Nat.eqb_eq. auto.
      * apply not_true_iff_false. intros Y. apply existsb_exists in Y. destruct Y as (p & P & Y).
        apply filter_In in P. apply Nat.eqb_eq in Y. destruct P as (P1 & P2). now apply (X p).
Qed.
End Inv.
