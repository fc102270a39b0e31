(** The batch observers of /oic/res: when they are told, and in which messages. *)
From Coq Require Import PeanoNat Lia.
From Verif Require Import Common Ntf_Model Ntf_Spec Ntf_Proofs Ntf2_Proofs Ntf3_Proofs Ntf4_Proofs Ntf5_Proofs.
Local Open Scope nat_scope.

Definition covered (s : st) (o : obs) : bool := existsb (xfer_for o) (s_bw s).
Definition same_key (o p : obs) : Prop := o_cl o = o_cl p /\ o_url o = o_url p /\ o_if o = o_if p.
Lemma xfer_key o x : xfer_for o x = true <-> x_cl x = o_cl o /\ x_url x = o_url o /\ x_if x = o_if o.
Proof. unfold xfer_for, xfer_of. rewrite !andb_true_iff, !Nat.eqb_eq, N.eqb_eq. tauto. Qed.
Lemma covered_key s o p : same_key o p -> covered s o = covered s p.
Proof. intros (A & C & D). unfold covered, xfer_for. now rewrite A, C, D. Qed.
Lemma transferring_covered s o : transferring s o <-> covered s o = true.
Proof.
  unfold transferring, covered. rewrite existsb_exists. split.
  - intros (x & X & Y). exists x. split; [exact X|now apply xfer_key].
  - intros (x & X & Y). exists x. split; [exact X|now apply xfer_key].
Qed.

(** ** Transfers *)
Lemma free_in f s x : In x (s_bw (free_bw f s)) <-> In x (s_bw s) /\ f x = false.
Proof. unfold free_bw. destruct (existsb _ _); cbn; rewrite filter_In, negb_true_iff; reflexivity. Qed.
Lemma free_disp f s : s_disp s = true -> s_disp (free_bw f s) = true.
Proof. unfold free_bw. destruct (existsb _ _); cbn; auto. Qed.
Lemma free_disp_fin f s x : In x (s_bw s) -> f x = true -> x_fin x = true -> s_disp (free_bw f s) = true.
Proof.
  intros X F G. unfold free_bw. assert (E : existsb (fun x => f x && x_fin x) (s_bw s) = true) by (apply existsb_exists; exists x; now rewrite F, G).
  now rewrite E.
Qed.
Lemma send_bw big fin ig o b s x : In x (s_bw (send big fin ig o b s)) -> In x (s_bw s) \/ x = mk_bwt (o_cl o) (o_url o) (o_if o) fin false.
Proof.
  unfold send. destruct (_ && _); [now left|]. destruct (mem _ _); [|now left]. destruct (existsb _ _); [now left|].
  cbn. rewrite in_app_iff. intros [X|[X|[]]]; [left; now apply free_in in X|right; now symmetry].
Qed.
Lemma send_covers big fin ig o b s p : covered s p = true -> covered (send big fin ig o b s) p = true.
Proof.
  unfold send. destruct (_ && _); [auto|]. destruct (mem _ _); [|auto]. destruct (existsb _ _); [auto|].
  unfold covered. rewrite !existsb_exists. intros (x & X & Y). cbn. destruct (xfer_for o x) eqn:Z.
  - exists (mk_bwt (o_cl o) (o_url o) (o_if o) fin false). split; [apply in_app_iff; right; now left|].
    apply xfer_key in Y, Z. apply xfer_key. cbn. destruct Y as (Y1 & Y2 & Y3), Z as (Z1 & Z2 & Z3). repeat split; congruence.
  - exists x. split; [|exact Y]. apply in_app_iff. left. apply free_in. now split.
Qed.
Lemma send_uncovered big fin ig o b s p : ~ same_key o p -> covered (send big fin ig o b s) p = covered s p.
Proof.
  intros N. apply Bool.eq_true_iff_eq. split; [|apply send_covers].
  unfold covered. rewrite !existsb_exists. intros (x & X & Y). apply send_bw in X. destruct X as [X|X]; [now exists x|].
  exfalso. apply N. subst x. apply xfer_key in Y. cbn in Y. unfold same_key. tauto.
Qed.
Lemma send_disp big fin ig o b s : s_disp s = true -> s_disp (send big fin ig o b s) = true.
Proof.
  unfold send. destruct (_ && _); [auto|]. destruct (mem _ _); [|auto]. destruct (existsb _ _); [auto|]. cbn. apply free_disp.
Qed.
Lemma fold_bw big ig (f : obs -> bool) (b : obs -> body) os s :
  let t := fold_left (fun a o => if f o then send big false ig o (b o) a else a) os s in
  (forall x, In x (s_bw t) -> In x (s_bw s) \/ exists o, In o os /\ f o = true /\ x = mk_bwt (o_cl o) (o_url o) (o_if o) false false)
  /\ (forall p, covered s p = true -> covered t p = true)
  /\ (forall p, (forall o, In o os -> f o = true -> ~ same_key o p) -> covered t p = covered s p)
  /\ (s_disp s = true -> s_disp t = true).
Proof.
  revert s. induction os as [|o os IH]; intros s; cbn [fold_left]; [cbn; auto|]. cbv zeta in *.
  destruct (IH (if f o then send big false ig o (b o) s else s)) as (A & C & D & E). clear IH.
  split; [|split; [|split]].
  - intros x X. apply A in X. destruct X as [X|(p & P & Q)]; [|right; exists p; split; [now right|exact Q]].
    destruct (f o) eqn:F; [|now left]. apply send_bw in X. destruct X as [X|X]; [now left|]. right. exists o. split; [now left|]. now split.
  - intros p X. apply C. destruct (f o); [now apply send_covers|exact X].
  - intros p N. rewrite D by (intros q Q; apply N; now right). destruct (f o) eqn:F; [|reflexivity]. apply send_uncovered. apply N; [now left|exact F].
  - intros X. apply E. destruct (f o); [now apply send_disp|exact X].
Qed.

Section Stir.
Variable may : nat -> nat -> bool.
Notation inv := (inv may).

(** ** An observer for each client, URI and interface *)
Definition lone (s : st) : Prop := forall o p, In o (s_obs s) -> In p (s_obs s) -> same_key o p -> o = p.
Lemma lone_incl s t : lone s -> incl (s_obs t) (s_obs s) -> lone t.
Proof. intros L H o p O P. apply L; now apply H. Qed.
Lemma thin_incl f s t : thin f s t -> incl (s_obs t) (s_obs s).
Proof. intros (_ & _ & _ & _ & _ & _ & _ & _ & _ & _ & _ & T & _) o O. now apply T in O. Qed.

Lemma fire_obs big t s s' : fire may big t s = Some s' -> s_obs s' = s_obs s.
Proof.
  intros H. destruct t as [| |i|i|i|i]; cbn [fire] in H.
  - destruct (s_disp s); [|now inversion H]. destruct (process_msgs may _ _ _ _ H) as (ms & _ & _ & _ & O & _). exact O.
  - destruct (s_added s); [|now inversion H]. destruct (process_msgs may _ _ _ _ H) as (ms & _ & _ & _ & O & _). rewrite O.
    destruct (frame_disc big (set_added false s)) as (_ & F & _). exact F.
  - destruct (mem i (s_chg s)); [|now inversion H]. destruct (find_res (set_chg (without i (s_chg s)) s) i) as [r|] eqn:E; [|unfold notify in H; rewrite E in H; discriminate].
    destruct (notify_msgs may _ _ _ _ r H E) as (ms & _ & _ & _ & _ & O & _). exact O.
  - destruct (mem i (s_ntf s)); [|now inversion H]. destruct (find_res (set_ntf (without i (s_ntf s)) s) i) as [r|] eqn:E; [|unfold notify in H; rewrite E in H; discriminate].
    destruct (notify_msgs may _ _ _ _ r H E) as (ms & _ & _ & _ & _ & O & _). exact O.
  - destruct (mem i (s_ll s)); [|now inversion H]. destruct (find_res s i) as [c|]; cbn [bind] in H; [|discriminate]. destruct (links_uris s c); cbn [bind] in H; [|discriminate].
    cbv zeta in H. apply some_inj in H. subst s'. destruct (frame_coll big c LL (BLinks i LL (r_links c)) (set_ll (without i (s_ll s)) s)) as (_ & F & _). exact F.
  - destruct (mem i (s_base s)); [|now inversion H]. destruct (find_res s i) as [c|]; cbn [bind] in H; [|discriminate]. destruct (links_uris s c); cbn [bind] in H; [|discriminate].
    apply some_inj in H. subst s'. destruct (frame_coll big c BASELINE (BLinks i BASELINE (r_links c)) (set_base (without i (s_base s)) s)) as (_ & F & _). exact F.
Qed.

Lemma delete_obs i s t : inv s -> delete_resource may i s = Some t -> incl (s_obs t) (s_obs s) /\ (t = s \/ s_added t = true) /\ s_bw t = s_bw s.
Proof.
  intros I H. unfold delete_resource in H. destruct (find_res s i) as [r|] eqn:E; [|apply some_inj in H; subst t; split; [apply incl_refl|split; [now left|reflexivity]]].
  destruct (r_coll r) eqn:RC; [apply some_inj in H; subst t; split; [apply incl_refl|split; [now left|reflexivity]]|]. cbv zeta in H.
  destruct (holders_ok may i s I) as (HC & HD). destruct (unlink_fold may i (filter (linking i) (s_res s)) s I HC HD) as (J1 & A1 & A2 & A3 & A4 & A5 & A6 & A7 & A8 & A9 & _).
  set (s1 := fold_left (unlink_one may i) (filter (linking i) (s_res s)) s) in *. clearbody s1.
  set (s2 := set_chg (without i (s_chg s1)) (set_ntf (without i (s_ntf s1)) s1)) in *.
  assert (J2 : inv s2).
  { unfold s2. apply inv_chg; [apply inv_ntf; [exact J1|]|]; intros j X; apply without_in in X; [now apply (i_ntf may s1 J1)|now apply (i_chg may s1 J1)]. }
  destruct (drop_observers_ok may (is_tgt i) s2 J2) as (s3 & D & J3 & T). rewrite D in H. cbn [bind] in H. apply some_inj in H. subst t.
  destruct (removed_fields may r s3) as (F1 & F2 & F3 & F4 & F5 & F6 & F7 & F8 & F9 & F10 & F11 & F12 & F13).
  split; [|split].
  - cbn [s_obs set_res]. rewrite F2, <- A2. exact (thin_incl _ _ _ T).
  - right. exact F4.
  - cbn [s_bw set_res]. rewrite F11. destruct T as (_ & _ & _ & _ & _ & _ & _ & _ & _ & T & _). rewrite T. exact A9.
Qed.
Lemma delete_coll_obs i s t : delete_collection may i s = Some t -> incl (s_obs t) (s_obs s) /\ (t = s \/ s_added t = true) /\ s_bw t = s_bw s.
Proof.
  intros H. unfold delete_collection in H. destruct (find_res s i) as [r|] eqn:E; [|apply some_inj in H; subst t; split; [apply incl_refl|split; [now left|reflexivity]]].
  destruct (r_coll r) eqn:RC; [|apply some_inj in H; subst t; split; [apply incl_refl|split; [now left|reflexivity]]]. cbv zeta in H. apply some_inj in H. subst t.
  destruct (removed_fields may r s) as (F1 & F2 & F3 & F4 & F5 & F6 & F7 & F8 & F9 & F10 & F11 & F12 & F13).
  split; [|split]; cbn [s_obs s_added s_bw set_res set_ll set_base]; [rewrite F2; apply incl_refl|now right|exact F11].
Qed.

(** The parts of a registration. *)
Lemma register_parts big cl t f s s' : inv s -> register may big cl t f s = Some s' ->
  s' = s \/ exists u s2 o, inv s2 /\ o = mk_obs (s_next s) cl t u f /\ obs_ok s o
    /\ s_obs s' = s_obs s2 ++ [o] /\ (forall q, In q (s_obs s2) -> In q (s_obs s) /\ ~ same_key q o)
    /\ s_ent s' = s_ent s2 /\ (forall e, In e (s_ent s2) -> In e (s_ent s))
    /\ s_bw s' = s_bw (free_bw (xfer_of cl u f) s) ++ (if big then [mk_bwt cl u f false false] else [])
    /\ s_disp s' = s_disp (free_bw (xfer_of cl u f) s) /\ s_added s' = s_added s.
Proof.
  intros I H. unfold register in H. destruct (answer may s cl t f) as [(u & b)|] eqn:E; [|apply some_inj in H; now left]. cbv zeta in H. right.
  assert (J : inv (free_bw (xfer_of cl u f) s)) by (eapply inv_frame; [apply frame_free|exact I]).
  destruct (frame_free (xfer_of cl u f) s) as (F1 & F2 & F3 & F4 & F5 & F6 & F7 & F8 & F9 & F10).
  destruct (drop_observers_ok may (fun o => (o_cl o =? cl) && (o_url o =? u) && (o_if o =? f)%N) _ J) as (s2 & D & J2 & T).
  rewrite D in H. cbn [bind] in H. apply some_inj in H. destruct T as (T1 & T2 & T3 & T4 & T5 & T6 & T7 & T8 & T9 & T10 & T11 & T12 & T13).
  exists u, s2, (mk_obs (s_next s2) cl t u f). split; [exact J2|]. split; [now rewrite T7, F9|]. split.
  { exact (answer_ok may s cl t f u b I E). }
  split; [subst s'; destruct big; reflexivity|]. split.
  { intros q Q. apply T12 in Q. destruct Q as (Q & Z). rewrite F2 in Q. split; [exact Q|]. intros (K1 & K2 & K3). cbn in K1, K2, K3.
    rewrite K1, K2, K3, !Nat.eqb_refl, N.eqb_refl in Z. discriminate. }
  split; [subst s'; destruct big; reflexivity|]. split; [intros e X; apply T13 in X; rewrite F3 in X; tauto|].
  rewrite <- T10, <- T9, <- F4, <- T2. split; [|split]; subst s'; destruct big; cbn; rewrite ?app_nil_r; reflexivity.
Qed.

Lemma lone_ok s p t : inv s -> lone s -> step may s p = Some t -> lone t.
Proof.
  intros I L H. destruct p as [u v coll def disc obsv get|i|i|c i|c i|big cl tg f|i|big i v|i v|i v|big tm|cl u f|cl u f|b]; cbn [step] in H.
  - apply some_inj in H. subst t. apply (lone_incl s); [exact L|]. unfold add_resource. destruct (_ || _); apply incl_refl.
  - apply (lone_incl s); [exact L|]. now apply (delete_obs i).
  - apply (lone_incl s); [exact L|]. now apply (delete_coll_obs i).
  - unfold add_link in H. destruct (find_res s c) as [k|] eqn:E; [|apply some_inj in H; now subst t]. destruct (find_res s i) as [r|]; [|apply some_inj in H; now subst t].
    destruct (r_coll k); [|apply some_inj in H; now subst t]. destruct (links_uris s k); cbn [bind] in H; [|discriminate]. cbv zeta in H.
    apply some_inj in H. subst t. apply (lone_incl s); [exact L|apply incl_refl].
  - unfold remove_link in H. destruct (find_res s c) as [k|] eqn:E; [|apply some_inj in H; now subst t].
    destruct (r_coll k && mem i (r_links k)); [|apply some_inj in H; now subst t]. cbv zeta in H. apply some_inj in H. subst t. apply (lone_incl s); [exact L|apply incl_refl].
  - destruct (register_parts big cl tg f s t I H) as [->|(u & s2 & o & _ & _ & _ & EO & Q & _)]; [exact L|].
    intros x y X Y Z. rewrite EO in X, Y. apply in_app_iff in X. apply in_app_iff in Y. destruct X as [X|[X|[]]], Y as [Y|[Y|[]]].
    + apply L; [now apply Q|now apply Q|exact Z].
    + subst y. exfalso. destruct (Q x X) as (_ & N). now apply N.
    + subst x. exfalso. destruct (Q y Y) as (_ & N). apply N. destruct Z as (Z1 & Z2 & Z3). repeat split; now symmetry.
    + congruence.
  - destruct (find_obs s i) as [o|] eqn:E; [|apply some_inj in H; now subst t]. unfold drop_observer in H. destruct (target_alive s o); [|discriminate].
    apply some_inj in H. subst t. apply (lone_incl s); [exact L|]. intros q Q. cbn in Q. now apply filter_In in Q.
  - destruct (find_res s i) as [r|] eqn:E; [|apply some_inj in H; now subst t].
    destruct (find_res (upd_res i (with_val v) s) i) as [q|] eqn:F; [|unfold notify in H; rewrite F in H; discriminate].
    destruct (notify_msgs may _ _ _ _ q H F) as (ms & _ & _ & _ & _ & O & _). apply (lone_incl s); [exact L|]. rewrite O. apply incl_refl.
  - destruct (find_res s i) as [r|] eqn:E; apply some_inj in H; subst t; apply (lone_incl s); try exact L; apply incl_refl.
  - destruct (find_res s i) as [r|] eqn:E; apply some_inj in H; subst t; apply (lone_incl s); try exact L; [|apply incl_refl].
    destruct (is_observed _ _); apply incl_refl.
  - apply (lone_incl s); [exact L|]. rewrite (fire_obs big tm s t H). apply incl_refl.
  - apply some_inj in H. subst t. apply (lone_incl s); [exact L|]. destruct (frame_free (xfer_of cl u f) s) as (_ & F & _). rewrite F. apply incl_refl.
  - apply some_inj in H. subst t. apply (lone_incl s); [exact L|apply incl_refl].
  - apply some_inj in H. subst t. apply (lone_incl s); [exact L|apply incl_refl].
Qed.
Lemma lone_run ps s t : inv s -> lone s -> careful may s ps -> run may s ps = Some t -> lone t.
Proof.
  revert s. induction ps as [|p ps IH]; intros s I K C H; cbn [run] in H; [apply some_inj in H; now subst t|].
  cbn [careful] in C. destruct C as (C1 & C2). destruct (step_ok may s p I C1) as (s1 & E & J). rewrite E in H. cbn [bind] in H.
  apply (IH s1); [exact J|now apply (lone_ok s p)|now apply C2|exact H].
Qed.
Lemma lone_reach ps t : careful may init ps -> run may init ps = Some t -> lone t.
Proof. intros C H. apply (lone_run ps init t); [apply inv_init|intros o p []|exact C|exact H]. Qed.

(** ** The processing of batch observers *)
Lemma items_report s o es its : items may s o es = Some its -> its = flat_map (fun e => report may s o (e_what e)) es.
Proof.
  revert its. induction es as [|e es IH]; intros its H; cbn [items] in H; [apply some_inj in H; now subst|].
  destruct (item may s o (e_what e)) as [a|] eqn:A; cbn [bind] in H; [|discriminate].
  destruct (items may s o es) as [b|] eqn:B_; cbn [bind] in H; [|discriminate]. apply some_inj in H. subst its. cbn [flat_map].
  rewrite (IH b eq_refl). f_equal. destruct (e_what e) as [i|w]; cbn [item report] in *; [|now apply some_inj in A].
  unfold find_res in A. destruct (find _ (s_res s)) as [r|]; cbn [bind] in A; [|discriminate].
  rewrite negb_andb, negb_involutive in A. destruct (_ && _); now apply some_inj in A.
Qed.
Definition own (k : nat) (es : list ent) : list ent := filter (fun e => e_obs e =? k) es.
Definition batch_msg (s : st) (o : obs) : list msg :=
  match flat_map (fun e => report may s o (e_what e)) (own (o_id o) (s_ent s)) with [] => [] | l => [mk_msg (o_id o) (o_cl o) (BDisc l)] end.

Lemma own_other k j es : j <> k -> own k (filter (fun x => negb (e_obs x =? j)) es) = own k es.
Proof.
  intros N. unfold own. induction es as [|e es IH]; [reflexivity|]. cbn. destruct (e_obs e =? j) eqn:E; cbn.
  - apply Nat.eqb_eq in E. destruct (e_obs e =? k) eqn:F; [apply Nat.eqb_eq in F; congruence|exact IH].
  - destruct (e_obs e =? k); [f_equal|]; exact IH.
Qed.
Lemma own_none k es : own k (filter (fun x => negb (e_obs x =? k)) es) = [].
Proof. unfold own. induction es as [|e es IH]; [reflexivity|]. cbn. destruct (e_obs e =? k) eqn:E; cbn; rewrite ?E; exact IH. Qed.
Lemma less_ents k es e : In e es -> e_obs e = k -> List.length (filter (fun x => negb (e_obs x =? k)) es) < List.length es.
Proof.
  intros E K. assert (G : forall l, List.length (filter (fun x => negb (e_obs x =? k)) l) <= List.length l).
  { intros l. induction l as [|a l IH]; cbn; [lia|]. destruct (negb _); cbn; lia. }
  induction es as [|a es IH]; [destruct E|]. cbn. destruct E as [E|E].
  - subst a. rewrite K, Nat.eqb_refl. cbn. specialize (G es). lia.
  - specialize (IH E). destruct (negb _); cbn; lia.
Qed.

Lemma process_exact n big s t o :
  inv s -> lone s -> List.length (s_ent s) <= n -> process may n big s = Some t -> In o (s_obs s) ->
  exists ms, s_out t = s_out s ++ ms
    /\ filter (fun m => m_obs m =? o_id o) ms = (if covered s o then [] else batch_msg s o)
    /\ own (o_id o) (s_ent t) = (if covered s o then own (o_id o) (s_ent s) else []).
Proof.
  revert s. induction n as [|n IH]; intros s I L LE H O.
  - cbn in H. apply some_inj in H. subst t. exists []. rewrite app_nil_r. assert (E : s_ent s = []) by (destruct (s_ent s); [reflexivity|cbn in LE; lia]).
    unfold batch_msg. rewrite E. destruct (covered s o); auto.
  - destruct (process_round may n big s t I H) as [(-> & BU)|(e & p & its & E & P & PI & PB & BU & IT & J & H')].
    + exists []. rewrite app_nil_r. split; [reflexivity|]. destruct (covered s o) eqn:C; [auto|].
      assert (X : own (o_id o) (s_ent s) = []).
      { unfold own. destruct (filter _ (s_ent s)) as [|e l] eqn:F; [reflexivity|]. exfalso.
        assert (Y : In e (filter (fun x => e_obs x =? o_id o) (s_ent s))) by (rewrite F; now left). apply filter_In in Y. destruct Y as (Y & Z).
        apply Nat.eqb_eq in Z. specialize (BU e Y). unfold busy in BU. rewrite Z, (find_obs_in s o (i_oids may s I) O) in BU. unfold covered in C. congruence. }
      unfold batch_msg. rewrite X. auto.
    + pose proof (served_out s p its big BU) as EO. destruct (served_frame s p its big) as (F1 & F2 & F3 & _).
      assert (EQ : served s p its big = match its with [] => set_ent (filter (fun x => negb (e_obs x =? o_id p)) (s_ent s)) s
        | _ => send big true true p (BDisc its) (set_ent (filter (fun x => negb (e_obs x =? o_id p)) (s_ent s)) s) end) by reflexivity.
      set (s1 := served s p its big) in *. cbn in F1, F2, F3.
      assert (COV : ~ same_key p o -> covered s1 o = covered s o).
      { intros N. rewrite EQ. destruct its; [reflexivity|]. now rewrite send_uncovered. }
      clearbody s1.
      destruct (IH s1) as (ms & M1 & M2 & M3); [exact J| | |exact H'|rewrite F2; exact O|].
      { apply (lone_incl s); [exact L|]. rewrite F2. apply incl_refl. }
      { rewrite F3. pose proof (less_ents (o_id p) (s_ent s) e E (eq_sym PI)). lia. }
      exists (match its with [] => [] | _ => [mk_msg (o_id p) (o_cl p) (BDisc its)] end ++ ms).
      split; [rewrite M1, EO, <- app_assoc; reflexivity|]. rewrite filter_app, M2, M3.
      destruct (Nat.eq_dec (o_id p) (o_id o)) as [Z|Z].
      * assert (p = o) by (apply (nodup_inj o_id (s_obs s)); [apply (i_oids may s I)|exact P|exact O|exact Z]). subst p.
        change (existsb (xfer_for o) (s_bw s)) with (covered s o) in BU. rewrite BU.
        unfold batch_msg at 1. rewrite F3, own_none. cbn [flat_map]. split; [|destruct (covered s1 o); reflexivity].
        apply items_report in IT. fold (own (o_id o) (s_ent s)) in IT.
        replace (if covered s1 o then [] else []) with (@nil msg) by (destruct (covered s1 o); reflexivity). rewrite app_nil_r.
        unfold batch_msg. rewrite <- IT. destruct its; cbn; [reflexivity|]. now rewrite Nat.eqb_refl.
      * assert (N : ~ same_key p o) by (intros N; apply Z; now rewrite (L p o P O N)). rewrite (COV N).
        assert (OW : own (o_id o) (s_ent s1) = own (o_id o) (s_ent s)) by (rewrite F3; now apply own_other).
        assert (BM : batch_msg s1 o = batch_msg s o).
        { unfold batch_msg. rewrite OW. unfold report. rewrite F1. reflexivity. }
        rewrite OW, BM. split; [|reflexivity]. destruct its; cbn; [reflexivity|]. apply Nat.eqb_neq in Z. now rewrite Z.
Qed.

(** ** Nothing stays pending for ever *)
Definition stirred (s : st) : Prop :=
  (forall x, In x (s_bw s) -> x_url x = 0 -> x_if x = B -> x_fin x = true)
  /\ (forall e, In e (s_ent s) -> s_disp s = true \/ s_added s = true \/ exists o, In o (s_obs s) /\ o_id o = e_obs e /\ covered s o = true).

Lemma process_done n big s t : inv s -> List.length (s_ent s) <= n -> process may n big s = Some t -> forall e, In e (s_ent t) -> busy t e = true.
Proof.
  revert s. induction n as [|n IH]; intros s I LE H e E.
  - cbn in H. apply some_inj in H. subst t. destruct (s_ent s); [destruct E|cbn in LE; lia].
  - destruct (process_round may n big s t I H) as [(-> & BU)|(x & p & its & X & P & PI & PB & BU & IT & J & H')]; [now apply BU|].
    apply (IH _ J); [|exact H'|exact E]. destruct (served_frame s p its big) as (_ & _ & F3 & _). rewrite F3. cbn.
    pose proof (less_ents (o_id p) (s_ent s) x X (eq_sym PI)). lia.
Qed.
Lemma process_bw n big s t : inv s -> process may n big s = Some t ->
  (forall x, In x (s_bw s) -> x_url x = 0 -> x_if x = B -> x_fin x = true) -> (forall x, In x (s_bw t) -> x_url x = 0 -> x_if x = B -> x_fin x = true).
Proof.
  revert s. induction n as [|n IH]; intros s I H A; [cbn in H; apply some_inj in H; now subst t|].
  destruct (process_round may n big s t I H) as [(-> & BU)|(x & p & its & X & P & PI & PB & BU & IT & J & H')]; [exact A|].
  apply (IH _ J H'). intros y Y. unfold served in Y. destruct its; [now apply A|]. apply send_bw in Y. destruct Y as [Y|Y]; [now apply A|]. now subst y.
Qed.
Lemma stirred_process big s t : inv s -> (forall x, In x (s_bw s) -> x_url x = 0 -> x_if x = B -> x_fin x = true) -> process_all may big s = Some t -> stirred t.
Proof.
  intros I A H. split; [now apply (process_bw _ big s t I H)|]. intros e E. right. right.
  pose proof (process_done _ big s t I (Nat.le_refl _) H e E) as X. unfold busy in X. destruct (find_obs t (e_obs e)) as [o|] eqn:F; [|discriminate].
  destruct (find_obs_some _ _ _ F) as (O & OI). exists o. auto.
Qed.

Lemma tgt_url s o i : inv s -> In o (s_obs s) -> o_tgt o = TRes i -> o_url o <> 0.
Proof.
  intros I O T. pose proof (i_obs may s I o O) as X. unfold obs_ok in X. rewrite T in X. destruct X as (r & R & _ & <-). now apply (i_new may s I).
Qed.
(** Sends to observers that are not batch observers of /oic/res. *)
Definition steady (s t : st) : Prop :=
  (forall x, In x (s_bw t) -> In x (s_bw s) \/ ~ (x_url x = 0 /\ x_if x = B)) /\ (forall p, covered s p = true -> covered t p = true)
  /\ (s_disp s = true -> s_disp t = true).
Lemma steady_refl s t : s_bw t = s_bw s -> (s_disp s = true -> s_disp t = true) -> steady s t.
Proof. intros E D. split; [intros x X; left; now rewrite <- E|]. split; [|exact D]. unfold covered. now rewrite E. Qed.
Lemma steady_trans s t u : steady s t -> steady t u -> steady s u.
Proof.
  intros (A1 & A2 & A3) (C1 & C2 & C3). split; [|split; auto]. intros x X. destruct (C1 x X) as [Y|Y]; [now apply A1|now right].
Qed.
Lemma steady_fold big ig (f : obs -> bool) b s : (forall o, In o (s_obs s) -> f o = true -> ~ (o_url o = 0 /\ o_if o = B)) ->
  steady s (foldo (fun o a => if f o then send big false ig o (b o) a else a) s).
Proof.
  intros H. destruct (fold_bw big ig f b (s_obs s) s) as (A & C & _ & D). split; [|split; assumption].
  intros x X. destruct (A x X) as [Y|(o & O & F & ->)]; [now left|]. right. now apply H.
Qed.
Lemma steady_iterate big r s : inv s -> steady s (iterate big r s).
Proof.
  intros I. apply (steady_fold big false (eligible r)). intros o O F (U & _). unfold eligible in F. rewrite !andb_true_iff in F. destruct F as (((F & _) & _) & _).
  apply is_tgt_eq in F. now apply (tgt_url s o (r_id r)).
Qed.
Lemma steady_coll big c f b s : inv s -> steady s (notify_coll big c f b s).
Proof.
  intros I. apply (steady_fold big true (coll_match c f) (fun _ => b)). intros o O F (U & _). unfold coll_match in F. rewrite andb_true_iff in F. destruct F as (F & _).
  apply is_tgt_eq in F. now apply (tgt_url s o (r_id c)).
Qed.
Lemma steady_disc big s : steady s (notify_disc big s).
Proof.
  apply (steady_fold big false (fun o => is_disc o && (N.land (o_if o) B =? 0)%N) (fun o => BDiscLinks (o_if o))). intros o O F (_ & U). rewrite U in F.
  rewrite andb_false_r in F. discriminate.
Qed.
Lemma steady_colls big r s : inv s -> steady s (notify_collections big r s).
Proof.
  intros I. unfold notify_collections. generalize (take_while (observed s) (filter (linking (r_id r)) (s_res s))) as cs. intros cs. revert s I.
  induction cs as [|c cs IH]; intros s I; cbn [fold_left]; [now apply steady_refl|].
  eapply steady_trans; [|apply IH].
  - now apply steady_coll.
  - eapply inv_frame; [apply frame_coll|exact I].
Qed.
Lemma notify_disp big i s t : inv s -> notify may big i s = Some t -> steady s t /\ s_disp t = true.
Proof.
  intros I H. unfold notify in H. destruct (find_res s i) as [r|] eqn:E; cbn [bind] in H; [|discriminate]. cbv zeta in H.
  destruct (find_res_some _ _ _ E) as (R & _).
  pose proof (add_ents_live may r true s I R) as J. destruct (add_ents_eq may r false true s) as (_ & W1 & _ & W2).
  set (s1 := add_ents may r false true s) in *. clearbody s1. cbn [orb] in W2.
  assert (S1 : steady s s1) by (apply steady_refl; [exact W1|auto]).
  destruct (negb (r_obsv r)); [apply some_inj in H; subst t; now split|]. destruct (negb (s_nop s)); [apply some_inj in H; subst t; now split|].
  assert (S2 : steady s1 (if observed s1 r then iterate big r s1 else s1)) by (destruct (observed s1 r); [now apply steady_iterate|now apply steady_refl]).
  assert (J2 : inv (if observed s1 r then iterate big r s1 else s1)) by (destruct (observed s1 r); [eapply inv_frame; [apply frame_iterate|exact J]|exact J]).
  set (s2 := if observed s1 r then iterate big r s1 else s1) in *. clearbody s2. apply some_inj in H. subst t.
  pose proof (steady_trans _ _ _ S2 (steady_colls big r s2 J2)) as S3. split; [now apply (steady_trans s s1)|]. now apply S3.
Qed.

Lemma bwfin_steady s t : (forall x, In x (s_bw s) -> x_url x = 0 -> x_if x = B -> x_fin x = true) -> steady s t ->
  (forall x, In x (s_bw t) -> x_url x = 0 -> x_if x = B -> x_fin x = true).
Proof. intros A (S & _) x X U F. destruct (S x X) as [Y|Y]; [now apply A|]. exfalso. now apply Y. Qed.
Lemma stirred_steady s t : stirred s -> steady s t -> s_ent t = s_ent s -> s_obs t = s_obs s -> s_added t = s_added s -> stirred t.
Proof.
  intros (A & C) S EE EO EA. split; [now apply (bwfin_steady s)|]. destruct S as (_ & S2 & S3). intros e E. rewrite EE in E.
  destruct (C e E) as [X|[X|(o & O & OI & X)]]; [left; now apply S3|right; left; congruence|right; right]. exists o. rewrite EO. auto.
Qed.
Lemma stirred_free s f : stirred s -> inv s -> stirred (free_bw f s).
Proof.
  intros (A & C) I. split; [intros x X; apply free_in in X; now apply A|].
  destruct (frame_free f s) as (F1 & F2 & F3 & F4 & _). intros e E. rewrite F3 in E. rewrite F4, F2.
  destruct (C e E) as [X|[X|(o & O & OI & X)]]; [left; now apply free_disp|right; now left|].
  unfold covered in X. apply existsb_exists in X. destruct X as (x & X & Y). destruct (f x) eqn:FX.
  - left. apply (free_disp_fin f s x); [exact X|exact FX|]. apply xfer_key in Y. destruct Y as (_ & Y1 & Y2).
    destruct (i_ent may s I e E) as (p & P & PI & PB & _).
    assert (p = o) by (apply (nodup_inj o_id (s_obs s)); [apply (i_oids may s I)|exact P|exact O|congruence]). subst p.
    apply is_batch_eq in PB. destruct PB as (T & F). pose proof (i_obs may s I o O) as Z. unfold obs_ok in Z. rewrite T in Z.
    apply A; [exact X|congruence|congruence].
  - right. right. exists o. split; [exact O|]. split; [exact OI|]. apply existsb_exists. exists x. split; [apply free_in; now split|exact Y].
Qed.
Lemma stirred_disp t : (forall x, In x (s_bw t) -> x_url x = 0 -> x_if x = B -> x_fin x = true) -> s_disp t = true \/ s_added t = true -> stirred t.
Proof. intros A D. split; [exact A|]. intros e E. destruct D as [D|D]; [now left|right; now left]. Qed.

Lemma stirred_ok s p t : inv s -> stirred s -> short_op p -> step may s p = Some t -> stirred t.
Proof.
  intros I S SH H. assert (A : forall x, In x (s_bw s) -> x_url x = 0 -> x_if x = B -> x_fin x = true) by exact (proj1 S).
  destruct p as [u v coll def disc obsv get|i|i|c i|c i|big cl tg f|i|big i v|i v|i v|big tm|cl u f|cl u f|b]; cbn [step] in H.
  - apply some_inj in H. subst t. unfold add_resource. destruct (_ || _); [exact S|]. apply stirred_disp; [exact A|now right].
  - destruct (delete_obs i s t I H) as (_ & [->|D] & E); [exact S|]. apply stirred_disp; [now rewrite E|now right].
  - destruct (delete_coll_obs i s t H) as (_ & [->|D] & E); [exact S|]. apply stirred_disp; [now rewrite E|now right].
  - unfold add_link in H. destruct (find_res s c) as [k|] eqn:E; [|apply some_inj in H; now subst t]. destruct (find_res s i) as [r|]; [|apply some_inj in H; now subst t].
    destruct (r_coll k); [|apply some_inj in H; now subst t]. destruct (links_uris s k); cbn [bind] in H; [|discriminate]. cbv zeta in H.
    apply some_inj in H. subst t. apply stirred_disp; [exact A|now left].
  - unfold remove_link in H. destruct (find_res s c) as [k|] eqn:E; [|apply some_inj in H; now subst t].
    destruct (r_coll k && mem i (r_links k)); [|apply some_inj in H; now subst t]. cbv zeta in H. apply some_inj in H. subst t. apply stirred_disp; [exact A|now left].
  - destruct (register_parts big cl tg f s t I H) as [->|(u & s2 & o & J2 & EO & OK & TO & Q & TE & EI & TB & TD & TA)]; [exact S|].
    destruct (stirred_free s (xfer_of cl u f) S I) as (A' & C'). destruct (frame_free (xfer_of cl u f) s) as (F1 & F2 & F3 & F4 & _). split.
    + intros x X U F. rewrite TB in X. apply in_app_iff in X. destruct X as [X|X]; [now apply A'|]. destruct big; [|destruct X]. destruct X as [X|[]]. subst x. cbn in U, F.
      exfalso. subst o u f. unfold obs_ok in OK. cbn in OK. destruct tg as [|i]; [cbn in SH; specialize (SH eq_refl); discriminate|].
      destruct OK as (r & R & _ & Z). now apply (i_new may s I) in R.
    + intros e E. rewrite TE in E. destruct (C' e) as [X|[X|(q & P & PI & X)]]; [rewrite F3; now apply EI|left; congruence|right; left; congruence|right; right].
      destruct (i_ent may s2 J2 e E) as (q' & P' & PI' & _). destruct (Q q' P') as (P'' & _).
      assert (q' = q) by (apply (nodup_inj o_id (s_obs s)); [apply (i_oids may s I)|exact P''|now rewrite F2 in P|congruence]). subst q'.
      exists q. split; [rewrite TO; apply in_app_iff; now left|]. split; [exact PI|]. unfold covered in *. rewrite TB, existsb_app, X. reflexivity.
  - destruct (find_obs s i) as [o|] eqn:E; [|apply some_inj in H; now subst t]. unfold drop_observer in H. destruct (target_alive s o); [|discriminate].
    apply some_inj in H. subst t. split; [exact A|]. intros e X. cbn in X. apply filter_In in X. destruct X as (X & Z).
    destruct (proj2 S e X) as [Y|[Y|(q & Y1 & Y2 & Y3)]]; [now left|right; now left|right; right]. exists q. split; [|now split].
    cbn. apply filter_In. split; [exact Y1|]. now rewrite Y2.
  - destruct (find_res s i) as [r|] eqn:E; [|apply some_inj in H; now subst t].
    destruct (notify_disp _ _ _ _ (inv_val may i v s I) H) as (S1 & D). apply stirred_disp; [|now left]. now apply (bwfin_steady (upd_res i (with_val v) s)).
  - destruct (find_res s i) as [r|] eqn:E; apply some_inj in H; subst t; [|exact S]. apply (stirred_steady s); try reflexivity; [exact S|]. apply steady_refl; [reflexivity|auto].
  - destruct (find_res s i) as [r|] eqn:E; apply some_inj in H; subst t; [|exact S].
    destruct (is_observed _ _); (apply (stirred_steady s); try reflexivity; [exact S|]; apply steady_refl; [reflexivity|auto]).
  - destruct tm as [| |i|i|i|i]; cbn [fire] in H.
    + destruct (s_disp s); [|apply some_inj in H; now subst t]. apply (stirred_process big _ t (inv_disp may s false I) A H).
    + destruct (s_added s); [|apply some_inj in H; now subst t]. refine (stirred_process big _ t _ _ H).
      * eapply inv_frame; [apply frame_disc|]. now apply inv_added.
      * apply (bwfin_steady (set_added false s)); [exact A|apply steady_disc].
    + destruct (mem i (s_chg s)) eqn:M; [|apply some_inj in H; now subst t].
      assert (J : inv (set_chg (without i (s_chg s)) s)) by (apply inv_chg; [exact I|]; intros j X; apply without_in in X; now apply (i_chg may s I)).
      destruct (notify_disp _ _ _ _ J H) as (S1 & D). apply stirred_disp; [|now left]. now apply (bwfin_steady _ t A S1).
    + destruct (mem i (s_ntf s)) eqn:M; [|apply some_inj in H; now subst t].
      assert (J : inv (set_ntf (without i (s_ntf s)) s)) by (apply inv_ntf; [exact I|]; intros j X; apply without_in in X; now apply (i_ntf may s I)).
      destruct (notify_disp _ _ _ _ J H) as (S1 & D). apply stirred_disp; [|now left]. now apply (bwfin_steady _ t A S1).
    + destruct (mem i (s_ll s)) eqn:M; [|apply some_inj in H; now subst t].
      destruct (find_res s i) as [c|]; cbn [bind] in H; [|discriminate]. destruct (links_uris s c); cbn [bind] in H; [|discriminate]. cbv zeta in H. apply some_inj in H. subst t.
      assert (J : inv (set_ll (without i (s_ll s)) s)) by (apply inv_ll; [exact I|]; intros j X; apply without_in in X; now apply (i_ll may s I)).
      destruct (frame_coll big c LL (BLinks i LL (r_links c)) (set_ll (without i (s_ll s)) s)) as (F1 & F2 & F3 & F4 & _).
      pose proof (steady_coll big c LL (BLinks i LL (r_links c)) _ J) as ST.
      set (s2 := notify_coll big c LL (BLinks i LL (r_links c)) (set_ll (without i (s_ll s)) s)) in *. clearbody s2.
      apply (stirred_steady (set_ll (without i (s_ll s)) s)); try assumption.
    + destruct (mem i (s_base s)) eqn:M; [|apply some_inj in H; now subst t].
      destruct (find_res s i) as [c|]; cbn [bind] in H; [|discriminate]. destruct (links_uris s c); cbn [bind] in H; [|discriminate]. apply some_inj in H. subst t.
      assert (J : inv (set_base (without i (s_base s)) s)) by (apply inv_base; [exact I|]; intros j X; apply without_in in X; now apply (i_base may s I)).
      destruct (frame_coll big c BASELINE (BLinks i BASELINE (r_links c)) (set_base (without i (s_base s)) s)) as (F1 & F2 & F3 & F4 & _).
      pose proof (steady_coll big c BASELINE (BLinks i BASELINE (r_links c)) _ J) as ST.
      set (s2 := notify_coll big c BASELINE (BLinks i BASELINE (r_links c)) (set_base (without i (s_base s)) s)) in *. clearbody s2.
      apply (stirred_steady (set_base (without i (s_base s)) s)); try assumption.
  - apply some_inj in H. subst t. now apply stirred_free.
  - apply some_inj in H. subst t. split.
    + intros x X U F. cbn in X. apply in_map_iff in X. destruct X as (y & <- & Y). destruct (xfer_of cl u f y); cbn in *; now apply A.
    + intros e E. destruct (proj2 S e E) as [Y|[Y|(q & Y1 & Y2 & Y3)]]; [now left|right; now left|right; right]. exists q. split; [exact Y1|]. split; [exact Y2|].
      unfold covered in *. apply existsb_exists in Y3. destruct Y3 as (x & X & Y3). apply existsb_exists.
      exists (if xfer_of cl u f x then mk_bwt (x_cl x) (x_url x) (x_if x) (x_fin x) true else x). split; [cbn; now apply (in_map (fun x => if xfer_of cl u f x then mk_bwt (x_cl x) (x_url x) (x_if x) (x_fin x) true else x))|].
      destruct (xfer_of cl u f x); exact Y3.
  - apply some_inj in H. subst t. exact S.
Qed.
Lemma stirred_run ps s t : inv s -> stirred s -> careful may s ps -> Forall short_op ps -> run may s ps = Some t -> stirred t.
Proof.
  revert s. induction ps as [|p ps IH]; intros s I K C F H; cbn [run] in H; [apply some_inj in H; now subst t|].
  inversion F as [|x y F1 F2]; subst.
  cbn [careful] in C. destruct C as (C1 & C2). destruct (step_ok may s p I C1) as (s1 & E & J). rewrite E in H. cbn [bind] in H.
  apply (IH s1); [exact J|now apply (stirred_ok s p)|now apply C2|exact F2|exact H].
Qed.

(** ** A timer at which batch observers are told *)
Lemma fire_exact big tm s t o :
  inv s -> lone s -> (tm = FDisp /\ s_disp s = true) \/ (tm = FAdded /\ s_added s = true) -> batch_observer s o -> fire may big tm s = Some t ->
  exists ms, s_out t = s_out s ++ ms
    /\ filter (fun m => m_obs m =? o_id o) ms = (if covered s o then [] else batch_msg s o)
    /\ own (o_id o) (s_ent t) = (if covered s o then own (o_id o) (s_ent s) else []) /\ s_res t = s_res s /\ s_obs t = s_obs s.
Proof.
  intros I L TM O H. destruct TM as [(-> & D)|(-> & D)]; cbn [fire] in H; rewrite D in H.
  - destruct (process_msgs may _ _ _ _ H) as (_ & _ & _ & R & OB & _).
    destruct (process_exact _ big _ t o (inv_disp may s false I) L (Nat.le_refl _) H (proj1 O)) as (ms & M1 & M2 & M3).
    exists ms. auto.
  - destruct (process_msgs may _ _ _ _ H) as (_ & _ & _ & R & OB & _).
    destruct (frame_disc big (set_added false s)) as (F1 & F2 & F3 & _).
    destruct (fold_some big false false (fun o => is_disc o && (N.land (o_if o) B =? 0)%N) (fun o => BDiscLinks (o_if o)) (s_obs (set_added false s)) (set_added false s)) as (m1 & N1 & N2).
    change (s_out (notify_disc big (set_added false s)) = s_out (set_added false s) ++ m1) in N1.
    destruct (fold_bw big false (fun o => is_disc o && (N.land (o_if o) B =? 0)%N) (fun o => BDiscLinks (o_if o)) (s_obs (set_added false s)) (set_added false s)) as (_ & _ & CV & _).
    assert (OI : o_if o = B) by (exact (proj2 (proj2 O))).
    assert (CC : covered (notify_disc big (set_added false s)) o = covered s o).
    { apply CV. intros p P F (_ & _ & K). rewrite K, OI, andb_false_r in F. discriminate. }
    assert (J : inv (notify_disc big (set_added false s))) by (eapply inv_frame; [apply frame_disc|now apply inv_added]).
    set (s1 := notify_disc big (set_added false s)) in *. clearbody s1. cbn in F1, F2, F3, N1.
    destruct (process_exact (List.length (s_ent s1)) big s1 t o J) as (ms & M1 & M2 & M3).
    + apply (lone_incl s); [exact L|]. rewrite F2. apply incl_refl.
    + apply Nat.le_refl.
    + exact H.
    + rewrite F2. exact (proj1 O).
    + exists (m1 ++ ms). rewrite M1, N1, <- app_assoc. split; [reflexivity|]. rewrite filter_app, M2, M3, CC, F3.
      assert (Z : filter (fun m => m_obs m =? o_id o) m1 = []).
      { destruct (filter _ m1) as [|m l] eqn:E; [reflexivity|]. exfalso. assert (X : In m (filter (fun m => m_obs m =? o_id o) m1)) by (rewrite E; now left).
        apply filter_In in X. destruct X as (X & Y). apply Nat.eqb_eq in Y. apply N2 in X. apply in_map_iff in X. destruct X as (p & <- & P). apply filter_In in P.
        destruct P as (P & F). cbn in Y. assert (p = o) by (apply (nodup_inj o_id (s_obs s)); [apply (i_oids may s I)|exact P|exact (proj1 O)|exact Y]). subst p.
        rewrite OI, andb_false_r in F. discriminate. }
      rewrite Z. cbn [app]. split; [|split; [reflexivity|split; congruence]].
      destruct (covered s o); [reflexivity|]. unfold batch_msg. rewrite F3. unfold report. now rewrite F1.
Qed.
End Stir.
