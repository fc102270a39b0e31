(** Redirection to another server, and tokens. *)
From Verif Require Import Common Rep_Model Repd_Model Repd_Spec Repd_Proofs Ea_Model Ea_Spec Ea_Proofs Ea2_Proofs Cloud_Model Cloud_Spec Cloud_Proofs.
From Coq Require Import String.
Local Open Scope string_scope.
Local Open Scope list_scope.
Local Open Scope N_scope.

Lemma text_get l k v : usable_key k -> (get_s l k = Some v <-> first_text l k v).
Proof.
  intros Hk. unfold get_s. rewrite <- (key_cond k) in Hk. unfold get_by. rewrite Hk. split.
  - match goal with |- context[find ?f l] => destruct (find f l) as [[n w]|] eqn:E; [|discriminate] end. cbn [option_map snd]. apply find_first in E. destruct E as (a & b & -> & F & Na). cbn [fst snd] in F.
    apply andb_true_iff in F. destruct F as [F1 F2]. apply list_eqb_spec in F2. subst n. destruct w; try discriminate. intros [= <-].
    exists a, b. split; [reflexivity|]. intros w Hw. apply Na in Hw. cbn [fst snd rtype] in Hw. rewrite list_eqb_refl in Hw. discriminate.
  - intros (a & b & -> & Na). induction a as [|[n w] a IH]; cbn [app find fst snd].
    + rewrite list_eqb_refl. reflexivity.
    + destruct ((rtype w =? 5) && list_eqb n k) eqn:E.
      * apply andb_true_iff in E. destruct E as [E1 E2]. apply list_eqb_spec in E2. subst n. destruct w; try discriminate. exfalso. apply (Na s). left. reflexivity.
      * apply IH. intros q Hq. apply (Na q). right. exact Hq.
Qed.

Lemma int_get l k v : usable_key k -> (get_i l k = Some v <-> first_int l k v).
Proof.
  intros Hk. unfold get_i. rewrite <- (key_cond k) in Hk. unfold get_by. rewrite Hk. split.
  - match goal with |- context[find ?f l] => destruct (find f l) as [[n w]|] eqn:E; [|discriminate] end. cbn [option_map snd]. apply find_first in E. destruct E as (a & b & -> & F & Na). cbn [fst snd] in F.
    apply andb_true_iff in F. destruct F as [F1 F2]. apply list_eqb_spec in F2. subst n. destruct w; try discriminate. intros [= <-].
    exists a, b. split; [reflexivity|]. intros w Hw. apply Na in Hw. cbn [fst snd rtype] in Hw. rewrite list_eqb_refl in Hw. discriminate.
  - intros (a & b & -> & Na). induction a as [|[n w] a IH]; cbn [app find fst snd].
    + rewrite list_eqb_refl. reflexivity.
    + destruct ((rtype w =? 1) && list_eqb n k) eqn:E.
      * apply andb_true_iff in E. destruct E as [E1 E2]. apply list_eqb_spec in E2. subst n. destruct w; try discriminate. exfalso. apply (Na z). left. reflexivity.
      * apply IH. intros q Hq. apply (Na q). right. exact Hq.
Qed.

Lemma keys : usable_key (str "accesstoken") /\ usable_key (str "refreshtoken") /\ usable_key (str "uid") /\ usable_key (str "expiresin") /\ usable_key (str "redirecturi").
Proof. repeat split; apply key_cond; vm_compute; reflexivity. Qed.

Lemma nonempty_get l k v : usable_key k -> (nonempty_s l k = Some v <-> first_text l k v /\ v <> []).
Proof.
  intros Hk. unfold nonempty_s. pose proof (text_get l k v Hk) as G. destruct (get_s l k) as [[|c w]|]; rewrite <- G; split; try discriminate.
  - intros [[= <-] H]. contradiction.
  - intros [= <-]. split; [reflexivity|discriminate].
  - intros [H _]. exact H.
  - intros [[=] _].
Qed.

Lemma register_spec s l : 
  (snd (register_response s l) = true <-> exists a r u e, first_text l (str "accesstoken") a /\ a <> [] /\ first_text l (str "refreshtoken") r /\ r <> [] /\
     first_text l (str "uid") u /\ u <> [] /\ first_int l (str "expiresin") e) /\
  (snd (register_response s l) = false -> fst (register_response s l) = s) /\
  (snd (register_response s l) = true -> let s' := fst (register_response s l) in
     first_text l (str "accesstoken") (st_access s') /\ first_text l (str "refreshtoken") (st_refresh s') /\ first_text l (str "uid") (st_uid s') /\ first_int l (str "expiresin") (st_expires s') /\
     st_servers s' = st_servers s /\ st_provider s' = st_provider s /\ st_cps s' = st_cps s /\ st_status s' = if (0 <? st_expires s')%Z then N.lor (st_status s) 4 else st_status s).
Proof.
  destruct keys as (K1 & K2 & K3 & K4 & _). unfold register_response.
  pose proof (fun v => nonempty_get l _ v K1) as G1. pose proof (fun v => nonempty_get l _ v K2) as G2. pose proof (fun v => nonempty_get l _ v K3) as G3. pose proof (fun v => int_get l _ v K4) as G4.
  destruct (nonempty_s l (str "accesstoken")) as [a|]; [destruct (nonempty_s l (str "refreshtoken")) as [r|]; [destruct (nonempty_s l (str "uid")) as [u|]; [destruct (get_i l (str "expiresin")) as [e|]|]|]|].
  2-5: (split; [|split; [reflexivity|discriminate]]; split; [discriminate|]; intros (a' & r' & u' & e' & H1 & H2 & H3 & H4 & H5 & H6 & H7); exfalso;
    first [ assert (X : None = Some e') by (apply G4; exact H7); discriminate
          | assert (X : None = Some u') by (apply G3; split; assumption); discriminate
          | assert (X : None = Some r') by (apply G2; split; assumption); discriminate
          | assert (X : None = Some a') by (apply G1; split; assumption); discriminate ]).
  destruct (proj1 (G1 a) eq_refl). destruct (proj1 (G2 r) eq_refl). destruct (proj1 (G3 u) eq_refl). pose proof (proj1 (G4 e) eq_refl).
  split; [split; [intros _; exists a, r, u, e; auto 10|reflexivity]|]. split; [discriminate|]. intros _. cbv zeta. cbn [fst set_tokens st_access st_refresh st_uid st_expires st_servers st_provider st_cps st_status]. repeat (split; [assumption||reflexivity|]). reflexivity.
Qed.

Lemma refresh_spec s l : 
  (snd (refresh_response s l) = true <-> exists a r e, first_text l (str "accesstoken") a /\ a <> [] /\ first_text l (str "refreshtoken") r /\ r <> [] /\ first_int l (str "expiresin") e) /\
  (snd (refresh_response s l) = false -> fst (refresh_response s l) = s) /\
  (snd (refresh_response s l) = true -> let s' := fst (refresh_response s l) in
     first_text l (str "accesstoken") (st_access s') /\ first_text l (str "refreshtoken") (st_refresh s') /\ first_int l (str "expiresin") (st_expires s') /\ st_uid s' = st_uid s /\
     st_servers s' = st_servers s /\ st_provider s' = st_provider s /\ st_cps s' = st_cps s /\ st_status s' = if (0 <? st_expires s')%Z then N.lor (st_status s) 4 else st_status s).
Proof.
  destruct keys as (K1 & K2 & _ & K4 & _). unfold refresh_response.
  pose proof (fun v => nonempty_get l _ v K1) as G1. pose proof (fun v => nonempty_get l _ v K2) as G2. pose proof (fun v => int_get l _ v K4) as G4.
  destruct (nonempty_s l (str "accesstoken")) as [a|]; [destruct (nonempty_s l (str "refreshtoken")) as [r|]; [destruct (get_i l (str "expiresin")) as [e|]|]|].
  2-4: (split; [|split; [reflexivity|discriminate]]; split; [discriminate|]; intros (a' & r' & e' & H1 & H2 & H3 & H4 & H7); exfalso;
    first [ assert (X : None = Some e') by (apply G4; exact H7); discriminate
          | assert (X : None = Some r') by (apply G2; split; assumption); discriminate
          | assert (X : None = Some a') by (apply G1; split; assumption); discriminate ]).
  destruct (proj1 (G1 a) eq_refl). destruct (proj1 (G2 r) eq_refl). pose proof (proj1 (G4 e) eq_refl).
  split; [split; [intros _; exists a, r, e; auto 10|reflexivity]|]. split; [discriminate|]. intros _. cbv zeta. cbn [fst set_tokens st_access st_refresh st_uid st_expires st_servers st_provider st_cps st_status]. repeat (split; [assumption||reflexivity|]). reflexivity.
Qed.

Lemma delay_spec ms : 0 < ms -> let d := refresh_delay ms in 0 < d <= ms /\ ms <= 2 * d /\ (20000 < ms -> d + 10000 <= ms) /\ (3600000 < ms -> d + 600000 = ms).
Proof.
  intros H. cbv zeta. unfold refresh_delay. destruct (N.ltb_spec 3600000 ms); [lia|]. destruct (N.ltb_spec 240000 ms); [lia|]. destruct (N.ltb_spec 20000 ms); lia.
Qed.

(** * Redirection *)

Lemma all_removed z u : NoDup (map fst (all z)) -> all (r_remove z u) = without u (all z).
Proof.
  destruct z as [[[l x] r]|]; [|reflexivity]. cbn [all r_remove]. intros D. destruct (nodup_mid fst l x r D) as (Hx & Hy & _).
  destruct (list_eqb (fst x) u) eqn:E.
  - apply list_eqb_spec in E. etransitivity; [|symmetry; apply (without_mid u l x r E); subst u; assumption].
    destruct r as [|y r]; cbn [all]; [|reflexivity]. rewrite app_nil_r. destruct l; reflexivity.
  - cbn [all]. unfold without. rewrite filter_app. cbn [filter]. rewrite E. reflexivity.
Qed.

Lemma shows_nodup s z : reach s -> shows s z -> NoDup (map fst (all z)).
Proof. intros R Sh. rewrite <- (shows_uris _ _ Sh). apply distinct_valid. exact R. Qed.

Lemma cursor_in z x : cursor z = Some x -> In x (all z).
Proof. destruct z as [[[l y] r]|]; [|discriminate]. intros [= <-]. cbn [all]. apply in_elt. Qed.


Lemma redirect_spec s z pl u mem : reach s -> shows s z -> uuid_servers z -> op_ok s (Add u (MUuid []) mem) ->
  first_text pl (str "redirecturi") u -> u <> [] ->
  exists s' ok, redirect s pl mem = Some (s', ok) /\ reach s' /\
    (ok = true <-> known z u \/ ((List.length u < 128)%nat /\ mem <> None)) /\
    (ok = false -> s' = s) /\
    (ok = true -> exists z', shows s' z' /\ (option_map fst (cursor z) = Some u -> z' = z) /\ (option_map fst (cursor z) <> Some u -> redirected z z' u)).
Proof.
  intros R Sh U Ok F Nu. unfold redirect.
  destruct keys as (_ & _ & _ & _ & K). rewrite (proj2 (nonempty_get pl _ u K) (conj F Nu)).
  pose proof Sh as [S1 S2]. unfold is_selected.
  destruct (selected s) as [e|] eqn:Es.
  - cbn [option_map] in S2. destruct (list_eqb (a_uri e) u) eqn:Eu.
    + apply list_eqb_spec in Eu. exists s, true. split; [reflexivity|]. split; [exact R|].
      split; [split; [|reflexivity]|]. 
      { intros _. left. unfold known. rewrite <- Eu. change (a_uri e) with (fst (a_uri e, a_meta e)). apply in_map. apply cursor_in. symmetry. exact S2. }
      split; [discriminate|]. intros _. exists z. split; [exact Sh|]. split; [reflexivity|]. intros H. exfalso. apply H. rewrite <- S2. cbn [option_map fst]. congruence.
    + assert (Ne : a_uri e <> u) by (intros E; rewrite E, list_eqb_refl in Eu; discriminate).
      assert (Hcur : cursor z = Some (a_uri e, a_meta e)) by (symmetry; exact S2).
      assert (Hin : In (a_uri e, a_meta e) (all z)) by (apply cursor_in; exact Hcur).
      destruct (U _ Hin) as (v & Em & Tv). cbn [snd] in Em. rewrite Em.
      pose proof (shows_nodup s z R Sh) as D.
      assert (Ine : In e (l_items s)) by (pose proof (one_selected s R) as O; rewrite Es in O; exact O).
      assert (Old : option_map fst (cursor z) <> Some u) by (rewrite Hcur; cbn [option_map fst]; intros [= H]; contradiction).
      (* after the server is in the list *)
      assert (Fin : forall s1 z1, reach s1 -> shows s1 z1 -> In e (l_items s1) -> known z1 u ->
        reach (fst (select_uri (fst (remove_ s1 (a_ptr e))) u)) /\
        exists z', shows (fst (select_uri (fst (remove_ s1 (a_ptr e))) u)) z' /\ all z' = without (a_uri e) (all z1) /\ option_map fst (cursor z') = Some u).
      { intros s1 z1 R1 Sh1 I1 K1. destruct (removep_refines s1 z1 e R1 Sh1 I1) as [_ Sh2].
        pose proof (ReachS s1 (RemoveP (a_ptr e)) R1 I) as R2. cbn [Ea_Model.step] in R2.
        destruct (select_refines _ _ u R2 Sh2) as (A & B & _).
        assert (K2 : known (r_remove z1 (a_uri e)) u).
        { unfold known. rewrite (all_removed z1 (a_uri e) (shows_nodup s1 z1 R1 Sh1)). unfold known in K1. apply in_map_iff in K1. destruct K1 as (w & Ew & Hw).
          apply in_map_iff. exists w. split; [exact Ew|]. unfold without. apply filter_In. split; [exact Hw|]. rewrite Ew. apply negb_true_iff.
          destruct (list_eqb u (a_uri e)) eqn:Q; [|reflexivity]. apply list_eqb_spec in Q. congruence. }
        split; [exact (ReachS _ (SelectU u) R2 I)|]. destruct (B (proj2 A K2)) as (z' & Sh' & M1 & M2). exists z'. split; [exact Sh'|]. split; [|exact M2].
        rewrite M1. apply all_removed. exact (shows_nodup s1 z1 R1 Sh1). }
      destruct (contains s u) eqn:C.
      * assert (Kz : known z u) by (unfold known; rewrite <- (shows_uris _ _ Sh); apply contains_spec; exact C).
        destruct (Fin s z R Sh Ine Kz) as (R' & z' & Sh' & Ha & Hc). cbn [negb].
        eexists _, true. split; [reflexivity|]. split; [exact R'|]. split; [split; [intros _; left; exact Kz|reflexivity]|]. split; [discriminate|].
        intros _. exists z'. split; [exact Sh'|]. split; [contradiction|]. intros _. unfold redirected. rewrite Hcur. split; [exact Hc|]. split; [intros _; exact Ha|]. intros H. contradiction.
      * assert (Kz : ~ known z u) by (unfold known; rewrite <- (shows_uris _ _ Sh); intros H; apply contains_spec in H; congruence).
        destruct (add_refines s z u (MUuid v) mem R Sh) as (A & B & Cc); [destruct mem; exact Ok|].
        pose proof (ReachS s (Add u (MUuid v) mem) R) as R1. cbn [Ea_Model.step] in R1. specialize (R1 ltac:(destruct mem; exact Ok)).
        destruct (add s u (MUuid v) mem) as [s1 o] eqn:Ea. cbn [fst snd] in *. destruct o as [e'|]; cbn [negb].
        -- specialize (B ltac:(discriminate)). destruct (proj1 A ltac:(discriminate)) as (_ & A2 & _ & A4).
           assert (I1 : In e (l_items s1)).
           { unfold add, alloc_add in Ea. destruct (negb (uri_valid u)); [discriminate|]. rewrite C in Ea. destruct mem as [p|]; [|discriminate].
             injection Ea as <- _. cbn [set_items l_items]. apply in_or_app. left. destruct (l_sel s); [exact Ine|]. unfold select_. destruct (opt_eqb _ _); exact Ine. }
           assert (K1 : known (r_add z (u, MUuid v)) u).
           { unfold known. destruct z as [[[a x] b]|]; [|discriminate]. cbn [r_add all]. rewrite map_app. apply in_or_app. right. right. rewrite map_app. apply in_or_app. right. left. reflexivity. }
           destruct (Fin s1 _ R1 B I1 K1) as (R' & z' & Sh' & Ha & Hc).
           eexists _, true. split; [reflexivity|]. split; [exact R'|]. split; [split; [intros _; right; split; assumption|reflexivity]|]. split; [discriminate|].
           intros _. exists z'. split; [exact Sh'|]. split; [contradiction|]. intros _. unfold redirected. rewrite Hcur. split; [exact Hc|]. split; [contradiction|].
           intros _. rewrite Ha. cbn [fst snd]. rewrite Em. destruct z as [[[a x] b]|]; [|discriminate]. cbn [r_add all]. rewrite app_comm_cons, app_assoc. unfold without at 1. rewrite filter_app. cbn [filter fst].
           replace (list_eqb u (a_uri e)) with false; [reflexivity|]. symmetry. destruct (list_eqb u (a_uri e)) eqn:Q; [|reflexivity]. apply list_eqb_spec in Q. congruence.
        -- exists s1, false. split; [reflexivity|]. split; [exact R1|]. split; [split; [discriminate|]|].
           { intros [H|[H1 H2]]; [contradiction|]. exfalso. assert (X : @None ea <> None) by (apply A; auto). apply X. reflexivity. }
           split; [intros _; exact (Cc eq_refl)|discriminate].
  - cbn [option_map] in S2. pose proof (one_selected s R) as O. rewrite Es in O. destruct O as [O1 O2].
    assert (Ez : z = None) by (destruct z as [[[a x] b]|]; [discriminate|reflexivity]). subst z.
    assert (Kz : ~ known None u) by (intros []).
    replace (contains s u) with false by (unfold contains; rewrite O1; reflexivity).
    change default_sid with (repeat 0 16).
    destruct (add_refines s None u (MUuid (repeat 0 16)) mem R Sh) as (A & B & Cc); [destruct mem; exact Ok|].
    pose proof (ReachS s (Add u (MUuid (repeat 0 16)) mem) R) as R1. cbn [Ea_Model.step] in R1. specialize (R1 ltac:(destruct mem; exact Ok)).
    destruct (add s u (MUuid (repeat 0 16)) mem) as [s1 o] eqn:Ea. cbn [fst snd] in *. destruct o as [e'|]; cbn [negb].
    + specialize (B ltac:(discriminate)). destruct (proj1 A ltac:(discriminate)) as (_ & A2 & _ & A4). cbn [r_add] in B.
      destruct (select_refines s1 _ u R1 B) as (A' & B' & _).
      assert (K1 : known (Some ([], (u, MUuid (repeat 0 16)), [])) u) by (left; reflexivity).
      destruct (B' (proj2 A' K1)) as (z' & Sh' & M1 & M2).
      eexists _, true. split; [reflexivity|]. split; [exact (ReachS _ (SelectU u) R1 I)|]. split; [split; [intros _; right; split; assumption|reflexivity]|]. split; [discriminate|].
      intros _. exists z'. split; [exact Sh'|]. split; [discriminate|]. intros _. unfold redirected. cbn [cursor].
      destruct z' as [[[a x] b]|]; [|discriminate]. cbn [all] in M1. destruct a as [|y a]; [|destruct a; discriminate]. cbn [app] in M1. injection M1 as -> ->. reflexivity.
    + exists s1, false. split; [reflexivity|]. split; [exact R1|]. split; [split; [discriminate|]|].
      { intros [[]|[H1 H2]]. exfalso. assert (X : @None ea <> None) by (apply A; auto). apply X. reflexivity. }
      split; [intros _; exact (Cc eq_refl)|discriminate].
Qed.

(** * When the device is registered *)

Lemma step_over checks t g ar : g_phase g = Registered \/ g_phase g = Failed -> step checks t g ar = g.
Proof. intros H. unfold step. destruct H as [-> | ->]; reflexivity. Qed.
Lemma run_over checks t l : forall g, g_phase g = Registered \/ g_phase g = Failed -> run checks t g l = g.
Proof. unfold run. induction l as [|ar l IH]; intros g H; [reflexivity|]. cbn [fold_left]. rewrite (step_over checks t g ar H). apply IH, H. Qed.
Lemma phase_of_reg x p : phase_of x p = Registered -> p = Registered.
Proof. destruct x; cbn [phase_of]; congruence. Qed.
Lemma step_registers checks t g ar : g_phase (step checks t g ar) = Registered -> g_phase g = Registered \/ g_phase g = Trying /\ fst ar = Accepted.
Proof.
  unfold step. destruct (g_phase g) eqn:P; auto; intros H; try (rewrite P in H; discriminate H).
  - right. split; [reflexivity|]. unfold attempt in H. destruct (fst ar); [| |discriminate H|reflexivity]; exfalso.
    + destruct (schedule_register checks t (g_ctx g) true (snd ar)) as [c x]. cbn [g_phase] in H. apply phase_of_reg in H. discriminate H.
    + destruct (schedule_register checks t (g_ctx g) true (snd ar)) as [c x]. destruct x; cbn [g_phase phase_of] in H; try discriminate H. destruct (may_change c); discriminate H.
  - exfalso. unfold start in H. destruct (schedule_register checks t (g_ctx g) false (snd ar)) as [c x]. cbn [g_phase] in H. apply phase_of_reg in H. discriminate H.
Qed.
Lemma run_app checks t l1 l2 g : run checks t g (l1 ++ l2) = run checks t (run checks t g l1) l2.
Proof. unfold run. apply fold_left_app. Qed.

Lemma registered_iff checks t s rnd answers :
  let st l := run checks t (begin checks t s rnd) l in
  (g_phase (st answers) = Registered <-> exists pre r rest, answers = pre ++ (Accepted, r) :: rest /\ g_phase (st pre) = Trying) /\
  (forall pre a r rest, answers = pre ++ (a, r) :: rest -> g_phase (st pre) = Trying -> a = Accepted \/ a = Denied ->
     g_phase (st answers) = (match a with Accepted => Registered | _ => Failed end) /\ g_tries (st answers) = g_tries (st pre) ++ [selected_uri (c_servers (g_ctx (st pre)))]).
Proof.
  intros st.
  assert (E : forall pre a r rest, answers = pre ++ (a, r) :: rest -> g_phase (st pre) = Trying -> a = Accepted \/ a = Denied ->
     g_phase (st answers) = (match a with Accepted => Registered | _ => Failed end) /\ g_tries (st answers) = g_tries (st pre) ++ [selected_uri (c_servers (g_ctx (st pre)))]).
  { intros pre a r rest -> P A. unfold st in *. rewrite run_app. set (g := run checks t (begin checks t s rnd) pre) in *.
    change (run checks t g ((a, r) :: rest)) with (run checks t (step checks t g (a, r)) rest).
    assert (S : step checks t g (a, r) = mk_rg (g_ctx g) (match a with Accepted => Registered | _ => Failed end) (g_tries g ++ [selected_uri (c_servers (g_ctx g))])).
    { unfold step. rewrite P. destruct A as [-> | ->]; reflexivity. }
    rewrite S, run_over; [split; reflexivity|]. destruct A as [-> | ->]; cbn [g_phase]; auto. }
  split; [|exact E]. split.
  - intros H. clear E. unfold st in *. assert (B : g_phase (begin checks t s rnd) <> Registered).
    { unfold begin, start. destruct (schedule_register _ _ _ _ _) as [c x]. cbn [g_phase]. intros K. apply phase_of_reg in K. discriminate K. }
    induction answers as [|[a r] l IH] using rev_ind; [contradiction|].
    rewrite run_app in H. change (run checks t (run checks t (begin checks t s rnd) l) [(a, r)]) with (step checks t (run checks t (begin checks t s rnd) l) (a, r)) in H.
    apply step_registers in H. destruct H as [H|[H A]].
    + destruct (IH H) as (pre & r' & rest & -> & P). exists pre, r', (rest ++ [(a, r)]). split; [rewrite <- app_assoc; reflexivity|exact P].
    + cbn [fst] in A. subst a. exists l, r, []. split; [reflexivity|exact H].
  - intros (pre & r & rest & A & P). apply (E pre Accepted r rest A P). left. reflexivity.
Qed.
