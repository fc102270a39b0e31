(** The list keeps the latest events that fit. *)
From Verif Require Import Common Rep_Model Repd_Model Repd_Spec Acl_Model Ael_Model Ael_Spec.
From Coq Require Import Lia.
Local Open Scope N_scope.

Lemma total_app a b : total (a ++ b) = total a + total b.
Proof. induction a as [|e a IH]; cbn [app total]; [reflexivity|]. rewrite IH. lia. Qed.

Lemma cstr_id s : plain_text s -> cstr s = s.
Proof.
  unfold plain_text. induction s as [|c s IH]; intros H; cbn [cstr]; [reflexivity|].
  destruct (N.eqb_spec c 0) as [->|_]; [exfalso; apply H; now left|]. f_equal. apply IH. intros I. apply H. now right.
Qed.
Lemma cstr_is_plain s : plain_text (cstr s).
Proof.
  unfold plain_text. induction s as [|c s IH]; cbn [cstr]; [intros []|]. destruct (N.eqb_spec c 0) as [->|H]; [intros []|].
  intros [E|I]; [now apply H|now apply IH].
Qed.
Lemma cstr_len s : (List.length (cstr s) <= List.length s)%nat.
Proof. induction s as [|c s IH]; cbn [cstr]; [reflexivity|]. destruct (c =? 0); cbn [length]; lia. Qed.

Lemma passes_spec cats pri0 cat pri : ((N.land cats cat =? 0) || (pri0 <? pri))%bool = false <-> passes cats pri0 cat pri.
Proof.
  unfold passes. rewrite Bool.orb_false_iff. split.
  - intros [A B]. apply N.eqb_neq in A. apply N.ltb_ge in B. split; [|exact B].
    exists (N.log2 (N.land cats cat)). pose proof (N.bit_log2 _ A) as T. rewrite N.land_spec in T. now apply Bool.andb_true_iff in T.
  - intros [(i & A & B) C]. split; [|apply N.ltb_ge; exact C]. apply N.eqb_neq. intros E.
    assert (T : N.testbit (N.land cats cat) i = true) by (rewrite N.land_spec, A, B; reflexivity). rewrite E, N.bits_0 in T. discriminate.
Qed.
Lemma not_passes_spec cats pri0 cat pri : ((N.land cats cat =? 0) || (pri0 <? pri))%bool = true <-> ~ passes cats pri0 cat pri.
Proof.
  rewrite <- passes_spec. destruct (_ || _)%bool; split; intros H; try reflexivity; try discriminate; try (now intros X); exfalso; now apply H.
Qed.

Lemma evict_spec need max l : need <= max -> total l < 2 ^ 64 ->
  exists dropped kept, l = dropped ++ kept /\ evict need max (total l) l = (total kept, kept) /\ need + total kept <= max /\
    forall d e, dropped = d ++ [e] -> max < need + (ev_size e + total kept).
Proof.
  intros Hn. induction l as [|e l IH]; intros B.
  - exists [], []. cbn [evict total app]. split; [reflexivity|]. split; [reflexivity|]. split; [lia|]. intros d x E. destruct d; discriminate.
  - cbn [evict]. destruct (N.ltb_spec max (need + total (e :: l))) as [L|L].
    + cbn [total] in *. replace ((ev_size e + total l + 2 ^ 64 - ev_size e) mod 2 ^ 64) with (total l).
      2:{ replace (ev_size e + total l + 2 ^ 64 - ev_size e) with (total l + 1 * 2 ^ 64) by lia. rewrite N.mod_add by lia. rewrite N.mod_small by lia. reflexivity. }
      destruct IH as (dr & k & El & Ev & F & M); [lia|]. exists (e :: dr), k. split; [cbn; now rewrite El|]. split; [exact Ev|]. split; [exact F|].
      intros d x E. destruct d as [|y d].
      * cbn in E. assert (x = e) by congruence. assert (dr = []) by congruence. subst. cbn [app] in *. lia.
      * cbn in E. assert (dr = d ++ [x]) by congruence. now apply (M d).
    + exists [], (e :: l). split; [reflexivity|]. split; [reflexivity|]. split; [lia|]. intros d x E. destruct d; discriminate.
Qed.

Lemma take_all ok i aux : (forall n, ok n = true) -> take_aux ok i aux = map cstr aux.
Proof. intros H. revert i. induction aux as [|t r IH]; intros i; cbn [take_aux map]; [reflexivity|]. rewrite H, IH. reflexivity. Qed.
Lemma map_cstr aux : Forall plain_text aux -> map cstr aux = aux.
Proof. induction 1 as [|t r H _ IH]; cbn [map]; [reflexivity|]. now rewrite IH, cstr_id. Qed.
Lemma text_size_cost s : opt_plain s -> text_size s = opt_cost s.
Proof. destruct s as [t|]; cbn; [|reflexivity]. intros H. rewrite cstr_id by exact H. lia. Qed.
Lemma aux_size_cost p aux : Forall plain_text aux -> aux_size p aux = item_cost p aux.
Proof.
  unfold aux_size. induction 1 as [|t r H _ IH]; [reflexivity|]. cbn [List.length fold_right item_cost]. rewrite <- IH, cstr_id by exact H. lia.
Qed.
Lemma calc_cost p x : plain_entry x -> calc_size p (en_aeid x) (en_msg x) (en_aux x) = ev_size (as_event p x).
Proof.
  intros (A & B & C). unfold calc_size, as_event, cost. cbn [ev_size]. rewrite (text_size_cost _ A), (text_size_cost _ B), (aux_size_cost p _ C). reflexivity.
Qed.
Lemma create_event p x : plain_entry x ->
  create enough (en_cat x) (en_pri x) (en_time x) (en_aeid x) (en_msg x) (en_aux x) (ev_size (as_event p x)) = as_event p x.
Proof.
  intros (A & B & C). unfold create, as_event, enough. cbn [m_aux ev_size]. rewrite take_all by reflexivity. rewrite map_cstr by exact C.
  f_equal; [destruct (en_aeid x); cbn in *; [now apply cstr_id|reflexivity]|destruct (en_msg x); cbn in *; [now apply cstr_id|reflexivity]].
Qed.

(** One addition. *)
Lemma add_rejected p m a x : plain_entry x -> ~ (passes (a_cat a) (a_pri a) (en_cat x) (en_pri x) /\ ev_size (as_event p x) <= a_max a) ->
  add_entry p m a x = (a, false).
Proof.
  intros Hp H. unfold add_entry, add_event. destruct (_ || _)%bool eqn:E; [reflexivity|]. apply passes_spec in E.
  rewrite (calc_cost p x Hp). destruct (N.ltb_spec (a_max a) (ev_size (as_event p x))) as [L|L]; [reflexivity|]. exfalso. apply H. split; assumption.
Qed.
Lemma add_accepted p a x : plain_entry x -> sound a -> passes (a_cat a) (a_pri a) (en_cat x) (en_pri x) -> ev_size (as_event p x) <= a_max a ->
  exists a', add_entry p enough a x = (a', true) /\ latest (a_max a) (a_events a ++ [as_event p x]) (a_events a') /\
    (exists k, a_events a' = k ++ [as_event p x]) /\
    a_cat a' = a_cat a /\ a_pri a' = a_pri a /\ a_max a' = a_max a /\ a_unit a' = a_unit a /\ sound a'.
Proof.
  intros Hp (U & L & B) P S. unfold add_entry, add_event. apply passes_spec in P. rewrite P. rewrite (calc_cost p x Hp).
  destruct (N.ltb_spec (a_max a) (ev_size (as_event p x))) as [?|_]; [lia|]. rewrite U.
  destruct (evict_spec (ev_size (as_event p x)) (a_max a) (a_events a) S) as (dr & k & El & Ev & F & M); [lia|]. rewrite Ev.
  change (m_event enough) with true. cbv iota. rewrite (create_event p x Hp).
  eexists. split; [reflexivity|]. cbn [a_events a_cat a_pri a_max a_unit a_used]. split.
  - exists dr. split; [now rewrite El, <- app_assoc|]. rewrite total_app. cbn [total]. split; [lia|]. intros d e E. specialize (M d e E). lia.
  - split; [now exists k|]. split; [reflexivity|]. split; [reflexivity|]. split; [reflexivity|]. split; [reflexivity|]. unfold sound. cbn [a_events a_max a_used].
    rewrite total_app. cbn [total]. split; [lia|]. split; lia.
Qed.

(** Any addition, whatever memory there is. *)
Lemma add_sound p m a cat pri time aeid msg aux : sound a -> sound (fst (add_event p m a cat pri time aeid msg aux)).
Proof.
  intros S. pose proof S as (U & L & B). unfold add_event. destruct (_ || _)%bool; [exact S|].
  destruct (N.ltb_spec (a_max a) (calc_size p aeid msg aux)) as [?|Q]; [exact S|]. rewrite U.
  destruct (evict_spec (calc_size p aeid msg aux) (a_max a) (a_events a) Q) as (dr & k & El & Ev & F & M); [lia|]. rewrite Ev.
  destruct (m_event m); cbn [fst]; unfold sound; cbn [a_events a_max a_used].
  - rewrite total_app. unfold create. cbn [total ev_size]. split; [lia|]. split; lia.
  - split; [reflexivity|]. split; lia.
Qed.
Lemma add_no_memory p m a cat pri time aeid msg aux : sound a -> m_event m = false ->
  exists dropped, a_events a = dropped ++ a_events (fst (add_event p m a cat pri time aeid msg aux)) /\ snd (add_event p m a cat pri time aeid msg aux) = false.
Proof.
  intros (U & L & B) Hm. unfold add_event. destruct (_ || _)%bool; [exists []; split; reflexivity|].
  destruct (N.ltb_spec (a_max a) (calc_size p aeid msg aux)) as [?|Q]; [exists []; split; reflexivity|]. rewrite U.
  destruct (evict_spec (calc_size p aeid msg aux) (a_max a) (a_events a) Q) as (dr & k & El & Ev & F & M); [lia|]. rewrite Ev, Hm.
  exists dr. split; [exact El|reflexivity].
Qed.

(** Fitting suffixes compose. *)
Lemma latest_trans max a b c x : latest max a b -> latest max (b ++ x) c -> (exists y, c = y ++ x) -> latest max (a ++ x) c.
Proof.
  intros (d1 & E1 & F1 & M1) (d2 & E2 & F2 & M2) (y & Ec). exists (d1 ++ d2). split; [rewrite E1, <- !app_assoc, E2; reflexivity|]. split; [exact F2|].
  intros d e E. destruct d2 as [|z d2] using rev_ind.
  - rewrite app_nil_r in E. specialize (M1 d e E). cbn [app] in E2. assert (b = y).
    { apply (app_inv_tail x). rewrite E2, Ec. reflexivity. }
    subst y c. rewrite total_app. lia.
  - clear IHd2. rewrite app_assoc in E. apply app_inj_tail in E. destruct E as [_ <-]. now apply (M2 d2).
Qed.
Lemma latest_self max l : total l <= max -> latest max l l.
Proof. intros H. exists []. split; [reflexivity|]. split; [exact H|]. intros d e E. destruct d; discriminate. Qed.

Lemma add_all_latest p l : forall a, Forall plain_entry l -> sound a ->
  exists new, logged p (a_cat a) (a_pri a) (a_max a) l new /\ latest (a_max a) (a_events a ++ new) (a_events (add_all p a l)) /\ sound (add_all p a l) /\
    a_cat (add_all p a l) = a_cat a /\ a_pri (add_all p a l) = a_pri a /\ a_max (add_all p a l) = a_max a /\ a_unit (add_all p a l) = a_unit a.
Proof.
  induction l as [|x l IH]; intros a Hp S; cbn [add_all].
  - exists []. split; [constructor|]. split; [rewrite app_nil_r; apply latest_self; destruct S as (U & L & _); lia|]. split; [exact S|]. repeat split.
  - apply Forall_cons_iff in Hp. destruct Hp as [Hx Hl].
    assert (D : (passes (a_cat a) (a_pri a) (en_cat x) (en_pri x) /\ ev_size (as_event p x) <= a_max a) \/
                ~ (passes (a_cat a) (a_pri a) (en_cat x) (en_pri x) /\ ev_size (as_event p x) <= a_max a)).
    { destruct ((N.land (a_cat a) (en_cat x) =? 0) || (a_pri a <? en_pri x))%bool eqn:E.
      - apply not_passes_spec in E. right. tauto.
      - apply passes_spec in E. destruct (N.le_gt_cases (ev_size (as_event p x)) (a_max a)); [left; tauto|right; lia]. }
    destruct D as [[P Q]|D].
    + destruct (add_accepted p a x Hx S P Q) as (a' & E & La & (k & Ek) & C1 & C2 & C3 & C4 & S'). rewrite E. cbn [fst].
      destruct (IH a' Hl S') as (new & Lg & Lt & S2 & D1 & D2 & D3 & D4). exists (as_event p x :: new). rewrite C1, C2, C3 in *. rewrite C4 in *.
      split; [now constructor|]. split; [|split; [exact S2|repeat split; assumption]].
      destruct Lt as (dd & Ed & Fd & Md). destruct La as (d1 & E1 & F1 & M1).
      (* the events added later decide how much of the former list remains *)
      exists (d1 ++ dd). split.
      { change (as_event p x :: new) with ([as_event p x] ++ new). rewrite app_assoc, E1, <- app_assoc, Ed, <- app_assoc. reflexivity. }
      split; [exact Fd|]. intros d e E'. destruct dd as [|z dd] using rev_ind.
      * rewrite app_nil_r in E'. specialize (M1 d e E'). cbn [app] in Ed. rewrite <- Ed, total_app. lia.
      * clear IHdd. rewrite app_assoc in E'. apply app_inj_tail in E'. destruct E' as [_ <-]. now apply (Md dd).
    + rewrite (add_rejected p enough a x Hx D). cbn [fst]. destruct (IH a Hl S) as (new & Lg & Lt & R). exists new. split; [now constructor|]. split; [exact Lt|exact R].
Qed.

(** * Every run *)
Lemma decode_filter_sound a r s : sound a -> a_events a = [] -> sound (decode_filter s a r) /\ a_events (decode_filter s a r) = [].
Proof.
  intros (U & L & B) E. unfold decode_filter. rewrite E in U. cbn in U.
  assert (Z64 : forall z, Z.to_N (z mod 2 ^ 64) < 2 ^ 64).
  { intros z. pose proof (Z.mod_pos_bound z (2 ^ 64) ltac:(lia)). lia. }
  destruct (snd r); try (split; [repeat split; [rewrite E; exact U|exact L|exact B]|exact E]).
  repeat match goal with |- context [if ?c then _ else _] => destruct c end; unfold sound; cbn [a_events a_used a_max];
    rewrite E; cbn [total]; (split; [|reflexivity]); (split; [exact U|]); split; try assumption; try lia; try apply Z64.
Qed.
Lemma decode_net_sound a r : sound a -> sound (decode_filter false a r).
Proof.
  intros S. unfold decode_filter. destruct (snd r); try exact S. cbn [andb].
  repeat match goal with |- context [if ?c then _ else _] => destruct c end; exact S.
Qed.
Lemma fold_net_sound l : forall a, sound a -> sound (fold_left (decode_filter false) l a).
Proof. induction l as [|r l IH]; intros a S; cbn [fold_left]; [exact S|]. apply IH, decode_net_sound, S. Qed.
Lemma fold_store_sound l : forall a, sound a -> a_events a = [] -> sound (fold_left (decode_filter true) l a).
Proof. induction l as [|r l IH]; intros a S E; cbn [fold_left]; [exact S|]. destruct (decode_filter_sound a r true S E). now apply IH. Qed.
Lemma decode_events_sound p m l : forall a a', sound a -> decode_events p m a l = Ok a' -> sound a'.
Proof.
  induction l as [|o l IH]; intros a a' S; cbn [decode_events]; [intros E; assert (a' = a) by congruence; now subst|].
  destruct (decode_attrs _ o) as [d| |]; cbn [bind]; try discriminate. intros E. apply (IH _ _ (add_sound p m a _ _ _ _ _ _ S) E).
Qed.
Lemma decode_second_sound p m l : forall a a', sound a -> decode_second p m a l = Ok a' -> sound a'.
Proof.
  induction l as [|[n v] l IH]; intros a a' S; cbn [decode_second]; [intros E; assert (a' = a) by congruence; now subst|].
  cbn [snd fst]. destruct v; try (apply IH; exact S). destruct (list_eqb _ _); [|apply IH; exact S].
  destruct (decode_events p m a l0) as [b| |] eqn:D; cbn [bind]; try discriminate. apply IH. exact (decode_events_sound p m l0 a b S D).
Qed.
Lemma fresh_sound : sound fresh.
Proof. unfold sound, fresh. cbn. lia. Qed.
Lemma load_sound p m store a : load p m fresh store = Ok a -> sound a.
Proof.
  unfold load. destruct store as [c|]; [|intros E; assert (a = fresh) by congruence; subst; exact fresh_sound].
  destruct (parse c) as [[l|l| |]| |]; try (intros E; assert (a = fresh) by congruence; subst; exact fresh_sound); try discriminate.
  unfold decode. apply decode_second_sound. apply fold_store_sound; [exact fresh_sound|reflexivity].
Qed.
Lemma step_sound hz p d o d' r : sound (dv_log d) -> dynamic_op o -> step hz p d o = Ok (d', r) -> sound (dv_log d').
Proof.
  intros S D. destruct o as [m w cat pri time aeid msg aux|w rf i l|w|dy m]; cbn [step].
  - pose proof (add_sound p m (dv_log d) cat pri time aeid msg aux S) as S'. destruct (add_event _ _ _ _ _ _ _ _ _) as [a ok]. cbn [fst] in S'.
    intros E. assert (d' = if ok then save hz w a d else mkDev a (dv_store d)) by congruence. subst d'. destruct ok; exact S'.
  - destruct rf; [intros E; assert (d' = d) by congruence; now subst|]. destruct (_ || _)%bool; [|intros E; assert (d' = d) by congruence; now subst].
    cbn [decode bind]. intros E. unfold decode in E. cbv iota in E. cbn [bind] in E.
    assert (d' = save hz w (fold_left (decode_filter false) l (dv_log d)) d) by congruence. subst. apply fold_net_sound, S.
  - intros E. assert (d' = save hz w ael_default d) by congruence. subst. unfold save, ael_default, sound, default_max. cbn. lia.
  - cbn in D. subst dy. cbn [restart]. destruct (load p m fresh (dv_store d)) as [a| |] eqn:L; cbn [bind]; try discriminate.
    intros E. assert (d' = mkDev a (dv_store d)) by congruence. subst. exact (load_sound p m _ a L).
Qed.
Lemma run_sound hz p l : forall d d', sound (dv_log d) -> Forall dynamic_op l -> run hz p d l = Ok d' -> sound (dv_log d').
Proof.
  induction l as [|o l IH]; intros d d' S F; cbn [run]; [intros E; assert (d' = d) by congruence; now subst|].
  apply Forall_cons_iff in F. destruct F as [Fo Fl]. destruct (step hz p d o) as [[d1 r]| |] eqn:E; cbn [bind fst]; try discriminate.
  apply IH; [exact (step_sound hz p d o d1 r S Fo E)|exact Fl].
Qed.
