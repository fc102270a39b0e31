(** The list survives a restart. *)
From Verif Require Import Common Rep_Model Repd_Model Repd_Spec Repd_Proofs Acl_Model Ael_Model Ael_Spec Ael_Proofs.
From Coq Require Import Lia String.
Local Open Scope string_scope.
Local Open Scope list_scope.
Local Open Scope N_scope.

Definition opt (s : list N) : option (list N) := match s with [] => None | _ => Some s end.
Definition as_entry (e : event) : entry := mkEntry (ev_cat e) (ev_pri e) (ev_time e) (opt (ev_aeid e)) (opt (ev_msg e)) (ev_aux e).
Definition keep_event (p : plat) (e : event) : Prop := keepable (as_entry e) /\ ev_size (as_event p (as_entry e)) <= ev_size e.
Definition keep_log (p : plat) (a : ael) : Prop :=
  sound a /\ a_cat a < 256 /\ a_pri a < 256 /\ a_max a < 2 ^ 63 /\ a_unit a < 2 ^ 32 /\ Forall (keep_event p) (a_events a).

Lemma opt_text_opt s : opt_text (opt s) = s.
Proof. destruct s; reflexivity. Qed.
Lemma opt_plain_opt s : plain_text s -> opt_plain (opt s).
Proof. destruct s; cbn; auto. Qed.
Lemma said_entry p e : said (as_event p (as_entry e)) = said e.
Proof. unfold said, as_event, as_entry. cbn [en_cat en_pri en_time en_aeid en_msg en_aux ev_cat ev_pri ev_time ev_aeid ev_msg ev_aux]. now rewrite !opt_text_opt. Qed.

(** An entry becomes an event that can be kept. *)
Lemma take_sub ok l : forall i, Forall plain_text l ->
  Forall plain_text (take_aux ok i l) /\ (List.length (take_aux ok i l) <= List.length l)%nat /\
  (forall p, item_cost p (take_aux ok i l) <= item_cost p l) /\ (forall s, In s (take_aux ok i l) -> In s l).
Proof.
  induction l as [|t l IH]; intros i H; cbn [take_aux]; [repeat split; [constructor|reflexivity|intros; cbn; lia|intros s []]|].
  apply Forall_cons_iff in H. destruct H as [Ht Hl]. destruct (IH (S i) Hl) as (A & B & C & D). rewrite (cstr_id t Ht).
  destruct (ok i).
  - split; [now constructor|]. split; [cbn [List.length]; lia|]. split; [intros p; cbn [item_cost]; specialize (C p); lia|].
    intros s [->|I]; [now left|right; auto].
  - split; [exact A|]. split; [cbn [List.length]; lia|]. split; [intros p; cbn [item_cost]; specialize (C p); lia|]. intros s I. right. auto.
Qed.
Lemma opt_cost_text s : opt_plain s -> opt_cost (opt (text_of s)) <= opt_cost s.
Proof. destruct s as [t|]; cbn [text_of opt_cost opt_plain]; [|cbn; lia]. intros H. rewrite cstr_id by exact H. destruct t; cbn [opt opt_cost List.length]; lia. Qed.
Lemma opt_plain_text s : opt_plain (opt (text_of s)).
Proof. apply opt_plain_opt. destruct s as [t|]; cbn [text_of]; [apply cstr_is_plain|intros []]. Qed.
Lemma create_keep p m x : keepable x ->
  keep_event p (create m (en_cat x) (en_pri x) (en_time x) (en_aeid x) (en_msg x) (en_aux x) (calc_size p (en_aeid x) (en_msg x) (en_aux x))).
Proof.
  intros (A & B & C & Pl & L & S). pose proof Pl as (P1 & P2 & P3). destruct (take_sub (m_aux m) (en_aux x) 0 P3) as (T1 & T2 & T3 & T4).
  unfold keep_event, create, as_entry, keepable, plain_entry, as_event, cost. cbn [en_cat en_pri en_time en_aeid en_msg en_aux ev_cat ev_pri ev_time ev_aeid ev_msg ev_aux ev_size].
  split.
  - split; [exact A|]. split; [exact B|]. split; [exact C|]. split; [split; [apply opt_plain_text|split; [apply opt_plain_text|exact T1]]|].
    split; [lia|]. rewrite Forall_forall in *. intros s I. apply S, T4, I.
  - rewrite (calc_cost p x Pl). unfold as_event, cost. cbn [ev_size]. pose proof (opt_cost_text _ P1). pose proof (opt_cost_text _ P2). specialize (T3 p). lia.
Qed.
Lemma evict_suffix need max l : forall used, exists d, l = d ++ snd (evict need max used l).
Proof.
  induction l as [|e l IH]; intros used; cbn [evict]; [now exists []|]. destruct (max <? need + used); [|now exists []].
  destruct (IH ((used + 2 ^ 64 - ev_size e) mod 2 ^ 64)) as (d & E). exists (e :: d). cbn. now rewrite <- E.
Qed.
Lemma add_keep p m a x : keep_log p a -> keepable x -> keep_log p (fst (add_entry p m a x)).
Proof.
  intros (S & A & B & C & D & F) K. pose proof (add_sound p m a (en_cat x) (en_pri x) (en_time x) (en_aeid x) (en_msg x) (en_aux x) S) as S'.
  unfold add_entry in *. unfold add_event in *. destruct (_ || _)%bool; [repeat split; try assumption; apply S|].
  destruct (a_max a <? _); [repeat split; try assumption; apply S|].
  destruct (evict_suffix (calc_size p (en_aeid x) (en_msg x) (en_aux x)) (a_max a) (a_events a) (a_used a)) as (d & E).
  destruct (evict _ _ _ _) as [used evs]. cbn [snd] in E. rewrite E in F. apply Forall_app in F. destruct F as [_ F].
  destruct (m_event m); cbn [fst] in *; (split; [exact S'|]); cbn [a_cat a_pri a_max a_unit a_events]; (split; [exact A|]); (split; [exact B|]); (split; [exact C|]); (split; [exact D|]).
  - apply Forall_app. split; [exact F|]. constructor; [now apply create_keep|constructor].
  - exact F.
Qed.

(** * What is read back *)
Definition arr_back (l : list (list N)) : rval := match l with [] => RNil | _ => RStrArr l end.
Definition event_back (e : event) : list rep :=
  [(str "category", RInt (Z.of_N (ev_cat e))); (str "priority", RInt (Z.of_N (ev_pri e)))]
  ++ [(str "timestamp", RInt (ev_time e))]
  ++ text_prop (str "aeid") (ev_aeid e) ++ text_prop (str "message") (ev_msg e)
  ++ [(str "auxiliaryinfo", arr_back (ev_aux e))].
Definition log_back (a : ael) : list rep :=
  baseline ++ [(str "categoryfilter", RInt (Z.of_N (a_cat a))); (str "priorityfilter", RInt (Z.of_N (a_pri a)))]
  ++ [(str "maxspace", RInt (Z.of_N (a_max a))); (str "unit", RInt (Z.of_N (a_unit a)))]
  ++ [(str "events", match a_events a with [] => RNil | l => RObjArr (map event_back l) end)].

Definition reads (r r' : rep) : Prop := fst r = fst r' /\ dec (enc (snd r)) = Ok (snd r').
Lemma members_reads l l' : Forall2 reads l l' -> members dec (enc_members l) = Ok l'.
Proof.
  induction 1 as [|[n v] [n' v'] l l' [A B] _ IH]; [reflexivity|]. cbn [fst snd] in *. subst n'. unfold enc_members in *. cbn [map fst snd].
  cbn [members dec_key bind]. rewrite B. cbn [bind]. rewrite IH. reflexivity.
Qed.
Lemma reads_writable n v : writable v -> reads (n, v) (n, v).
Proof. intros W. split; [reflexivity|]. cbn [snd]. apply (proj1 dec_complete), (proj1 enc_means), W. Qed.
Lemma reads_int n z : (0 <= z < 2 ^ 63)%Z -> reads (n, RInt z) (n, RInt z).
Proof. intros H. apply reads_writable. constructor. unfold in64. lia. Qed.
Lemma reads_arr n l : Forall (fun s => (List.length s <= 127)%nat) l -> reads (n, RStrArr l) (n, arr_back l).
Proof.
  intros H. destruct l as [|s l]; [split; reflexivity|]. apply reads_writable. constructor; [discriminate|exact H].
Qed.
Lemma reads_text n s : Forall2 reads (text_prop n s) (text_prop n s).
Proof. destruct s; cbn [text_prop]; [constructor|]. constructor; [apply reads_writable; constructor|constructor]. Qed.
Lemma reads_event p hz e : keep_event p e -> Forall2 reads (encode_event hz true e) (event_back e).
Proof.
  intros ((A & B & C & _ & _ & S) & _). cbn [as_entry en_cat en_pri en_time en_aux] in *. unfold encode_event, event_back.
  apply Forall2_app; [constructor; [apply reads_int; lia|constructor; [apply reads_int; lia|constructor]]|].
  apply Forall2_app; [constructor; [now apply reads_int|constructor]|]. apply Forall2_app; [apply reads_text|]. apply Forall2_app; [apply reads_text|].
  constructor; [now apply reads_arr|constructor].
Qed.
Lemma reads_events p hz l : Forall (keep_event p) l ->
  objects dec (map (fun o => CMap (enc_members o)) (map (encode_event hz true) l)) = Ok (map event_back l).
Proof.
  induction 1 as [|e l K _ IH]; [reflexivity|]. cbn [map]. cbn [objects]. rewrite (members_reads _ _ (reads_event p hz e K)). cbn [bind].
  rewrite IH. reflexivity.
Qed.
Lemma dump_parse p hz a : keep_log p a -> parse (dump hz a) = Ok (PRep (log_back a)).
Proof.
  intros (S & A & B & C & D & F). unfold dump, enc_root. cbn [parse]. rewrite (members_reads _ (log_back a)); [reflexivity|].
  unfold encode, log_back. cbn [orb].
  apply Forall2_app.
  { constructor; [|constructor; [|constructor]].
    - apply reads_writable. constructor; [discriminate|]. constructor; [|constructor]. vm_compute. lia.
    - apply reads_writable. constructor; [discriminate|]. constructor; [vm_compute; lia|]. constructor; [vm_compute; lia|constructor]. }
  apply Forall2_app; [constructor; [apply reads_int; lia|constructor; [apply reads_int; lia|constructor]]|].
  apply Forall2_app; [constructor; [apply reads_int; lia|constructor; [apply reads_int; lia|constructor]]|].
  constructor; [|constructor]. split; [reflexivity|]. cbn [snd]. rewrite enc_objs.
  destruct (a_events a) as [|e l] eqn:E; [reflexivity|].
  pose proof (reads_events p hz (e :: l) F) as R. cbn [map] in *. cbn [dec ctype]. rewrite R. reflexivity.
Qed.

(** * Decoding it *)
Lemma attrs_app a : forall d b, decode_attrs d (a ++ b) = bind (decode_attrs d a) (fun d' => decode_attrs d' b).
Proof.
  induction a as [|r a IH]; intros d b; cbn [app decode_attrs]; [reflexivity|]. destruct (decode_attr d r); cbn [bind]; [apply IH|reflexivity|reflexivity].
Qed.
Lemma attr_cat d z : decode_attr d (str "category", RInt z) = Ok (mkDraft (u8 z) (d_pri d) (d_time d) (d_aeid d) (d_msg d) (d_aux d)).
Proof. reflexivity. Qed.
Lemma attr_pri d z : decode_attr d (str "priority", RInt z) = Ok (mkDraft (d_cat d) (u8 z) (d_time d) (d_aeid d) (d_msg d) (d_aux d)).
Proof. reflexivity. Qed.
Lemma attr_time d z : decode_attr d (str "timestamp", RInt z) = Ok (mkDraft (d_cat d) (d_pri d) (z mod 2 ^ 64) (d_aeid d) (d_msg d) (d_aux d)).
Proof. reflexivity. Qed.
Lemma attr_aeid d s : d_aeid d = None -> decode_attrs d (text_prop (str "aeid") s) = Ok (mkDraft (d_cat d) (d_pri d) (d_time d) (opt s) (d_msg d) (d_aux d)).
Proof. intros H. destruct s; [|reflexivity]. cbn [text_prop decode_attrs opt]. rewrite <- H. destruct d; reflexivity. Qed.
Lemma attr_msg d s : d_msg d = None -> decode_attrs d (text_prop (str "message") s) = Ok (mkDraft (d_cat d) (d_pri d) (d_time d) (d_aeid d) (opt s) (d_aux d)).
Proof. intros H. destruct s; [|reflexivity]. cbn [text_prop decode_attrs opt]. rewrite <- H. destruct d; reflexivity. Qed.
Lemma attr_aux d l : d_aux d = [] -> (List.length l <= aux_max)%nat ->
  decode_attr d (str "auxiliaryinfo", arr_back l) = Ok (mkDraft (d_cat d) (d_pri d) (d_time d) (d_aeid d) (d_msg d) l).
Proof.
  intros H L. destruct l as [|s l]; [unfold decode_attr; cbn [snd arr_back]; rewrite <- H; destruct d; reflexivity|].
  unfold decode_attr. cbn [snd arr_back fst]. change (list_eqb (str "auxiliaryinfo") (str "auxiliaryinfo")) with true. cbv iota.
  destruct (Nat.ltb_spec aux_max (List.length (s :: l))); [lia|reflexivity].
Qed.
Lemma u8_id n : n < 256 -> u8 (Z.of_N n) = n.
Proof. intros H. unfold u8. rewrite Z.mod_small by lia. apply N2Z.id. Qed.
Lemma decode_back e : keepable (as_entry e) ->
  decode_attrs (mkDraft 0 0 0 None None []) (event_back e) =
  Ok (mkDraft (ev_cat e) (ev_pri e) (ev_time e) (opt (ev_aeid e)) (opt (ev_msg e)) (ev_aux e)).
Proof.
  intros (A & B & C & _ & L & _). cbn [as_entry en_cat en_pri en_time en_aux] in *. unfold event_back.
  rewrite attrs_app. cbn [decode_attrs]. rewrite attr_cat. cbn [bind]. rewrite attr_pri. cbn [bind d_cat d_pri d_time d_aeid d_msg d_aux].
  rewrite attrs_app. cbn [decode_attrs]. rewrite attr_time. cbn [bind d_cat d_pri d_time d_aeid d_msg d_aux].
  rewrite attrs_app, attr_aeid by reflexivity. cbn [bind d_cat d_pri d_time d_aeid d_msg d_aux].
  rewrite attrs_app, attr_msg by reflexivity. cbn [bind d_cat d_pri d_time d_aeid d_msg d_aux].
  cbn [decode_attrs]. rewrite attr_aux by (reflexivity || exact L). cbn [bind d_cat d_pri d_time d_aeid d_msg d_aux].
  rewrite !u8_id by assumption. rewrite Z.mod_small by lia. reflexivity.
Qed.

Lemma latest_whole max all kept : latest max all kept -> total all <= max -> kept = all.
Proof.
  intros (d & E & F & M) T. destruct d as [|z d] using rev_ind; [now rewrite E|]. clear IHd. specialize (M d z eq_refl). rewrite E, !total_app in T. cbn [total] in T. lia.
Qed.

Lemma reload_events p l : forall a, Forall (keep_event p) l -> sound a -> a_used a + total l <= a_max a ->
  exists a' r, decode_events p enough a (map event_back l) = Ok a' /\ passing (a_cat a) (a_pri a) l r /\
    map said (a_events a') = map said (a_events a) ++ map said r /\
    a_cat a' = a_cat a /\ a_pri a' = a_pri a /\ a_max a' = a_max a /\ a_unit a' = a_unit a.
Proof.
  induction l as [|e l IH]; intros a K S T; cbn [map decode_events].
  - exists a, []. split; [reflexivity|]. split; [constructor|]. split; [cbn; now rewrite app_nil_r|]. repeat split.
  - apply Forall_cons_iff in K. destruct K as [[Ke Kc] Kl]. rewrite (decode_back e Ke). cbn [bind d_cat d_pri d_time d_aeid d_msg d_aux].
    change (add_event p enough a (ev_cat e) (ev_pri e) (ev_time e) (opt (ev_aeid e)) (opt (ev_msg e)) (ev_aux e)) with (add_entry p enough a (as_entry e)).
    assert (Pl : plain_entry (as_entry e)) by apply Ke. cbn [total] in T.
    destruct ((N.land (a_cat a) (ev_cat e) =? 0) || (a_pri a <? ev_pri e))%bool eqn:Q.
    + apply not_passes_spec in Q. rewrite add_rejected by (try exact Pl; cbn; tauto). cbn [fst].
      destruct (IH a Kl S) as (a' & r & E & P & M & R); [lia|]. exists a', r. split; [exact E|]. split; [now constructor|]. split; [exact M|exact R].
    + apply passes_spec in Q. destruct (add_accepted p a (as_entry e) Pl S Q) as (a1 & E1 & La & _ & C1 & C2 & C3 & C4 & S1); [destruct S; lia|].
      rewrite E1. cbn [fst]. assert (Ev : a_events a1 = a_events a ++ [as_event p (as_entry e)]).
      { apply (latest_whole _ _ _ La). rewrite total_app. cbn [total]. destruct S as (U & _). lia. }
      destruct (IH a1 Kl S1) as (a' & r & E & P & M & D1 & D2 & D3 & D4).
      { destruct S1 as (U1 & _). destruct S as (U & _). rewrite U1, Ev, total_app, C3. cbn [total]. lia. }
      exists a', (e :: r). split; [exact E|]. rewrite C1, C2 in *. split; [now constructor|].
      split; [rewrite M, Ev, map_app; cbn [map]; rewrite said_entry, <- app_assoc; reflexivity|].
      split; [exact D1|]. split; [exact D2|]. split; [now rewrite D3|now rewrite D4].
Qed.

Lemma fold_back a : a_cat a < 256 -> a_pri a < 256 -> a_max a < 2 ^ 63 -> a_unit a < 2 ^ 32 ->
  fold_left (decode_filter true) (log_back a) fresh = mkAel (a_cat a) (a_pri a) (a_max a) (a_unit a) 0 [].
Proof.
  intros A B C D. unfold log_back. rewrite fold_left_app. change (fold_left (decode_filter true) baseline fresh) with fresh. rewrite !fold_left_app. cbn [fold_left].
  assert (X1 : decode_filter true fresh (str "categoryfilter", RInt (Z.of_N (a_cat a))) = mkAel (a_cat a) 0 0 0 0 []).
  { transitivity (mkAel (u8 (Z.of_N (a_cat a))) 0 0 0 0 []); [reflexivity|]. now rewrite u8_id. }
  rewrite X1. assert (X2 : decode_filter true (mkAel (a_cat a) 0 0 0 0 []) (str "priorityfilter", RInt (Z.of_N (a_pri a))) = mkAel (a_cat a) (a_pri a) 0 0 0 []).
  { transitivity (mkAel (a_cat a) (u8 (Z.of_N (a_pri a))) 0 0 0 []); [reflexivity|]. now rewrite u8_id. }
  rewrite X2. assert (X3 : decode_filter true (mkAel (a_cat a) (a_pri a) 0 0 0 []) (str "maxspace", RInt (Z.of_N (a_max a))) = mkAel (a_cat a) (a_pri a) (a_max a) 0 0 []).
  { transitivity (mkAel (a_cat a) (a_pri a) (Z.to_N (Z.of_N (a_max a) mod 2 ^ 64)) 0 0 []); [reflexivity|]. rewrite Z.mod_small by lia. now rewrite N2Z.id. }
  rewrite X3. assert (X4 : decode_filter true (mkAel (a_cat a) (a_pri a) (a_max a) 0 0 []) (str "unit", RInt (Z.of_N (a_unit a))) = mkAel (a_cat a) (a_pri a) (a_max a) (a_unit a) 0 []).
  { transitivity (mkAel (a_cat a) (a_pri a) (a_max a) (Z.to_N (Z.of_N (a_unit a) mod 2 ^ 32)) 0 []); [reflexivity|]. rewrite Z.mod_small by lia. now rewrite N2Z.id. }
  rewrite X4. destruct (a_events a); reflexivity.
Qed.
Lemma second_back p m a a1 : decode_second p m a1 (log_back a) = decode_events p m a1 (map event_back (a_events a)).
Proof.
  unfold log_back. destruct (a_events a) as [|e l]; [reflexivity|].
  transitivity (bind (decode_events p m a1 (map event_back (e :: l))) (fun a' => Ok a')); [reflexivity|].
  destruct (decode_events p m a1 (map event_back (e :: l))); reflexivity.
Qed.

Lemma reload p hz a : keep_log p a ->
  exists a' r, load p enough fresh (Some (dump hz a)) = Ok a' /\
    a_cat a' = a_cat a /\ a_pri a' = a_pri a /\ a_max a' = a_max a /\ a_unit a' = a_unit a /\
    passing (a_cat a) (a_pri a) (a_events a) r /\ map said (a_events a') = map said r.
Proof.
  intros K. pose proof K as (S & A & B & C & D & F). unfold load. rewrite (dump_parse p hz a K). unfold decode. rewrite fold_back by assumption. rewrite second_back.
  destruct (reload_events p (a_events a) (mkAel (a_cat a) (a_pri a) (a_max a) (a_unit a) 0 []) F) as (a' & r & E & P & M & D1 & D2 & D3 & D4).
  - unfold sound. cbn. lia.
  - cbn [a_used a_max]. destruct S as (U & L & _). lia.
  - exists a', r. cbn [a_cat a_pri a_max a_unit a_events map app] in *. split; [exact E|]. split; [exact D1|]. split; [exact D2|]. split; [exact D3|]. split; [exact D4|]. split; [exact P|exact M].
Qed.

(** * Every run *)
Lemma events_keep p m l : forall a, Forall (keep_event p) l -> keep_log p a ->
  exists a', decode_events p m a (map event_back l) = Ok a' /\ keep_log p a'.
Proof.
  induction l as [|e l IH]; intros a K L; cbn [map decode_events]; [now exists a|].
  apply Forall_cons_iff in K. destruct K as [[Ke Kc] Kl]. rewrite (decode_back e Ke). cbn [bind d_cat d_pri d_time d_aeid d_msg d_aux].
  apply IH; [exact Kl|]. exact (add_keep p m a (as_entry e) L Ke).
Qed.
Lemma load_keep p m hz a : keep_log p a -> exists a', load p m fresh (Some (dump hz a)) = Ok a' /\ keep_log p a'.
Proof.
  intros K. pose proof K as (S & A & B & C & D & F). unfold load. rewrite (dump_parse p hz a K). unfold decode. rewrite fold_back by assumption. rewrite second_back.
  apply events_keep; [exact F|]. unfold keep_log, sound. cbn. repeat split; try lia; try assumption. constructor.
Qed.
Definition keep_dev (hz : Z) (p : plat) (d : dev) : Prop :=
  keep_log p (dv_log d) /\ (dv_store d = None \/ exists a, keep_log p a /\ dv_store d = Some (dump hz a)).
Lemma fresh_keep p : keep_log p fresh.
Proof. unfold keep_log, sound, fresh. cbn. repeat split; try lia. constructor. Qed.
Lemma net_keep p a r : keep_log p a -> keep_log p (decode_filter false a r).
Proof.
  intros K. unfold decode_filter. destruct (snd r); try exact K. cbn [andb].
  assert (U : forall q, u8 q < 256) by (intros q; unfold u8; pose proof (Z.mod_pos_bound q 256 ltac:(lia)); lia).
  destruct K as (S & A & B & C & D & F). repeat match goal with |- context [if ?c then _ else _] => destruct c end;
    (split; [exact S|]); cbn [a_cat a_pri a_max a_unit a_events]; repeat split; auto.
Qed.
Lemma fold_net_keep p l : forall a, keep_log p a -> keep_log p (fold_left (decode_filter false) l a).
Proof. induction l as [|r l IH]; intros a K; cbn [fold_left]; [exact K|]. apply IH, net_keep, K. Qed.
Lemma save_keep hz p w a d : keep_log p a -> keep_dev hz p d -> keep_dev hz p (save hz w a d).
Proof. intros K [_ S]. unfold save. split; [exact K|]. cbn [dv_store]. destruct w; [right; now exists a|exact S]. Qed.
Lemma default_keep p : keep_log p ael_default.
Proof. unfold keep_log, sound, ael_default, default_max. cbn. repeat split; try lia. constructor. Qed.
Lemma step_keep hz p d o : keep_dev hz p d -> keepable_op o -> exists d' r, step hz p d o = Ok (d', r) /\ keep_dev hz p d'.
Proof.
  intros KD Ko. pose proof KD as [K S]. destruct o as [m w cat pri time aeid msg aux|w rf i l|w|dy m]; cbn [step].
  - cbn [keepable_op] in Ko. pose proof (add_keep p m (dv_log d) _ K Ko) as Ka. unfold add_entry in Ka. cbn [en_cat en_pri en_time en_aeid en_msg en_aux] in Ka.
    destruct (add_event _ _ _ _ _ _ _ _ _) as [a ok]. cbn [fst] in Ka. exists (if ok then save hz w a d else mkDev a (dv_store d)), Silent. split; [reflexivity|].
    destruct ok; [now apply save_keep|]. split; [exact Ka|exact S].
  - destruct rf; [exists d, Forbidden_; now split|]. destruct (_ || _)%bool; [|exists d, Silent; now split].
    unfold decode. cbn [bind]. exists (save hz w (fold_left (decode_filter false) l (dv_log d)) d), Changed_. split; [reflexivity|]. apply save_keep; [now apply fold_net_keep|exact KD].
  - exists (save hz w ael_default d), Silent. split; [reflexivity|]. apply save_keep; [apply default_keep|exact KD].
  - cbn in Ko. subst dy. cbn [restart]. destruct S as [S|(a & Ka & S)]; rewrite S.
    + cbn [load bind]. exists (mkDev fresh None), Silent. split; [reflexivity|]. split; [apply fresh_keep|now left].
    + destruct (load_keep p m hz a Ka) as (a' & E & K'). rewrite E. cbn [bind]. exists (mkDev a' (Some (dump hz a))), Silent. split; [reflexivity|].
      split; [exact K'|right; now exists a].
Qed.
Lemma run_keep hz p l : forall d, keep_dev hz p d -> Forall keepable_op l -> exists d', run hz p d l = Ok d' /\ keep_dev hz p d'.
Proof.
  induction l as [|o l IH]; intros d K F; cbn [run]; [now exists d|]. apply Forall_cons_iff in F. destruct F as [Fo Fl].
  destruct (step_keep hz p d o K Fo) as (d1 & r & E & K1). rewrite E. cbn [bind fst]. now apply IH.
Qed.
