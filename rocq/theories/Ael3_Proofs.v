(** The answers of the resource and the text of the entries. *)
From Verif Require Import Common Rep_Model Repd_Model Repd_Spec Ts_Model Ts_Spec Ts4_Proofs Acl_Model Hex_Model Ael_Model Ael_Spec Ael_Proofs.
From Coq Require Import Lia String.
Local Open Scope string_scope.
Local Open Scope list_scope.
Local Open Scope N_scope.

Ltac nodup_names := repeat (constructor; [cbn [In]; let H := fresh in intros H; repeat (destruct H as [H|H]; [discriminate H|]); exact H|]); constructor.

(** * GET *)
Lemma num_len w : forall v, List.length (num w v) = w.
Proof. induction w as [|w IH]; intros v; cbn [num]; [reflexivity|]. rewrite app_length, IH. cbn. lia. Qed.
Lemma written_len s t : written s t -> (List.length s <= 35)%nat.
Proof.
  intros W. destruct W as [y m d sep h mi x frac nsec zn off k _ _ _ _ _ _ F O _].
  assert (List.length frac <= 10)%nat by (destruct F as [|w v Hw _]; cbn [List.length]; [lia|rewrite num_len; lia]).
  assert (List.length zn <= 6)%nat by (destruct O; cbn [List.length]; try rewrite !app_length; cbn [List.length]; try rewrite !num_len; lia).
  repeat (rewrite app_length || rewrite num_len || cbn [List.length]). lia.
Qed.
Lemma clock_encode_64 hz time : (0 < hz)%Z -> (hz | 10 ^ 9)%Z -> (0 <= time < 2 ^ 64)%Z -> (time / hz <= 253402300799)%Z ->
  exists s t, clock_encode hz time 64 = Some s /\ written s t /\ (instant t * hz = time * 10 ^ 9)%Z.
Proof.
  intros A B C D. destruct (clock_roundtrip hz time A B C D) as (s & t & W & I & _ & F & _). exists s, t. split; [|split; assumption].
  rewrite F. pose proof (written_len s t W). destruct (Nat.ltb_spec (List.length s) 64); [reflexivity|lia].
Qed.

Lemma event_tells hz e : (0 < hz)%Z -> (hz | 10 ^ 9)%Z -> tells hz e (encode_event hz false e).
Proof.
  intros A B. unfold tells. destruct e as [sz c pr ti ae ms au]. cbn [ev_cat ev_pri ev_time ev_aeid ev_msg ev_aux].
  assert (T : (0 <= ti < 2 ^ 64)%Z -> (ti / hz <= 253402300799)%Z -> exists s t, clock_encode hz ti 64 = Some s /\ written s t /\ (instant t * hz = ti * 10 ^ 9)%Z)
    by (intros; now apply clock_encode_64).
  unfold encode_event. cbn [ev_cat ev_pri ev_time ev_aeid ev_msg ev_aux].
  destruct (clock_encode hz ti 64) as [s|]; destruct ae as [|a1 ae]; destruct ms as [|m1 ms]; cbn [text_prop app].
  all: split; [cbn [map fst]; nodup_names|]; (split; [now left|]); (split; [right; now left|]).
  all: split; [intros X Y; destruct (T X Y) as (s' & t' & E & W & I)|].
  all: try (assert (s' = s) by congruence; subst s'; exists s, t'; split; [right; right; now left|split; assumption]).
  all: try discriminate.
  all: split; [intros q; split; [intros H; cbn [In] in H; repeat (destruct H as [H|H]; [try discriminate H|]); try contradiction|intros [-> H]; try (now elim H); cbn [In]; tauto]|].
  all: try (match goal with H : (_, RStr _) = (_, RStr _) |- _ => split; [congruence|intros Q; subst q; congruence] end).
  all: split; [intros q; split; [intros H; cbn [In] in H; repeat (destruct H as [H|H]; [try discriminate H|]); try contradiction|intros [-> H]; try (now elim H); cbn [In]; tauto]|].
  all: try (match goal with H : (_, RStr _) = (_, RStr _) |- _ => split; [congruence|intros Q; subst q; congruence] end).
  all: cbn [In]; tauto.
Qed.

Lemma get_tells hz a i : (0 < hz)%Z -> (hz | 10 ^ 9)%Z -> sound a -> a_unit a = 0 -> i = 2 \/ i = 32 ->
  exists l objs, get_ael hz 0 a i = Content l /\ NoDup (map fst l) /\
    In (str "categoryfilter", RInt (Z.of_N (a_cat a))) l /\ In (str "priorityfilter", RInt (Z.of_N (a_pri a))) l /\
    In (str "maxspace", RInt (Z.of_N (a_max a))) l /\ In (str "usedspace", RInt (Z.of_N (total (a_events a)))) l /\
    In (str "events", RObjArr objs) l /\ Forall2 (tells hz) (a_events a) objs.
Proof.
  intros A B (U & _) Hu Hi.
  assert (F : Forall2 (tells hz) (a_events a) (map (encode_event hz false) (a_events a))).
  { clear U. induction (a_events a) as [|e l IH]; cbn [map]; constructor; [now apply event_tells|exact IH]. }
  assert (E : exists b, get_ael hz 0 a i = Content (encode hz 0 b false a)) by (destruct Hi as [->| ->]; [now exists true|now exists false]).
  destruct E as (b & E). exists (encode hz 0 b false a), (map (encode_event hz false) (a_events a)). split; [exact E|].
  unfold encode, max_space, used_space. rewrite Hu, U. cbn [orb]. change (0 =? 0) with true. cbv iota.
  split; [destruct b; cbn [app map fst baseline]; nodup_names|].
  assert (X : forall x, In x ([(str "categoryfilter", RInt (Z.of_N (a_cat a))); (str "priorityfilter", RInt (Z.of_N (a_pri a)))] ++
    [(str "maxspace", RInt (Z.of_N (a_max a))); (str "usedspace", RInt (Z.of_N (total (a_events a))))] ++ [(str "events", RObjArr (map (encode_event hz false) (a_events a)))]) ->
    In x ((if b then baseline else []) ++ [(str "categoryfilter", RInt (Z.of_N (a_cat a))); (str "priorityfilter", RInt (Z.of_N (a_pri a)))] ++
    [(str "maxspace", RInt (Z.of_N (a_max a))); (str "usedspace", RInt (Z.of_N (total (a_events a))))] ++ [(str "events", RObjArr (map (encode_event hz false) (a_events a)))])).
  { intros x I. apply in_or_app. now right. }
  split; [apply X; cbn [app In]; tauto|]. split; [apply X; cbn [app In]; tauto|]. split; [apply X; cbn [app In]; tauto|]. split; [apply X; cbn [app In]; tauto|].
  split; [apply X; cbn [app In]; tauto|exact F].
Qed.

(** * POST *)
Lemma filter_cat a z : decode_filter false a (str "categoryfilter", RInt z) = mkAel (u8 z) (a_pri a) (a_max a) (a_unit a) (a_used a) (a_events a).
Proof. reflexivity. Qed.
Lemma filter_pri a z : decode_filter false a (str "priorityfilter", RInt z) = mkAel (a_cat a) (u8 z) (a_max a) (a_unit a) (a_used a) (a_events a).
Proof. reflexivity. Qed.
Lemma filter_cases a r :
  (exists z, r = (str "categoryfilter", RInt z)) \/ (exists z, r = (str "priorityfilter", RInt z)) \/ decode_filter false a r = a.
Proof.
  destruct r as [n v]. unfold decode_filter. cbn [fst snd]. destruct v; try (right; right; reflexivity).
  destruct (list_eqb n (str "categoryfilter")) eqn:E1; [left; exists z; apply list_eqb_spec in E1; now subst|].
  destruct (list_eqb n (str "priorityfilter")) eqn:E2; [right; left; exists z; apply list_eqb_spec in E2; now subst|]. right. right. reflexivity.
Qed.
Definition same_rest (a b : ael) : Prop := a_max a = a_max b /\ a_unit a = a_unit b /\ a_used a = a_used b /\ a_events a = a_events b.
Lemma fold_rest l : forall a, same_rest (fold_left (decode_filter false) l a) a.
Proof.
  induction l as [|r l IH]; intros a; cbn [fold_left]; [repeat split|].
  destruct (IH (decode_filter false a r)) as (A & B & C & D).
  assert (R : same_rest (decode_filter false a r) a).
  { destruct (filter_cases a r) as [[z ->]|[[z ->]|E]]; [rewrite filter_cat|rewrite filter_pri|rewrite E]; repeat split. }
  destruct R as (A' & B' & C' & D'). unfold same_rest. split; [congruence|]. split; [congruence|]. split; congruence.
Qed.
Lemma fold_cat_none l : forall a, no_int l (str "categoryfilter") -> a_cat (fold_left (decode_filter false) l a) = a_cat a.
Proof.
  induction l as [|r l IH]; intros a H; cbn [fold_left]; [reflexivity|]. rewrite IH by (intros z I; apply (H z); now right).
  destruct (filter_cases a r) as [[z ->]|[[z ->]|E]]; [exfalso; apply (H z); now left|rewrite filter_pri; reflexivity|now rewrite E].
Qed.
Lemma fold_pri_none l : forall a, no_int l (str "priorityfilter") -> a_pri (fold_left (decode_filter false) l a) = a_pri a.
Proof.
  induction l as [|r l IH]; intros a H; cbn [fold_left]; [reflexivity|]. rewrite IH by (intros z I; apply (H z); now right).
  destruct (filter_cases a r) as [[z ->]|[[z ->]|E]]; [rewrite filter_cat; reflexivity|exfalso; apply (H z); now left|now rewrite E].
Qed.
Lemma fold_cat_last l a z : last_int l (str "categoryfilter") z -> a_cat (fold_left (decode_filter false) l a) = Z.to_N (z mod 256).
Proof. intros (x & y & -> & H). rewrite fold_left_app. cbn [fold_left]. rewrite fold_cat_none by exact H. rewrite filter_cat. reflexivity. Qed.
Lemma fold_pri_last l a z : last_int l (str "priorityfilter") z -> a_pri (fold_left (decode_filter false) l a) = Z.to_N (z mod 256).
Proof. intros (x & y & -> & H). rewrite fold_left_app. cbn [fold_left]. rewrite fold_pri_none by exact H. rewrite filter_pri. reflexivity. Qed.

Lemma post_changes hz p d w i l : i = 2 \/ i = 32 ->
  exists a, step hz p d (OPost w false i l) = Ok (mkDev a (if w then Some (dump hz a) else dv_store d), Changed_) /\
    a_max a = a_max (dv_log d) /\ a_unit a = a_unit (dv_log d) /\ a_used a = a_used (dv_log d) /\ a_events a = a_events (dv_log d) /\
    (no_int l (str "categoryfilter") -> a_cat a = a_cat (dv_log d)) /\ (forall z, last_int l (str "categoryfilter") z -> a_cat a = Z.to_N (z mod 256)) /\
    (no_int l (str "priorityfilter") -> a_pri a = a_pri (dv_log d)) /\ (forall z, last_int l (str "priorityfilter") z -> a_pri a = Z.to_N (z mod 256)).
Proof.
  intros Hi. exists (fold_left (decode_filter false) l (dv_log d)). split; [destruct Hi as [->| ->]; reflexivity|].
  destruct (fold_rest l (dv_log d)) as (A & B & C & D). split; [exact A|]. split; [exact B|]. split; [exact C|]. split; [exact D|].
  split; [apply fold_cat_none|]. split; [intros z; apply fold_cat_last|]. split; [apply fold_pri_none|intros z; apply fold_pri_last].
Qed.

(** * The text of entries *)
Lemma hexchar_dig d : d < 16 -> hexchar d = hexdig d.
Proof.
  intros H. assert (S : forallb (fun d => hexchar d =? hexdig d) (map N.of_nat (List.seq 0 16)) = true) by (vm_compute; reflexivity).
  rewrite forallb_forall in S. apply N.eqb_eq, S. apply in_map_iff. exists (N.to_nat d). split; [lia|]. apply in_seq. lia.
Qed.
Lemma hex2_dig b : b < 256 -> hex2 b = [hexdig (b / 16); hexdig (b mod 16)].
Proof.
  intros H. unfold hex2. rewrite !hexchar_dig; [reflexivity| |]; [apply N.mod_lt; lia|apply N.div_lt_upper_bound; lia].
Qed.
Lemma dump_rest l : forall room beg, (room = beg + 3 * List.length l + 1)%nat -> dump_bytes room beg false l = List.concat (map (fun b => 58 :: hex2 b) l).
Proof.
  induction l as [|b l IH]; intros room beg E; cbn [dump_bytes map List.concat]; [reflexivity|]. cbn [List.length] in E.
  destruct (Nat.leb_spec (beg + 3) room) as [_|?]; [|lia]. f_equal.
  - apply firstn_all2. cbn [List.length hex2]. lia.
  - apply IH. cbn [List.length hex2]. lia.
Qed.
Lemma colons_cons b l : b < 256 -> Forall (fun c => c < 256) l -> colons (b :: l) = hex2 b ++ List.concat (map (fun c => 58 :: hex2 c) l).
Proof.
  revert b. induction l as [|c l IH]; intros b Hb Hl; [cbn [colons map List.concat]; rewrite hex2_dig by exact Hb; reflexivity|].
  apply Forall_cons_iff in Hl. destruct Hl as [Hc Hl]. change (colons (b :: c :: l)) with (hexdig (b / 16) :: hexdig (b mod 16) :: 58 :: colons (c :: l)).
  rewrite (IH c Hc Hl). rewrite (hex2_dig b Hb). reflexivity.
Qed.
Lemma message_text data : bytes_ok data -> data <> [] -> message_line data = Some (colons (firstn 42 data)).
Proof.
  intros B Hd. unfold message_line. cbv zeta.
  assert (E : firstn (Nat.min (List.length data) 42) data = firstn 42 data).
  { destruct (Nat.le_gt_cases (List.length data) 42) as [L|L]; [rewrite Nat.min_l by lia; now rewrite !firstn_all2 by lia|now rewrite Nat.min_r by lia]. }
  assert (B' : Forall (fun c => c < 256) (firstn 42 data)).
  { rewrite Forall_forall. intros c I. unfold bytes_ok in B. rewrite Forall_forall in B. apply B. rewrite <- (firstn_skipn 42 data). apply in_or_app. now left. }
  assert (N0 : (Nat.min (List.length data) 42 <> 0)%nat) by (destruct data; [now elim Hd|cbn [List.length]; lia]).
  destruct (Nat.eqb_spec (Nat.min (List.length data) 42) 0) as [?|_]; [lia|]. f_equal. rewrite E.
  assert (L : List.length (firstn 42 data) = Nat.min (List.length data) 42) by (rewrite firstn_length; lia).
  rewrite <- L in *. destruct (firstn 42 data) as [|b l]; [now elim N0|]. apply Forall_cons_iff in B'. destruct B' as [Hb Hl].
  rewrite (colons_cons b l Hb Hl). cbn [dump_bytes]. cbn [List.length]. destruct (Nat.leb_spec (0 + 3) (3 * S (List.length l))) as [_|?]; [|lia]. f_equal.
  - apply firstn_all2. cbn [List.length hex2]. lia.
  - apply dump_rest. cbn [List.length hex2]. lia.
Qed.
Lemma colons_len l : l <> [] -> List.length (colons l) = (3 * List.length l - 1)%nat.
Proof.
  induction l as [|b l IH]; intros H; [now elim H|]. destruct l as [|c l]; [reflexivity|].
  change (colons (b :: c :: l)) with (hexdig (b / 16) :: hexdig (b mod 16) :: 58 :: colons (c :: l)). cbn [List.length] in *. rewrite IH by discriminate. lia.
Qed.

(** Lines. *)
Lemma cstr_cut a r : plain_text a -> cstr (a ++ 0 :: r) = a.
Proof.
  unfold plain_text. induction a as [|c a IH]; intros H; cbn [app cstr]; [reflexivity|].
  destruct (N.eqb_spec c 0) as [->|_]; [exfalso; apply H; now left|]. f_equal. apply IH. intros I. apply H. now right.
Qed.
Lemma cstr_app0 b r : In 0 b -> cstr (b ++ r) = cstr b.
Proof.
  induction b as [|c b IH]; intros H; [destruct H|]. cbn [app cstr]. destruct (N.eqb_spec c 0) as [_|n]; [reflexivity|]. f_equal. apply IH.
  destruct H as [->|H]; [now elim n|exact H].
Qed.
Definition blocks (bl : list (list N)) : Prop := List.length bl = 6%nat /\ Forall (fun b => List.length b = width) bl.
Lemma concat_len (bl : list (list N)) : Forall (fun b => List.length b = width) bl -> List.length (List.concat bl) = (List.length bl * width)%nat.
Proof. induction 1 as [|b bl H _ IH]; [reflexivity|]. cbn [List.concat List.length]. rewrite app_length, IH, H. lia. Qed.
Lemma blocks_at bl i : blocks bl -> (i < 6)%nat ->
  List.concat bl = List.concat (firstn i bl) ++ nth i bl [] ++ List.concat (skipn (S i) bl) /\ List.length (List.concat (firstn i bl)) = (i * width)%nat /\
  List.length (nth i bl []) = width /\ List.length (List.concat (skipn (S i) bl)) = ((5 - i) * width)%nat.
Proof.
  intros [L F] Hi. assert (E : bl = firstn i bl ++ nth i bl [] :: skipn (S i) bl).
  { rewrite <- (firstn_skipn i bl) at 1. f_equal. clear F. revert bl L. assert (G : forall (i : nat) (bl : list (list N)), (i < List.length bl)%nat -> skipn i bl = nth i bl [] :: skipn (S i) bl).
    { clear. induction i as [|i IH]; intros bl H; destruct bl as [|b bl]; cbn [List.length] in H; try lia; [reflexivity|]. cbn [skipn nth]. apply IH. lia. }
    intros bl L. apply G. lia. }
  split; [rewrite E at 1; rewrite concat_app; reflexivity|]. rewrite E in F. apply Forall_app in F. destruct F as [F1 F2]. apply Forall_cons_iff in F2. destruct F2 as [F2 F3].
  split; [rewrite concat_len by exact F1; rewrite firstn_length; f_equal; lia|]. split; [exact F2|]. rewrite concat_len by exact F3. rewrite skipn_length. f_equal. lia.
Qed.
Definition set_block (bl : list (list N)) (i : nat) (b : list N) : list (list N) := firstn i bl ++ b :: skipn (S i) bl.
Lemma put_block bl i pos s : blocks bl -> (i < 6)%nat -> (pos + List.length s <= width)%nat ->
  put (List.concat bl) (i * width + pos) s =
  Ok (List.concat (set_block bl i (firstn pos (nth i bl []) ++ s ++ skipn (pos + List.length s) (nth i bl [])))).
Proof.
  intros B Hi Hs. destruct (blocks_at bl i B Hi) as (E & L1 & L2 & L3). unfold put.
  destruct (Nat.leb_spec (i * width + pos + List.length s) area) as [_|H]; [|unfold area, lines, width in *; lia]. f_equal.
  unfold set_block. rewrite concat_app. cbn [List.concat]. rewrite E at 1 2.
  rewrite firstn_app, firstn_all2 by lia. rewrite L1. replace (i * width + pos - i * width)%nat with pos by lia.
  rewrite firstn_app. replace (pos - List.length (nth i bl []))%nat with 0%nat by lia. cbn [firstn]. rewrite app_nil_r.
  rewrite skipn_app, skipn_all2 by lia. rewrite L1. replace (i * width + pos + List.length s - i * width)%nat with (pos + List.length s)%nat by lia.
  rewrite skipn_app. replace (pos + List.length s - List.length (nth i bl []))%nat with 0%nat by lia. cbn [skipn app]. rewrite <- !app_assoc. reflexivity.
Qed.
Lemma set_blocks bl i b : blocks bl -> (i < 6)%nat -> List.length b = width -> blocks (set_block bl i b).
Proof.
  intros [L F] Hi Hb. unfold set_block. split.
  - rewrite app_length. cbn [List.length]. rewrite firstn_length, skipn_length. lia.
  - rewrite <- (firstn_skipn i bl) in F. apply Forall_app in F. destruct F as [F1 F2]. apply Forall_app. split; [exact F1|]. constructor; [exact Hb|].
    assert (G : forall (i : nat) (bl : list (list N)), Forall (fun b => List.length b = width) (skipn i bl) -> Forall (fun b => List.length b = width) (skipn (S i) bl)).
    { clear. induction i as [|i IH]; intros bl H; destruct bl as [|b bl]; try exact H; [now inversion H|]. apply (IH bl). exact H. }
    apply G, F2.
Qed.
Lemma put_line_len bl i pos s : blocks bl -> (i < 6)%nat -> (pos + List.length s <= width)%nat ->
  List.length (firstn pos (nth i bl []) ++ s ++ skipn (pos + List.length s) (nth i bl [])) = width.
Proof. intros B Hi Hs. destruct (blocks_at bl i B Hi) as (_ & _ & L & _). rewrite !app_length, firstn_length, skipn_length. lia. Qed.
Lemma print_line bl i t : blocks bl -> (i < 6)%nat -> (List.length t < width)%nat ->
  exists r, print (List.concat bl) (i * width) width t = Ok (List.concat (set_block bl i (t ++ 0 :: r))) /\ List.length (t ++ 0 :: r) = width.
Proof.
  intros B Hi Ht. unfold print. change ((width =? 0)%nat) with false. cbv iota. rewrite firstn_all2 by (unfold width in *; lia).
  assert (Hs : (0 + List.length (t ++ [0%N]) <= width)%nat) by (rewrite app_length; cbn [List.length]; lia).
  pose proof (put_block bl i 0 (t ++ [0]) B Hi Hs) as P. rewrite Nat.add_0_r in P. rewrite P. cbn [firstn app Nat.add].
  pose proof (put_line_len bl i 0 (t ++ [0]) B Hi Hs) as Q. cbn [firstn app Nat.add] in Q. rewrite <- app_assoc in *. cbn [app] in *.
  eexists. split; [reflexivity|exact Q].
Qed.
Lemma line_at bl i : blocks bl -> (i < 6)%nat -> In 0 (nth i bl []) -> line (List.concat bl) i = Ok (cstr (nth i bl [])).
Proof.
  intros B Hi I. destruct (blocks_at bl i B Hi) as (E & L1 & L2 & L3). unfold line. rewrite E, skipn_app, skipn_all2 by lia. rewrite L1, Nat.sub_diag. rewrite skipn_O. cbn [app].
  destruct (existsb (N.eqb 0) _) eqn:X; [now rewrite cstr_app0|].
  assert (Y : existsb (N.eqb 0) (nth i bl [] ++ List.concat (skipn (S i) bl)) = true) by (apply existsb_exists; exists 0; split; [apply in_or_app; now left|reflexivity]). congruence.
Qed.

(** The line of the roles. *)
Definition filled (full : list N) (blk : list N) : Prop :=
  List.length blk = width /\ plain_text full /\ exists r, blk = firstn 78 full ++ 0 :: r.
Lemma firstn_app_le {A} n (a b : list A) : (n <= List.length a)%nat -> firstn n (a ++ b) = firstn n a.
Proof. intros H. rewrite firstn_app. replace (n - List.length a)%nat with 0%nat by lia. cbn [firstn]. apply app_nil_r. Qed.
Lemma role_step bl i full r : blocks bl -> (i < 6)%nat -> filled full (nth i bl []) \/ full = [] -> plain_text full -> plain_text r -> (List.length full < width)%nat ->
  exists blk, print (List.concat bl) (i * width + List.length full) (width - List.length full - 1) (r ++ [32]) = Ok (List.concat (set_block bl i blk)) /\ filled (full ++ r ++ [32]) blk.
Proof.
  intros B Hi Fi Pf Pr L. destruct (blocks_at bl i B Hi) as (E & L1 & L2 & L3).
  assert (P2 : plain_text (full ++ r ++ [32])).
  { intros I. apply in_app_or in I. destruct I as [I|I]; [now apply Pf|]. apply in_app_or in I. destruct I as [I|[I|[]]]; [now apply Pr|discriminate I]. }
  unfold print. destruct (Nat.eqb_spec (width - List.length full - 1) 0) as [Z0|NZ].
  - (* no room: 79 bytes already *)
    assert (F79 : List.length full = 79%nat) by (unfold width in *; lia). destruct Fi as [(_ & _ & q & Eq)|Fi]; [|subst full; discriminate F79].
    exists (nth i bl []). split; [f_equal; rewrite E; unfold set_block; rewrite concat_app; reflexivity|].
    split; [exact L2|]. split; [exact P2|]. exists q. rewrite firstn_app_le by lia. exact Eq.
  - set (s := firstn (width - List.length full - 1 - 1) (r ++ [32]) ++ [0]).
    assert (Ls : (List.length full + List.length s <= width)%nat) by (unfold s; rewrite app_length, firstn_length; cbn [List.length]; unfold width in *; lia).
    rewrite (put_block bl i (List.length full) s B Hi Ls). eexists. split; [reflexivity|].
    split; [exact (put_line_len bl i (List.length full) s B Hi Ls)|]. split; [exact P2|].
    exists (skipn (List.length full + List.length s) (nth i bl [])).
    assert (F1 : firstn (List.length full) (nth i bl []) = full).
    { destruct Fi as [(_ & _ & q & Eq)|Fi]; [|subst full; reflexivity]. rewrite Eq. rewrite (firstn_all2 full) by (unfold width in *; lia). rewrite firstn_app_le by lia. apply firstn_all. }
    rewrite F1. unfold s. rewrite (firstn_app 78 full (r ++ [32])), (firstn_all2 full) by (unfold width in *; lia).
    replace (78 - List.length full)%nat with (width - List.length full - 1 - 1)%nat by (unfold width in *; lia). rewrite <- !app_assoc. reflexivity.
Qed.
Lemma set_nth bl i b : blocks bl -> (i < 6)%nat -> nth i (set_block bl i b) [] = b.
Proof.
  intros [L _] Hi. unfold set_block. rewrite app_nth2; rewrite firstn_length; [|lia]. replace (i - Nat.min i (List.length bl))%nat with 0%nat by lia. reflexivity.
Qed.
Lemma set_set bl i b c : blocks bl -> (i < 6)%nat -> set_block (set_block bl i b) i c = set_block bl i c.
Proof.
  intros [L _] Hi. unfold set_block. assert (Lf : List.length (firstn i bl) = i) by (rewrite firstn_length; lia).
  rewrite firstn_app, Lf, Nat.sub_diag. cbn [firstn]. rewrite app_nil_r, firstn_all2 by lia. f_equal. f_equal.
  rewrite skipn_app, Lf. rewrite skipn_all2 by lia. replace (S i - i)%nat with 1%nat by lia. reflexivity.
Qed.
Lemma firstn_78_stop (a b : list N) : (width <= List.length a)%nat -> firstn 78 (a ++ b) = firstn 78 a.
Proof. intros H. apply firstn_app_le. unfold width in H. lia. Qed.
Lemma roles_loop roles : forall bl i full, blocks bl -> (i < 6)%nat -> filled full (nth i bl []) -> Forall plain_text roles ->
  exists blk, role_lines (List.concat bl) (i * width) (List.length full) roles = Ok (List.concat (set_block bl i blk)) /\
    filled (full ++ List.concat (map (fun r => r ++ [32]) roles)) blk.
Proof.
  induction roles as [|r roles IH]; intros bl i full B Hi Fi Pl; cbn [role_lines map List.concat].
  - exists (nth i bl []). split; [f_equal; unfold set_block; rewrite concat_app; exact (proj1 (blocks_at bl i B Hi))|]. now rewrite app_nil_r.
  - apply Forall_cons_iff in Pl. destruct Pl as [Pr Pl]. pose proof Fi as (Lb & Pf & q & Eq).
    destruct (Nat.ltb_spec (List.length full) width) as [L|L].
    + destruct (role_step bl i full r B Hi (or_introl Fi) Pf Pr L) as (blk & E & F). rewrite E. cbn [bind].
      assert (B' : blocks (set_block bl i blk)) by (apply set_blocks; [exact B|exact Hi|apply F]).
      destruct (IH (set_block bl i blk) i (full ++ r ++ [32]) B' Hi) as (blk' & E' & F'); [rewrite set_nth by assumption; exact F|exact Pl|].
      exists blk'. replace (List.length full + List.length r + 1)%nat with (List.length (full ++ r ++ [32])) by (rewrite !app_length; cbn [List.length]; lia).
      rewrite E'. rewrite set_set by assumption. split; [reflexivity|]. rewrite <- !app_assoc in *. exact F'.
    + exists (nth i bl []). split; [f_equal; unfold set_block; rewrite concat_app; exact (proj1 (blocks_at bl i B Hi))|].
      split; [exact Lb|]. split.
      * intros I. apply in_app_or in I. destruct I as [I|I]; [now apply Pf|]. apply in_app_or in I. destruct I as [I|I].
        { apply in_app_or in I. destruct I as [I|[I|[]]]; [now apply Pr|discriminate I]. }
        { apply in_concat in I. destruct I as (x & I1 & I2). apply in_map_iff in I1. destruct I1 as (y & <- & I1). rewrite Forall_forall in Pl.
          apply in_app_or in I2. destruct I2 as [I2|[I2|[]]]; [now apply (Pl y I1)|discriminate I2]. }
      * exists q. rewrite firstn_78_stop by exact L. exact Eq.
Qed.
Lemma roles_first roles : forall bl i, roles <> [] -> blocks bl -> (i < 6)%nat -> Forall plain_text roles ->
  exists blk, role_lines (List.concat bl) (i * width) 0 roles = Ok (List.concat (set_block bl i blk)) /\ filled (List.concat (map (fun r => r ++ [32]) roles)) blk.
Proof.
  intros bl i Hn B Hi Pl. destruct roles as [|r roles]; [now elim Hn|]. apply Forall_cons_iff in Pl. destruct Pl as [Pr Pl]. cbn [role_lines map List.concat].
  change ((0 <? width)%nat) with true. cbv iota.
  destruct (role_step bl i [] r B Hi (or_intror eq_refl) (fun x => x) Pr) as (blk & E & F); [unfold width; cbn; lia|]. cbn [List.length app] in E, F. rewrite E. cbn [bind].
  assert (B' : blocks (set_block bl i blk)) by (apply set_blocks; [exact B|exact Hi|apply F]).
  destruct (roles_loop roles (set_block bl i blk) i (r ++ [32]) B' Hi) as (blk' & E' & F'); [rewrite set_nth by assumption; exact F|exact Pl|].
  exists blk'. replace (0 + List.length r + 1)%nat with (List.length (r ++ [32])) by (rewrite !app_length; cbn [List.length]; lia).
  rewrite E', set_set by assumption. split; [reflexivity|exact F'].
Qed.

(** The whole entry. *)
Lemma zero_blocks : blocks (repeat (repeat 0 width) 6).
Proof. split; [reflexivity|]. repeat constructor. Qed.
Lemma zero_area : repeat 0 area = List.concat (repeat (repeat 0 width) 6).
Proof. vm_compute. reflexivity. Qed.
Lemma skipn_zeros k n : skipn k (repeat 0%N n) = repeat 0 (n - k).
Proof.
  revert n. induction k as [|k IH]; intros n; [now rewrite Nat.sub_0_r|]. destruct n as [|n]; [reflexivity|]. cbn [repeat skipn Nat.sub]. apply IH.
Qed.
(** The address is copied over zeros: one more zero than bytes is needed. *)
Lemma put_uri bl i uri : blocks bl -> (i < 6)%nat -> nth i bl [] = repeat 0 width -> (List.length uri < width)%nat ->
  exists r, put (List.concat bl) (i * width) uri = Ok (List.concat (set_block bl i (uri ++ 0 :: r))) /\ List.length (uri ++ 0 :: r) = width.
Proof.
  intros B Hi Z L. assert (Hs : (0 + List.length uri <= width)%nat) by lia.
  pose proof (put_block bl i 0 uri B Hi Hs) as P. pose proof (put_line_len bl i 0 uri B Hi Hs) as Q. rewrite Nat.add_0_r in P. cbn [firstn app Nat.add] in P, Q.
  rewrite Z, skipn_zeros in P, Q. destruct (width - List.length uri)%nat as [|k] eqn:K; [lia|]. cbn [repeat] in P, Q. eexists. split; [exact P|exact Q].
Qed.
Lemma verb_spec m : (m <= 4)%nat -> method_str (N.of_nat m) = verb m /\ (List.length (verb m) <= 8)%nat /\ ~ In 0 (verb m).
Proof.
  intros H. do 5 (destruct m as [|m]; [split; [reflexivity|]; split; [cbn; lia|]; vm_compute; intros I; repeat (destruct I as [I|I]; [discriminate I|]); exact I|]). lia.
Qed.
Lemma mode_spec m : (m <= 4)%nat -> state_str (N.of_nat m) = mode m /\ (List.length (mode m) <= 6)%nat /\ ~ In 0 (mode m).
Proof.
  intros H. do 5 (destruct m as [|m]; [split; [reflexivity|]; split; [cbn; lia|]; vm_compute; intros I; repeat (destruct I as [I|I]; [discriminate I|]); exact I|]). lia.
Qed.
Lemma plain_app a b : plain_text a -> plain_text b -> plain_text (a ++ b).
Proof. intros A B I. apply in_app_or in I. destruct I; [now apply A|now apply B]. Qed.
Ltac lit := vm_compute; let I := fresh in intros I; repeat (destruct I as [I|I]; [discriminate I|]); exact I.

Lemma line_text bl i t r : blocks bl -> (i < 6)%nat -> nth i bl [] = t ++ 0 :: r -> plain_text t -> line (List.concat bl) i = Ok t.
Proof.
  intros B Hi E P. rewrite line_at; [|exact B|exact Hi|rewrite E; apply in_or_app; right; now left]. rewrite E, cstr_cut by exact P. reflexivity.
Qed.

Lemma six (bl : list (list N)) : blocks bl -> exists b0 b1 b2 b3 b4 b5, bl = [b0; b1; b2; b3; b4; b5].
Proof.
  intros [L _]. destruct bl as [|b0 [|b1 [|b2 [|b3 [|b4 [|b5 [|b6 bl]]]]]]]; try discriminate L. now exists b0, b1, b2, b3, b4, b5.
Qed.

(** The part common to both cases: from line [i] on, lines above untouched. *)
Lemma tail_lines bl i uri m s roles : blocks bl -> (i = 1 \/ i = 2)%nat -> (forall j, (i <= j < 6)%nat -> nth j bl [] = repeat 0 width) ->
  plain_text uri -> (List.length uri < width)%nat -> (m <= 4)%nat -> (s <= 4)%nat -> Forall plain_text roles ->
  exists b7 r0 r1 r2 r3,
    bind (put (List.concat bl) (i * width) uri) (fun b3 =>
    bind (print b3 ((i + 1) * width) width (str "attempt to " ++ method_str (N.of_nat m) ++ str " the resource")) (fun b4 =>
    bind (print b4 ((i + 2) * width) width (str "device is in " ++ state_str (N.of_nat s))) (fun b5 =>
    bind (print b5 ((i + 3) * width) width (str "No roles asserted")) (fun b6 =>
    bind (match roles with [] => Ok b6 | _ => role_lines b6 ((i + 3) * width) 0 roles end) (fun b7 => Ok (b7, (i + 4)%nat)))))) = Ok (List.concat b7, (i + 4)%nat) /\
    blocks b7 /\ (forall j, (j < i)%nat -> nth j b7 [] = nth j bl []) /\
    nth i b7 [] = uri ++ 0 :: r0 /\ nth (i + 1) b7 [] = (str "attempt to " ++ verb m ++ str " the resource") ++ 0 :: r1 /\
    nth (i + 2) b7 [] = (str "device is in " ++ mode s) ++ 0 :: r2 /\ nth (i + 3) b7 [] = roles_line roles ++ 0 :: r3 /\ plain_text (roles_line roles).
Proof.
  intros B Hi Z Pu Lu Hm Hs Pr. destruct (verb_spec m Hm) as (Ev & Lv & _). destruct (mode_spec s Hs) as (Em & Lm & _). rewrite Ev, Em.
  assert (I6 : (i + 3 < 6)%nat) by lia.
  destruct (put_uri bl i uri B) as (r0 & E0 & L0); [lia|apply Z; lia|exact Lu|]. rewrite E0. cbn [bind].
  set (bl1 := set_block bl i (uri ++ 0 :: r0)). assert (B1 : blocks bl1) by (apply set_blocks; [exact B|lia|exact L0]).
  destruct (print_line bl1 (i + 1) (str "attempt to " ++ verb m ++ str " the resource") B1) as (r1 & E1 & L1); [lia|rewrite !app_length; unfold width; cbn [str List.length]; lia|]. rewrite E1. cbn [bind].
  set (bl2 := set_block bl1 (i + 1) ((str "attempt to " ++ verb m ++ str " the resource") ++ 0 :: r1)). assert (B2 : blocks bl2) by (apply set_blocks; [exact B1|lia|exact L1]).
  destruct (print_line bl2 (i + 2) (str "device is in " ++ mode s) B2) as (r2 & E2 & L2); [lia|rewrite !app_length; unfold width; cbn [str List.length]; lia|]. rewrite E2. cbn [bind].
  set (bl3 := set_block bl2 (i + 2) ((str "device is in " ++ mode s) ++ 0 :: r2)). assert (B3 : blocks bl3) by (apply set_blocks; [exact B2|lia|exact L2]).
  destruct (print_line bl3 (i + 3) (str "No roles asserted") B3) as (r3 & E3 & L3); [lia|vm_compute; lia|]. rewrite E3. cbn [bind].
  set (bl4 := set_block bl3 (i + 3) (str "No roles asserted" ++ 0 :: r3)). assert (B4 : blocks bl4) by (apply set_blocks; [exact B3|lia|exact L3]).
  assert (Fin : exists blk r4, bind (match roles with [] => Ok (List.concat bl4) | _ => role_lines (List.concat bl4) ((i + 3) * width) 0 roles end) (fun b7 => Ok (b7, (i + 4)%nat)) =
      Ok (List.concat (set_block bl4 (i + 3) blk), (i + 4)%nat) /\ List.length blk = width /\ blk = roles_line roles ++ 0 :: r4 /\ plain_text (roles_line roles)).
  { destruct roles as [|ro roles].
    - exists (str "No roles asserted" ++ 0 :: r3), r3. cbn [bind]. split; [unfold bl4; now rewrite set_set by assumption|]. split; [exact L3|]. split; [reflexivity|]. cbn [roles_line]. lit.
    - destruct (roles_first (ro :: roles) bl4 (i + 3)%nat) as (blk & E & F); [discriminate|exact B4|lia|exact Pr|]. rewrite E. cbn [bind]. destruct F as (Lb & Pb & r4 & Eb).
      exists blk, r4. split; [reflexivity|]. split; [exact Lb|]. split; [exact Eb|]. cbn [roles_line]. intros I. apply Pb. rewrite <- (firstn_skipn 78). apply in_or_app. now left. }
  destruct Fin as (blk & r4 & E4 & L4 & Eb & Pb). exists (set_block bl4 (i + 3) blk), r0, r1, r2, r4. split; [exact E4|].
  split; [apply set_blocks; assumption|].
  destruct (six bl B) as (c0 & c1 & c2 & c3 & c4 & c5 & Ec).
  assert (X : set_block bl4 (i + 3) blk = firstn i bl ++ [uri ++ 0 :: r0; (str "attempt to " ++ verb m ++ str " the resource") ++ 0 :: r1; (str "device is in " ++ mode s) ++ 0 :: r2; blk] ++ skipn (i + 4) bl).
  { unfold bl4, bl3, bl2, bl1, set_block. rewrite Ec. destruct Hi as [->| ->]; reflexivity. }
  rewrite X. rewrite Ec. rewrite Eb. destruct Hi as [->| ->].
  - split; [intros j Hj; destruct j as [|j]; [reflexivity|lia]|]. split; [reflexivity|]. split; [reflexivity|]. split; [reflexivity|]. split; [reflexivity|exact Pb].
  - split; [intros j Hj; destruct j as [|[|j]]; [reflexivity|reflexivity|lia]|]. split; [reflexivity|]. split; [reflexivity|]. split; [reflexivity|]. split; [reflexivity|exact Pb].
Qed.

Definition peer_plain (peer : option (list N * list (list N))) : Prop :=
  match peer with None => True | Some (u, roles) => plain_text u /\ (List.length u < 80)%nat /\ Forall plain_text roles end.

Lemma zero_nth j : (j < 6)%nat -> nth j (repeat (repeat 0 width) 6) [] = repeat 0 width.
Proof. intros H. do 6 (destruct j as [|j]; [reflexivity|]). lia. Qed.

Lemma denied_text ip peer uri m s : plain_text ip -> (List.length ip < 80)%nat -> peer_plain peer -> plain_text uri -> (List.length uri < 80)%nat -> (m <= 4)%nat -> (s <= 4)%nat ->
  denied_entry ip peer uri (N.of_nat m) (N.of_nat s) = Ok (denied_lines ip peer uri m s).
Proof.
  intros Pi Li Pp Pu Lu Hm Hs. change 80%nat with width in *. unfold denied_entry, audit_area. rewrite zero_area.
  destruct (print_line (repeat (repeat 0 width) 6) 0 ip zero_blocks) as (r & E & L); [lia|exact Li|]. change (0 * width)%nat with 0%nat in E. rewrite E. cbn [bind].
  set (b1 := set_block (repeat (repeat 0 width) 6) 0 (ip ++ 0 :: r)). assert (B1 : blocks b1) by (apply set_blocks; [exact zero_blocks|lia|exact L]).
  assert (Z1 : forall j, (1 <= j < 6)%nat -> nth j b1 [] = repeat 0 width).
  { intros j Hj. unfold b1, set_block. cbn [firstn app]. destruct j as [|j]; [lia|]. cbn [nth]. change (skipn 1 (repeat (repeat 0 width) 6)) with (repeat (repeat 0 width) 5).
    do 5 (destruct j as [|j]; [reflexivity|]). lia. }
  assert (V : plain_text (str "attempt to " ++ verb m ++ str " the resource")).
  { apply plain_app; [lit|]. apply plain_app; [apply verb_spec; exact Hm|lit]. }
  assert (W : plain_text (str "device is in " ++ mode s)) by (apply plain_app; [lit|apply mode_spec; exact Hs]).
  destruct peer as [[u roles]|].
  - destruct Pp as (P1 & P2 & P3). destruct (print_line b1 1 u B1) as (ru & Eu & Lu'); [lia|exact P2|]. change (1 * width)%nat with width in Eu. rewrite Eu. cbn [bind].
    set (b2 := set_block b1 1 (u ++ 0 :: ru)). assert (B2 : blocks b2) by (apply set_blocks; [exact B1|lia|exact Lu']).
    destruct (tail_lines b2 2 uri m s roles B2) as (b7 & r0 & r1 & r2 & r3 & E7 & B7 & K & N0 & N1 & N2 & N3 & Pr); try assumption; [now right| |].
    { intros j Hj. rewrite <- (Z1 j) by lia. unfold b2, set_block. destruct (six b1 B1) as (c0 & c1 & c2 & c3 & c4 & c5 & ->). destruct j as [|[|j]]; [lia|lia|reflexivity]. }
    assert (E7' : forall b6, (match roles with [] => Ok b6 | _ => role_lines b6 ((2 + 3) * width) 0 roles end) = role_lines b6 ((2 + 3) * width) 0 roles) by (intros; destruct roles; reflexivity).
    match type of E7 with ?x = _ => match goal with |- bind ?y _ = _ => replace y with x end end.
    2:{ cbn [bind]. repeat match goal with |- bind ?x _ = bind ?x _ => destruct x; cbn [bind]; [|reflexivity|reflexivity] end. now rewrite E7'. }
    rewrite E7. cbn [bind fst snd Nat.add read_lines].
    rewrite (line_text b7 0 ip r B7); [|lia|rewrite K by lia; reflexivity|exact Pi]. cbn [bind].
    rewrite (line_text b7 1 u ru B7); [|lia|rewrite K by lia; reflexivity|exact P1]. cbn [bind].
    rewrite (line_text b7 2 uri r0 B7); [|lia|exact N0|exact Pu]. cbn [bind].
    rewrite (line_text b7 3 _ r1 B7 ltac:(lia) N1 V). cbn [bind].
    rewrite (line_text b7 4 _ r2 B7 ltac:(lia) N2 W). cbn [bind].
    rewrite (line_text b7 5 _ r3 B7 ltac:(lia) N3 Pr). reflexivity.
  - cbn [bind]. destruct (tail_lines b1 1 uri m s [] B1) as (b7 & r0 & r1 & r2 & r3 & E7 & B7 & K & N0 & N1 & N2 & N3 & Pr); try assumption; [now left|constructor|].
    match type of E7 with ?x = _ => match goal with |- bind ?y _ = _ => replace y with x end end.
    2:{ reflexivity. }
    rewrite E7. cbn [bind fst snd Nat.add read_lines].
    rewrite (line_text b7 0 ip r B7); [|lia|rewrite K by lia; reflexivity|exact Pi]. cbn [bind].
    rewrite (line_text b7 1 uri r0 B7); [|lia|exact N0|exact Pu]. cbn [bind].
    rewrite (line_text b7 2 _ r1 B7 ltac:(lia) N1 V). cbn [bind].
    rewrite (line_text b7 3 _ r2 B7 ltac:(lia) N2 W). cbn [bind].
    rewrite (line_text b7 4 _ r3 B7 ltac:(lia) N3 Pr). reflexivity.
Qed.
