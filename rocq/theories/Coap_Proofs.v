From Verif Require Import Common Oscore_Model Oscore_Spec Oscore_Proofs Coap_Model Coap_Spec.
Local Open Scope N_scope.

(** ** Option header *)
Lemma nibble_ext (v : N) : v < 65805 -> rfc_ext v (option_nibble v) (ext_bytes v).
Proof.
  intros Hv. unfold option_nibble, ext_bytes.
  destruct (N.ltb_spec v 13) as [H|H].
  - replace (268 <? v) with false by lia. replace (12 <? v) with false by lia. constructor; lia.
  - destruct (N.leb_spec v (255 + 13)) as [H1|H1].
    + replace (268 <? v) with false by lia. replace (12 <? v) with true by lia.
      rewrite N.mod_small by lia. constructor; lia.
    + replace (268 <? v) with true by lia.
      change 255 with (N.ones 8). rewrite !N.land_ones, N.shiftr_div_pow2. change (2 ^ 8) with 256.
      rewrite (N.mod_small ((v - 269) / 256)) by (apply N.div_lt_upper_bound; lia).
      constructor; lia.
Qed.

Lemma nibble_lt (v : N) : option_nibble v < 15.
Proof. unfold option_nibble. destruct (N.ltb_spec v 13); [lia|]. destruct (v <=? 255 + 13); lia. Qed.

Lemma ext_size_len (v : N) : ext_size v = nlen (ext_bytes v).
Proof. unfold ext_size, ext_bytes, nlen. destruct (268 <? v); [reflexivity|]. destruct (12 <? v); reflexivity. Qed.

Lemma nibbles_check : forallb (fun a => forallb (fun b =>
    (N.lor (N.shiftl a 4) b =? 16 * a + b) && (N.shiftr (16 * a + b) 4 =? a) && (N.land (16 * a + b) 15 =? b)
    && negb (N.land (16 * a + b) 0xF0 =? 0xF0)) (below 15)) (below 15) = true.
Proof. vm_compute. reflexivity. Qed.
Lemma nibbles (a b : N) : a < 15 -> b < 15 ->
  N.lor (N.shiftl a 4) b = 16 * a + b /\ N.shiftr (16 * a + b) 4 = a /\ N.land (16 * a + b) 15 = b /\
  (N.land (16 * a + b) 0xF0 =? 0xF0) = false.
Proof.
  intros Ha Hb. pose proof (sweep_below 15 _ nibbles_check a Ha) as H. cbv beta in H.
  pose proof (sweep_below 15 _ H b Hb) as H1. cbv beta in H1.
  repeat (apply andb_prop in H1 as [H1 ?]).
  repeat split; try (apply N.eqb_eq; assumption). apply negb_true_iff; assumption.
Qed.

Lemma header_rfc (delta : N) (v : list N) : delta < 65805 -> nlen v < 65805 ->
  rfc_option delta v (set_option_header delta (nlen v) ++ v).
Proof.
  intros Hd Hv. unfold set_option_header.
  destruct (nibbles (option_nibble delta) (option_nibble (nlen v)) (nibble_lt _) (nibble_lt _)) as (-> & _).
  cbn [app]. rewrite <- app_assoc. constructor; apply nibble_ext; assumption.
Qed.

Lemma header_size (d l : N) : option_header_size d l = nlen (set_option_header d l).
Proof.
  unfold option_header_size, set_option_header. rewrite !ext_size_len. unfold nlen.
  cbn [List.length]. rewrite app_length. lia.
Qed.

Lemma read_ext_spec (v nib : N) (e m : list N) : rfc_ext v nib e -> read_ext nib (e ++ m) = Some (v, m).
Proof.
  intros H. inversion H; subst; unfold read_ext; cbn [app].
  - replace (nib =? 13) with false by lia. replace (nib =? 14) with false by lia. reflexivity.
  - change (13 =? 13) with true. cbv iota. repeat f_equal. lia.
  - change (14 =? 13) with false. change (14 =? 14) with true. cbv iota. do 2 f_equal.
    rewrite N.shiftl_mul_pow2. change (2 ^ 8) with 256. lia.
Qed.

Lemma rfc_ext_nib (v nib : N) (e : list N) : rfc_ext v nib e -> nib < 15.
Proof. intros H; inversion H; lia. Qed.

(** ** Integers *)
Lemma land_high (n k v : N) : N.land (N.shiftl (N.ones n) k) v = N.shiftl (N.land (N.ones n) (N.shiftr v k)) k.
Proof.
  apply N.bits_inj. intros i. rewrite N.land_spec.
  destruct (N.ltb_spec i k) as [H|H].
  - rewrite !N.shiftl_spec_low by exact H. reflexivity.
  - rewrite !N.shiftl_spec_high' by exact H. rewrite N.land_spec, N.shiftr_spec'.
    replace (i - k + k) with i by lia. reflexivity.
Qed.

Lemma mask_zero (n k v : N) : v < 2 ^ (n + k) ->
  (N.land (N.shiftl (N.ones n) k) v =? 0) = (v <? 2 ^ k).
Proof.
  intros Hv. rewrite land_high, N.land_comm, N.land_ones, N.shiftr_div_pow2, N.shiftl_mul_pow2.
  assert (Hk : 2 ^ k <> 0) by (apply N.pow_nonzero; lia).
  rewrite N.pow_add_r in Hv. rewrite (N.mod_small (v / 2 ^ k)).
  2:{ apply N.div_lt_upper_bound; [exact Hk|]. lia. }
  destruct (N.ltb_spec v (2 ^ k)) as [H|H].
  - rewrite N.div_small by exact H. reflexivity.
  - assert (1 <= v / 2 ^ k) by (apply N.div_le_lower_bound; lia).
    apply N.eqb_neq. nia.
Qed.

Lemma masks (v : N) : v < 2 ^ 32 ->
  (N.land 0xFF000000 v =? 0) = (v <? 2 ^ 24) /\ (N.land 0xFFFF0000 v =? 0) = (v <? 2 ^ 16) /\
  (N.land 0xFFFFFF00 v =? 0) = (v <? 2 ^ 8) /\ (N.land 0xFFFFFFFF v =? 0) = (v <? 1).
Proof.
  intros Hv.
  change 0xFF000000 with (N.shiftl (N.ones 8) 24). change 0xFFFF0000 with (N.shiftl (N.ones 16) 16).
  change 0xFFFFFF00 with (N.shiftl (N.ones 24) 8). change 0xFFFFFFFF with (N.shiftl (N.ones 32) 0).
  rewrite !mask_zero by exact Hv. repeat split; reflexivity.
Qed.

Lemma int_bytes_eq (v : N) : v < 2 ^ 32 ->
  int_bytes v =
  (if v <? 2 ^ 24 then [] else [v / 2 ^ 24]) ++ (if v <? 2 ^ 16 then [] else [(v / 2 ^ 16) mod 256]) ++
  (if v <? 2 ^ 8 then [] else [(v / 2 ^ 8) mod 256]) ++ (if v <? 1 then [] else [v mod 256]).
Proof.
  intros Hv. unfold int_bytes. destruct (masks v Hv) as (-> & -> & -> & ->).
  rewrite !N.shiftr_div_pow2.
  rewrite (N.mod_small (v / 2 ^ 24)) by (apply N.div_lt_upper_bound; [discriminate|exact Hv]). reflexivity.
Qed.

Lemma int_size_len (v : N) : int_size v = nlen (int_bytes v).
Proof.
  unfold int_size, int_bytes, nlen. rewrite !app_length.
  destruct (N.land 0xFF000000 v =? 0); destruct (N.land 0xFFFF0000 v =? 0);
    destruct (N.land 0xFFFFFF00 v =? 0); destruct (N.land 0xFFFFFFFF v =? 0); reflexivity.
Qed.

Lemma lor_shift_add' (a b : N) : b < 256 -> N.lor (N.shiftl a 8) b = a * 256 + b.
Proof. intros H. rewrite N.lor_comm, lor_shift_add by exact H. lia. Qed.

Lemma be_val_acc_bound (l : list N) (a k : N) : bytes_ok l -> a < 256 ^ k ->
  be_val_acc a l < 256 ^ (k + nlen l).
Proof.
  revert a k. induction l as [|b r IH]; intros a k Hl Ha; cbn [be_val_acc].
  - unfold nlen. cbn [List.length]. rewrite N.add_0_r. exact Ha.
  - apply bytes_ok_cons in Hl as [Hb Hr]. unfold is_byte in Hb.
    replace (k + nlen (b :: r)) with ((k + 1) + nlen r) by (unfold nlen; cbn [List.length]; lia).
    apply IH; [exact Hr|]. rewrite N.pow_add_r. change (256 ^ 1) with 256. lia.
Qed.

Lemma fold_shift (l : list N) (a : N) : bytes_ok l -> a * 256 ^ nlen l < 2 ^ 32 ->
  be_val_acc a l < 2 ^ 32 ->
  fold_left (fun acc b => N.lor (N.shiftl acc 8 mod 2 ^ 32) b) l a = be_val_acc a l.
Proof.
  revert a. induction l as [|b r IH]; intros a Hl Ha Hb; [reflexivity|].
  apply bytes_ok_cons in Hl as [Hb0 Hr]. unfold is_byte in Hb0. cbn [fold_left be_val_acc] in *.
  assert (Hp : 1 <= 256 ^ nlen r) by (assert (256 ^ nlen r <> 0) by (apply N.pow_nonzero; lia); lia).
  replace (256 ^ nlen (b :: r)) with (256 * 256 ^ nlen r) in Ha.
  2:{ replace (nlen (b :: r)) with (1 + nlen r) by (unfold nlen; cbn [List.length]; lia). rewrite N.pow_add_r. reflexivity. }
  assert (Hm : N.shiftl a 8 mod 2 ^ 32 = a * 256).
  { rewrite N.shiftl_mul_pow2. change (2 ^ 8) with 256. apply N.mod_small. nia. }
  replace (N.lor (N.shiftl a 8 mod 2 ^ 32) b) with (a * 256 + b).
  2:{ rewrite Hm. rewrite <- (lor_shift_add' a b Hb0). rewrite N.shiftl_mul_pow2. reflexivity. }
  apply IH; [exact Hr| |exact Hb].
  assert (Hmono : forall l x, x * 256 ^ nlen l <= be_val_acc x l).
  { clear. induction l as [|y l IH]; intros x; cbn [be_val_acc].
    - unfold nlen. cbn [List.length]. change (256 ^ N.of_nat 0) with 1. lia.
    - eapply N.le_trans; [|apply IH].
      replace (nlen (y :: l)) with (1 + nlen l) by (unfold nlen; cbn [List.length]; lia).
      rewrite N.pow_add_r. change (256 ^ 1) with 256. nia. }
  eapply N.le_lt_trans; [apply Hmono|exact Hb].
Qed.

Lemma parse_int_val (l : list N) : bytes_ok l -> (List.length l <= 4)%nat -> parse_int l = Some (be_val l).
Proof.
  intros Hl Hn. unfold parse_int. replace (4 <? List.length l)%nat with false by lia. f_equal.
  apply fold_shift; [exact Hl| |]. { rewrite N.mul_0_l. lia. }
  eapply N.lt_le_trans.
  - apply (be_val_acc_bound l 0 0 Hl). reflexivity.
  - rewrite N.add_0_l. change (2 ^ 32) with (256 ^ 4). apply N.pow_le_mono_r; [lia|]. unfold nlen. lia.
Qed.

Lemma int_bytes_rfc (v : N) : v < 2 ^ 32 -> rfc_uint v (int_bytes v) /\ (List.length (int_bytes v) <= 4)%nat.
Proof.
  intros Hv. rewrite int_bytes_eq by exact Hv.
  change (2 ^ 24) with 16777216. change (2 ^ 16) with 65536. change (2 ^ 8) with 256. change (2 ^ 32) with 4294967296 in Hv.
  assert (Hz : forall x (r l : list N), x <> 0 -> x :: l <> 0 :: r) by congruence.
  unfold rfc_uint, be_val.
  destruct (N.ltb_spec v 16777216) as [H3|H3]; destruct (N.ltb_spec v 65536) as [H2|H2];
    destruct (N.ltb_spec v 256) as [H1|H1]; destruct (N.ltb_spec v 1) as [H0|H0]; try (exfalso; lia);
    cbn [app be_val_acc List.length]; (split; [|lia]);
    (split; [lia|]; split; [repeat constructor; unfold is_byte; lia|]); intros r.
  - discriminate.
  - apply Hz. lia.
  - apply Hz. lia.
  - apply Hz. lia.
  - apply Hz. lia.
Qed.

Lemma int_roundtrip (v : N) : v < 2 ^ 32 -> parse_int (int_bytes v) = Some v.
Proof.
  intros Hv. destruct (int_bytes_rfc v Hv) as ((H1 & H2 & _) & H4).
  rewrite parse_int_val by assumption. rewrite H1. reflexivity.
Qed.

(** ** Splitting a string into options *)
Fixpoint scan (sep : N) (w l after : list N) : option (list (list N)) :=
  match l with
  | [] => match after with [] => None | _ => Some [w] end
  | c :: r =>
    if c =? sep then
      match r with
      | [] => match after with
              | a :: b :: _ => if b =? sep then Some [w; [a]] else Some [w]
              | _ => None
              end
      | d :: r' => option_map (cons w) (scan sep [d] r' after)
      end
    else scan sep (w ++ [c]) r after
  end.

Lemma split_loop_end (f : nat) (sep : N) (arr : list N) (len j start : nat) :
  (len + 1 < j)%nat -> split_loop f sep arr len j start = Some [].
Proof. intros H. destruct f; [reflexivity|]. cbn [split_loop]. replace (j <=? len + 1)%nat with false by lia. reflexivity. Qed.

Lemma slice_mid (pre w x : list N) :
  firstn (List.length w) (skipn (List.length pre) (pre ++ w ++ x)) = w.
Proof.
  rewrite skipn_app, skipn_all, Nat.sub_diag. cbn [skipn app].
  rewrite firstn_app, firstn_all, Nat.sub_diag. cbn [firstn]. apply app_nil_r.
Qed.

Lemma nth_error_mid (a b : list N) : nth_error (a ++ b) (List.length a) = hd_error b.
Proof. rewrite nth_error_app2 by lia. rewrite Nat.sub_diag. destruct b; reflexivity. Qed.

Lemma split_loop_scan (sep : N) (after : list N) : forall l fuel pre w,
  (List.length l + 2 <= fuel)%nat ->
  split_loop fuel sep (pre ++ w ++ l ++ after) (List.length (pre ++ w ++ l)) (List.length (pre ++ w)) (List.length pre)
  = scan sep w l after.
Proof.
  induction l as [l IH] using list_len_ind. intros fuel pre w Hf.
  destruct fuel as [|f]; [lia|]. cbn [split_loop].
  replace (List.length (pre ++ w) <=? List.length (pre ++ w ++ l) + 1)%nat with true by (rewrite !app_length; lia).
  rewrite (app_assoc pre w (l ++ after)), nth_error_mid.
  assert (Hslice : firstn (List.length (pre ++ w) - List.length pre) (skipn (List.length pre) ((pre ++ w) ++ l ++ after)) = w).
  { rewrite <- app_assoc. replace (List.length (pre ++ w) - List.length pre)%nat with (List.length w) by (rewrite app_length; lia).
    apply slice_mid. }
  destruct l as [|c r]; cbn [app hd_error scan].
  - destruct after as [|a after]; [reflexivity|]. cbn [hd_error].
    rewrite app_nil_r, Nat.eqb_refl, orb_true_r.
    rewrite split_loop_end by lia. cbn [app] in Hslice. rewrite Hslice. reflexivity.
  - replace (List.length (pre ++ w) =? List.length (pre ++ w ++ c :: r))%nat with false
      by (rewrite !app_length; cbn [List.length]; lia).
    rewrite orb_false_r. destruct (N.eqb_spec c sep) as [->|Hc].
    + destruct r as [|d r'].
      * cbn [app] in *.
        destruct f as [|f]; [cbn [List.length] in Hf; lia|]. cbn [split_loop].
        replace (List.length (pre ++ w) + 2 <=? List.length (pre ++ w ++ [sep]) + 1)%nat with true
          by (rewrite !app_length; cbn [List.length]; lia).
        assert (Hn : nth_error ((pre ++ w) ++ sep :: after) (List.length (pre ++ w) + 2) = nth_error after 1).
        { rewrite nth_error_app2 by lia. replace (List.length (pre ++ w) + 2 - List.length (pre ++ w))%nat with 2%nat by lia.
          reflexivity. }
        rewrite Hn. destruct after as [|a [|b after]]; cbn [nth_error]; [reflexivity|reflexivity|].
        replace (List.length (pre ++ w) + 2 =? List.length (pre ++ w ++ [sep]))%nat with false
          by (rewrite !app_length; cbn [List.length]; lia).
        rewrite orb_false_r. rewrite !split_loop_end by (rewrite !app_length; cbn [List.length]; lia).
        destruct (N.eqb_spec b sep) as [->|Hb]; rewrite Hslice; [|reflexivity].
        do 3 f_equal.
        replace (List.length (pre ++ w) + 2 - (List.length (pre ++ w) + 1))%nat with 1%nat by lia.
        rewrite skipn_app. rewrite skipn_all2 by lia.
        replace (List.length (pre ++ w) + 1 - List.length (pre ++ w))%nat with 1%nat by lia.
        cbn [app skipn firstn]. reflexivity.
      * assert (Hd : split_loop f sep ((pre ++ w) ++ (sep :: d :: r') ++ after) (List.length (pre ++ w ++ sep :: d :: r'))
                       (List.length (pre ++ w) + 2) (List.length (pre ++ w) + 1) = scan sep [d] r' after).
        { rewrite <- (IH r') with (fuel := f) (pre := (pre ++ w) ++ [sep]); [|cbn [List.length]; lia|cbn [List.length] in Hf; lia].
          f_equal.
          - rewrite <- !app_assoc. reflexivity.
          - rewrite !app_length. cbn [List.length app]. lia.
          - rewrite !app_length. cbn [List.length]. lia.
          - rewrite !app_length. cbn [List.length]. lia. }
        cbn [app] in Hd |- *. rewrite Hd. cbn [app] in Hslice. rewrite Hslice.
        destruct (scan sep [d] r' after); reflexivity.
    + rewrite <- (IH r) with (fuel := f) (pre := pre); [|cbn [List.length]; lia|cbn [List.length] in Hf; lia].
      f_equal.
      * rewrite <- !app_assoc. reflexivity.
      * rewrite !app_length. cbn [List.length]. lia.
      * rewrite !app_length. cbn [List.length]. lia.
Qed.

Lemma split_parts_scan (sep : N) (s after : list N) : split_parts sep s after = scan sep [] s after.
Proof. unfold split_parts. exact (split_loop_scan sep after s _ [] [] (le_n _)). Qed.

Lemma join_cons (sep : N) (w : list N) (r : list (list N)) : r <> [] -> join sep (w :: r) = w ++ sep :: join sep r.
Proof. destruct r; [congruence|reflexivity]. Qed.

Lemma scan_nonempty (sep : N) (after : list N) : forall l w parts, scan sep w l after = Some parts ->
  exists p r, parts = p :: r /\ exists x, p = w ++ x.
Proof.
  induction l as [l IH] using list_len_ind. intros w parts H.
  destruct l as [|c r]; cbn [scan] in H.
  - destruct after; [discriminate|]. injection H as <-. do 2 eexists. split; [reflexivity|]. exists []. symmetry; apply app_nil_r.
  - destruct (c =? sep).
    + destruct r as [|d r'].
      * destruct after as [|a [|b after]]; try discriminate.
        destruct (b =? sep); injection H as <-; do 2 eexists; (split; [reflexivity|]); exists []; symmetry; apply app_nil_r.
      * destruct (scan sep [d] r' after) as [ps|]; [|discriminate]. injection H as <-.
        do 2 eexists. split; [reflexivity|]. exists []. symmetry; apply app_nil_r.
    + apply IH in H; [|cbn [List.length]; lia]. destruct H as (p & q & -> & x & ->).
      do 2 eexists. split; [reflexivity|]. exists (c :: x). rewrite <- app_assoc. reflexivity.
Qed.

Lemma last_app_cons (r : list N) (c : N) : hd_error (rev (c :: r)) = match r with [] => Some c | _ => hd_error (rev r) end.
Proof.
  cbn [rev]. destruct r as [|d r]; [reflexivity|].
  destruct (rev (d :: r)) eqn:E; [|reflexivity].
  apply (f_equal (@List.length N)) in E. rewrite rev_length in E. discriminate.
Qed.

(** Not ending with the separator: the parts joined give the string back, whatever follows it. *)
Lemma scan_join (sep : N) (after : list N) : after <> [] -> forall l w,
  hd_error (rev l) <> Some sep -> exists parts, scan sep w l after = Some parts /\ join sep parts = w ++ l.
Proof.
  intros Ha. induction l as [l IH] using list_len_ind. intros w Hl.
  destruct l as [|c r]; cbn [scan].
  - destruct after; [congruence|]. exists [w]. split; [reflexivity|]. symmetry; apply app_nil_r.
  - rewrite last_app_cons in Hl. destruct (N.eqb_spec c sep) as [->|Hc].
    + destruct r as [|d r']; [congruence|].
      destruct (IH r' ltac:(cbn [List.length]; lia) [d]) as (ps & E & Ej).
      { destruct r' as [|e r']; [discriminate|]. rewrite last_app_cons in Hl. exact Hl. }
      rewrite E. exists (w :: ps). split; [reflexivity|].
      apply scan_nonempty in E as (p & q & -> & _). rewrite join_cons by discriminate. rewrite Ej. reflexivity.
    + destruct (IH r ltac:(cbn [List.length]; lia) (w ++ [c])) as (ps & E & Ej).
      { destruct r as [|e r]; [discriminate|exact Hl]. }
      exists ps. split; [exact E|]. rewrite Ej, <- app_assoc. reflexivity.
Qed.

(** The conventional segments. *)
Lemma segments_free (sep : N) (w : list N) : ~ In sep w -> segments sep w = [w].
Proof.
  induction w as [|c r IH]; intros H; [reflexivity|]. cbn [segments].
  replace (c =? sep) with false by (symmetry; apply N.eqb_neq; intros ->; apply H; left; reflexivity).
  rewrite IH; [reflexivity|]. intros Hi; apply H; right; exact Hi.
Qed.
Lemma segments_app (sep : N) (w r : list N) : ~ In sep w -> segments sep (w ++ sep :: r) = w :: segments sep r.
Proof.
  induction w as [|c q IH]; intros H; cbn [app segments]; [rewrite N.eqb_refl; reflexivity|].
  replace (c =? sep) with false by (symmetry; apply N.eqb_neq; intros ->; apply H; left; reflexivity).
  rewrite IH; [reflexivity|]. intros Hi; apply H; right; exact Hi.
Qed.

Lemma scan_segments (sep : N) (after : list N) : after <> [] -> forall l w,
  hd_error (rev l) <> Some sep -> (forall a b, l <> a ++ sep :: sep :: b) -> ~ In sep w ->
  scan sep w l after = Some (segments sep (w ++ l)).
Proof.
  intros Ha. induction l as [l IH] using list_len_ind. intros w Hl Hadj Hw.
  destruct l as [|c r]; cbn [scan].
  - destruct after; [congruence|]. rewrite app_nil_r, segments_free by exact Hw. reflexivity.
  - rewrite last_app_cons in Hl. destruct (N.eqb_spec c sep) as [->|Hc].
    + destruct r as [|d r']; [congruence|].
      assert (Hd : d <> sep) by (intros ->; apply (Hadj [] r'); reflexivity).
      rewrite IH.
      * cbn [option_map]. rewrite segments_app by exact Hw. reflexivity.
      * cbn [List.length]; lia.
      * destruct r' as [|e r']; [discriminate|]. rewrite last_app_cons in Hl. exact Hl.
      * intros a b E. apply (Hadj (sep :: d :: a) b). rewrite E. reflexivity.
      * intros [E|[]]. apply Hd, E.
    + rewrite IH.
      * rewrite <- app_assoc. reflexivity.
      * cbn [List.length]; lia.
      * destruct r as [|e r]; [discriminate|exact Hl].
      * intros a b E. apply (Hadj (c :: a) b). rewrite E. reflexivity.
      * rewrite in_app_iff. intros [H|[H|[]]]; [exact (Hw H)|]. exact (Hc H).
Qed.

(** Merging. *)
Lemma merge_join (sep : N) (r : list (list N)) (d : list N) : d <> [] ->
  fold_left (fun o v => Some (merge_multi sep o v)) r (Some d) = Some (join sep (d :: r)).
Proof.
  revert d. induction r as [|v r IH]; intros d Hd; [reflexivity|].
  cbn [fold_left]. unfold merge_multi at 2. replace (0 <? List.length d)%nat with true by (destruct d; [congruence|cbn [List.length]; lia]).
  rewrite IH by (destruct d; discriminate).
  f_equal. destruct r as [|u r]; [reflexivity|].
  rewrite (join_cons sep (d ++ sep :: v)) by discriminate. rewrite (join_cons sep d) by discriminate.
  rewrite (join_cons sep v) by discriminate. rewrite <- app_assoc. reflexivity.
Qed.

Lemma split_merge (sep : N) (s after : list N) : after <> [] -> trimmed sep s ->
  exists parts, split_parts sep s after = Some parts /\
    fold_left (fun o v => Some (merge_multi sep o v)) parts None = Some s.
Proof.
  intros Ha [Hh Hl]. rewrite split_parts_scan.
  destruct s as [|c r].
  - exists [[]]. split; [destruct after; [congruence|reflexivity]|reflexivity].
  - cbn [hd_error] in Hh. cbn [scan]. replace (c =? sep) with false by (symmetry; apply N.eqb_neq; congruence).
    cbn [app]. rewrite last_app_cons in Hl.
    destruct (scan_join sep after Ha r [c]) as (ps & E & Ej).
    { destruct r; [discriminate|exact Hl]. }
    exists ps. split; [exact E|]. apply scan_nonempty in E as (p & q & -> & x & ->).
    cbn [fold_left]. change (merge_multi sep None ([c] ++ x)) with ([c] ++ x).
    rewrite merge_join by discriminate. f_equal. exact Ej.
Qed.

(** ** Option lists on the wire *)
Fixpoint enc (cur : N) (opts : list (N * list N)) : list N :=
  match opts with
  | [] => []
  | (n, v) :: r => arr_option n cur v ++ enc n r
  end.
Fixpoint lastn (cur : N) (opts : list (N * list N)) : N :=
  match opts with [] => cur | (n, _) :: r => lastn n r end.

Lemma enc_app (a b : list (N * list N)) (cur : N) : enc cur (a ++ b) = enc cur a ++ enc (lastn cur a) b.
Proof.
  revert cur. induction a as [|[n v] r IH]; intros cur; [reflexivity|].
  cbn [app enc lastn]. rewrite IH, app_assoc. reflexivity.
Qed.
Lemma lastn_app (a b : list (N * list N)) (cur : N) : lastn cur (a ++ b) = lastn (lastn cur a) b.
Proof. revert cur. induction a as [|[n v] r IH]; intros cur; [reflexivity|]. cbn [app lastn]. apply IH. Qed.

Fixpoint sorted_from (cur : N) (opts : list (N * list N)) : Prop :=
  match opts with [] => True | (n, _) :: r => cur <= n /\ sorted_from n r end.
Definition small_opt (o : N * list N) : Prop := fst o <= 65535 /\ nlen (snd o) < 65805.

Lemma sorted_weaken (l : list (N * list N)) (a b : N) : a <= b -> sorted_from b l -> sorted_from a l.
Proof. destruct l as [|[n v] r]; [auto|]. cbn [sorted_from]. intros H [H1 H2]. split; [lia|exact H2]. Qed.

Lemma enc_rfc (opts : list (N * list N)) (cur : N) : sorted_from cur opts -> Forall small_opt opts ->
  rfc_options cur opts (enc cur opts).
Proof.
  revert cur. induction opts as [|[n v] r IH]; intros cur Hs Hf; cbn [enc].
  - constructor.
  - destruct Hs as [H1 H2]. inversion Hf as [|x y [Hx1 Hx2] Hy]; subst. cbn [fst snd] in *.
    constructor; [exact H1| |apply IH; assumption]. unfold arr_option. apply header_rfc; [lia|exact Hx2].
Qed.

Section Loop.
Variables (c : cfg) (inner outer oscore validate : bool).

Definition vstep (s : N * packet) (o : N * list N) : pres + (N * packet) :=
  match parse_option c (snd s) (fst o) (snd o) inner outer oscore validate with
  | P_oob => inl P_oob
  | P_ok p' => inr (fst s, p')
  | P_err e => if negb validate || (e =? BAD_REQUEST) then inl (P_err e) else inr (N.max (fst s) e, snd s)
  end.
Fixpoint vrun (s : N * packet) (opts : list (N * list N)) : pres + (N * packet) :=
  match opts with
  | [] => inr s
  | o :: r => match vstep s o with inl x => inl x | inr s' => vrun s' r end
  end.

Lemma loop_rfc : forall opts cur bytes, rfc_options cur opts bytes -> Forall (fun o => fst o < 2 ^ 32) opts ->
  forall n last p tail left,
  (Z.of_nat (List.length bytes) <= left)%Z ->
  parse_loop (List.length opts + n) c inner outer oscore validate (bytes ++ tail) left cur last p =
  match vrun (last, p) opts with
  | inl r => r
  | inr (last', p') => parse_loop n c inner outer oscore validate tail (left - Z.of_nat (List.length bytes))
                                  (lastn cur opts) last' p'
  end.
Proof.
  intros opts cur bytes H. induction H as [prev|prev num v r b br Hle Hopt Hr IH]; intros Hf n last p tail left Hleft.
  - cbn [List.length app vrun lastn Nat.add]. rewrite Z.sub_0_r. reflexivity.
  - inversion Hf as [|x y Hx Hy]; subst. cbn [fst] in Hx.
    inversion Hopt as [delta value dn de ln le Hd Hl]; subst.
    cbn [List.length Nat.add]. cbn [app] in *. cbn [List.length] in Hleft. cbn [parse_loop].
    replace (left <=? 0)%Z with false by lia.
    pose proof (rfc_ext_nib _ _ _ Hd) as Hdn. pose proof (rfc_ext_nib _ _ _ Hl) as Hln.
    destruct (nibbles dn ln Hdn Hln) as (_ & E1 & E2 & E3).
    rewrite E3, E1, E2. rewrite <- !app_assoc.
    rewrite (read_ext_spec _ _ _ _ Hd). rewrite (read_ext_spec _ _ _ _ Hl).
    rewrite !app_length in Hleft.
    cbv zeta. cbn [List.length]. rewrite !app_length.
    match goal with |- context [(?l <? Z.of_N ?x)%Z] => replace (l <? Z.of_N x)%Z with false by lia end.
    replace (List.length v + (List.length br + List.length tail) <? N.to_nat (N.of_nat (List.length v)))%nat with false by lia.
    rewrite Nnat.Nat2N.id. rewrite firstn_app, firstn_all, Nat.sub_diag. cbn [firstn].
    rewrite skipn_app, skipn_all, Nat.sub_diag. cbn [skipn]. rewrite app_nil_r. cbn [app].
    replace ((prev + (num - prev)) mod 2 ^ 32) with num by (rewrite N.mod_small; lia).
    cbn [vrun lastn]. unfold vstep. cbn [fst snd].
    destruct (parse_option c p num v inner outer oscore validate) as [|e|p'].
    + reflexivity.
    + destruct validate; cbn [negb orb]; [|reflexivity].
      destruct (e =? BAD_REQUEST); [reflexivity|].
      rewrite IH; [|exact Hy|lia]. destruct (vrun _ r) as [|[l' p']]; [reflexivity|].
      f_equal. lia.
    + rewrite IH; [|exact Hy|lia]. destruct (vrun _ r) as [|[l' p'']]; [reflexivity|].
      f_equal. lia.
Qed.

Definition finish (payload : list N) (r : pres + (N * packet)) : pres :=
  match r with
  | inl x => x
  | inr (last, p) => if last =? 0 then P_ok (match payload with [] => p | _ => set_payload p payload end) else P_err last
  end.

Lemma loop_message (opts : list (N * list N)) (ob payload pb after : list N) (fuel : nat) (p : packet) :
  rfc_options 0 opts ob -> Forall (fun o => fst o < 2 ^ 32) opts -> rfc_payload payload pb ->
  (List.length opts + 1 <= fuel)%nat ->
  parse_loop fuel c inner outer oscore validate (ob ++ pb ++ after)
    (Z.of_nat (List.length (ob ++ pb))) 0 0 p = finish payload (vrun (0, p) opts).
Proof.
  intros Ho Hf Hp Hfuel. replace fuel with (List.length opts + S (fuel - List.length opts - 1))%nat by lia.
  rewrite (loop_rfc opts 0 ob Ho Hf) by (rewrite app_length; lia).
  unfold finish. destruct (vrun (0, p) opts) as [x|[last p']]; [reflexivity|].
  replace (Z.of_nat (List.length (ob ++ pb)) - Z.of_nat (List.length ob))%Z with (Z.of_nat (List.length pb))
    by (rewrite app_length; lia).
  cbn [parse_loop]. destruct Hp as [[-> ->]|[Hne ->]].
  - cbn [List.length]. reflexivity.
  - cbn [List.length app].
    match goal with |- context [(?l <=? 0)%Z] => replace (l <=? 0)%Z with false by lia end.
    change (N.land 255 240 =? 240) with true. cbv iota.
    match goal with |- context [(?l <? ?r)%Z] => replace (l <? r)%Z with false by (rewrite app_length; lia) end.
    replace (Z.to_nat (Z.of_nat (S (List.length payload)) - 1)) with (List.length payload) by lia.
    rewrite firstn_app, firstn_all, Nat.sub_diag. cbn [firstn]. rewrite app_nil_r.
    destruct payload; [congruence|reflexivity].
Qed.
End Loop.

Lemma opts_le_bytes (opts : list (N * list N)) (cur : N) (ob : list N) :
  rfc_options cur opts ob -> (List.length opts <= List.length ob)%nat.
Proof.
  intros H. induction H as [|prev num v r b br Hle Hopt Hr IH]; [cbn [List.length]; lia|].
  inversion Hopt; subst. cbn [List.length app]. rewrite !app_length. lia.
Qed.

(** ** The serialiser writes an option list *)
Definition fl (n : N) (o : option (list N)) : list (N * list N) := match o with None => [] | Some v => [(n, v)] end.
Definition ps (n : N) (parts : list (list N)) : list (N * list N) := map (pair n) parts.
Definition rep (s : sstate) (l : list (N * list N)) : Prop := s = (lastn 0 l, enc 0 l).

Lemma rep_arr (n : N) (o : option (list N)) (s : sstate) l : rep s l -> rep (put_arr n o s) (l ++ fl n o).
Proof.
  intros ->. unfold rep, put_arr, fl. destruct o as [v|]; [|rewrite app_nil_r; reflexivity].
  rewrite enc_app, lastn_app. cbn [fst snd enc lastn]. rewrite app_nil_r. reflexivity.
Qed.
Lemma int_as_arr (n cur v : N) : int_option n cur v = arr_option n cur (int_bytes v).
Proof. unfold int_option, arr_option. rewrite int_size_len. reflexivity. Qed.
Lemma rep_int (n : N) (o : option N) (s : sstate) l : rep s l -> rep (put_int n o s) (l ++ fl n (option_map int_bytes o)).
Proof.
  intros H. replace (put_int n o s) with (put_arr n (option_map int_bytes o) s); [apply rep_arr, H|].
  unfold put_int, put_arr. destruct o; cbn [option_map]; [|reflexivity]. rewrite int_as_arr. reflexivity.
Qed.
Lemma parts_bytes_enc (n : N) (parts : list (list N)) (cur : N) : parts_bytes n cur parts = enc cur (ps n parts).
Proof. revert cur. induction parts as [|x r IH]; intros cur; [reflexivity|]. cbn [parts_bytes ps map enc]. rewrite IH. reflexivity. Qed.
Lemma lastn_ps (n cur : N) (parts : list (list N)) : parts <> [] -> lastn cur (ps n parts) = n.
Proof.
  intros H. destruct parts as [|x r]; [congruence|]. cbn [ps map lastn]. clear. induction r as [|y r IH]; [reflexivity|exact IH].
Qed.
Definition oparts (o : option (list N)) (parts : list (list N)) : list (list N) := match o with None => [] | _ => parts end.
Lemma split_nonempty (sep : N) (s after : list N) parts : split_parts sep s after = Some parts -> parts <> [].
Proof. rewrite split_parts_scan. intros H. apply scan_nonempty in H as (p & q & -> & _). discriminate. Qed.
Lemma rep_split (n sep : N) (o : option (list N)) (after : list N) (s s' : sstate) l :
  rep s l -> put_split n sep o after s = Some s' ->
  exists parts, (o = None -> parts = []) /\ (forall a, o = Some a -> split_parts sep a after = Some parts) /\ rep s' (l ++ ps n parts).
Proof.
  intros -> H. unfold put_split in H. destruct o as [a|].
  - destruct (split_parts sep a after) as [parts|] eqn:E; [|discriminate]. injection H as <-.
    exists parts. split; [discriminate|]. split; [congruence|]. unfold rep. cbn [fst snd].
    rewrite parts_bytes_enc, enc_app, lastn_app, lastn_ps; [reflexivity|].
    eapply split_nonempty; exact E.
  - injection H as <-. exists []. split; [reflexivity|]. split; [discriminate|]. cbn [ps map]. rewrite app_nil_r. reflexivity.
Qed.

Definition ver_list (c : cfg) (o : option N) : option (list N) :=
  match o with None => None | Some f => option_map int_bytes (format_version c f) end.

(** The options of a request or response without the OSCORE option, given the Uri-Path and Uri-Query
    parts. *)
Definition popts (c : cfg) (p : packet) (pp qp : list (list N)) : list (N * list N) :=
  fl 3 (p_uri_host p) ++ fl 4 (p_etag p) ++ fl 6 (option_map int_bytes (p_observe p)) ++
  fl 7 (option_map int_bytes (p_uri_port p)) ++ ps 11 pp ++ fl 12 (option_map int_bytes (p_cf p)) ++
  fl 14 (option_map int_bytes (p_max_age p)) ++ ps 15 qp ++ fl 17 (option_map int_bytes (p_accept p)) ++
  fl 23 (option_map int_bytes (option_map block_encode (p_block2 p))) ++
  fl 27 (option_map int_bytes (option_map block_encode (p_block1 p))) ++
  fl 28 (option_map int_bytes (p_size2 p)) ++ fl 35 (p_proxy_uri p) ++ fl 60 (option_map int_bytes (p_size1 p)) ++
  fl 2049 (ver_list c (p_accept p)) ++ fl 2053 (ver_list c (p_cf p)).

Definition version_ok (c : cfg) (p : packet) : Prop :=
  forall a f, p_accept p = Some a -> p_cf p = Some f -> format_version c a = None -> format_version c f = None.

Lemma versions_enc (c : cfg) (p : packet) (s : sstate) l : rep s l -> version_ok c p ->
  snd (put_versions c p s) = enc 0 (l ++ fl 2049 (ver_list c (p_accept p)) ++ fl 2053 (ver_list c (p_cf p))).
Proof.
  intros Hs Hv. unfold put_versions.
  assert (Hacc : forall v s l, rep s l -> snd s ++ int_option OPT_ACCEPT_VER (fst s) v = enc 0 (l ++ fl 2049 (Some (int_bytes v)))
                               /\ lastn 0 (l ++ fl 2049 (Some (int_bytes v))) = 2049).
  { intros v s0 l0 ->. cbn [fst snd fl]. rewrite enc_app, lastn_app, int_as_arr. cbn [enc lastn]. rewrite app_nil_r. split; reflexivity. }
  assert (Hcf : forall v b l, lastn 0 l = b -> enc 0 l ++ int_option OPT_CF_VER b v = enc 0 (l ++ fl 2053 (Some (int_bytes v)))).
  { intros v b l0 <-. cbn [fl]. rewrite enc_app, int_as_arr. cbn [enc]. rewrite app_nil_r. reflexivity. }
  destruct (p_accept p) as [a|] eqn:Ea; cbn [ver_list].
  - destruct (p_cf p) as [f|] eqn:Ef; cbn [ver_list].
    + cbn [fst snd]. specialize (Hv a f Ea Ef). destruct (format_version c a) as [va|] eqn:Eva; cbn [option_map].
      * destruct (Hacc va s l Hs) as [E1 E2]. rewrite E1. destruct (format_version c f) as [vf|]; cbn [option_map].
        -- rewrite (Hcf vf OPT_ACCEPT_VER _ E2), <- app_assoc. reflexivity.
        -- cbn [fl]. rewrite app_nil_r. reflexivity.
      * rewrite Hv by reflexivity. rewrite Hs. cbn [option_map fl snd]. rewrite !app_nil_r. reflexivity.
    + cbn [snd]. destruct (format_version c a) as [va|]; cbn [option_map fl]; rewrite app_nil_r.
      * apply Hacc, Hs.
      * rewrite Hs, ?app_nil_r. reflexivity.
  - cbn [fl app]. destruct (p_cf p) as [f|]; cbn [ver_list].
    + cbn [snd]. destruct (format_version c f) as [vf|]; cbn [option_map].
      * rewrite Hs. cbn [fst snd]. apply Hcf. reflexivity.
      * rewrite Hs. cbn [snd fl]. rewrite app_nil_r. reflexivity.
    + rewrite Hs. cbn [snd fl]. rewrite app_nil_r. reflexivity.
Qed.

Lemma serialize_options_enc (c : cfg) (e : env) (p : packet) (s : sstate) :
  is_signal c (p_code p) = false -> version_ok c p ->
  serialize_options c e p true true false = Some s ->
  exists pp qp, snd s = enc 0 (popts c p pp qp) /\
    (p_path p = None -> pp = []) /\ (forall a, p_path p = Some a -> split_parts 47 a (after_path e) = Some pp) /\
    (p_query p = None -> qp = []) /\ (forall a, p_query p = Some a -> split_parts 38 a (after_query e) = Some qp).
Proof.
  intros Hsig Hv. unfold serialize_options. rewrite Hsig. unfold on. rewrite andb_false_r. cbn [andb].
  unfold put_oscore.
  match goal with |- match put_split _ _ _ _ ?s0 with _ => _ end = _ -> _ =>
    assert (H0 : rep s0 ([] ++ fl 3 (p_uri_host p) ++ fl 4 (p_etag p) ++ fl 6 (option_map int_bytes (p_observe p)) ++
                        fl 7 (option_map int_bytes (p_uri_port p)))) end.
  { rewrite !app_assoc. apply rep_int, rep_int, rep_arr, rep_arr. reflexivity. }
  destruct (put_split OPT_URI_PATH _ _ _ _) as [s1|] eqn:E1; [|discriminate].
  destruct (rep_split _ _ _ _ _ _ _ H0 E1) as (pp & Hp1 & Hp2 & H1).
  match goal with |- match put_split _ _ _ _ ?s0 with _ => _ end = _ -> _ =>
    assert (H2 : rep s0 ((([] ++ fl 3 (p_uri_host p) ++ fl 4 (p_etag p) ++ fl 6 (option_map int_bytes (p_observe p)) ++
                        fl 7 (option_map int_bytes (p_uri_port p))) ++ ps OPT_URI_PATH pp) ++ fl 12 (option_map int_bytes (p_cf p)) ++
                        fl 14 (option_map int_bytes (p_max_age p)))) end.
  { rewrite (app_assoc _ (fl 12 _)). apply rep_int, rep_int. exact H1. }
  destruct (put_split OPT_URI_QUERY _ _ _ _) as [s2|] eqn:E2; [|discriminate].
  destruct (rep_split _ _ _ _ _ _ _ H2 E2) as (qp & Hq1 & Hq2 & H3).
  intros H. injection H as <-. exists pp, qp. split; [|auto].
  unfold put_block.
  match goal with |- snd (put_versions c p ?s0) = _ =>
    assert (H4 : rep s0 (((((([] ++ fl 3 (p_uri_host p) ++ fl 4 (p_etag p) ++ fl 6 (option_map int_bytes (p_observe p)) ++
                        fl 7 (option_map int_bytes (p_uri_port p))) ++ ps OPT_URI_PATH pp) ++ fl 12 (option_map int_bytes (p_cf p)) ++
                        fl 14 (option_map int_bytes (p_max_age p))) ++ ps OPT_URI_QUERY qp) ++ fl 17 (option_map int_bytes (p_accept p)) ++
  fl 23 (option_map int_bytes (option_map block_encode (p_block2 p))) ++
  fl 27 (option_map int_bytes (option_map block_encode (p_block1 p))) ++
  fl 28 (option_map int_bytes (p_size2 p)) ++ fl 35 (p_proxy_uri p) ++ fl 60 (option_map int_bytes (p_size1 p))))) end.
  { rewrite !(app_assoc _ (fl 17 _)), !(app_assoc _ (fl 23 _)), !(app_assoc _ (fl 27 _)), !(app_assoc _ (fl 28 _)),
      !(app_assoc _ (fl 35 _)). apply rep_int, rep_arr, rep_int, rep_int, rep_int, rep_int. exact H3. }
  rewrite (versions_enc c p _ _ H4 Hv). f_equal. cbn [app]. unfold popts. rewrite <- !app_assoc. reflexivity.
Qed.

Lemma sorted_fl (n cur : N) (o : option (list N)) r : cur <= n -> sorted_from n r -> sorted_from cur (fl n o ++ r).
Proof.
  intros H Hr. destruct o; cbn [fl app sorted_from]; [split; assumption|]. eapply sorted_weaken; eassumption.
Qed.
Lemma sorted_ps (n cur : N) parts r : cur <= n -> sorted_from n r -> sorted_from cur (ps n parts ++ r).
Proof.
  intros H Hr. revert cur H. induction parts as [|x q IH]; intros cur H; cbn [ps map app sorted_from].
  - eapply sorted_weaken; eassumption.
  - split; [exact H|]. apply IH. lia.
Qed.
Lemma popts_sorted (c : cfg) (p : packet) pp qp : sorted_from 0 (popts c p pp qp).
Proof.
  unfold popts. rewrite <- (app_nil_r (fl 2053 _)).
  repeat first [apply sorted_fl; [lia|] | apply sorted_ps; [lia|]]. exact I.
Qed.
Lemma popts_num (c : cfg) (p : packet) pp qp : Forall (fun o => fst o <= 2053) (popts c p pp qp).
Proof.
  unfold popts. repeat rewrite Forall_app. 
  assert (Hfl : forall n o, n <= 2053 -> Forall (fun o : N * list N => fst o <= 2053) (fl n o)).
  { intros n [v|] H; cbn [fl]; repeat constructor. exact H. }
  assert (Hps : forall n l, n <= 2053 -> Forall (fun o : N * list N => fst o <= 2053) (ps n l)).
  { intros n l H. induction l; cbn [ps map]; constructor; [exact H|assumption]. }
  repeat split; first [apply Hfl|apply Hps]; lia.
Qed.
Lemma enc_value_le (opts : list (N * list N)) (cur : N) : Forall (fun o => nlen (snd o) <= nlen (enc cur opts)) opts.
Proof.
  revert cur. induction opts as [|[n v] r IH]; intros cur; constructor; cbn [enc snd]; unfold arr_option, nlen.
  - rewrite !app_length. lia.
  - eapply Forall_impl; [|apply (IH n)]. cbn beta. intros o Ho. unfold nlen in Ho. rewrite !app_length. lia.
Qed.

(** ** The predicted size *)
Lemma int_size_option (n cur v : N) : int_option_size n cur v = nlen (int_option n cur v).
Proof. unfold int_option_size, int_option. rewrite header_size, int_size_len. unfold nlen. rewrite app_length. lia. Qed.
Lemma arr_size_option (n cur : N) (a : list N) : arr_option_size n cur a = nlen (arr_option n cur a).
Proof. unfold arr_option_size, arr_option. rewrite header_size. unfold nlen. rewrite app_length. lia. Qed.
Lemma nlen_app {A} (a b : list A) : nlen (a ++ b) = nlen a + nlen b.
Proof. unfold nlen. rewrite app_length. lia. Qed.
Definition srel (s : sstate) (t : nstate) : Prop := t = (fst s, nlen (snd s)).
Lemma srel_int n o s t : srel s t -> srel (put_int n o s) (cnt_int n o t).
Proof. intros ->. unfold srel, put_int, cnt_int. destruct o; [|reflexivity]. cbn [fst snd]. rewrite nlen_app, int_size_option. reflexivity. Qed.
Lemma srel_arr n o s t : srel s t -> srel (put_arr n o s) (cnt_arr n o t).
Proof. intros ->. unfold srel, put_arr, cnt_arr. destruct o; [|reflexivity]. cbn [fst snd]. rewrite nlen_app, arr_size_option. reflexivity. Qed.
Lemma srel_parts n cur parts : parts_size n cur parts = nlen (parts_bytes n cur parts).
Proof. revert cur. induction parts as [|x r IH]; intros cur; [reflexivity|]. cbn [parts_size parts_bytes]. rewrite nlen_app, arr_size_option, IH. reflexivity. Qed.
Lemma srel_split n sep o after s t : srel s t ->
  cnt_split n sep o after t = option_map (fun s => (fst s, nlen (snd s))) (put_split n sep o after s).
Proof.
  intros ->. unfold put_split, cnt_split. destruct o; [|reflexivity].
  destruct (split_parts sep l after); [|reflexivity]. cbn [option_map fst snd]. rewrite nlen_app, srel_parts. reflexivity.
Qed.
Definition oscore_len_ok (f : oscore_fields) : Prop := List.length (serialize_oscore_value f) = oscore_value_length f.
Lemma srel_oscore o s t : opt_all oscore_len_ok o -> srel s t -> srel (put_oscore o s) (cnt_oscore o t).
Proof.
  intros Ho ->. unfold srel, put_oscore, cnt_oscore. destruct o as [f|]; [|reflexivity]. cbn [opt_all] in Ho.
  cbn [fst snd]. rewrite !nlen_app, header_size. unfold oscore_len_ok in Ho. f_equal. unfold nlen at 5. rewrite Ho. lia.
Qed.
Lemma srel_versions c p s t : srel s t -> srel (put_versions c p s) (cnt_versions c p t).
Proof.
  intros ->. unfold srel, put_versions, cnt_versions.
  destruct (p_accept p) as [a|]; destruct (p_cf p) as [f|]; cbn [fst snd]; try reflexivity;
    try destruct (format_version c a); try destruct (format_version c f); cbn [fst snd];
    rewrite ?nlen_app, ?int_size_option; reflexivity.
Qed.

Lemma options_size_eq (c : cfg) (e : env) (p : packet) (inner outer oscore : bool) :
  (outer && oscore = true -> opt_all oscore_len_ok (p_oscore p)) ->
  options_size c e p inner outer oscore =
  option_map (fun s => (fst s, nlen (snd s))) (serialize_options c e p inner outer oscore).
Proof.
  intros Ho. unfold options_size, serialize_options. destruct (is_signal c (p_code p)).
  - cbn [option_map]. f_equal. unfold signal_size, signal_options.
    destruct (p_code p =? CSM); [apply srel_int, srel_int; reflexivity|].
    destruct ((p_code p =? PING) || (p_code p =? PONG)); [apply srel_int; reflexivity|].
    destruct (p_code p =? RELEASE); [apply srel_int, srel_arr; reflexivity|apply srel_int; reflexivity].
  - erewrite srel_split.
    2:{ apply srel_oscore.
        { unfold on. destruct outer, oscore; rewrite ?andb_false_r, ?andb_true_r; try exact I.
          destruct (c_oscore c); [|exact I]. cbn [andb] in Ho. apply Ho. reflexivity. }
        apply srel_int, srel_int, srel_arr, srel_arr. instantiate (1 := (0, [])). reflexivity. }
    destruct (put_split OPT_URI_PATH _ _ _ _) as [s1|]; cbn [option_map]; [|reflexivity].
    erewrite srel_split.
    2:{ apply srel_int, srel_int. instantiate (1 := s1). reflexivity. }
    destruct (put_split OPT_URI_QUERY _ _ _ _) as [s2|]; cbn [option_map]; [|reflexivity].
    f_equal. destruct inner.
    + apply srel_versions, srel_int, srel_arr, srel_int, srel_int, srel_int, srel_int. reflexivity.
    + apply srel_int, srel_arr, srel_int, srel_int, srel_int, srel_int. reflexivity.
Qed.

(** ** Parsing each option back *)
Ltac eqbs :=
  repeat match goal with
  | |- context [?a =? ?b] => let r := eval vm_compute in (a =? b) in
      match r with true => change (a =? b) with true | false => change (a =? b) with false end; cbv iota
  end.

Section Fields.
Variables (c : cfg) (i o os : bool).
Notation run := (vrun c i o os false).
Notation quiet p := (is_signal c (p_code p) = false).

Lemma run_ok (p p' : packet) (n : N) (v : list N) r :
  parse_option c p n v i o os false = P_ok p' -> run (0, p) ((n, v) :: r) = run (0, p') r.
Proof. intros H. cbn [vrun]. unfold vstep. cbn [fst snd]. rewrite H. reflexivity. Qed.

Lemma run_host p v r : o = true -> quiet p -> p_uri_host p = None ->
  run (0, p) (fl 3 v ++ r) = run (0, set_uri_host p v) r.
Proof.
  intros Hio Hq Hn. destruct v as [v|]; cbn [fl app].
  - apply run_ok. unfold parse_option. rewrite Hq, ?Hio. replace (is_inner_number 3) with false by reflexivity.
    replace (is_outer_number 3) with true by reflexivity. unfold parse_outer_option. eqbs.
    rewrite andb_false_r. reflexivity.
  - destruct p; cbn in Hn; subst; reflexivity.
Qed.
Lemma run_etag p v r : i = true -> quiet p -> p_etag p = None -> opt_all (fun t => (List.length t <= 8)%nat) v ->
  run (0, p) (fl 4 v ++ r) = run (0, set_etag p v) r.
Proof.
  intros Hio Hq Hn Hl. destruct v as [v|]; cbn [fl app].
  - apply run_ok. unfold parse_option. rewrite Hq, ?Hio. replace (is_inner_number 4) with true by reflexivity.
    unfold parse_inner_option. eqbs. cbn [negb]. cbn [opt_all] in Hl. rewrite firstn_all2 by exact Hl. reflexivity.
  - destruct p; cbn in Hn; subst; reflexivity.
Qed.
Lemma run_observe p v r : quiet p -> p_observe p = None -> opt_all (fun t => t < 2 ^ 32) v ->
  run (0, p) (fl 6 (option_map int_bytes v) ++ r) = run (0, set_observe p v) r.
Proof.
  intros Hq Hn Hl. destruct v as [v|]; cbn [option_map fl app].
  - apply run_ok. unfold parse_option. rewrite Hq. replace (is_inner_number 6) with false by reflexivity.
    replace (is_outer_number 6) with false by reflexivity. eqbs. rewrite andb_false_r, int_roundtrip by exact Hl. reflexivity.
  - destruct p; cbn in Hn; subst; reflexivity.
Qed.
Lemma run_port p v r : o = true -> quiet p -> p_uri_port p = None -> opt_all (fun t => t < 2 ^ 16) v ->
  run (0, p) (fl 7 (option_map int_bytes v) ++ r) = run (0, set_uri_port p v) r.
Proof.
  intros Hio Hq Hn Hl. destruct v as [v|]; cbn [option_map fl app].
  - apply run_ok. unfold parse_option. rewrite Hq, ?Hio. replace (is_inner_number 7) with false by reflexivity.
    replace (is_outer_number 7) with true by reflexivity. unfold parse_outer_option. eqbs. rewrite andb_false_r. cbn [opt_all] in Hl.
    rewrite int_roundtrip by lia. replace (65535 <? v) with false by lia. reflexivity.
  - destruct p; cbn in Hn; subst; reflexivity.
Qed.
Lemma run_cf p v r : i = true -> quiet p -> p_cf p = None -> opt_all (known_format c) v ->
  run (0, p) (fl 12 (option_map int_bytes v) ++ r) = run (0, set_cf p v) r.
Proof.
  intros Hio Hq Hn Hl. destruct v as [v|]; cbn [option_map fl app].
  - apply run_ok. unfold parse_option. rewrite Hq, ?Hio. replace (is_inner_number 12) with true by reflexivity.
    unfold parse_inner_option. eqbs. cbn [negb opt_all] in *.
    assert (v < 2 ^ 16) by (destruct Hl as [->|[[_ ->]|[_ [->| ->]]]]; reflexivity).
    rewrite int_roundtrip by lia. rewrite N.mod_small by assumption.
    replace (valid_cf c v) with true; [reflexivity|].
    unfold valid_cf. destruct Hl as [->|[[-> ->]|[-> [->| ->]]]]; rewrite ?orb_true_r; reflexivity.
  - destruct p; cbn in Hn; subst; reflexivity.
Qed.
Lemma run_max_age p v r : quiet p -> p_max_age p = None -> opt_all (fun t => t < 2 ^ 32) v ->
  run (0, p) (fl 14 (option_map int_bytes v) ++ r) = run (0, set_max_age p v) r.
Proof.
  intros Hq Hn Hl. destruct v as [v|]; cbn [option_map fl app].
  - apply run_ok. unfold parse_option. rewrite Hq. replace (is_inner_number 14) with false by reflexivity.
    replace (is_outer_number 14) with false by reflexivity. eqbs. rewrite andb_false_r, int_roundtrip by exact Hl. reflexivity.
  - destruct p; cbn in Hn; subst; reflexivity.
Qed.
Lemma run_accept p v r : i = true -> quiet p -> p_accept p = None -> opt_all (known_accept c) v ->
  run (0, p) (fl 17 (option_map int_bytes v) ++ r) = run (0, set_accept p v) r.
Proof.
  intros Hio Hq Hn Hl. destruct v as [v|]; cbn [option_map fl app].
  - apply run_ok. unfold parse_option. rewrite Hq, ?Hio. replace (is_inner_number 17) with true by reflexivity.
    unfold parse_inner_option. eqbs. cbn [negb opt_all] in *.
    assert (v < 2 ^ 16) by (destruct Hl as [[->|[[_ ->]|[_ [->| ->]]]]|[_ ->]]; reflexivity).
    rewrite int_roundtrip by lia. rewrite N.mod_small by assumption.
    replace (valid_accept c v) with true; [reflexivity|].
    unfold valid_accept, valid_cf. destruct Hl as [[->|[[-> ->]|[-> [->| ->]]]]|[-> ->]]; rewrite ?orb_true_r; reflexivity.
  - destruct p; cbn in Hn; subst; reflexivity.
Qed.
Lemma run_size2 p v r : i = true -> quiet p -> p_size2 p = None -> opt_all (fun t => t < 2 ^ 32) v ->
  run (0, p) (fl 28 (option_map int_bytes v) ++ r) = run (0, set_size2 p v) r.
Proof.
  intros Hio Hq Hn Hl. destruct v as [v|]; cbn [option_map fl app].
  - apply run_ok. unfold parse_option. rewrite Hq, ?Hio. replace (is_inner_number 28) with true by reflexivity.
    unfold parse_inner_option. eqbs. rewrite int_roundtrip by exact Hl. reflexivity.
  - destruct p; cbn in Hn; subst; reflexivity.
Qed.
Lemma run_size1 p v r : i = true -> quiet p -> p_size1 p = None -> opt_all (fun t => t < 2 ^ 32) v ->
  run (0, p) (fl 60 (option_map int_bytes v) ++ r) = run (0, set_size1 p v) r.
Proof.
  intros Hio Hq Hn Hl. destruct v as [v|]; cbn [option_map fl app].
  - apply run_ok. unfold parse_option. rewrite Hq, ?Hio. replace (is_inner_number 60) with true by reflexivity.
    unfold parse_inner_option. eqbs. rewrite int_roundtrip by exact Hl. reflexivity.
  - destruct p; cbn in Hn; subst; reflexivity.
Qed.
Lemma run_proxy p v r : o = true -> quiet p -> p_proxy_uri p = None ->
  run (0, p) (fl 35 v ++ r) = run (0, set_proxy_uri p v) r.
Proof.
  intros Hio Hq Hn. destruct v as [v|]; cbn [fl app].
  - apply run_ok. unfold parse_option. rewrite Hq, ?Hio. replace (is_inner_number 35) with false by reflexivity.
    replace (is_outer_number 35) with true by reflexivity. unfold parse_outer_option. eqbs.
    rewrite andb_false_r. reflexivity.
  - destruct p; cbn in Hn; subst; reflexivity.
Qed.

Lemma block_roundtrip (b : block) : wf_block b -> block_encode b < 2 ^ 32 /\ block_decode (block_encode b) = b.
Proof.
  destruct b as [num more size off]. intros (Hn & Hm & (szx & Hz & Hs) & Ho). cbn [b_num b_more b_size b_offset] in *. subst size off.
  assert (Hlog : N.land 15 (log_2 (2 ^ (szx + 4) / 16)) = szx).
  { rewrite N.pow_add_r. change (2 ^ 4) with 16. rewrite N.div_mul by discriminate.
    unfold log_2. rewrite N.log2_pow2 by lia. rewrite N.land_comm. change 15 with (N.ones 4). rewrite N.land_ones.
    apply N.mod_small. change (2 ^ 4) with 16. lia. }
  assert (Henc : block_encode (mkB num more (2 ^ (szx + 4)) (num * 2 ^ (szx + 4))) = num * 16 + more * 8 + szx).
  { unfold block_encode. cbn [b_num b_more b_size]. rewrite Hlog.
    rewrite N.shiftl_mul_pow2. change (2 ^ 4) with 16. rewrite N.mod_small by (change (2 ^ 20) with 1048576 in Hn; lia).
    replace (if more =? 0 then 0 else 8) with (more * 8).
    2:{ destruct (N.eqb_spec more 0) as [->|]; [reflexivity|]. replace more with 1 by lia. reflexivity. }
    assert (Hl2 : N.lor (more * 8) szx = more * 8 + szx).
    { clear - Hm Hz. assert (Hc : forallb (fun a => forallb (fun b => N.lor (a * 8) b =? a * 8 + b) (below 8)) (below 2) = true) by (vm_compute; reflexivity).
      pose proof (sweep_below 2 _ Hc more ltac:(lia)) as H. cbv beta in H. apply N.eqb_eq. exact (sweep_below 8 _ H szx ltac:(lia)). }
    rewrite <- N.lor_assoc, Hl2.
    assert (Hlt : more * 8 + szx < 2 ^ 4) by (change (2 ^ 4) with 16; lia).
    apply N.bits_inj. intros k. rewrite N.lor_spec.
    change 16 with (2 ^ 4). rewrite <- (N.add_assoc (num * 2 ^ 4)).
    destruct (N.ltb_spec k 4) as [Hk|Hk].
    - rewrite N.mul_pow2_bits_low by exact Hk.
      replace (num * 2 ^ 4 + (more * 8 + szx)) with ((more * 8 + szx) + num * 2 ^ (4 - k - 1 + 1) * 2 ^ k)
        by (rewrite <- N.mul_assoc, <- N.pow_add_r; replace (4 - k - 1 + 1 + k) with 4 by lia; lia).
      assert (Hmod : forall x, N.testbit x k = N.testbit (x mod 2 ^ 4) k) by (intros x; rewrite N.mod_pow2_bits_low by exact Hk; reflexivity).
      rewrite (Hmod (_ + _ * 2 ^ k)).
      replace ((more * 8 + szx + num * 2 ^ (4 - k - 1 + 1) * 2 ^ k) mod 2 ^ 4) with ((more * 8 + szx) mod 2 ^ 4).
      + rewrite <- Hmod. reflexivity.
      + replace (num * 2 ^ (4 - k - 1 + 1) * 2 ^ k) with (num * 2 ^ 4)
          by (rewrite <- N.mul_assoc, <- N.pow_add_r; replace (4 - k - 1 + 1 + k) with 4 by lia; reflexivity).
        rewrite N.mod_add by discriminate. reflexivity.
    - assert (Hhi : forall x, N.testbit x k = N.testbit (x / 2 ^ 4) (k - 4)).
      { intros x. rewrite N.div_pow2_bits. f_equal. lia. }
      rewrite (Hhi (num * 2 ^ 4)), (Hhi (more * 8 + szx)), (Hhi (_ + _)).
      rewrite N.div_mul by discriminate. rewrite (N.div_small (more * 8 + szx)) by exact Hlt.
      rewrite N.bits_0, orb_false_r. f_equal.
      rewrite N.div_add_l by discriminate. rewrite (N.div_small (more * 8 + szx)) by exact Hlt. lia. }
  rewrite Henc. change (2 ^ 20) with 1048576 in Hn. change (2 ^ 32) with 4294967296.
  split; [lia|]. set (x := num * 16 + more * 8 + szx).
  assert (Hx : x < 4294967296) by (unfold x; lia).
  unfold block_decode.
  replace (N.land (N.shiftr x 4) 0xFFFFF) with num.
  2:{ change 0xFFFFF with (N.ones 20). rewrite N.land_ones, N.shiftr_div_pow2. change (2 ^ 4) with 16. change (2 ^ 20) with 1048576.
      unfold x. lia. }
  assert (H7 : N.land x 7 = szx).
  { change 7 with (N.ones 3). rewrite N.land_ones. change (2 ^ 3) with 8. unfold x. lia. }
  assert (H8 : N.shiftr (N.land x 8) 3 = more).
  { change 8 with (N.shiftl (N.ones 1) 3). rewrite N.land_comm, land_high, N.land_comm, N.land_ones.
    rewrite N.shiftr_shiftl_l by lia. rewrite N.sub_diag, N.shiftl_0_r, N.shiftr_div_pow2. change (2 ^ 3) with 8. change (2 ^ 1) with 2.
    unfold x. lia. }
  assert (Hf : N.land x 0xFFFFFFF0 = num * 16).
  { change 0xFFFFFFF0 with (N.shiftl (N.ones 28) 4). rewrite N.land_comm, land_high, N.land_comm, N.land_ones, N.shiftl_mul_pow2, N.shiftr_div_pow2.
    change (2 ^ 4) with 16. change (2 ^ 28) with 268435456. unfold x. lia. }
  rewrite H7, H8, Hf. rewrite !N.shiftl_mul_pow2.
  assert (Hc : forallb (fun s => (16 * 2 ^ s <? 2 ^ 16) && (2 ^ (s + 4) =? 16 * 2 ^ s) && (2 ^ s <=? 128)) (below 8) = true) by (vm_compute; reflexivity).
  pose proof (sweep_below 8 _ Hc szx ltac:(lia)) as H. cbv beta in H.
  apply andb_prop in H as [H Hb]. apply andb_prop in H as [Ha He].
  apply N.ltb_lt in Ha. apply N.eqb_eq in He. apply N.leb_le in Hb. rewrite He.
  rewrite (N.mod_small (16 * 2 ^ szx)) by exact Ha. rewrite N.mod_small by nia. f_equal. lia.
Qed.

Lemma run_block2 p v r : i = true -> quiet p -> p_block2 p = None -> opt_all wf_block v ->
  run (0, p) (fl 23 (option_map int_bytes (option_map block_encode v)) ++ r) = run (0, set_block2 p v) r.
Proof.
  intros Hio Hq Hn Hl. destruct v as [v|]; cbn [option_map fl app].
  - apply run_ok. unfold parse_option. rewrite Hq, ?Hio. replace (is_inner_number 23) with true by reflexivity.
    unfold parse_inner_option. eqbs. destruct (block_roundtrip v Hl) as [H1 H2]. rewrite int_roundtrip by exact H1. rewrite H2. reflexivity.
  - destruct p; cbn in Hn; subst; reflexivity.
Qed.
Lemma run_block1 p v r : i = true -> quiet p -> p_block1 p = None -> opt_all wf_block v ->
  run (0, p) (fl 27 (option_map int_bytes (option_map block_encode v)) ++ r) = run (0, set_block1 p v) r.
Proof.
  intros Hio Hq Hn Hl. destruct v as [v|]; cbn [option_map fl app].
  - apply run_ok. unfold parse_option. rewrite Hq, ?Hio. replace (is_inner_number 27) with true by reflexivity.
    unfold parse_inner_option. eqbs. destruct (block_roundtrip v Hl) as [H1 H2]. rewrite int_roundtrip by exact H1. rewrite H2. reflexivity.
  - destruct p; cbn in Hn; subst; reflexivity.
Qed.
Lemma run_ver p n v r : i = true -> n = 2049 \/ n = 2053 -> quiet p ->
  run (0, p) (fl n (ver_list c v) ++ r) = run (0, p) r.
Proof.
  intros Hio Hnn Hq. destruct v as [v|]; [|reflexivity]. cbn [ver_list]. unfold format_version.
  assert (Hgo : forall ver, ver = OCF_VER \/ ver = OIC_VER -> run (0, p) (fl n (Some (int_bytes ver)) ++ r) = run (0, p) r).
  { intros ver Hver. cbn [fl app]. apply run_ok. unfold parse_option. rewrite Hq, ?Hio.
    replace (is_inner_number n) with true by (destruct Hnn as [->| ->]; reflexivity).
    cbn [negb]. unfold parse_inner_option. destruct Hnn as [->| ->]; eqbs;
    rewrite int_roundtrip by (destruct Hver as [->| ->]; reflexivity);
    (replace (ver <? OCF_VER) with false by (destruct Hver as [->| ->]; reflexivity)); reflexivity. }
  destruct (v =? FMT_OCF_CBOR); [apply Hgo; left; reflexivity|].
  destruct (c_oic c && (v =? FMT_CBOR)); [apply Hgo; right; reflexivity|]. reflexivity.
Qed.
Lemma run_path parts p r : i = true -> quiet p ->
  run (0, p) (ps 11 parts ++ r) = run (0, set_path p (fold_left (fun d v => Some (merge_multi 47 d v)) parts (p_path p))) r.
Proof.
  intros Hio. revert p. induction parts as [|v q IH]; intros p Hq; cbn [ps map app fold_left].
  - destruct p; reflexivity.
  - rewrite (run_ok p (set_path p (Some (merge_multi 47 (p_path p) v)))).
    + change (map (pair 11) q) with (ps 11 q). rewrite IH by exact Hq. destruct p; reflexivity.
    + unfold parse_option. rewrite Hq, ?Hio. replace (is_inner_number 11) with true by reflexivity. reflexivity.
Qed.
Lemma run_query parts p r : i = true -> quiet p ->
  run (0, p) (ps 15 parts ++ r) = run (0, set_query p (fold_left (fun d v => Some (merge_multi 38 d v)) parts (p_query p))) r.
Proof.
  intros Hio. revert p. induction parts as [|v q IH]; intros p Hq; cbn [ps map app fold_left].
  - destruct p; reflexivity.
  - rewrite (run_ok p (set_query p (Some (merge_multi 38 (p_query p) v)))).
    + change (map (pair 15) q) with (ps 15 q). rewrite IH by exact Hq. destruct p; reflexivity.
    + unfold parse_option. rewrite Hq, ?Hio. replace (is_inner_number 15) with true by reflexivity. reflexivity.
Qed.
End Fields.

(** ** Whole messages *)
Definition base_of (p : packet) : packet :=
  set_token (set_mid (set_code (set_type (set_tcp blank (p_tcp p)) (p_type p)) (p_code p)) (p_mid p)) (p_token p).
Definition pay (payload : list N) : list N := match payload with [] => [] | _ => 255 :: payload end.
Lemma pay_rfc (payload : list N) : rfc_payload payload (pay payload).
Proof. destruct payload; [left; split; reflexivity|right; split; [discriminate|reflexivity]]. Qed.

Lemma signal_code_iff (c : cfg) (code : N) : is_signal c code = true <-> signal_code c code.
Proof.
  unfold is_signal, signal_code, CSM, ABORT. destruct (c_tcp c); cbn [andb].
  - split; [intros H; apply andb_prop in H as [H1 H2]; lia|]. intros [_ H]. apply andb_true_intro. lia.
  - split; [discriminate|]. intros [H _]; discriminate.
Qed.
Lemma quiet_iff (c : cfg) (code : N) : ~ signal_code c code -> is_signal c code = false.
Proof. intros H. destruct (is_signal c code) eqn:E; [|reflexivity]. exfalso. apply H, signal_code_iff, E. Qed.

Lemma versioned_iff (c : cfg) (v : N) : versioned c v <-> format_version c v <> None.
Proof.
  unfold versioned, format_version, FMT_OCF_CBOR, FMT_CBOR.
  destruct (N.eqb_spec v 10000) as [->|H1]; [split; [discriminate|auto]|].
  destruct (c_oic c); cbn [andb].
  - destruct (N.eqb_spec v 60) as [->|H2]; [split; [discriminate|auto]|].
    split; [intros [H|[_ H]]; congruence|congruence].
  - split; [intros [H|[H _]]; congruence|congruence].
Qed.

Lemma wf_version_ok (c : cfg) (p : packet) :
  opt_all (fun a => opt_all (fun f => versioned c f -> versioned c a) (p_cf p)) (p_accept p) -> version_ok c p.
Proof.
  intros H a f Ha Hf Hn. rewrite Ha, Hf in H. cbn [opt_all] in H. rewrite !versioned_iff in H.
  destruct (format_version c f); [|reflexivity]. exfalso. apply H; [discriminate|exact Hn].
Qed.

Lemma scan_no_after (sep : N) : forall l w, scan sep w l [] = None.
Proof.
  induction l as [l IH] using list_len_ind. intros w. destruct l as [|k r]; cbn [scan]; [reflexivity|].
  destruct (k =? sep); [|apply IH; cbn [List.length]; lia].
  destruct r as [|d r']; [reflexivity|]. rewrite IH by (cbn [List.length]; lia). reflexivity.
Qed.
Lemma split_merge' (sep : N) (s after : list N) parts : trimmed sep s -> split_parts sep s after = Some parts ->
  fold_left (fun o v => Some (merge_multi sep o v)) parts None = Some s.
Proof.
  intros Ht H. destruct after as [|x y]; [rewrite split_parts_scan, scan_no_after in H; discriminate|].
  destruct (split_merge sep s (x :: y)) as (ps0 & E & Ef); [discriminate|exact Ht|]. congruence.
Qed.

Lemma fold_parts (sep : N) (o : option (list N)) (after : list N) parts :
  (o = None -> parts = []) -> (forall a, o = Some a -> split_parts sep a after = Some parts) -> opt_all (trimmed sep) o ->
  fold_left (fun d v => Some (merge_multi sep d v)) parts None = o.
Proof.
  intros H1 H2 H3. destruct o as [s|]; [|rewrite H1 by reflexivity; reflexivity].
  eapply split_merge'; [exact H3|]. apply H2. reflexivity.
Qed.

Lemma request_run (c : cfg) (p : packet) (e : env) pp qp : wf_request c p ->
  (p_path p = None -> pp = []) -> (forall a, p_path p = Some a -> split_parts 47 a (after_path e) = Some pp) ->
  (p_query p = None -> qp = []) -> (forall a, p_query p = Some a -> split_parts 38 a (after_query e) = Some qp) ->
  vrun c true true false false (0, base_of p) (popts c p pp qp) = inr (0, set_payload p []).
Proof.
  intros (Hc & Hs & (Hs1 & Hs2 & Hs3 & Hs4 & Hs5 & Hs6) & Hos & Het & Hob & Hpo & Hpa & Hcf & Hma & Hqu & Hac & Hb2 & Hb1 & Hz2 & Hz1 & _) Hp1 Hp2 Hq1 Hq2.
  pose proof (quiet_iff c (p_code p) Hs) as Hq.
  pose proof (fold_parts _ _ _ _ Hp1 Hp2 Hpa) as Hpath. pose proof (fold_parts _ _ _ _ Hq1 Hq2 Hqu) as Hquery.
  unfold popts. rewrite <- (app_nil_r (fl 2053 _)).
  rewrite run_host, run_etag, run_observe, run_port, run_path, run_cf, run_max_age, run_query, run_accept, run_block2, run_block1,
    run_size2, run_proxy, run_size1, run_ver, run_ver by first [reflexivity|assumption|left; reflexivity|right; reflexivity].
  replace (p_path _) with (@None (list N)) by reflexivity.
  replace (p_query _) with (@None (list N)) by reflexivity. rewrite Hpath, Hquery.
  cbn [vrun]. do 2 f_equal. destruct p. cbn in *. subst. reflexivity.
Qed.

Lemma ser_ok_shape (c : cfg) (e : env) (p : packet) (buf : N) (bytes : list N) :
  p_code p <> 0 -> coap_serialize_message c e p buf = S_ok bytes ->
  exists s, serialize_options c e p true true false = Some s /\ nlen (snd s) <= c_max_hdr c /\
    bytes = (if c_tcp c && p_tcp p
             then tcp_header (nlen (p_token p)) (p_code p) (tcp_message_length (tcp_total (nlen (snd s)) (nlen (p_payload p))))
             else udp_header (p_type p) (nlen (p_token p)) (p_code p) (p_mid p))
            ++ p_token p ++ snd s ++ pay (p_payload p).
Proof.
  intros Hc. unfold coap_serialize_message, serialize_message.
  rewrite options_size_eq by discriminate.
  destruct (serialize_options c e p true true false) as [[cur opts]|]; cbn [option_map fst snd]; [|discriminate].
  set (tl := tcp_message_length _). set (head := if c_tcp c && p_tcp p then _ else udp_header _ _ _ _).
  unfold check_header_size.
  match goal with |- context [negb ((?h <=? _) && _)] => destruct (N.leb_spec h (c_max_hdr c)) as [Hle|]; [|discriminate] end.
  cbn [andb]. destruct (negb (negb _)); [discriminate|].
  replace (p_code p =? 0) with false by (symmetry; apply N.eqb_neq; exact Hc). cbv iota. cbn [negb].
  match goal with |- context [negb (?h =? ?x)] => destruct (h =? x); cbn [negb]; [|discriminate] end.
  intros H. exists (cur, opts). cbn [snd]. split; [reflexivity|]. split; [lia|].
  assert (Hb : bytes = (head ++ p_token p) ++ opts ++ pay (p_payload p)).
  { clearbody head tl. clear Hle. destruct (p_payload p) as [|b r]; unfold nlen in H; cbn [List.length] in H.
    - change (0 <? N.of_nat 0) with false in H. cbv iota in H. cbn [pay]. rewrite app_nil_r. cbn [andb] in H. congruence.
    - replace (0 <? N.of_nat (S (List.length r))) with true in H by lia.
      cbn [andb] in H. destruct (_ <? _)%Z; [discriminate|]. cbn [pay]. congruence. }
  rewrite Hb, <- app_assoc. reflexivity.
Qed.

Lemma udp_first_check : forallb (fun t => forallb (fun k =>
   (N.lor (N.lor (N.land 0xC0 (N.shiftl 1 6)) (N.land 0x30 (N.shiftl t 4))) (N.land 0x0F k) =? 64 + 16 * t + k)
   && (N.shiftr (N.land 0xC0 (64 + 16 * t + k)) 6 =? 1) && (N.shiftr (N.land 0x30 (64 + 16 * t + k)) 4 =? t)
   && (N.land 0x0F (64 + 16 * t + k) =? k)) (below 9)) (below 4) = true.
Proof. vm_compute. reflexivity. Qed.
Lemma udp_first (t k : N) : t < 4 -> k <= 8 ->
  N.lor (N.lor (N.land 0xC0 (N.shiftl 1 6)) (N.land 0x30 (N.shiftl t 4))) (N.land 0x0F k) = 64 + 16 * t + k /\
  N.shiftr (N.land 0xC0 (64 + 16 * t + k)) 6 = 1 /\ N.shiftr (N.land 0x30 (64 + 16 * t + k)) 4 = t /\
  N.land 0x0F (64 + 16 * t + k) = k.
Proof.
  intros Ht Hk. pose proof (sweep_below 4 _ udp_first_check t Ht) as H. cbv beta in H.
  pose proof (sweep_below 9 _ H k ltac:(lia)) as H1. cbv beta in H1.
  repeat (apply andb_prop in H1 as [H1 ?]). repeat split; apply N.eqb_eq; assumption.
Qed.
Lemma mid_join (m : N) : m < 2 ^ 16 -> N.lor (N.shiftl (m / 256) 8) (m mod 256) = m.
Proof. intros H. rewrite lor_shift_add' by (apply N.mod_lt; discriminate). lia. Qed.

(** Every RFC-shaped datagram is decoded without leaving it. *)
Lemma udp_parse_rfc (c : cfg) (validate : bool) (type code mid : N) (token : list N) opts (payload msg after : list N) :
  type < 4 -> mid < 2 ^ 16 -> (List.length token <= 8)%nat -> Forall (fun o => fst o < 2 ^ 32) opts ->
  nlen msg <= 65535 -> rfc_udp type code mid token opts payload msg ->
  udp_parse c validate msg after =
  finish payload (vrun c true true false validate
     (0, set_token (set_mid (set_code (set_type blank type) code) mid) token) opts).
Proof.
  intros Ht Hm Htk Hf Hlen (ob & pb & Ho & Hp & ->). unfold udp_parse.
  match goal with |- context [65535 <? ?x] => replace (65535 <? x) with false by lia end.
  cbn [app]. destruct (udp_first type (N.of_nat (List.length token)) Ht ltac:(lia)) as (_ & -> & -> & ->).
  change (1 =? 1) with true. cbn [negb]. rewrite mid_join by exact Hm.
  replace (8 <? N.of_nat (List.length token)) with false by lia. rewrite Nnat.Nat2N.id.
  rewrite <- !app_assoc.
  match goal with |- context [(?a <? ?b)%nat] => replace (a <? b)%nat with false by (rewrite !app_length; lia) end.
  rewrite firstn_app, firstn_all, Nat.sub_diag. cbn [firstn]. rewrite app_nil_r.
  rewrite skipn_app, skipn_all, Nat.sub_diag. cbn [skipn app].
  unfold parse_options.
  match goal with |- context [0xFFFFFFFF <? ?x] => replace (0xFFFFFFFF <? x) with false end.
  2:{ symmetry. apply N.ltb_ge. unfold nlen in *. cbn [app List.length] in *. lia. }
  match goal with |- parse_loop _ _ _ _ _ _ _ ?l _ _ _ = _ => replace l with (Z.of_nat (List.length (ob ++ pb))) end.
  2:{ unfold nlen. cbn [List.length]. rewrite !app_length. lia. }
  apply loop_message; try assumption.
  apply opts_le_bytes in Ho. rewrite !app_length. lia.
Qed.

Lemma request_opts_ok (c : cfg) (p : packet) pp qp : nlen (enc 0 (popts c p pp qp)) <= 65804 ->
  rfc_options 0 (popts c p pp qp) (enc 0 (popts c p pp qp)) /\ Forall (fun o => fst o < 2 ^ 32) (popts c p pp qp).
Proof.
  intros H. split.
  - apply enc_rfc; [apply popts_sorted|].
    apply Forall_forall. intros o Ho.
    pose proof (proj1 (Forall_forall _ _) (popts_num c p pp qp) o Ho) as H1.
    pose proof (proj1 (Forall_forall _ _) (enc_value_le (popts c p pp qp) 0) o Ho) as H2. cbn beta in *. split; lia.
  - eapply Forall_impl; [|apply popts_num]. cbn beta. intros o Ho. lia.
Qed.

(** *** Signals *)
Definition flag0 (b : bool) : option N := if b then Some 0 else None.
Definition sopts (p : packet) : list (N * list N) :=
  if p_code p =? CSM then fl 2 (option_map int_bytes (p_max_msg p)) ++ fl 4 (option_map int_bytes (flag0 (p_bert p)))
  else if (p_code p =? PING) || (p_code p =? PONG) then fl 2 (option_map int_bytes (flag0 (p_custody p)))
  else if p_code p =? RELEASE then fl 2 (p_alt p) ++ fl 4 (option_map int_bytes (p_hold p))
  else fl 2 (option_map int_bytes (p_bad_csm p)).
Lemma signal_enc (p : packet) : rep (signal_options p) (sopts p).
Proof.
  unfold signal_options, sopts.
  destruct (p_code p =? CSM); [apply rep_int, (rep_int 2 (p_max_msg p) (0, []) []); reflexivity|].
  destruct (_ || _); [apply (rep_int 2 _ (0, []) []); reflexivity|].
  destruct (p_code p =? RELEASE); [apply rep_int, (rep_arr 2 (p_alt p) (0, []) []); reflexivity|].
  apply (rep_int 2 _ (0, []) []); reflexivity.
Qed.
Lemma sopts_ok (p : packet) : nlen (enc 0 (sopts p)) <= 65804 ->
  rfc_options 0 (sopts p) (enc 0 (sopts p)) /\ Forall (fun o => fst o < 2 ^ 32) (sopts p).
Proof.
  intros H.
  assert (Hfl : forall n o, n <= 4 -> Forall (fun o : N * list N => fst o <= 4) (fl n o)).
  { intros n [v|] Hn; cbn [fl]; repeat constructor. exact Hn. }
  assert (Hn : Forall (fun o => fst o <= 4) (sopts p)).
  { unfold sopts. destruct (p_code p =? CSM); [apply Forall_app; split; apply Hfl; lia|].
    destruct (_ || _); [apply Hfl; lia|]. destruct (p_code p =? RELEASE); [apply Forall_app; split; apply Hfl; lia|apply Hfl; lia]. }
  split.
  - apply enc_rfc.
    + unfold sopts. rewrite <- (app_nil_r (if _ =? CSM then _ else _)).
      destruct (p_code p =? CSM); [rewrite <- app_assoc; repeat (apply sorted_fl; [lia|]); exact I|].
      destruct (_ || _); [repeat (apply sorted_fl; [lia|]); exact I|].
      destruct (p_code p =? RELEASE); [rewrite <- app_assoc|]; repeat (apply sorted_fl; [lia|]); exact I.
    + apply Forall_forall. intros o Ho. pose proof (proj1 (Forall_forall _ _) Hn o Ho) as H1.
      pose proof (proj1 (Forall_forall _ _) (enc_value_le (sopts p) 0) o Ho) as H2. cbn beta in *. split; lia.
  - eapply Forall_impl; [|exact Hn]. cbn beta. intros o Ho. lia.
Qed.
Lemma signal_run (c : cfg) (p : packet) : wf_signal c p ->
  vrun c true true false false (0, base_of p) (sopts p) = inr (0, set_payload p []).
Proof.
  intros ((Htcp & Hcode) & Hno & Hm & Hh & Hb & H5 & H6 & H8 & H9).
  assert (Hsig : is_signal c (p_code p) = true) by (apply signal_code_iff; split; assumption).
  assert (Hi : forall q n v, p_code q = p_code p -> parse_option c q n v true true false false = parse_signal q n v true).
  { intros q n v E. unfold parse_option. rewrite E, Hsig. reflexivity. }
  unfold sopts. destruct Hno as (N1 & N2 & N3 & N4 & N5 & N6 & N7 & N8 & N9 & N10 & N11 & N12 & N13 & N14 & N15).
  assert (Hcase : p_code p = CSM \/ p_code p = PING \/ p_code p = PONG \/ p_code p = RELEASE \/ p_code p = ABORT)
    by (unfold CSM, PING, PONG, RELEASE, ABORT; lia).
  destruct p as [tcp type code mid token f1 f2 f3 f4 f5 f6 f7 f8 f9 f10 f11 f12 f13 f14 f15 mm bert cust alt hold bad payl].
  cbn [p_code p_max_msg p_bert p_custody p_alt p_hold p_bad_csm p_uri_host p_etag p_observe p_uri_port p_oscore p_path p_cf p_max_age p_query p_accept p_block2 p_block1 p_size2 p_proxy_uri p_size1 opt_all] in *.
  subst f1 f2 f3 f4 f5 f6 f7 f8 f9 f10 f11 f12 f13 f14 f15.
  destruct Hcase as [->|[->|[->|[->| ->]]]]; unfold CSM, PING, PONG, RELEASE, ABORT in *; eqbs; cbn [orb].
  - specialize (H6 ltac:(lia) ltac:(lia)). destruct (H8 ltac:(lia)) as [-> ->]. rewrite (H9 ltac:(lia)), H6.
    destruct mm as [m|]; cbn [option_map fl app vrun].
    + unfold vstep at 1. cbn [fst snd]. rewrite Hi by reflexivity. unfold parse_signal. cbn [p_code base_of set_token set_mid set_code set_type set_tcp blank negb].
      unfold CSM. eqbs. rewrite int_roundtrip by exact Hm.
      destruct bert; cbn [flag0 option_map fl vrun]; [|reflexivity].
      unfold vstep. cbn [fst snd]. rewrite Hi by reflexivity. reflexivity.
    + destruct bert; cbn [flag0 option_map fl vrun]; [|reflexivity].
      unfold vstep. cbn [fst snd]. rewrite Hi by reflexivity. reflexivity.
  - destruct (H5 ltac:(lia)) as [-> ->]. destruct (H8 ltac:(lia)) as [-> ->]. rewrite (H9 ltac:(lia)).
    destruct cust; cbn [flag0 option_map fl vrun]; [|reflexivity].
    unfold vstep. cbn [fst snd]. rewrite Hi by reflexivity. reflexivity.
  - destruct (H5 ltac:(lia)) as [-> ->]. destruct (H8 ltac:(lia)) as [-> ->]. rewrite (H9 ltac:(lia)).
    destruct cust; cbn [flag0 option_map fl vrun]; [|reflexivity].
    unfold vstep. cbn [fst snd]. rewrite Hi by reflexivity. reflexivity.
  - destruct (H5 ltac:(lia)) as [-> ->]. rewrite (H6 ltac:(lia) ltac:(lia)). rewrite (H9 ltac:(lia)).
    assert (Hlast : forall q, p_code q = 228 -> p_hold q = None ->
              vrun c true true false false (0, q) (fl 4 (option_map int_bytes hold)) = inr (0, set_hold q hold)).
    { intros q Eq En. destruct hold as [h|]; cbn [option_map fl vrun].
      - unfold vstep. cbn [fst snd]. rewrite Hi by exact Eq. unfold parse_signal. rewrite Eq. cbn [negb].
        unfold CSM, PING, PONG, RELEASE. eqbs. cbn [orb]. rewrite int_roundtrip by exact Hh. reflexivity.
      - destruct q; cbn in En; subst; reflexivity. }
    destruct alt as [a|]; cbn [fl app].
    + cbn [vrun]. unfold vstep at 1. cbn [fst snd]. rewrite Hi by reflexivity. 
      change (parse_signal _ 2 a true) with (P_ok (set_alt (base_of (mkP tcp type 228 mid token None None None None None None None None None None None None None None None None false false (Some a) hold None payl)) (Some a))).
      cbv iota. rewrite Hlast by reflexivity. reflexivity.
    + rewrite Hlast by reflexivity. reflexivity.
  - destruct (H5 ltac:(lia)) as [-> ->]. rewrite (H6 ltac:(lia) ltac:(lia)). destruct (H8 ltac:(lia)) as [-> ->].
    destruct bad as [b|]; cbn [option_map fl vrun]; [|reflexivity].
    unfold vstep. cbn [fst snd]. rewrite Hi by reflexivity. unfold parse_signal. cbn [p_code base_of set_token set_mid set_code set_type set_tcp blank negb].
    unfold CSM, PING, PONG, RELEASE, ABORT. eqbs. cbn [orb]. cbn [opt_all] in Hb. rewrite int_roundtrip by lia. replace (65535 <? b) with false by lia. reflexivity.
Qed.

(** The options of a well-formed non-empty message, as a list, and their parse. *)
Lemma message_options (c : cfg) (e : env) (p : packet) (s : sstate) : cfg_ok c ->
  wf_request c p \/ wf_signal c p -> serialize_options c e p true true false = Some s -> nlen (snd s) <= c_max_hdr c ->
  exists opts, rfc_options 0 opts (snd s) /\ Forall (fun o => fst o < 2 ^ 32) opts /\
    vrun c true true false false (0, base_of p) opts = inr (0, set_payload p []).
Proof.
  intros Hcfg Hwf Hs Hle. unfold cfg_ok in Hcfg. destruct Hwf as [Hw|Hw].
  - pose proof Hw as (Hc & Hsig & Hrest). 
    assert (Hv : version_ok c p) by (apply wf_version_ok; apply Hrest).
    destruct (serialize_options_enc c e p s (quiet_iff _ _ Hsig) Hv Hs) as (pp & qp & E & H1 & H2 & H3 & H4).
    exists (popts c p pp qp). rewrite E in *. destruct (request_opts_ok c p pp qp ltac:(lia)) as [Ha Hb].
    split; [exact Ha|]. split; [exact Hb|]. eapply request_run; eassumption.
  - pose proof Hw as (Hsig & _). apply signal_code_iff in Hsig.
    unfold serialize_options in Hs. rewrite Hsig in Hs. injection Hs as <-.
    exists (sopts p). rewrite (signal_enc p) in *. cbn [snd] in *. destruct (sopts_ok p ltac:(lia)) as [Ha Hb].
    split; [exact Ha|]. split; [exact Hb|]. apply signal_run, Hw.
Qed.

Lemma finish_payload (p : packet) :
  P_ok (match p_payload p with [] => set_payload p [] | _ => set_payload (set_payload p []) (p_payload p) end) = P_ok p.
Proof. destruct (p_payload p) eqn:E; f_equal; destruct p; cbn in E; subst; reflexivity. Qed.

Lemma empty_run (p : packet) : wf_empty p -> base_of p = p.
Proof.
  destruct p. intros (Hc & Ht & (N1 & N2 & N3 & N4 & N5 & N6 & N7 & N8 & N9 & N10 & N11 & N12 & N13 & N14 & N15) & (S1 & S2 & S3 & S4 & S5 & S6) & Hp).
  cbn in *. subst. reflexivity.
Qed.

Lemma ser_empty (c : cfg) (e : env) (p : packet) (buf : N) (bytes : list N) :
  p_code p = 0 -> no_options p -> no_signal p -> p_payload p = [] -> coap_serialize_message c e p buf = S_ok bytes ->
  bytes = if c_tcp c && p_tcp p then tcp_header (nlen (p_token p)) 0 (tcp_message_length 0)
          else udp_header (p_type p) (nlen (p_token p)) 0 (p_mid p).
Proof.
  intros Hc Hno Hns Hp. unfold coap_serialize_message, serialize_message.
  assert (Ho : options_size c e p true true false = Some (0, 0)).
  { unfold options_size. rewrite Hc.
    replace (is_signal c 0) with false by (unfold is_signal; destruct (c_tcp c); reflexivity).
    destruct Hno as (N1 & N2 & N3 & N4 & N5 & N6 & N7 & N8 & N9 & N10 & N11 & N12 & N13 & N14 & N15).
    unfold on, cnt_versions. rewrite N1, N2, N3, N4, N5, N6, N7, N8, N9, N10, N11, N12, N13, N14, N15. 
    destruct (c_oscore c); reflexivity. }
  rewrite Ho, Hc, Hp. destruct (negb (check_header_size _ _ _)); [discriminate|]. 
  cbn [andb]. change (0 =? 0) with true. cbv iota. intros H. injection H as <-. reflexivity.
Qed.

Lemma udp_rfc (c : cfg) (e : env) (p : packet) (buf : N) (bytes : list N) :
  cfg_ok c -> wf_message c p -> p_tcp p = false -> coap_serialize_message c e p buf = S_ok bytes ->
  exists opts, rfc_udp (p_type p) (p_code p) (p_mid p) (p_token p) opts (p_payload p) bytes /\
    Forall (fun o => fst o < 2 ^ 32) opts /\
    vrun c true true false false (0, base_of p) opts = inr (0, set_payload p []).
Proof.
  intros Hcfg (Ht & Hm & Htk & Hw) Htcp Hser.
  assert (Hhd : forall code, udp_header (p_type p) (nlen (p_token p)) code (p_mid p) =
     [64 + 16 * p_type p + N.of_nat (List.length (p_token p)); code; p_mid p / 256; p_mid p mod 256]).
  { intros code. unfold udp_header, nlen. rewrite (proj1 (udp_first (p_type p) (N.of_nat (List.length (p_token p))) Ht ltac:(lia))).
    rewrite N.shiftr_div_pow2. change (2 ^ 8) with 256. rewrite (N.mod_small (p_mid p / 256)) by lia. reflexivity. }
  destruct Hw as [Hw|[Hw|Hw]].
  3:{ pose proof Hw as (Hc & Htok & Hno & Hns & Hp).
      apply ser_empty in Hser; try assumption. rewrite Htcp, andb_false_r in Hser. rewrite Hhd in Hser.
      exists []. split; [|split; [constructor|]].
      - exists [], []. split; [constructor|]. split; [left; split; [exact Hp|reflexivity]|].
        rewrite Hc, Htok in *. exact Hser.
      - cbn [vrun]. rewrite empty_run by exact Hw. destruct p; cbn in Hp; subst; reflexivity. }
  1,2: assert (Hc : p_code p <> 0) by (first [apply Hw|destruct Hw as ((_ & Hcode) & _); lia]);
    destruct (ser_ok_shape c e p buf bytes Hc Hser) as (s & Hs & Hle & Hb);
    destruct (message_options c e p s Hcfg ltac:(auto) Hs Hle) as (opts & Ho & Hf & Hr);
    exists opts; (split; [|split; [exact Hf|exact Hr]]);
    exists (snd s), (pay (p_payload p)); (split; [exact Ho|]); (split; [apply pay_rfc|]);
    rewrite Hb, Htcp, andb_false_r, Hhd; reflexivity.
Qed.

Lemma udp_roundtrip (c : cfg) (e : env) (p : packet) (buf : N) (bytes after : list N) :
  cfg_ok c -> wf_message c p -> p_tcp p = false -> coap_serialize_message c e p buf = S_ok bytes ->
  nlen bytes <= 65535 -> udp_parse c false bytes after = P_ok p.
Proof.
  intros Hcfg Hw Htcp Hser Hlen. destruct (udp_rfc c e p buf bytes Hcfg Hw Htcp Hser) as (opts & Hr & Hf & Hrun).
  destruct Hw as (Ht & Hm & Htk & _).
  rewrite (udp_parse_rfc c false (p_type p) (p_code p) (p_mid p) (p_token p) opts (p_payload p)) by assumption.
  replace (set_token _ _) with (base_of p) by (unfold base_of; rewrite Htcp; reflexivity).
  rewrite Hrun. cbn [finish]. change (0 =? 0) with true. cbv iota. apply finish_payload.
Qed.

(** ** CoAP over TCP *)
Lemma be_read_val (l : list N) (a : N) : bytes_ok l ->
  fold_left (fun acc b => N.lor (N.shiftl acc 8) b) l a = be_val_acc a l.
Proof.
  revert a. induction l as [|b r IH]; intros a H; [reflexivity|]. apply bytes_ok_cons in H as [Hb Hr].
  cbn [fold_left be_val_acc]. rewrite lor_shift_add' by exact Hb. apply IH, Hr.
Qed.

Lemma tcp_length_rfc (n : N) : n < 2 ^ 32 ->
  let '(k, nib, ext) := tcp_message_length n in rfc_tcp_len n nib (be_bytes k ext) /\ nib < 16.
Proof.
  intros Hn. change (2 ^ 32) with 4294967296 in Hn. unfold tcp_message_length, TCP_EXT1_DEFAULT, TCP_EXT2_DEFAULT, TCP_EXT3_DEFAULT.
  destruct (N.ltb_spec n 13) as [H1|H1]; [split; [constructor; exact H1|lia]|].
  destruct (N.ltb_spec n 269) as [H2|H2].
  { split; [|lia]. cbn [be_bytes]. change (8 * N.of_nat 0) with 0. rewrite N.shiftr_0_r, N.mod_small by lia. constructor. lia. }
  destruct (N.ltb_spec n 65805) as [H3|H3].
  { split; [|lia]. cbn [be_bytes]. change (8 * N.of_nat 0) with 0. change (8 * N.of_nat 1) with 8. rewrite N.shiftr_0_r, N.shiftr_div_pow2.
    change (2 ^ 8) with 256. rewrite (N.mod_small ((n - 269) / 256)) by lia. constructor. lia. }
  split; [|lia]. cbn [be_bytes]. change (8 * N.of_nat 0) with 0. change (8 * N.of_nat 1) with 8.
  change (8 * N.of_nat 2) with 16. change (8 * N.of_nat 3) with 24. rewrite N.shiftr_0_r, !N.shiftr_div_pow2.
  change (2 ^ 8) with 256. change (2 ^ 16) with 65536. change (2 ^ 24) with 16777216. set (m := n - 65805) in *.
  constructor; [lia| |].
  - repeat constructor; unfold is_byte; apply N.mod_lt; discriminate.
  - assert (m < 4294967296) by (unfold m; lia).
    assert (E1 : m / 65536 = m / 256 / 256) by (rewrite N.div_div by discriminate; reflexivity).
    assert (E2 : m / 16777216 = m / 256 / 256 / 256) by (rewrite !N.div_div by discriminate; reflexivity).
    rewrite E1, E2. fold m. clearbody m. clear - H. lia.
Qed.

Lemma rfc_tcp_read (n nib tkl : N) (ext rest : list N) : rfc_tcp_len n nib ext -> nib < 16 -> tkl <= 8 ->
  tcp_parse_length ((16 * nib + tkl) :: ext ++ rest) = TL_ok n (List.length ext) /\
  N.land 0x0F (16 * nib + tkl) = tkl.
Proof.
  intros H Hn Ht.
  assert (Hc : forallb (fun a => forallb (fun b => (N.shiftr (N.land 0xF0 (16 * a + b)) 4 =? a) && (N.land 0x0F (16 * a + b) =? b)) (below 9)) (below 16) = true)
    by (vm_compute; reflexivity).
  pose proof (sweep_below 16 _ Hc nib Hn) as H1. cbv beta in H1.
  pose proof (sweep_below 9 _ H1 tkl ltac:(lia)) as H2. cbv beta in H2.
  apply andb_prop in H2 as [H2 H3]. apply N.eqb_eq in H2, H3. split; [|exact H3].
  unfold tcp_parse_length. rewrite H2.
  assert (Hbig : 13 <= nib -> bytes_ok ext -> N.to_nat (N.shiftl 1 (nib - 13)) = List.length ext ->
    be_val ext + (if nib =? 13 then 13 else if nib =? 14 then 269 else 65805) = n ->
    (if nib <? 13 then TL_ok nib 0
     else if (List.length ((16 * nib + tkl)%N :: ext ++ rest) <? N.to_nat (N.shiftl 1 (nib - 13)%N) + 1)%nat then TL_false
          else TL_ok (be_read (firstn (N.to_nat (N.shiftl 1 (nib - 13))) (ext ++ rest)) +
                      (if nib =? 13 then TCP_EXT1_DEFAULT else if nib =? 14 then TCP_EXT2_DEFAULT else TCP_EXT3_DEFAULT))
                     (N.to_nat (N.shiftl 1 (nib - 13)))) = TL_ok n (List.length ext)).
  { intros Hge Hby Hl Hv. replace (nib <? 13) with false by lia. rewrite Hl.
    match goal with |- context [(?a <? ?b)%nat] => replace (a <? b)%nat with false by (cbn [List.length]; rewrite app_length; lia) end.
    rewrite firstn_app, firstn_all, Nat.sub_diag. cbn [firstn]. rewrite app_nil_r.
    unfold be_read. rewrite be_read_val by exact Hby. f_equal. exact Hv. }
  inversion H as [m Hm|m Hm|m Hm|m b1 b2 b3 b4 Hm Hb Hv]; subst.
  - replace (nib <? 13) with true by lia. reflexivity.
  - apply Hbig; [lia|repeat constructor; unfold is_byte; lia|reflexivity|]. change (13 =? 13) with true. unfold be_val. cbn [be_val_acc]. lia.
  - apply Hbig; [lia|repeat constructor; unfold is_byte; lia|reflexivity|]. change (14 =? 13) with false. change (14 =? 14) with true.
    cbv iota. unfold be_val. cbn [be_val_acc]. lia.
  - apply Hbig; [lia|exact Hb|reflexivity|]. change (15 =? 13) with false. change (15 =? 14) with false.
    cbv iota. unfold be_val. cbn [be_val_acc]. lia.
Qed.

Lemma rfc_tcp_len_ext (n nib : N) (ext : list N) : rfc_tcp_len n nib ext -> (List.length ext <= 4)%nat /\ nib < 16.
Proof. intros H; inversion H; cbn [List.length]; lia. Qed.

(** The frame length is found from any prefix that holds the length bytes, whatever follows. *)
Lemma tcp_size_rfc (code : N) (token : list N) opts (payload msg rest : list N) (k : nat) :
  (List.length token <= 8)%nat -> rfc_tcp code token opts payload msg -> (5 <= k)%nat ->
  tcp_packet_size (firstn k (msg ++ rest)) = Some (nlen msg).
Proof.
  intros Ht (ob & pb & nib & ext & Ho & Hp & Hl & ->) Hk. destruct (rfc_tcp_len_ext _ _ _ Hl) as [He Hn].
  cbn [app]. destruct k as [|k]; [lia|]. cbn [firstn].
  rewrite <- app_assoc, firstn_app.
  rewrite (firstn_all2 ext) by lia.
  destruct (rfc_tcp_read _ nib (N.of_nat (List.length token)) ext
              (firstn (k - List.length ext) ((code :: token ++ ob ++ pb) ++ rest)) Hl Hn ltac:(lia)) as [E1 E2].
  unfold tcp_packet_size. rewrite E1. cbn [hd]. rewrite E2. f_equal. unfold nlen. cbn [List.length]. rewrite !app_length. cbn [List.length].
  rewrite !app_length. lia.
Qed.

Lemma tcp_parse_rfc (c : cfg) (validate : bool) (code : N) (token : list N) opts (payload msg after : list N) :
  (List.length token <= 8)%nat -> Forall (fun o => fst o < 2 ^ 32) opts -> nlen msg <= 0xFFFFFFFF ->
  rfc_tcp code token opts payload msg ->
  tcp_parse c validate msg after =
  finish payload (vrun c true true false validate
     (0, set_token (set_code (set_type (set_tcp blank true) 1) code) token) opts).
Proof.
  intros Htk Hf Hlen (ob & pb & nib & ext & Ho & Hp & Hl & ->). destruct (rfc_tcp_len_ext _ _ _ Hl) as [He Hn].
  unfold tcp_parse.
  match goal with |- context [0xFFFFFFFF <? ?x] => replace (0xFFFFFFFF <? x) with false by lia end.
  destruct (rfc_tcp_read _ nib (N.of_nat (List.length token)) ext ([code] ++ token ++ ob ++ pb) Hl Hn ltac:(lia)) as [E1 E2].
  rewrite E1. cbn [hd]. rewrite E2.
  assert (Hnth : nth_error (((16 * nib + N.of_nat (List.length token)) :: ext ++ [code] ++ token ++ ob ++ pb) ++ after) (1 + List.length ext) = Some code).
  { cbn [Nat.add app nth_error]. rewrite <- app_assoc. rewrite nth_error_mid. reflexivity. }
  rewrite Hnth. replace (8 <? N.of_nat (List.length token)) with false by lia. rewrite Nnat.Nat2N.id.
  assert (Hskip : skipn (2 + List.length ext) (((16 * nib + N.of_nat (List.length token)) :: ext ++ [code] ++ token ++ ob ++ pb) ++ after)
                  = token ++ (ob ++ pb ++ after)).
  { change (skipn (2 + List.length ext) (((16 * nib + N.of_nat (List.length token)) :: ext ++ [code] ++ token ++ ob ++ pb) ++ after))
      with (skipn (S (List.length ext)) ((ext ++ [code] ++ token ++ ob ++ pb) ++ after)).
    rewrite <- app_assoc. rewrite skipn_app. rewrite skipn_all2 by lia.
    replace (S (List.length ext) - List.length ext)%nat with 1%nat by lia. cbn [app skipn]. rewrite <- !app_assoc. reflexivity. }
  rewrite Hskip.
  match goal with |- context [(?a <? ?b)%nat] => replace (a <? b)%nat with false by (rewrite !app_length; lia) end.
  rewrite firstn_app, firstn_all, Nat.sub_diag. cbn [firstn]. rewrite app_nil_r.
  rewrite skipn_app, skipn_all, Nat.sub_diag. cbn [skipn app].
  unfold parse_options.
  match goal with |- context [0xFFFFFFFF <? ?x] => replace (0xFFFFFFFF <? x) with false by (cbn [app] in *; lia) end.
  match goal with |- parse_loop _ _ _ _ _ _ _ ?l _ _ _ = _ => replace l with (Z.of_nat (List.length (ob ++ pb))) end.
  2:{ unfold nlen. cbn [List.length]. rewrite !app_length. cbn [List.length]. rewrite !app_length. lia. }
  apply loop_message; try assumption.
  apply opts_le_bytes in Ho. rewrite !app_length. lia.
Qed.

Lemma tcp_first_check : forallb (fun nib => forallb (fun k =>
   N.lor (N.land 0xF0 (N.shiftl nib 4)) (N.land 0x0F k) =? 16 * nib + k) (below 9)) (below 16) = true.
Proof. vm_compute. reflexivity. Qed.

Lemma tcp_rfc (c : cfg) (e : env) (p : packet) (buf : N) (bytes : list N) :
  cfg_ok c -> c_tcp c = true -> wf_message c p -> p_tcp p = true -> nlen (p_payload p) < 2 ^ 32 - 65805 ->
  coap_serialize_message c e p buf = S_ok bytes ->
  exists opts, rfc_tcp (p_code p) (p_token p) opts (p_payload p) bytes /\
    Forall (fun o => fst o < 2 ^ 32) opts /\
    vrun c true true false false (0, base_of p) opts = inr (0, set_payload p []).
Proof.
  intros Hcfg Hct (Ht & Hm & Htk & Hw) Htcp Hpl Hser.
  assert (Hhd : forall code n, n < 2 ^ 32 -> exists nib ext, rfc_tcp_len n nib ext /\
     tcp_header (nlen (p_token p)) code (tcp_message_length n) = (16 * nib + N.of_nat (List.length (p_token p))) :: ext ++ [code]).
  { intros code n Hn. pose proof (tcp_length_rfc n Hn) as H. destruct (tcp_message_length n) as [[k nib] ext]. destruct H as [H1 H2].
    exists nib, (be_bytes k ext). split; [exact H1|]. unfold tcp_header. f_equal.
    pose proof (sweep_below 16 _ tcp_first_check nib H2) as H3. cbv beta in H3. apply N.eqb_eq.
    apply (sweep_below 9 _ H3). unfold nlen. lia. }
  destruct Hw as [Hw|[Hw|Hw]].
  3:{ pose proof Hw as (Hc & Htok & Hno & Hns & Hp).
      apply ser_empty in Hser; try assumption. rewrite Htcp, Hct in Hser. cbn [andb] in Hser.
      exists []. split; [|split; [constructor|]].
      - destruct (Hhd 0 0 ltac:(reflexivity)) as (nib & ext & H1 & H2). exists [], [], nib, ext. split; [constructor|].
        split; [left; split; [exact Hp|reflexivity]|]. split; [exact H1|]. rewrite Hc. rewrite H2 in Hser. rewrite Hser, Htok. reflexivity.
      - cbn [vrun]. rewrite empty_run by exact Hw. destruct p; cbn in Hp; subst; reflexivity. }
  1,2: assert (Hc : p_code p <> 0) by (first [apply Hw|destruct Hw as ((_ & Hcode) & _); lia]);
    destruct (ser_ok_shape c e p buf bytes Hc Hser) as (s & Hs & Hle & Hb);
    destruct (message_options c e p s Hcfg ltac:(auto) Hs Hle) as (opts & Ho & Hf & Hr);
    exists opts; (split; [|split; [exact Hf|exact Hr]]);
    assert (Htot : tcp_total (nlen (snd s)) (nlen (p_payload p)) = N.of_nat (List.length (snd s ++ pay (p_payload p))))
      by (unfold tcp_total, nlen; rewrite app_length; destruct (p_payload p) as [|x y]; cbn [pay List.length];
          [change (0 <? N.of_nat 0) with false|replace (0 <? N.of_nat (S (List.length y))) with true by lia]; cbv iota; lia);
    unfold cfg_ok in Hcfg;
    assert (Hlt : N.of_nat (List.length (snd s ++ pay (p_payload p))) < 2 ^ 32)
      by (rewrite <- Htot; unfold tcp_total; destruct (0 <? nlen (p_payload p)); lia);
    destruct (Hhd (p_code p) _ Hlt) as (nib & ext & H1 & H2);
    exists (snd s), (pay (p_payload p)), nib, ext; (split; [exact Ho|]); (split; [apply pay_rfc|]); (split; [exact H1|]);
    rewrite Hb, Htcp, Hct; cbn [andb]; rewrite Htot, H2; cbn [app]; rewrite <- app_assoc; reflexivity.
Qed.

Lemma tcp_roundtrip (c : cfg) (e : env) (p : packet) (buf : N) (bytes rest after : list N) :
  cfg_ok c -> c_tcp c = true -> wf_message c p -> p_tcp p = true -> p_type p = 1 -> p_mid p = 0 ->
  nlen bytes <= 0xFFFFFFFF -> nlen (p_payload p) < 2 ^ 32 - 65805 ->
  coap_serialize_message c e p buf = S_ok bytes ->
  (forall k, (5 <= k)%nat -> tcp_packet_size (firstn k (bytes ++ rest)) = Some (nlen bytes)) /\
  tcp_parse c false bytes after = P_ok p.
Proof.
  intros Hcfg Hct Hw Htcp Hty Hmid Hlen Hpl Hser.
  destruct (tcp_rfc c e p buf bytes Hcfg Hct Hw Htcp Hpl Hser) as (opts & Hr & Hf & Hrun).
  destruct Hw as (Ht & Hm & Htk & _). split.
  - intros k Hk. eapply tcp_size_rfc; eassumption.
  - rewrite (tcp_parse_rfc c false (p_code p) (p_token p) opts (p_payload p)) by assumption.
    replace (set_token _ _) with (base_of p) by (unfold base_of; rewrite Htcp, Hty, Hmid; reflexivity).
    rewrite Hrun. cbn [finish]. change (0 =? 0) with true. cbv iota. apply finish_payload.
Qed.
