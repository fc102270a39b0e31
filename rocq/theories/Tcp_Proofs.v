From Coq Require Import NArith ZArith List Bool Arith Lia.
From Coq Require Import Zify.
From Verif Require Import Common Oscore_Model Oscore_Spec Coap_Model Coap_Spec Coap_Proofs Coap_Bounds Tcp_Model Tcp_Spec.
Import ListNotations.
Local Open Scope N_scope.
Ltac Zify.zify_post_hook ::= Z.div_mod_to_equations.

(** ** Recognising OSCORE messages *)
Lemma nth_mid' {A} (pre : list A) x r : nth_error (pre ++ x :: r) (List.length pre) = Some x.
Proof. rewrite nth_error_app2, Nat.sub_diag by lia. reflexivity. Qed.

Lemma osc_ext_rfc (v nib : N) (ext pre rest : list N) : rfc_ext v nib ext ->
  osc_ext (pre ++ ext ++ rest) nib (List.length pre) = Some (v, (List.length pre + List.length ext)%nat) /\ nib <= 14.
Proof.
  intros H. inversion H as [w Hw|w Hw|w Hw]; subst; unfold osc_ext.
  - replace (nib =? 13) with false by lia. replace (nib =? 14) with false by lia. cbn [List.length]. rewrite Nat.add_0_r. split; [reflexivity|lia].
  - change (13 =? 13) with true. cbv iota. cbn [app]. rewrite nth_mid'. cbn [option_map List.length].
    split; [|lia]. f_equal. f_equal; lia.
  - change (14 =? 13) with false. change (14 =? 14) with true. cbv iota. cbn [app]. rewrite nth_mid'.
    replace (pre ++ (v - 269) / 256 :: (v - 269) mod 256 :: rest) with ((pre ++ [(v - 269) / 256]) ++ (v - 269) mod 256 :: rest)
      by (rewrite <- app_assoc; reflexivity).
    replace (S (List.length pre)) with (List.length (pre ++ [(v - 269) / 256])) by (rewrite app_length; cbn [List.length]; lia).
    rewrite nth_mid', app_length. cbn [List.length]. rewrite N.shiftl_mul_pow2. change (2 ^ 8) with 256.
    split; [|lia]. f_equal. f_equal; lia.
Qed.

Lemma opt_byte (dn ln : N) : dn <= 14 -> ln <= 14 ->
  N.land (16 * dn + ln) 0xF0 =? 0xF0 = false /\ N.shiftr (16 * dn + ln) 4 = dn /\ N.land (16 * dn + ln) 0x0F = ln.
Proof.
  intros H1 H2.
  assert (Hc : forallb (fun a => forallb (fun b => negb (N.land (16 * a + b) 0xF0 =? 0xF0) && (N.shiftr (16 * a + b) 4 =? a)
      && (N.land (16 * a + b) 0x0F =? b)) (below 15)) (below 15) = true) by (vm_compute; reflexivity).
  pose proof (sweep_below 15 _ Hc dn ltac:(lia)) as H3. cbv beta in H3.
  pose proof (sweep_below 15 _ H3 ln ltac:(lia)) as H4. cbv beta in H4.
  apply andb_prop in H4 as [H4 H5]. apply andb_prop in H4 as [H4 H6]. apply negb_true_iff in H4. apply N.eqb_eq in H5, H6. auto.
Qed.

Lemma osc_loop_rfc (opts : list (N * list N)) : forall prev ob pre pb after fuel payload,
  rfc_options prev opts ob -> Forall (fun o => fst o < 2 ^ 32) opts -> rfc_payload payload pb -> prev <> 9 ->
  (List.length opts < fuel)%nat ->
  osc_loop fuel (pre ++ ob ++ pb ++ after) (List.length (pre ++ ob ++ pb)) (List.length pre) prev =
  if existsb (fun o => fst o =? 9) opts then O_yes else O_no.
Proof.
  induction opts as [|[n v] r IH]; intros prev ob pre pb after fuel payload Ho Hf Hp H9 Hfuel; destruct fuel as [|f];
    [inversion Hfuel| |cbn [List.length] in Hfuel; lia|].
  - inversion Ho; subst. cbn [existsb app osc_loop]. destruct Hp as [[_ ->]|[_ ->]].
    + rewrite app_nil_r, Nat.leb_refl. reflexivity.
    + rewrite app_length. cbn [List.length]. replace (_ <=? _)%nat with false by (symmetry; apply Nat.leb_gt; lia).
      cbn [app]. rewrite nth_mid'. reflexivity.
  - inversion Ho as [|a b0 c d b br Hle Hopt Hr]; subst. inversion Hopt as [delta value dn de ln le Hd Hl]; subst.
    inversion Hf as [|x y Hn Hf']; subst. cbn [fst] in Hn.
    cbn [osc_loop]. replace (_ <=? _)%nat with false by (symmetry; apply Nat.leb_gt; rewrite !app_length; cbn [app List.length]; lia).
    set (rest := br ++ pb ++ after).
    assert (Em : pre ++ ((16 * dn + ln :: de ++ le ++ v) ++ br) ++ pb ++ after = pre ++ (16 * dn + ln) :: de ++ le ++ v ++ rest).
    { unfold rest. cbn [app]. rewrite <- !app_assoc. reflexivity. }
    rewrite Em. rewrite nth_mid'.
    assert (Hp1 := osc_ext_rfc _ _ _ (pre ++ [16 * dn + ln]) (le ++ v ++ rest) Hd).
    assert (Hp2 := osc_ext_rfc _ _ _ (pre ++ [16 * dn + ln] ++ de) (v ++ rest) Hl).
    destruct Hp1 as [E1 D1]. destruct Hp2 as [E2 D2].
    destruct (opt_byte dn ln D1 D2) as (-> & -> & ->).
    replace (pre ++ (16 * dn + ln) :: de ++ le ++ v ++ rest) with ((pre ++ [16 * dn + ln]) ++ de ++ le ++ v ++ rest) at 1
      by (rewrite <- app_assoc; reflexivity).
    replace (S (List.length pre)) with (List.length (pre ++ [16 * dn + ln])) by (rewrite app_length; cbn [List.length]; lia).
    rewrite E1.
    replace (pre ++ (16 * dn + ln) :: de ++ le ++ v ++ rest) with ((pre ++ [16 * dn + ln] ++ de) ++ le ++ v ++ rest) at 1
      by (rewrite <- !app_assoc; reflexivity).
    replace (List.length (pre ++ [(16 * dn + ln)%N]) + List.length de)%nat with (List.length (pre ++ [16 * dn + ln] ++ de))
      by (rewrite !app_length; cbn [List.length]; lia).
    rewrite E2. cbv zeta. replace (prev + (n - prev)) with n by lia. rewrite N.mod_small by exact Hn.
    cbn [existsb fst]. destruct (N.eqb_spec n 9) as [->|H9']; [reflexivity|]. cbn [orb].
    rewrite Nnat.Nat2N.id.
    set (pre' := pre ++ (16 * dn + ln) :: de ++ le ++ v).
    replace (pre ++ (16 * dn + ln) :: de ++ le ++ v ++ rest) with (pre' ++ br ++ pb ++ after)
      by (unfold pre', rest; rewrite <- app_assoc; cbn [app]; rewrite <- !app_assoc; reflexivity).
    replace (pre ++ ((16 * dn + ln :: de ++ le ++ v) ++ br) ++ pb) with (pre' ++ br ++ pb)
      by (unfold pre'; rewrite <- !app_assoc; reflexivity).
    replace (List.length (pre ++ [(16 * dn + ln)%N] ++ de) + List.length le + List.length v)%nat with (List.length pre')
      by (unfold pre'; rewrite !app_length; cbn [List.length]; rewrite !app_length; cbn [List.length]; lia).
    apply (IH n br pre' pb after f payload); auto. cbn [List.length] in Hfuel. lia.
Qed.

Lemma existsb_nine (opts : list (N * list N)) : existsb (fun o => fst o =? 9) opts = true <-> In 9 (map fst opts).
Proof.
  rewrite existsb_exists, in_map_iff. split; intros ([a b] & H); cbn [fst] in H.
  - destruct H as [H1 H2]. apply N.eqb_eq in H2. subst a. exists (9, b). auto.
  - destruct H as [H1 H2]. subst a. exists (9, b). auto.
Qed.

Lemma is_oscore_tcp (code : N) (token : list N) opts (payload msg after : list N) :
  (List.length token <= 8)%nat -> Forall (fun o => fst o < 2 ^ 32) opts -> rfc_tcp code token opts payload msg ->
  is_oscore true msg after = if existsb (fun o => fst o =? 9) opts then O_yes else O_no.
Proof.
  intros Ht Hf (ob & pb & nib & ext & Ho & Hp & Hl & ->). destruct (rfc_tcp_len_ext _ _ _ Hl) as [He Hn].
  unfold is_oscore.
  destruct (rfc_tcp_read _ nib (N.of_nat (List.length token)) ext ([code] ++ token ++ ob ++ pb) Hl Hn ltac:(lia)) as [E1 E2].
  rewrite E1. cbn [app]. rewrite E2, Nnat.Nat2N.id.
  set (pre := (16 * nib + N.of_nat (List.length token)) :: ext ++ code :: token).
  change ((16 * nib + N.of_nat (List.length token)) :: (ext ++ code :: token ++ ob ++ pb) ++ after)
    with (((16 * nib + N.of_nat (List.length token)) :: ext ++ (code :: token ++ ob ++ pb)) ++ after).
  replace ((16 * nib + N.of_nat (List.length token)) :: ext ++ code :: token ++ ob ++ pb) with (pre ++ ob ++ pb)
    by (unfold pre; cbn [app]; rewrite <- !app_assoc; reflexivity).
  rewrite <- !app_assoc.
  replace (2 + List.length ext + List.length token)%nat with (List.length pre)
    by (unfold pre; cbn [List.length]; rewrite app_length; cbn [List.length]; lia).
  apply (osc_loop_rfc opts 0 ob pre pb after _ payload); auto; [lia|].
  apply opts_le_bytes in Ho. rewrite !app_length. lia.
Qed.

Lemma is_oscore_udp (type code mid : N) (token : list N) opts (payload msg after : list N) :
  type < 4 -> (List.length token <= 8)%nat -> Forall (fun o => fst o < 2 ^ 32) opts -> rfc_udp type code mid token opts payload msg ->
  is_oscore false msg after = if existsb (fun o => fst o =? 9) opts then O_yes else O_no.
Proof.
  intros Hty Ht Hf (ob & pb & Ho & Hp & ->). unfold is_oscore. cbn [app].
  assert (E2 : N.land 0x0F (64 + 16 * type + N.of_nat (List.length token)) = N.of_nat (List.length token)).
  { assert (Hc : forallb (fun a => forallb (fun b => N.land 0x0F (64 + 16 * a + b) =? b) (below 9)) (below 4) = true) by (vm_compute; reflexivity).
    pose proof (sweep_below 4 _ Hc type Hty) as H3. cbv beta in H3.
    apply N.eqb_eq. apply (sweep_below 9 _ H3). lia. }
  rewrite E2, Nnat.Nat2N.id.
  set (pre := [64 + 16 * type + N.of_nat (List.length token); code; mid / 256; mid mod 256] ++ token).
  match goal with |- osc_loop ?f ?m ?l ?o ?n = _ =>
    change m with (pre ++ ((ob ++ pb) ++ after) ) || replace m with (pre ++ ob ++ pb ++ after) by (unfold pre; cbn [app]; rewrite <- !app_assoc; reflexivity);
    replace l with (List.length (pre ++ ob ++ pb)) by (unfold pre; cbn [app List.length]; rewrite !app_length; lia);
    replace o with (List.length pre) by (unfold pre; cbn [app List.length]; lia)
  end.
  apply (osc_loop_rfc opts 0 ob pre pb after _ payload); auto; [lia|].
  apply opts_le_bytes in Ho. cbn [List.length]. rewrite !app_length. lia.
Qed.

(** Four readable bytes behind the message are enough. *)
Lemma osc_ext_some (mem : list N) (v : N) (off : nat) : v <= 15 -> (off + 1 < List.length mem)%nat ->
  exists w o, osc_ext mem v off = Some (w, o) /\ (off <= o <= off + 2)%nat.
Proof.
  intros Hv Hl. unfold osc_ext. destruct (v =? 13).
  - destruct (nth_error mem off) as [b|] eqn:E; [|apply nth_error_None in E; lia]. cbn [option_map]. do 2 eexists. split; [reflexivity|lia].
  - destruct (v =? 14); [|do 2 eexists; split; [reflexivity|lia]].
    destruct (nth_error mem off) as [b|] eqn:E; [|apply nth_error_None in E; lia].
    destruct (nth_error mem (S off)) as [b'|] eqn:E'; [|apply nth_error_None in E'; lia]. do 2 eexists. split; [reflexivity|lia].
Qed.

Lemma osc_loop_total (fuel : nat) : forall mem len off num, bytes_ok mem -> (len + 4 <= List.length mem)%nat -> (len < fuel + off)%nat ->
  (0 < fuel)%nat -> osc_loop fuel mem len off num = O_yes \/ osc_loop fuel mem len off num = O_no.
Proof.
  induction fuel as [|f IH]; intros mem len off num Hb Hm Hf H0; [lia|]. cbn [osc_loop].
  destruct (Nat.leb_spec len off) as [H|H]; [right; reflexivity|].
  destruct (nth_error mem off) as [b|] eqn:E; [|apply nth_error_None in E; lia].
  destruct (_ =? 0xF0); [right; reflexivity|].
  assert (Hby : is_byte b) by (apply nth_error_In in E; unfold bytes_ok in Hb; rewrite Forall_forall in Hb; apply Hb, E).
  assert (Hbb : N.shiftr b 4 <= 15 /\ N.land b 0x0F <= 15).
  { pose proof (sweep1 (fun b => (N.shiftr b 4 <=? 15) && (N.land b 0x0F <=? 15)) ltac:(vm_compute; reflexivity) b Hby) as H1. cbv beta in H1. lia. }
  destruct Hbb as [B1 B2].
  destruct (osc_ext_some mem (N.shiftr b 4) (S off) B1 ltac:(lia)) as (d & o1 & -> & Ho1).
  destruct (osc_ext_some mem (N.land b 0x0F) o1 B2 ltac:(lia)) as (l & o2 & -> & Ho2). cbv zeta.
  destruct (_ =? 9); [left; reflexivity|].
  destruct f as [|f']; [lia|]. apply IH; try assumption; lia.
Qed.

Lemma is_oscore_total (tcp : bool) (data after : list N) : bytes_ok (data ++ after) -> data <> [] -> (4 <= List.length after)%nat ->
  is_oscore tcp data after = O_yes \/ is_oscore tcp data after = O_no.
Proof.
  intros Hb Hne Ha. unfold is_oscore. destruct data as [|b0 r]; [congruence|].
  assert (G : forall hdr, osc_loop (S (List.length (b0 :: r))) ((b0 :: r) ++ after) (List.length (b0 :: r)) (hdr + N.to_nat (N.land 15 b0)) 0 = O_yes \/
     osc_loop (S (List.length (b0 :: r))) ((b0 :: r) ++ after) (List.length (b0 :: r)) (hdr + N.to_nat (N.land 15 b0)) 0 = O_no).
  { intros hdr. apply osc_loop_total; [exact Hb|rewrite app_length; lia|lia|lia]. }
  destruct tcp; [|apply (G 4%nat)].
  destruct (tcp_parse_length (b0 :: r)) as [| |l e] eqn:E.
  - unfold tcp_parse_length in E. destruct (_ <? 13); [discriminate|]. destruct (_ <? _)%nat; discriminate.
  - right. reflexivity.
  - apply (G (2 + e)%nat).
Qed.
