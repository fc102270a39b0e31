From Verif Require Import Common Ts_Model Ts_Spec Ts_Proofs Ts2_Proofs.
From Coq Require Import ZArith Lia.
Local Open Scope Z_scope.

(** * Parsing: the accepted texts are exactly those of the grammar *)
Lemma month_days_last y m : 0 <= y -> 1 <= m <= 12 -> month_days y m = last_day y m.
Proof.
  intros Hy Hm. unfold month_days, last_day. rewrite leap_year_eq by exact Hy.
  assert (m = 1 \/ m = 2 \/ m = 3 \/ m = 4 \/ m = 5 \/ m = 6 \/ m = 7 \/ m = 8 \/ m = 9 \/ m = 10 \/ m = 11 \/ m = 12) as D by lia.
  repeat (destruct D as [->|D]; [destruct (leapb y); reflexivity|]). subst m. destruct (leapb y); reflexivity.
Qed.
Lemma last_day_28 y m : 28 <= last_day y m <= 31.
Proof. unfold last_day. destruct (m =? 2); [destruct (leapb y); lia|]. destruct ((m =? 4) || (m =? 6) || (m =? 9) || (m =? 11)); lia. Qed.

Definition date_of (y m d : option Z) : option (Z * Z * Z) :=
  match y with
  | None => None
  | Some y => if y <? 1 then None else
    match m with
    | None => None
    | Some m => if (m <? 1) || (12 <? m) then None else
      match d with
      | None => None
      | Some d => if (d <? 1) || (31 <? d) then None
                  else if (28 <? d) && (month_days y m <? d) then None else Some (y, m, d)
      end
    end
  end.
Lemma date_of_spec oy om od y m d :
  date_of oy om od = Some (y, m, d) <-> oy = Some y /\ om = Some m /\ od = Some d /\ proper (y, m, d).
Proof.
  unfold date_of, proper, real. cbn [fst]. split.
  - destruct oy as [y0|]; [|discriminate]. destruct (Z.ltb_spec y0 1); [discriminate|].
    destruct om as [m0|]; [|discriminate]. destruct (Z.ltb_spec m0 1); [discriminate|]. destruct (Z.ltb_spec 12 m0); [discriminate|]. cbn [orb].
    destruct od as [d0|]; [|discriminate]. destruct (Z.ltb_spec d0 1); [discriminate|]. destruct (Z.ltb_spec 31 d0); [discriminate|]. cbn [orb].
    rewrite month_days_last by lia. pose proof (last_day_28 y0 m0).
    destruct (Z.ltb_spec 28 d0); cbn [andb].
    + destruct (Z.ltb_spec (last_day y0 m0) d0); [discriminate|]. intros E; injection E as -> -> ->. repeat split; lia.
    + intros E; injection E as -> -> ->. repeat split; lia.
  - intros (-> & -> & -> & Hy & Hm & Hd). pose proof (last_day_28 y m). rewrite month_days_last by lia.
    destruct (Z.ltb_spec y 1); [lia|]. destruct (Z.ltb_spec m 1); [lia|]. destruct (Z.ltb_spec 12 m); [lia|]. cbn [orb].
    destruct (Z.ltb_spec d 1); [lia|]. destruct (Z.ltb_spec 31 d); [lia|]. cbn [orb]. destruct (Z.ltb_spec (last_day y m) d); [lia|]. rewrite andb_false_r. reflexivity.
Qed.
Definition time_of (h m x : option Z) : option (Z * Z * Z) :=
  match h with
  | None => None
  | Some h => if 23 <? h then None else
    match m with
    | None => None
    | Some m => if 59 <? m then None else
      match x with
      | None => None
      | Some x => if 59 <? x then None else Some (h, m, x)
      end
    end
  end.
Lemma time_of_spec oh om ox h m x : time_of oh om ox = Some (h, m, x) <-> oh = Some h /\ om = Some m /\ ox = Some x /\ h <= 23 /\ m <= 59 /\ x <= 59.
Proof.
  unfold time_of. split.
  - destruct oh as [a|]; [|discriminate]. destruct (Z.ltb_spec 23 a); [discriminate|]. destruct om as [b|]; [|discriminate]. destruct (Z.ltb_spec 59 b); [discriminate|].
    destruct ox as [c|]; [|discriminate]. destruct (Z.ltb_spec 59 c); [discriminate|]. intros E; injection E as -> -> ->. repeat split; lia.
  - intros (-> & -> & -> & H1 & H2 & H3). destruct (Z.ltb_spec 23 h); [lia|]. destruct (Z.ltb_spec 59 m); [lia|]. destruct (Z.ltb_spec 59 x); [lia|]. reflexivity.
Qed.

(** the rest after the seconds *)
Definition tail_parse (s : list N) (rdn sod : Z) : option ts :=
  match s with
  | [] => None
  | ch :: cur =>
    if (ch =? 46)%N then
      let '(nsec, n, rest) := fraction cur 0 0 in
      if Nat.ltb n 1 || Nat.ltb 9 n then None
      else match rest with
           | [] => None
           | ch2 :: cur2 => zone ch2 cur2 rdn sod (u32 (nsec * pow10 (9 - n)))
           end
    else zone ch cur rdn sod 0
  end.
Lemma offset_start z off : written_offset z off -> exists c r, z = c :: r /\ (c = 90 \/ c = 122 \/ c = 43 \/ c = 45)%N.
Proof. intros [c Hc|h m _ _|h m _ _]; eexists; eexists; (split; [reflexivity|]); tauto. Qed.
Lemma tail_spec s rdn sod t : bytes_ok s ->
  (tail_parse s rdn sod = Some t <->
   exists frac nsec z off, s = frac ++ z /\ written_fraction frac nsec /\ written_offset z off /\
     t = mk_ts ((rdn - 719163) * 86400 + sod - off * 60) nsec off).
Proof.
  intros Hb. split.
  - destruct s as [|ch cur]; [discriminate|]. unfold tail_parse. destruct (N.eqb_spec ch 46) as [->|Hne].
    + destruct (fraction cur 0 0) as [[nsec n] rest] eqn:Ef. apply Forall_cons_iff in Hb as [_ Hb].
      apply fraction_inv in Ef; [|exact Hb|reflexivity]. destruct Ef as (w & x & -> & Hx & -> & ->). rewrite Nat.add_0_l, Z.mul_0_l, Z.add_0_l.
      destruct (Nat.ltb_spec w 1) as [|H1]; [discriminate|]. destruct (Nat.ltb_spec 9 w) as [|H9]; [discriminate|]. cbn [orb].
      apply Forall_app in Hb as [_ Hb].
      destruct rest as [|ch2 cur2]; [discriminate|]. intros E. apply zone_spec in E; [|exact Hb]. destruct E as (off & W & ->).
      exists (46%N :: num w x), (x * 10 ^ (9 - Z.of_nat w)), (ch2 :: cur2), off. split; [reflexivity|]. split; [constructor; [lia|exact Hx]|]. split; [exact W|].
      f_equal. rewrite pow10_spec by lia. replace (Z.of_nat (9 - w)) with (9 - Z.of_nat w) by lia.
      assert (P : 10 ^ Z.of_nat w * 10 ^ (9 - Z.of_nat w) = 1000000000) by (rewrite <- Z.pow_add_r by lia; replace (Z.of_nat w + (9 - Z.of_nat w)) with 9 by lia; reflexivity).
      assert (0 < 10 ^ (9 - Z.of_nat w)) by (apply Z.pow_pos_nonneg; lia). assert (0 < 10 ^ Z.of_nat w) by apply pow10_pos.
      assert (x * 10 ^ (9 - Z.of_nat w) < 1000000000) by (rewrite <- P; apply Z.mul_lt_mono_pos_r; lia).
      assert (x < 1000000000) by nia. rewrite (u32_small x) by lia. rewrite u32_small by nia. reflexivity.
    + intros E. apply zone_spec in E; [|exact Hb]. destruct E as (off & W & ->). exists [], 0, (ch :: cur), off. repeat split; [constructor|exact W].
  - intros (frac & nsec & z & off & -> & F & W & ->). apply Forall_app in Hb as [_ Hz]. destruct (offset_start z off W) as (c & r & -> & Hc).
    assert (Z1 : zone c r rdn sod nsec = Some (mk_ts ((rdn - 719163) * 86400 + sod - off * 60) nsec off)).
    { apply zone_spec; [exact Hz|]. exists off. split; [exact W|reflexivity]. }
    destruct F as [|w v Hw Hv].
    + cbn [app tail_parse]. destruct (N.eqb_spec c 46) as [->|_]; [exfalso; lia|]. exact Z1.
    + cbn [app tail_parse]. change (46 =? 46)%N with true. cbv iota.
      apply Forall_cons_iff in Hz as [Hcb _]. rewrite fraction_num; [|exact Hv|cbn [ended]; apply digit_not; [lia|exact Hcb]|reflexivity].
      rewrite Nat.add_0_l, Z.mul_0_l, Z.add_0_l. destruct (Nat.ltb_spec w 1); [lia|]. destruct (Nat.ltb_spec 9 w); [lia|]. cbn [orb].
      rewrite pow10_spec by lia. replace (Z.of_nat (9 - w)) with (9 - Z.of_nat w) by lia.
      assert (P : 10 ^ Z.of_nat w * 10 ^ (9 - Z.of_nat w) = 1000000000) by (rewrite <- Z.pow_add_r by lia; replace (Z.of_nat w + (9 - Z.of_nat w)) with 9 by lia; reflexivity).
      assert (0 < 10 ^ (9 - Z.of_nat w)) by (apply Z.pow_pos_nonneg; lia). assert (0 < 10 ^ Z.of_nat w) by apply pow10_pos.
      assert (v * 10 ^ (9 - Z.of_nat w) < 1000000000) by (rewrite <- P; apply Z.mul_lt_mono_pos_r; lia).
      assert (v < 1000000000) by nia. rewrite (u32_small v) by lia. rewrite u32_small by nia. exact Z1.
Qed.

(** the text taken apart *)
Lemma parse_shape a0 a1 a2 a3 a4 a5 a6 a7 a8 a9 a10 a11 a12 a13 a14 a15 a16 a17 a18 tl :
  timestamp_parse (a0 :: a1 :: a2 :: a3 :: a4 :: a5 :: a6 :: a7 :: a8 :: a9 :: a10 :: a11 :: a12 :: a13 :: a14 :: a15 :: a16 :: a17 :: a18 :: tl) =
  if negb (Nat.leb 1 (List.length tl) && (a4 =? 45) && (a7 =? 45) && (a13 =? 58) && (a16 =? 58) && ((a10 =? 84) || (a10 =? 32) || (a10 =? 116)))%N then None else
  match date_of (four a0 a1 a2 a3) (two a5 a6) (two a8 a9) with
  | None => None
  | Some (y, m, d) =>
    match time_of (two a11 a12) (two a14 a15) (two a17 a18) with
    | None => None
    | Some (h, mi, x) => tail_parse tl (rdn_of y m d) (h * 3600 + mi * 60 + x)
    end
  end.
Proof. reflexivity. Qed.

Lemma nineteen (s : list N) : (20 <= List.length s)%nat -> exists a0 a1 a2 a3 a4 a5 a6 a7 a8 a9 a10 a11 a12 a13 a14 a15 a16 a17 a18 tl,
  s = a0 :: a1 :: a2 :: a3 :: a4 :: a5 :: a6 :: a7 :: a8 :: a9 :: a10 :: a11 :: a12 :: a13 :: a14 :: a15 :: a16 :: a17 :: a18 :: tl.
Proof.
  intros H. do 19 (destruct s as [|? s]; [cbn [List.length] in H; lia|]). do 20 eexists. reflexivity.
Qed.
Lemma rdn_of_date y m d : rdn_of y m d = rdn_date (y, m, d).
Proof. reflexivity. Qed.

Lemma parse_written s t : bytes_ok s -> timestamp_parse s = Some t -> written s t.
Proof.
  intros Hb H. assert (L : (20 <= List.length s)%nat).
  { unfold timestamp_parse, check_format in H. destruct (Nat.leb_spec 20 (List.length s)) as [L|L]; [exact L|discriminate H]. }
  destruct (nineteen s L) as (a0 & a1 & a2 & a3 & a4 & a5 & a6 & a7 & a8 & a9 & a10 & a11 & a12 & a13 & a14 & a15 & a16 & a17 & a18 & tl & ->). clear L.
  rewrite parse_shape in H. unfold bytes_ok in Hb. rewrite !Forall_cons_iff in Hb. decompose [and] Hb. clear Hb.
  destruct (Nat.leb 1 (List.length tl)); [|discriminate H]. cbn [andb] in H.
  destruct (N.eqb_spec a4 45) as [->|]; [|discriminate H]. destruct (N.eqb_spec a7 45) as [->|]; [|discriminate H].
  destruct (N.eqb_spec a13 58) as [->|]; [|discriminate H]. destruct (N.eqb_spec a16 58) as [->|]; [|discriminate H]. cbn [andb] in H.
  destruct ((a10 =? 84) || (a10 =? 32) || (a10 =? 116))%N eqn:Es; [|discriminate H]. cbn [negb] in H.
  destruct (date_of (four a0 a1 a2 a3) (two a5 a6) (two a8 a9)) as [[[y m] d]|] eqn:Ed; [|discriminate H]. apply date_of_spec in Ed as (Ey & Em & Ed & P).
  destruct (time_of (two a11 a12) (two a14 a15) (two a17 a18)) as [[[h mi] x]|] eqn:Et; [|discriminate H]. apply time_of_spec in Et as (Eh & Emi & Ex & Hh & Hmi & Hx).
  apply tail_spec in H; [|assumption]. destruct H as (frac & nsec & z & off & -> & F & W & ->).
  apply four_inv in Ey as [Ry Ey]; [|assumption..]. apply two_inv in Em as [Rm Em]; [|assumption..]. apply two_inv in Ed as [Rd Ed]; [|assumption..].
  apply two_inv in Eh as [Rh Eh]; [|assumption..]. apply two_inv in Emi as [Rmi Emi]; [|assumption..]. apply two_inv in Ex as [Rx Ex]; [|assumption..].
  pose proof (w_text y m d a10 h mi x frac nsec z off (rdn_of y m d - 719163)) as K.
  rewrite <- Ey, <- Em, <- Ed, <- Eh, <- Emi, <- Ex in K. cbn [app] in K.
  replace ((rdn_of y m d - 719163) * 86400 + (h * 3600 + mi * 60 + x) - off * 60) with ((rdn_of y m d - 719163) * 86400 + h * 3600 + mi * 60 + x - off * 60) by ring.
  apply K; try assumption; try lia.
  - apply orb_true_iff in Es as [Es|Es]; [apply orb_true_iff in Es as [Es|Es]|]; apply N.eqb_eq in Es; subst a10; cbn [In]; tauto.
  - apply day_count_rdn; [exact P|]. rewrite rdn_of_date. ring.
Qed.

Lemma num_bytes w : forall v, bytes_ok (num w v).
Proof.
  induction w as [|w IH]; intros v; [constructor|]. cbn [num]. apply Forall_app. split; [apply IH|]. constructor; [|constructor].
  pose proof (mod10 v). unfold is_byte. lia.
Qed.
Lemma offset_bytes z off : written_offset z off -> bytes_ok z.
Proof.
  intros [c Hc|h m _ _|h m _ _].
  - constructor; [unfold is_byte; lia|constructor].
  - constructor; [unfold is_byte; lia|]. apply Forall_app. split; [apply num_bytes|]. constructor; [unfold is_byte; lia|apply num_bytes].
  - constructor; [unfold is_byte; lia|]. apply Forall_app. split; [apply num_bytes|]. constructor; [unfold is_byte; lia|apply num_bytes].
Qed.
Lemma fraction_bytes f n : written_fraction f n -> bytes_ok f.
Proof. intros [|w v _ _]; [constructor|]. constructor; [unfold is_byte; lia|apply num_bytes]. Qed.

Lemma written_parse s t : written s t -> timestamp_parse s = Some t.
Proof.
  intros W. destruct W as [y m d sep h mi x frac nsec z off k P Hy Hs Hh Hmi Hx F W D].
  rewrite num4, !num2. cbn [app]. rewrite parse_shape.
  destruct (offset_start z off W) as (c & r & Ez & _).
  assert (L : Nat.leb 1 (List.length (frac ++ z)) = true) by (rewrite app_length, Ez; cbn [List.length]; apply Nat.leb_le; lia).
  assert (S1 : ((sep =? 84) || (sep =? 32) || (sep =? 116))%N = true) by (destruct Hs as [<-|[<-|[<-|[]]]]; reflexivity).
  rewrite L, S1. change (45 =? 45)%N with true. change (58 =? 58)%N with true. cbn [andb negb].
  pose proof (last_day_28 y m). destruct P as [P1 P2]. cbn [fst] in P1. pose proof P2 as P3. unfold real in P3.
  rewrite four_num by lia. rewrite !two_num by lia.
  assert (E1 : date_of (Some y) (Some m) (Some d) = Some (y, m, d)) by (apply date_of_spec; repeat split; assumption || lia).
  assert (E2 : time_of (Some h) (Some mi) (Some x) = Some (h, mi, x)) by (apply time_of_spec; repeat split; lia).
  rewrite E1, E2. apply tail_spec.
  - apply Forall_app. split; [exact (fraction_bytes _ _ F)|exact (offset_bytes _ _ W)].
  - exists frac, nsec, z, off. repeat split; try assumption. f_equal. apply day_count_rdn in D; [|split; [exact P1|exact P2]]. rewrite rdn_of_date, D. ring.
Qed.
Lemma parse_iff s t : bytes_ok s -> (timestamp_parse s = Some t <-> written s t).
Proof. intros Hb. split; [apply parse_written; exact Hb|apply written_parse]. Qed.
