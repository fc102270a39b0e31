From Verif Require Import Common Oscore_Model Oscore_Spec Coap_Model Coap_Spec Coap_Proofs.
From Coq Require Import Wf_nat.
Local Open Scope N_scope.

(** ** Reads while parsing *)
Lemma parse_option_no_oob (c : cfg) (p : packet) (num : N) (v : list N) (inner outer validate : bool) :
  parse_option c p num v inner outer false validate <> P_oob.
Proof.
  unfold parse_option, parse_signal, parse_inner_option, parse_outer_option. cbv zeta.
  rewrite orb_true_r.
  repeat match goal with |- (if ?b then _ else _) <> _ => destruct b | |- match ?x with _ => _ end <> _ => destruct x end; discriminate.
Qed.

Lemma parse_option_err_pos (c : cfg) (p : packet) (num : N) (v : list N) (inner outer oscore validate : bool) (s : N) :
  parse_option c p num v inner outer oscore validate = P_err s -> 0 < s.
Proof.
  unfold parse_option, parse_signal, parse_inner_option, parse_outer_option. cbv zeta.
  repeat match goal with
  | |- (if ?b then _ else _) = _ -> _ => destruct b
  | |- match ?x with _ => _ end = _ -> _ => destruct x
  end; intros H; inversion H; reflexivity.
Qed.

Lemma read_ext_app (nib : N) (d : list N) :
  (exists v d', (List.length d' <= List.length d)%nat /\ forall a, read_ext nib (d ++ a) = Some (v, d' ++ a)) \/
  (forall a, (2 <= List.length a)%nat -> exists v r, read_ext nib (d ++ a) = Some (v, r) /\
      (List.length r < List.length a)%nat /\ (List.length a <= List.length r + 2)%nat).
Proof.
  unfold read_ext. destruct (nib =? 13).
  { destruct d as [|b d]; [right|left; exists (13 + b), d; cbn [app List.length]; split; [lia|reflexivity]].
    intros a Ha. destruct a as [|x a]; [cbn in Ha; lia|]. exists (13 + x), a. cbn [app List.length] in *; repeat split; try reflexivity; try lia. }
  destruct (nib =? 14).
  { destruct d as [|b1 [|b2 d]].
    - right. intros [|x [|y a]] Ha; cbn in Ha; try lia. exists (14 + 255 + N.shiftl x 8 + y), a. cbn [app List.length] in *; repeat split; try reflexivity; try lia.
    - right. intros [|x a] Ha; cbn in Ha; try lia. exists (14 + 255 + N.shiftl b1 8 + x), a. cbn [app List.length] in *; repeat split; try reflexivity; try lia.
    - left. exists (14 + 255 + N.shiftl b1 8 + b2), d. cbn [app List.length] in *; repeat split; try reflexivity; try lia. }
  left. exists nib, d. auto.
Qed.

Lemma read_ext_some (nib : N) (m : list N) : (2 <= List.length m)%nat ->
  exists v r, read_ext nib m = Some (v, r) /\ (List.length r <= List.length m)%nat /\ (List.length m <= List.length r + 2)%nat.
Proof.
  intros H. unfold read_ext. destruct (nib =? 13).
  { destruct m as [|x m]; [cbn in H; lia|]. exists (13 + x), m. cbn [app List.length] in *; repeat split; try reflexivity; try lia. }
  destruct (nib =? 14).
  { destruct m as [|x [|y m]]; cbn in H; try lia. exists (14 + 255 + N.shiftl x 8 + y), m. cbn [app List.length] in *; repeat split; try reflexivity; try lia. }
  exists nib, m. repeat split; lia.
Qed.

(** With four readable bytes behind the data the loop never leaves the readable memory, and what is
    in these bytes does not matter. *)
Lemma loop_guarded (c : cfg) (inner outer validate : bool) (n : nat) : forall d num last p,
  (List.length d <= n)%nat ->
  exists r, r <> P_oob /\ forall a fuel, (4 <= List.length a)%nat -> (List.length d < fuel)%nat ->
    parse_loop fuel c inner outer false validate (d ++ a) (Z.of_nat (List.length d)) num last p = r.
Proof.
  induction n as [n IH] using lt_wf_ind. intros d num last p Hd.
  destruct d as [|b d1].
  { exists (if last =? 0 then P_ok p else P_err last). split; [destruct (last =? 0); discriminate|].
    intros a [|f] Ha Hf; [cbn in Hf; lia|]. reflexivity. }
  destruct (N.land b 0xF0 =? 0xF0) eqn:Eb.
  { exists (if last =? 0 then P_ok (set_payload p d1) else P_err last). split; [destruct (last =? 0); discriminate|].
    intros a [|f] Ha Hf; [cbn in Hf; lia|]. cbn [parse_loop app]. rewrite Eb.
    replace (Z.of_nat (List.length (b :: d1)) <=? 0)%Z with false by (cbn [List.length]; lia).
    replace (Z.of_nat (List.length (d1 ++ a)) <? Z.of_nat (List.length (b :: d1)) - 1)%Z with false
      by (cbn [List.length]; rewrite app_length; lia).
    replace (Z.to_nat (Z.of_nat (List.length (b :: d1)) - 1)) with (List.length d1) by (cbn [List.length]; lia).
    rewrite firstn_app, firstn_all, Nat.sub_diag. cbn [firstn]. rewrite app_nil_r. reflexivity. }
  assert (Hbad : forall a fuel v1 m2 v2 m3, (4 <= List.length a)%nat -> (List.length (b :: d1) < fuel)%nat ->
    read_ext (N.shiftr b 4) (d1 ++ a) = Some (v1, m2) -> read_ext (N.land b 0x0F) m2 = Some (v2, m3) ->
    (List.length m3 < List.length a)%nat ->
    parse_loop fuel c inner outer false validate ((b :: d1) ++ a) (Z.of_nat (List.length (b :: d1))) num last p = P_err BAD_REQUEST).
  { intros a [|f] v1 m2 v2 m3 Ha Hf E1 E2 Hl; [cbn in Hf; lia|]. cbn [parse_loop app]. rewrite Eb, E1, E2.
    replace (Z.of_nat (List.length (b :: d1)) <=? 0)%Z with false by (cbn [List.length]; lia). cbv zeta.
    match goal with |- context [(?x <? Z.of_N v2)%Z] => replace (x <? Z.of_N v2)%Z with true end; [reflexivity|].
    cbn [List.length]. rewrite app_length. lia. }
  destruct (read_ext_app (N.shiftr b 4) d1) as [(delta & d2 & Hl2 & E1)|Hover].
  2:{ exists (P_err BAD_REQUEST). split; [discriminate|]. intros a fuel Ha Hf.
      destruct (Hover a ltac:(lia)) as (v1 & m2 & E1 & Hm & Hm').
      destruct (read_ext_some (N.land b 0x0F) m2 ltac:(lia)) as (v2 & m3 & E2 & Hm3 & _).
      apply (Hbad a fuel v1 m2 v2 m3 Ha Hf E1 E2). lia. }
  destruct (read_ext_app (N.land b 0x0F) d2) as [(len & d3 & Hl3 & E2)|Hover].
  2:{ exists (P_err BAD_REQUEST). split; [discriminate|]. intros a fuel Ha Hf.
      destruct (Hover a ltac:(lia)) as (v2 & m3 & E2 & Hm & Hm').
      apply (Hbad a fuel delta (d2 ++ a) v2 m3 Ha Hf (E1 a) E2). lia. }
  set (num' := (num + delta) mod 2 ^ 32).
  destruct (Z.ltb_spec (Z.of_nat (List.length d3)) (Z.of_N len)) as [Hs|Hs].
  { exists (P_err BAD_REQUEST). split; [discriminate|]. intros a [|f] Ha Hf; [cbn in Hf; lia|].
    cbn [parse_loop app]. rewrite Eb, E1, E2.
    replace (Z.of_nat (List.length (b :: d1)) <=? 0)%Z with false by (cbn [List.length]; lia). cbv zeta.
    match goal with |- context [(?x <? Z.of_N len)%Z] => replace (x <? Z.of_N len)%Z with true end; [reflexivity|].
    cbn [List.length]. rewrite !app_length. lia. }
  assert (Hstep : forall a f, (4 <= List.length a)%nat ->
    parse_loop (S f) c inner outer false validate ((b :: d1) ++ a) (Z.of_nat (List.length (b :: d1))) num last p =
    match parse_option c p num' (firstn (N.to_nat len) d3) inner outer false validate with
    | P_oob => P_oob
    | P_ok p' => parse_loop f c inner outer false validate (skipn (N.to_nat len) d3 ++ a) (Z.of_nat (List.length (skipn (N.to_nat len) d3))) num' last p'
    | P_err s => if negb validate then P_err s
                 else if s =? BAD_REQUEST then P_err s
                 else parse_loop f c inner outer false validate (skipn (N.to_nat len) d3 ++ a) (Z.of_nat (List.length (skipn (N.to_nat len) d3))) num' (N.max last s) p
    end).
  { intros a f Ha. cbn [parse_loop app]. rewrite Eb, E1, E2.
    replace (Z.of_nat (List.length (b :: d1)) <=? 0)%Z with false by (cbn [List.length]; lia). cbv zeta. fold num'.
    match goal with |- context [(?x <? Z.of_N len)%Z] =>
      replace (x <? Z.of_N len)%Z with false by (cbn [List.length]; rewrite !app_length; lia);
      replace (x - Z.of_N len)%Z with (Z.of_nat (List.length (skipn (N.to_nat len) d3)))
        by (rewrite skipn_length; cbn [List.length]; rewrite !app_length; lia) end.
    replace (List.length (d3 ++ a) <? N.to_nat len)%nat with false by (rewrite app_length; lia).
    rewrite firstn_app, skipn_app. replace (N.to_nat len - List.length d3)%nat with 0%nat by lia.
    cbn [firstn]. change (skipn 0 a) with a. rewrite app_nil_r. reflexivity. }
  assert (Hlt : (List.length (skipn (N.to_nat len) d3) < n)%nat) by (rewrite skipn_length; cbn [List.length] in Hd; lia).
  destruct (parse_option c p num' (firstn (N.to_nat len) d3) inner outer false validate) as [|s|p'] eqn:Eo.
  - exfalso. exact (parse_option_no_oob _ _ _ _ _ _ _ Eo).
  - destruct validate; cbn [negb] in Hstep.
    + destruct (s =? BAD_REQUEST).
      * exists (P_err s). split; [discriminate|]. intros a [|f] Ha Hf; [cbn in Hf; lia|]. apply Hstep, Ha.
      * destruct (IH _ Hlt (skipn (N.to_nat len) d3) num' (N.max last s) p (le_n _)) as (r & Hr & H).
        exists r. split; [exact Hr|]. intros a [|f] Ha Hf; [cbn in Hf; lia|]. rewrite Hstep by exact Ha. apply H; [exact Ha|].
        rewrite skipn_length. cbn [List.length] in Hf. lia.
    + exists (P_err s). split; [discriminate|]. intros a [|f] Ha Hf; [cbn in Hf; lia|]. apply Hstep, Ha.
  - destruct (IH _ Hlt (skipn (N.to_nat len) d3) num' last p' (le_n _)) as (r & Hr & H).
    exists r. split; [exact Hr|]. intros a [|f] Ha Hf; [cbn in Hf; lia|]. rewrite Hstep by exact Ha. apply H; [exact Ha|].
    rewrite skipn_length. cbn [List.length] in Hf. lia.
Qed.

(** The whole UDP decoder: header and token present. *)
Lemma udp_guarded (c : cfg) (validate : bool) (data : list N) :
  4 + N.land 0x0F (hd 0 data) <= nlen data ->
  exists r, r <> P_oob /\ forall after, (4 <= List.length after)%nat -> udp_parse c validate data after = r.
Proof.
  intros Hl. unfold udp_parse.
  destruct (65535 <? nlen data) eqn:E; [exists (P_err BAD_REQUEST); split; [discriminate|reflexivity]|].
  destruct data as [|b0 [|b1 [|b2 [|b3 m]]]]; try (exfalso; clear -Hl; unfold nlen in Hl; cbn [List.length] in Hl; lia).
  cbn [hd] in Hl. set (tkl := N.land 0x0F b0) in *.
  assert (Hm : (N.to_nat tkl <= List.length m)%nat) by (unfold nlen in Hl; cbn [List.length] in Hl; lia).
  destruct (negb (N.shiftr (N.land 0xC0 b0) 6 =? 1)) eqn:Ev; [exists (P_err BAD_REQUEST); split; [discriminate|]; intros; cbn [app]; rewrite Ev; reflexivity|].
  destruct (8 <? tkl) eqn:Et; [exists (P_err BAD_REQUEST); split; [discriminate|]; intros; cbn [app]; rewrite Ev; fold tkl; rewrite Et; reflexivity|].
  set (p := set_token (set_mid (set_code (set_type blank (N.shiftr (N.land 0x30 b0) 4)) b1) (N.lor (N.shiftl b2 8) b3)) (firstn (N.to_nat tkl) m)).
  destruct (loop_guarded c true true validate _ (skipn (N.to_nat tkl) m) 0 0 p (le_n _)) as (r & Hr & H).
  exists r. split; [exact Hr|]. intros after Ha. cbn [app]. rewrite Ev. fold tkl. rewrite Et.
  replace (List.length (m ++ after) <? N.to_nat tkl)%nat with false by (rewrite app_length; lia).
  rewrite firstn_app, skipn_app. replace (N.to_nat tkl - List.length m)%nat with 0%nat by lia. cbn [firstn]. rewrite app_nil_r.
  change (skipn 0 after) with after. fold p. unfold parse_options.
  match goal with |- context [0xFFFFFFFF <? ?x] => replace (0xFFFFFFFF <? x) with false by lia end.
  match goal with |- parse_loop _ _ _ _ _ _ _ ?l _ _ _ = _ => replace l with (Z.of_nat (List.length (skipn (N.to_nat tkl) m))) end.
  - apply H; [exact Ha|]. rewrite app_length. lia.
  - rewrite skipn_length. unfold nlen. cbn [List.length]. lia.
Qed.

(** Without the hypothesis on the length the decoder stays within 12 bytes of the start or 4 bytes
    behind the end. *)
Lemma udp_reach (c : cfg) (validate : bool) (data after : list N) :
  (12 <= List.length (data ++ after))%nat -> (4 <= List.length after)%nat -> udp_parse c validate data after <> P_oob.
Proof.
  intros H12 Ha. destruct (N.le_gt_cases (4 + N.land 0x0F (hd 0 data)) (nlen data)) as [Hl|Hl].
  { destruct (udp_guarded c validate data Hl) as (r & Hr & H). rewrite H by exact Ha. exact Hr. }
  unfold udp_parse. destruct (65535 <? nlen data) eqn:E; [discriminate|].
  assert (Hhd : data <> [] -> hd 0 (data ++ after) = hd 0 data) by (destruct data; [congruence|reflexivity]).
  destruct (data ++ after) as [|b0 [|b1 [|b2 [|b3 m]]]] eqn:Ed; cbn [List.length] in H12; try lia.
  destruct (negb (N.shiftr (N.land 0xC0 b0) 6 =? 1)); [discriminate|].
  destruct (8 <? N.land 0x0F b0) eqn:Et; [discriminate|].
  replace (List.length m <? N.to_nat (N.land 0x0F b0))%nat with false by lia.
  unfold parse_options. match goal with |- context [0xFFFFFFFF <? ?x] => replace (0xFFFFFFFF <? x) with false by lia end.
  cbn [parse_loop]. match goal with |- context [(?l <=? 0)%Z] => replace (l <=? 0)%Z with true end; [discriminate|].
  destruct data as [|x data]; [unfold nlen; cbn [List.length]; lia|]. cbn [hd] in Hhd, Hl. specialize (Hhd ltac:(discriminate)). subst x. lia.
Qed.

(** ** The validity check of the receive path *)
Lemma parse_option_validate (c : cfg) (p q : packet) (num : N) (v : list N) (inner outer oscore : bool) :
  strings_cleared p = strings_cleared q ->
  match parse_option c p num v inner outer oscore false, parse_option c q num v inner outer oscore true with
  | P_ok p', P_ok q' => strings_cleared p' = strings_cleared q'
  | P_err s, P_err t => s = t
  | P_oob, P_oob => True
  | _, _ => False
  end.
Proof.
  intros E. destruct p, q. unfold strings_cleared in *. cbn in E. injection E as; subst.
  unfold parse_option, parse_signal, parse_inner_option, parse_outer_option. cbv zeta. cbn [p_code p_oscore].
  repeat match goal with |- match (if ?b then _ else _) with _ => _ end => destruct b
                       | |- match (match ?x with _ => _ end) with _ => _ end => destruct x end; try exact I; reflexivity.
Qed.

Lemma loop_validate (c : cfg) (inner outer oscore : bool) (fuel : nat) : forall mem left num last p q,
  strings_cleared p = strings_cleared q ->
  match parse_loop fuel c inner outer oscore false mem left num 0 p, parse_loop fuel c inner outer oscore true mem left num last q with
  | P_ok p', P_ok q' => last = 0 /\ strings_cleared p' = strings_cleared q'
  | P_ok _, P_err _ => last <> 0
  | P_ok _, P_oob => False
  | P_err _, P_ok _ => False
  | P_oob, P_ok _ => False
  | _, _ => True
  end.
Proof.
  induction fuel as [|f IH]; intros mem left num last p q E; [exact I|]. cbn [parse_loop].
  destruct (left <=? 0)%Z.
  { change (0 =? 0) with true. cbv iota. destruct (N.eqb_spec last 0); auto. }
  destruct mem as [|b m1]; [exact I|].
  destruct (N.land b 0xF0 =? 0xF0).
  { destruct (Z.of_nat (List.length m1) <? left - 1)%Z; [exact I|]. change (0 =? 0) with true. cbv iota.
    destruct (N.eqb_spec last 0); [split; [assumption|]|assumption].
    destruct p, q. unfold strings_cleared in *. cbn in *. injection E as; subst. reflexivity. }
  destruct (read_ext (N.shiftr b 4) m1) as [[delta m2]|]; [|exact I].
  destruct (read_ext (N.land b 0x0F) m2) as [[len m3]|]; [|exact I]. cbv zeta.
  match goal with |- context [if ?x then P_err BAD_REQUEST else _] => destruct x end; [exact I|].
  destruct (List.length m3 <? N.to_nat len)%nat; [exact I|].
  pose proof (parse_option_validate c p q ((num + delta) mod 2 ^ 32) (firstn (N.to_nat len) m3) inner outer oscore E) as Ho.
  destruct (parse_option c p _ _ inner outer oscore false) as [|s|p'] eqn:E1;
    destruct (parse_option c q _ _ inner outer oscore true) as [|t|q'] eqn:E2; try contradiction.
  - exact I.
  - subst t. cbn [negb]. destruct (s =? BAD_REQUEST); [exact I|].
    apply parse_option_err_pos in E1.
    set (l := N.max last s). assert (Hl : l <> 0) by (unfold l; lia). clearbody l.
    match goal with |- match parse_loop _ _ _ _ _ _ ?m ?lf ?nm ?la ?qq with _ => _ end =>
      pose proof (IH m lf nm la p q E) as H; set (g := parse_loop f c inner outer oscore true m lf nm la qq) in * end.
    destruct g as [| |q'] eqn:Eg; auto.
    destruct (parse_loop f c inner outer oscore false _ _ _ 0 p); try contradiction. destruct H. contradiction.
  - apply IH, Ho.
Qed.

Lemma validate_agrees (c : cfg) (data after : list N) :
  match udp_parse c false data after, udp_parse c true data after with
  | P_ok p, P_ok q => strings_cleared p = strings_cleared q
  | P_ok _, _ | _, P_ok _ => False
  | _, _ => True
  end.
Proof.
  assert (G : forall fuel mem left p,
    match parse_loop fuel c true true false false mem left 0 0 p, parse_loop fuel c true true false true mem left 0 0 p with
    | P_ok p, P_ok q => strings_cleared p = strings_cleared q
    | P_ok _, _ | _, P_ok _ => False
    | _, _ => True
    end).
  2:{ unfold udp_parse, parse_options. destruct (65535 <? nlen data); [exact I|].
      destruct (data ++ after) as [|b0 [|b1 [|b2 [|b3 m]]]]; try exact I.
      destruct (negb (N.shiftr (N.land 0xC0 b0) 6 =? 1)); [exact I|].
      destruct (8 <? N.land 0x0F b0); [exact I|].
      destruct (List.length m <? N.to_nat (N.land 0x0F b0))%nat; [exact I|].
      destruct (0xFFFFFFFF <? nlen data); [exact I|]. apply G. }
  intros fuel mem left p. pose proof (loop_validate c true true false fuel mem left 0 0 p p eq_refl) as H.
  destruct (parse_loop fuel c true true false false mem left 0 0 p) as [| |p'] eqn:E1;
    destruct (parse_loop fuel c true true false true mem left 0 0 p) as [| |q'] eqn:E2; auto.
  - exact (proj2 H).
Qed.

(** ** TCP: a frame that is complete according to its own length field. *)
Lemma tcp_guarded (c : cfg) (validate : bool) (data : list N) (n : N) :
  tcp_packet_size data = Some n -> n <= nlen data ->
  exists r, r <> P_oob /\ forall after, (4 <= List.length after)%nat -> tcp_parse c validate data after = r.
Proof.
  unfold tcp_packet_size. intros Hs Hn. unfold tcp_parse.
  destruct (0xFFFFFFFF <? nlen data) eqn:E; [exists (P_err BAD_REQUEST); split; [discriminate|reflexivity]|].
  destruct (tcp_parse_length data) as [| |len ext]; try discriminate. injection Hs as Hs.
  set (tkl := N.land 0x0F (hd 0 data)) in *.
  assert (Hl : (2 + ext + N.to_nat tkl <= List.length data)%nat) by (unfold nlen in Hn; lia).
  assert (Hlt : (1 + ext < List.length data)%nat) by lia.
  destruct (nth_error data (1 + ext)) as [code|] eqn:En; [|apply nth_error_None in En; lia].
  assert (En' : forall after, nth_error (data ++ after) (1 + ext) = Some code)
    by (intros; rewrite nth_error_app1 by exact Hlt; exact En).
  destruct (8 <? tkl) eqn:Et.
  { exists (P_err BAD_REQUEST). split; [discriminate|]. intros after _. rewrite En'. reflexivity. }
  set (m := skipn (2 + ext) data).
  assert (Hm : (N.to_nat tkl <= List.length m)%nat) by (unfold m; rewrite skipn_length; lia).
  set (p := set_token (set_code (set_type (set_tcp blank true) 1) code) (firstn (N.to_nat tkl) m)).
  destruct (loop_guarded c true true validate _ (skipn (N.to_nat tkl) m) 0 0 p (le_n _)) as (r & Hr & H).
  exists r. split; [exact Hr|]. intros after Ha. rewrite En'.
  rewrite (skipn_app (2 + ext) data after). replace (2 + ext - List.length data)%nat with 0%nat by lia. change (skipn 0 after) with after. fold m.
  replace (List.length (m ++ after) <? N.to_nat tkl)%nat with false by (rewrite app_length; lia).
  rewrite firstn_app, skipn_app. replace (N.to_nat tkl - List.length m)%nat with 0%nat by lia. cbn [firstn]. rewrite app_nil_r.
  change (skipn 0 after) with after. fold p. unfold parse_options. rewrite E.
  match goal with |- parse_loop _ _ _ _ _ _ _ ?l _ _ _ = _ => replace l with (Z.of_nat (List.length (skipn (N.to_nat tkl) m))) end.
  - apply H; [exact Ha|]. rewrite app_length. lia.
  - unfold m. rewrite !skipn_length. unfold nlen. lia.
Qed.

(** ** The output buffer *)
Lemma be_bytes_len (n : nat) (v : N) : List.length (be_bytes n v) = n.
Proof. induction n; cbn [be_bytes List.length]; congruence. Qed.

Definition head_of (c : cfg) (p : packet) (s : sstate) : list N :=
  if c_tcp c && p_tcp p
  then tcp_header (nlen (p_token p)) (p_code p) (tcp_message_length (tcp_total (nlen (snd s)) (nlen (p_payload p))))
  else udp_header (p_type p) (nlen (p_token p)) (p_code p) (p_mid p).

Lemma ser_eq (c : cfg) (e : env) (p : packet) (buf : N) :
  coap_serialize_message c e p buf =
  match serialize_options c e p true true false with
  | None => S_oob
  | Some s =>
    let h := nlen (head_of c p s) + nlen (p_token p) + nlen (snd s) in
    if negb (check_header_size c h buf) then S_fail
    else if p_code p =? 0 then S_ok (head_of c p s)
    else if (0 <? nlen (p_payload p)) && ((Z.of_N buf - Z.of_N h) mod 2 ^ 64 <? Z.of_N (nlen (p_payload p)) + 1)%Z
         then S_fail
         else S_ok (head_of c p s ++ p_token p ++ snd s ++ pay (p_payload p))
  end.
Proof.
  unfold coap_serialize_message, serialize_message. rewrite options_size_eq by discriminate.
  destruct (serialize_options c e p true true false) as [[cur opts]|]; cbn [option_map fst snd]; [|reflexivity].
  unfold head_of. cbn [snd]. set (tl := tcp_message_length _).
  assert (Hh : nlen (if c_tcp c && p_tcp p then tcp_header (nlen (p_token p)) (p_code p) tl
                     else udp_header (p_type p) (nlen (p_token p)) (p_code p) (p_mid p)) =
               if c_tcp c && p_tcp p then 2 + N.of_nat (fst (fst tl)) else 4).
  { destruct (c_tcp c && p_tcp p); [|reflexivity]. destruct tl as [[n nib] ext]. unfold tcp_header, nlen. cbn [List.length fst].
    rewrite app_length, be_bytes_len. cbn [List.length]. lia. }
  set (head := if c_tcp c && p_tcp p then tcp_header _ _ _ else _) in *. clearbody head tl. cbn [negb andb]. cbv zeta.
  replace (nlen opts + nlen (p_token p) + (if c_tcp c && p_tcp p then 2 + N.of_nat (fst (fst tl)) else 4))
    with (nlen head + nlen (p_token p) + nlen opts) by lia.
  destruct (negb (check_header_size c _ buf)); [reflexivity|].
  destruct (p_code p =? 0); [reflexivity|].
  replace (nlen head + nlen (p_token p) + nlen opts =? nlen ((head ++ p_token p) ++ opts)) with true
    by (symmetry; apply N.eqb_eq; rewrite !nlen_app; lia).
  cbn [negb]. destruct (p_payload p) as [|b r] eqn:Ep.
  - change (0 <? nlen (@nil N)) with false. cbv iota. cbn [andb pay]. rewrite app_nil_r, app_assoc. reflexivity.
  - replace (0 <? nlen (b :: r)) with true by (unfold nlen; cbn [List.length]; lia). cbn [andb pay].
    destruct (_ <? _)%Z; [reflexivity|]. rewrite <- app_assoc. reflexivity.
Qed.

Lemma ser_no_abort (c : cfg) (e : env) (p : packet) (buf : N) : coap_serialize_message c e p buf <> S_abort.
Proof.
  rewrite ser_eq. destruct (serialize_options c e p true true false); [|discriminate]. cbv zeta.
  repeat match goal with |- (if ?b then _ else _) <> _ => destruct b end; discriminate.
Qed.

Lemma pay_len (l : list N) : nlen (pay l) = if 0 <? nlen l then nlen l + 1 else 0.
Proof. destruct l; unfold nlen; cbn [pay List.length]; [reflexivity|]. replace (0 <? N.of_nat (S (List.length l))) with true by lia. lia. Qed.

Lemma ser_within (c : cfg) (e : env) (p : packet) (buf : N) (bytes : list N) :
  0 < buf < 2 ^ 64 -> coap_serialize_message c e p buf = S_ok bytes -> nlen bytes <= buf.
Proof.
  intros Hb. rewrite ser_eq. destruct (serialize_options c e p true true false) as [s|]; [|discriminate]. cbv zeta.
  unfold check_header_size. set (h := nlen (head_of c p s) + nlen (p_token p) + nlen (snd s)).
  destruct (h <=? c_max_hdr c); cbn [andb negb]; [|discriminate].
  replace (0 <? buf) with true by lia. cbn [andb]. rewrite negb_involutive.
  destruct (N.ltb_spec buf h) as [|Hh]; [discriminate|].
  destruct (p_code p =? 0); [intros H; injection H as <-; unfold h in Hh; lia|].
  match goal with |- (if ?b then _ else _) = _ -> _ => destruct b eqn:E; [discriminate|] end.
  intros H. injection H as <-. rewrite !nlen_app, pay_len.
  rewrite Z.mod_small in E by (change (2 ^ 64)%Z with 18446744073709551616%Z; change (2 ^ 64) with 18446744073709551616 in Hb; lia).
  fold h in E. destruct (0 <? nlen (p_payload p)); cbn [andb] in E; unfold h in *; lia.
Qed.

Lemma ser_exact_room (c : cfg) (e : env) (p : packet) (buf buf' : N) (bytes : list N) :
  p_code p <> 0 -> 0 < buf < 2 ^ 64 -> coap_serialize_message c e p buf = S_ok bytes -> 0 < buf' < 2 ^ 64 ->
  coap_serialize_message c e p buf' = if nlen bytes <=? buf' then S_ok bytes else S_fail.
Proof.
  intros Hc Hb H Hb'. pose proof (ser_within c e p buf bytes Hb H) as Hw. revert H Hw. rewrite !ser_eq.
  destruct (serialize_options c e p true true false) as [s|]; [|discriminate]. cbv zeta.
  replace (p_code p =? 0) with false by (symmetry; apply N.eqb_neq; exact Hc).
  unfold check_header_size. set (h := nlen (head_of c p s) + nlen (p_token p) + nlen (snd s)).
  destruct (h <=? c_max_hdr c); cbn [andb negb]; [|discriminate].
  replace (0 <? buf) with true by lia. replace (0 <? buf') with true by lia. cbn [andb]. rewrite !negb_involutive.
  destruct (N.ltb_spec buf h) as [|Hh]; [discriminate|].
  match goal with |- (if ?b then _ else _) = _ -> _ => destruct b eqn:E; [discriminate|] end.
  intros H Hw. injection H as <-.
  assert (Hl : nlen (head_of c p s ++ p_token p ++ snd s ++ pay (p_payload p)) = h + nlen (pay (p_payload p)))
    by (rewrite !nlen_app; unfold h; lia).
  rewrite Hl in *. rewrite pay_len in *.
  destruct (N.ltb_spec buf' h) as [Hlt|Hge].
  { match goal with |- S_fail = (if ?x <=? buf' then _ else _) => replace (x <=? buf') with false by (destruct (0 <? nlen (p_payload p)); lia) end. reflexivity. }
  rewrite Z.mod_small by (change (2 ^ 64)%Z with 18446744073709551616%Z; change (2 ^ 64) with 18446744073709551616 in Hb'; lia).
  destruct (0 <? nlen (p_payload p)); cbn [andb].
  - match goal with |- (if ?a then _ else _) = (if ?b then _ else _) => destruct a eqn:Ea; destruct b eqn:Eb end; try reflexivity; lia.
  - replace (h + 0 <=? buf') with true by lia. reflexivity.
Qed.

(** ** Decoding of block options *)
Lemma block_decode_val (v : N) : v < 2 ^ 24 ->
  block_decode v = mkB (v / 16) (v / 8 mod 2) (2 ^ (v mod 8 + 4)) (v / 16 * 2 ^ (v mod 8 + 4)).
Proof.
  intros Hv. change (2 ^ 24) with 16777216 in Hv. unfold block_decode.
  assert (H7 : N.land v 7 = v mod 8) by (change 7 with (N.ones 3); rewrite N.land_ones; reflexivity).
  assert (H8 : N.shiftr (N.land v 8) 3 = v / 8 mod 2).
  { rewrite N.shiftr_land. change (N.shiftr 8 3) with (N.ones 1). rewrite N.land_ones, N.shiftr_div_pow2. reflexivity. }
  assert (Hn : N.land (N.shiftr v 4) 0xFFFFF = v / 16).
  { change 0xFFFFF with (N.ones 20). rewrite N.land_ones, N.shiftr_div_pow2. change (2 ^ 4) with 16. change (2 ^ 20) with 1048576.
    apply N.mod_small. lia. }
  assert (Hh : N.land v 0xFFFFFFF0 = v / 16 * 16).
  { rewrite N.land_comm. change 0xFFFFFFF0 with (N.shiftl (N.ones 28) 4). rewrite land_high, N.land_comm, N.land_ones.
    rewrite N.shiftl_mul_pow2, N.shiftr_div_pow2. change (2 ^ 4) with 16. change (2 ^ 28) with 268435456. f_equal. apply N.mod_small. lia. }
  rewrite H7, H8, Hn, Hh, !N.shiftl_mul_pow2, N.pow_add_r. change (2 ^ 4) with 16.
  assert (Hz : v mod 8 < 8) by (apply N.mod_lt; discriminate).
  assert (Hp : 2 ^ (v mod 8) <= 2 ^ 7) by (apply N.pow_le_mono_r; [discriminate|lia]). change (2 ^ 7) with 128 in Hp.
  assert (Hd : v / 16 < 1048576) by lia.
  rewrite (N.mod_small (16 * _)) by (change (2 ^ 16) with 65536; lia).
  rewrite (N.mod_small (v / 16 * 16 * _)) by (change (2 ^ 32) with 4294967296; nia).
  f_equal; ring.
Qed.
