(* The options of a lease and the settings they make. *)
From Coq Require Import List NArith Bool Lia.
Import ListNotations.
From Verif Require Import Common Dhc_Model Dhc_Spec Dhc_Proofs.
From Verif Require Ea_Model Ea_Spec Ea_Proofs Ea2_Proofs.
Local Open Scope N_scope.

(* The parser on the bytes that are left. *)
Fixpoint prs (fuel : nat) (k : codes) (r : list N) (f : found) : parsed :=
  match fuel with
  | O => PFuel
  | S fu =>
      match r with
      | code :: sz :: rest =>
          if Nat.ltb (length rest) (N.to_nat sz) then PFalse
          else match set_option k code (firstn (N.to_nat sz) rest) f with
               | None => PFalse
               | Some f1 => prs fu k (skipn (N.to_nat sz) rest) f1
               end
      | _ => POk f
      end
  end.

Lemma nth_skip {A} (l : list A) i j : nth_error l (i + j) = nth_error (skipn i l) j.
Proof.
  revert l. induction i as [|i IH]; intros l; [reflexivity|].
  destruct l as [|x l]; [destruct j; reflexivity|]. cbn [Nat.add nth_error skipn]. apply IH.
Qed.

Lemma loop_prs fu k : forall l i f, (i <= length l)%nat ->
  parse_loop fu k l i f = prs fu k (skipn i l) f.
Proof.
  induction fu as [|fu IH]; intros l i f L; [reflexivity|]. cbn [parse_loop prs].
  pose proof (skipn_length i l) as SL.
  destruct (skipn i l) as [|code r] eqn:E.
  { destruct (Nat.ltb_spec (i + 1) (length l)); [cbn in SL; lia|reflexivity]. }
  destruct r as [|sz rest].
  { destruct (Nat.ltb_spec (i + 1) (length l)); [cbn in SL; lia|reflexivity]. }
  cbn [length] in SL.
  destruct (Nat.ltb_spec (i + 1) (length l)) as [B|B]; [|lia].
  replace (nth_error l i) with (nth_error l (i + 0)) by (rewrite Nat.add_0_r; reflexivity).
  rewrite !nth_skip, E. cbn [nth_error].
  replace (length l - (i + 1) - 1)%nat with (length rest) by lia.
  destruct (Nat.ltb_spec (length rest) (N.to_nat sz)) as [C|C]; [reflexivity|].
  unfold slice. destruct (Nat.leb_spec (i + 2 + N.to_nat sz) (length l)) as [D|D]; [|lia].
  assert (R : skipn (i + 2) l = rest).
  { rewrite <- (skipn_plus l i 2), E. reflexivity. }
  rewrite R. destruct (set_option k code (firstn (N.to_nat sz) rest) f) as [f1|]; [|reflexivity].
  rewrite IH by lia. f_equal.
  replace (i + (N.to_nat sz + 1) + 1)%nat with (i + 2 + N.to_nat sz)%nat by lia.
  rewrite <- (skipn_plus l (i + 2)), R. reflexivity.
Qed.

Definition upd (k : codes) (f : found) (o : N * list N) : found :=
  match set_option k (fst o) (snd o) f with Some f1 => f1 | None => f end.

Lemma set_option_good k code d f f1 : set_option k code d f = Some f1 ->
  (code = c_ep k \/ code = c_fp k \/ code = c_md k) /\ (0 < length d)%nat.
Proof.
  unfold set_option. destruct d as [|x d]; [discriminate|].
  destruct (code =? c_ep k) eqn:A; [apply N.eqb_eq in A; cbn; split; [auto|lia]|].
  destruct (code =? c_fp k) eqn:B; [apply N.eqb_eq in B; cbn; split; [auto|lia]|].
  destruct (code =? c_md k) eqn:C; [apply N.eqb_eq in C; cbn; split; [auto|lia]|discriminate].
Qed.

Lemma good_set_option k o f : good_option k o ->
  set_option k (fst o) (snd o) f = Some (upd k f o).
Proof.
  intros [A [B _]]. unfold upd. destruct o as [code d]. cbn [fst snd] in *.
  unfold set_option. destruct d as [|x d]; [cbn in B; lia|].
  destruct (code =? c_ep k) eqn:E1; [reflexivity|].
  destruct (code =? c_fp k) eqn:E2; [reflexivity|].
  destruct (code =? c_md k) eqn:E3; [reflexivity|].
  apply N.eqb_neq in E1, E2, E3. destruct A as [A|[A|A]]; congruence.
Qed.

Lemma prs_result fu k : forall r f, (length r < fu)%nat ->
  prs fu k r f = PFalse \/ exists f1, prs fu k r f = POk f1.
Proof.
  induction fu as [|fu IH]; intros r f L; [lia|]. cbn [prs].
  destruct r as [|code [|sz rest]]; [right; eexists; reflexivity..|].
  destruct (Nat.ltb (length rest) (N.to_nat sz)); [left; reflexivity|].
  destruct (set_option k code (firstn (N.to_nat sz) rest) f) as [f1|]; [|left; reflexivity].
  apply IH. rewrite skipn_length. cbn [length] in L. lia.
Qed.

Lemma prs_complete k os : forall fu rest f,
  Forall (good_option k) os -> (length rest <= 1)%nat ->
  (length (wires os ++ rest) < fu)%nat ->
  prs fu k (wires os ++ rest) f = POk (fold_left (upd k) os f).
Proof.
  induction os as [|o os IH]; intros fu rest f G R L.
  - destruct fu as [|fu]; [lia|]. cbn [wires map concat app fold_left prs].
    destruct rest as [|a [|b rest]]; [reflexivity..|cbn in R; lia].
  - destruct fu as [|fu]; [lia|]. inversion G as [|? ? G1 G2]; subst.
    change (wires (o :: os)) with (wire o ++ wires os) in *. unfold wire in *.
    cbn [app] in *. cbn [prs]. rewrite Nnat.Nat2N.id.
    rewrite <- !app_assoc in *.
    assert (LL : length (snd o ++ wires os ++ rest)
                 = (length (snd o) + length (wires os ++ rest))%nat) by apply app_length.
    destruct (Nat.ltb_spec (length (snd o ++ wires os ++ rest)) (length (snd o))) as [B|B]; [lia|].
    assert (F : firstn (length (snd o)) (snd o ++ wires os ++ rest) = snd o).
    { rewrite firstn_app, Nat.sub_diag, firstn_all. cbn [firstn]. apply app_nil_r. }
    assert (K : skipn (length (snd o)) (snd o ++ wires os ++ rest) = wires os ++ rest).
    { rewrite skipn_app, Nat.sub_diag, skipn_all. reflexivity. }
    rewrite F, K, (good_set_option k o f G1). cbn [fold_left].
    cbn [length] in L. apply IH; [exact G2|exact R|lia].
Qed.

Lemma prs_sound fu k : forall r f f1, bytes r -> prs fu k r f = POk f1 ->
  exists os, lease k r os /\ f1 = fold_left (upd k) os f.
Proof.
  induction fu as [|fu IH]; intros r f f1 B H; [discriminate H|]. cbn [prs] in H.
  destruct r as [|code [|sz rest]].
  { injection H as <-. exists []. split; [|reflexivity]. exists [].
    split; [reflexivity|]. split; [cbn; lia|constructor]. }
  { injection H as <-. exists []. split; [|reflexivity]. exists [code].
    split; [reflexivity|]. split; [cbn; lia|constructor]. }
  destruct (Nat.ltb_spec (length rest) (N.to_nat sz)) as [C|C]; [discriminate H|].
  destruct (set_option k code (firstn (N.to_nat sz) rest) f) as [f2|] eqn:E; [|discriminate H].
  inversion B as [|? ? B1 B2]; subst. inversion B2 as [|? ? B3 B4]; subst.
  assert (LF : length (firstn (N.to_nat sz) rest) = N.to_nat sz) by (rewrite firstn_length; lia).
  assert (BK : bytes (skipn (N.to_nat sz) rest)).
  { unfold bytes in *. rewrite <- (firstn_skipn (N.to_nat sz) rest) in B4.
    apply Forall_app in B4. exact (proj2 B4). }
  destruct (IH _ _ _ BK H) as [os [[tl [W [T G]]] F]].
  exists ((code, firstn (N.to_nat sz) rest) :: os). split.
  - exists tl. split; [|split; [exact T|]].
    + change (wires ((code, firstn (N.to_nat sz) rest) :: os))
        with (wire (code, firstn (N.to_nat sz) rest) ++ wires os).
      unfold wire. cbn [fst snd]. rewrite LF, Nnat.N2Nat.id.
      cbn [app]. rewrite <- app_assoc, <- W, firstn_skipn. reflexivity.
    + constructor; [|exact G]. destruct (set_option_good _ _ _ _ _ E) as [A D].
      split; cbn [fst snd]; [exact A|]. split; [exact D|]. rewrite LF. lia.
  - cbn [fold_left]. rewrite F. unfold upd at 3. cbn [fst snd]. rewrite E. reflexivity.
Qed.

Definition foundof (k : codes) (os : list (N * list N)) : found :=
  mkFound (last_with (is_ep k) os) (last_with (is_fp k) os) (last_with (is_md k) os).

Definition orelse (a b : option (list N)) : option (list N) :=
  match a with Some x => Some x | None => b end.

Lemma fold_last k os : forall f, Forall (good_option k) os ->
  fold_left (upd k) os f
  = mkFound (orelse (last_with (is_ep k) os) (f_ep f))
            (orelse (last_with (is_fp k) os) (f_fp f))
            (orelse (last_with (is_md k) os) (f_md f)).
Proof.
  induction os as [|o os IH]; intros f G; [destruct f; reflexivity|].
  inversion G as [|? ? G1 G2]; subst. cbn [fold_left last_with]. rewrite (IH _ G2).
  destruct G1 as [G1 [G3 _]]. destruct o as [code d]. cbn [fst snd] in *.
  unfold upd, set_option, is_ep, is_fp, is_md. cbn [fst snd].
  destruct d as [|x d]; [cbn in G3; lia|].
  destruct (code =? c_ep k) eqn:E1; cbn [negb andb f_ep f_fp f_md].
  { destruct (last_with (fun c : N => c =? c_ep k) os); cbn [orelse];
    destruct (last_with (fun c : N => negb (c =? c_ep k) && (c =? c_fp k)) os); cbn [orelse];
    destruct (last_with (fun c : N => negb (c =? c_ep k) && negb (c =? c_fp k) && (c =? c_md k)) os);
    reflexivity. }
  destruct (code =? c_fp k) eqn:E2; cbn [negb andb f_ep f_fp f_md].
  { destruct (last_with (is_ep k) os); cbn [orelse];
    destruct (last_with (fun c : N => negb (c =? c_ep k) && (c =? c_fp k)) os); cbn [orelse];
    destruct (last_with (fun c : N => negb (c =? c_ep k) && negb (c =? c_fp k) && (c =? c_md k)) os);
    destruct (last_with (fun c : N => c =? c_ep k) os);
    reflexivity. }
  destruct (code =? c_md k) eqn:E3; cbn [negb andb f_ep f_fp f_md].
  { destruct (last_with (fun c : N => c =? c_ep k) os); cbn [orelse];
    destruct (last_with (fun c : N => negb (c =? c_ep k) && (c =? c_fp k)) os); cbn [orelse];
    destruct (last_with (fun c : N => negb (c =? c_ep k) && negb (c =? c_fp k) && (c =? c_md k)) os);
    reflexivity. }
  apply N.eqb_neq in E1, E2, E3. destruct G1 as [A|[A|A]]; congruence.
Qed.

Lemma orelse_none a : orelse a None = a.
Proof. destruct a; reflexivity. Qed.

Lemma parse_lease k l os : lease k l os -> parse k l = POk (foundof k os).
Proof.
  intros [rest [-> [R G]]]. unfold parse.
  rewrite loop_prs by lia. cbn [skipn].
  rewrite (prs_complete k os _ rest _ G R) by lia.
  rewrite (fold_last k os _ G). cbn [f_ep f_fp f_md]. rewrite !orelse_none. reflexivity.
Qed.

Lemma parse_only k l f : bytes l -> parse k l = POk f ->
  exists os, lease k l os /\ f = foundof k os.
Proof.
  intros B H. unfold parse in H. rewrite loop_prs in H by lia. cbn [skipn] in H.
  destruct (prs_sound _ _ _ _ _ B H) as [os [L F]]. exists os. split; [exact L|].
  rewrite F. destruct L as [rest [_ [_ G]]]. rewrite (fold_last k os _ G).
  cbn [f_ep f_fp f_md]. rewrite !orelse_none. reflexivity.
Qed.

Lemma parse_safe k l : parse k l = PFalse \/ exists f, parse k l = POk f.
Proof. unfold parse. rewrite loop_prs by lia. apply prs_result. cbn [skipn]. lia. Qed.

(* Settings. *)
Lemma equal_len_eq a b : equal_len a b = true <-> a = b.
Proof.
  destruct a as [x|], b as [y|]; cbn [equal_len]; try (split; congruence).
  rewrite list_eqb_spec. split; congruence.
Qed.

Lemma set_values_kept lib prov l mem c :
  fst (set_values lib prov l mem c) = RError \/ fst (set_values lib prov l mem c) = RNotChanged ->
  snd (set_values lib prov l mem c) = c.
Proof.
  unfold set_values. destruct (parse (dh c) l) as [| | |f]; try reflexivity.
  destruct (parse_md lib f) as [md|]; [|reflexivity].
  destruct ((fp_md c =? md) && Ea_Model.is_selected (eps c) (view (f_ep f))
            && equal_len (fp_data c) (f_fp f)); [reflexivity|].
  destruct (set_fingerprint lib md (f_fp f) c) as [ok c1]. destruct ok; [|reflexivity].
  cbn [negb]. destruct (dhcp_set_endpoint f mem c1) as [ch c2]. cbn [fst snd].
  destruct (ch || negb prov); intros [H|H]; discriminate H.
Qed.

Lemma last_good k p os d : Forall (good_option k) os -> last_with p os = Some d ->
  (0 < length d < 256)%nat.
Proof.
  induction os as [|o os IH]; intros G H; [discriminate H|].
  inversion G as [|? ? G1 G2]; subst. cbn [last_with] in H.
  destruct (last_with p os) as [e|]; [injection H as <-; apply IH; auto|].
  destruct (p (fst o)); [|discriminate H]. injection H as <-. exact (proj2 G1).
Qed.

Lemma parse_md_named lib k os md : Forall (good_option k) os ->
  (named lib k os md <-> parse_md lib (foundof k os) = Some md).
Proof.
  intros G. unfold named, parse_md, foundof. cbn [f_md].
  destruct (last_with (is_md k) os) as [d|] eqn:E; [|split; congruence].
  pose proof (last_good k _ os d G E) as L.
  destruct d as [|x d]; [cbn in L; lia|]. rewrite firstn_all2 by lia. reflexivity.
Qed.

Lemma set_fingerprint_ok lib md d c :
  pinnable lib md d <-> fst (set_fingerprint lib md d c) = true.
Proof.
  unfold set_fingerprint, pinnable.
  destruct (md =? 0) eqn:Z.
  { cbn [negb]. apply N.eqb_eq in Z. split; [|auto]. intros _.
    destruct ((fp_md c =? md) && equal_len (fp_data c) d); reflexivity. }
  apply N.eqb_neq in Z.
  destruct (md_allowed lib md) eqn:A; cbn [andb].
  2:{ cbn [negb fst]. split; [intros [H|[H _]]; congruence|discriminate]. }
  destruct (md_size lib md) as [n|] eqn:M.
  2:{ cbn [negb fst]. split; [intros [H|[_ H]]; congruence|discriminate]. }
  destruct (Nat.eqb_spec n (osize d)) as [Q|Q]; cbn [negb].
  - split; [intros _; destruct ((fp_md c =? md) && equal_len (fp_data c) d); reflexivity|].
    intros _. right. split; [reflexivity|]. rewrite Q. destruct d; reflexivity.
  - cbn [fst]. split; [|discriminate]. intros [H|[_ H]]; [congruence|].
    injection H as H. exfalso. apply Q. rewrite H. destruct d; reflexivity.
Qed.

Lemma set_fingerprint_sets lib md d c :
  fst (set_fingerprint lib md d c) = true ->
  snd (set_fingerprint lib md d c) = mkCtx (dh c) md d (eps c).
Proof.
  unfold set_fingerprint.
  set (ok := if md =? 0 then true else _). clearbody ok. destruct ok; [|discriminate].
  cbn [negb]. intros _.
  destruct (fp_md c =? md) eqn:A; cbn [andb snd]; [|reflexivity].
  destruct (equal_len (fp_data c) d) eqn:B; cbn [snd]; [|reflexivity].
  apply N.eqb_eq in A. apply equal_len_eq in B. destruct c; cbn in *; subst. reflexivity.
Qed.

Lemma set_fingerprint_fails lib md d c :
  fst (set_fingerprint lib md d c) = false -> snd (set_fingerprint lib md d c) = c.
Proof.
  unfold set_fingerprint.
  set (ok := if md =? 0 then true else _). clearbody ok. destruct ok; [|reflexivity].
  cbn [negb]. destruct ((fp_md c =? md) && equal_len (fp_data c) d); discriminate.
Qed.

Lemma is_selected_spec s u : Ea_Model.is_selected s u = true <-> Ea_Model.selected_uri s = Some u.
Proof.
  unfold Ea_Model.is_selected, Ea_Model.selected_uri.
  destruct (Ea_Model.selected s) as [e|]; cbn [option_map]; [|split; discriminate].
  rewrite list_eqb_spec. split; congruence.
Qed.

Lemma reinit_selects s u m p : u <> [] -> (length u < 128)%nat ->
  Ea_Model.selected_uri (fst (Ea_Model.reinit s u m (Some p))) = Some u.
Proof.
  intros NE L. unfold Ea_Model.reinit, Ea_Model.init.
  destruct u as [|x u]; [destruct (NE eq_refl)|].
  unfold Ea_Model.alloc_add.
  assert (V : Ea_Model.uri_valid (x :: u) = true).
  { apply Ea_Proofs.uri_valid_spec. split; [discriminate|]. exact L. }
  rewrite V. cbn [negb Ea_Model.l_sel fst snd].
  unfold Ea_Model.select_, Ea_Model.set_items, Ea_Model.selected_uri, Ea_Model.selected.
  cbn [Ea_Model.l_sel Ea_Model.opt_eqb option_map Ea_Model.a_ptr fst snd
       Ea_Model.l_items app].
  unfold Ea_Model.find_ptr. cbn [find Ea_Model.a_ptr]. rewrite N.eqb_refl. reflexivity.
Qed.

Lemma set_endpoint_selects u p c : Ea_Spec.reach (eps c) -> u <> [] -> (length u < 128)%nat ->
  Ea_Model.selected_uri (eps (set_endpoint u (Some p) c)) = Some u.
Proof.
  intros R NE L. unfold set_endpoint.
  destruct (Nat.eqb (length (Ea_Model.l_items (eps c))) 1 && Ea_Model.contains (eps c) u) eqn:E.
  - apply andb_true_iff in E. destruct E as [A B]. apply Nat.eqb_eq in A.
    apply Ea_Proofs.contains_spec in B.
    pose proof (Ea2_Proofs.one_selected _ R) as O. unfold Ea_Model.selected_uri.
    destruct (Ea_Model.selected (eps c)) as [e|].
    + destruct (Ea_Model.l_items (eps c)) as [|f [|g r]]; cbn in A; try discriminate A.
      cbn in B. destruct B as [B|[]]. destruct O as [O|[]]. subst. reflexivity.
    + destruct O as [O _]. rewrite O in A. discriminate A.
  - cbn [eps]. apply reinit_selects; assumption.
Qed.

(* Everything about a lease with the options os. *)
Lemma set_values_lease lib prov l mem c os md :
  lease (dh c) l os -> named lib (dh c) os md ->
  set_values lib prov l mem c =
  (let f := foundof (dh c) os in
   if (fp_md c =? md) && Ea_Model.is_selected (eps c) (view (f_ep f))
      && equal_len (fp_data c) (f_fp f)
   then (RNotChanged, c)
   else
     let (ok, c1) := set_fingerprint lib md (f_fp f) c in
     if negb ok then (RError, c)
     else
       let (ch, c2) := dhcp_set_endpoint f mem c1 in
       (if ch || negb prov then RReprovision else RUpdated, c2)).
Proof.
  intros L NM. unfold set_values. rewrite (parse_lease _ _ _ L).
  assert (P : parse_md lib (foundof (dh c) os) = Some md).
  { destruct L as [rest [_ [_ G]]]. apply (parse_md_named lib (dh c) os md G). exact NM. }
  rewrite P. reflexivity.
Qed.

(* The lease changes nothing exactly when it says what is set already. *)
Lemma not_changed_iff lib prov l mem c os md :
  lease (dh c) l os -> named lib (dh c) os md ->
  (fst (set_values lib prov l mem c) = RNotChanged
   <-> fp_md c = md /\ fp_data c = last_with (is_fp (dh c)) os
       /\ selected_is c (endpoint_of (dh c) os)).
Proof.
  intros L NM. rewrite (set_values_lease lib prov l mem c os md L NM). cbv zeta.
  unfold foundof, endpoint_of, selected_is. cbn [f_ep f_fp].
  change (match last_with (is_ep (dh c)) os with Some u => u | None => [] end)
    with (view (last_with (is_ep (dh c)) os)).
  destruct ((fp_md c =? md) && Ea_Model.is_selected (eps c) (view (last_with (is_ep (dh c)) os))
            && equal_len (fp_data c) (last_with (is_fp (dh c)) os)) eqn:E.
  - apply andb_true_iff in E. destruct E as [E E3]. apply andb_true_iff in E.
    destruct E as [E1 E2]. apply N.eqb_eq in E1. apply is_selected_spec in E2.
    apply equal_len_eq in E3. split; [intros _; auto|reflexivity].
  - split.
    + destruct (set_fingerprint lib md (last_with (is_fp (dh c)) os) c) as [ok c1].
      destruct ok; cbn [negb]; [|intros H; discriminate H].
      destruct (dhcp_set_endpoint _ mem c1) as [ch c2]. cbn [fst].
      destruct (ch || negb prov); intros H; discriminate H.
    + intros [A [B C]]. exfalso. apply is_selected_spec in C. apply equal_len_eq in B.
      apply N.eqb_eq in A. rewrite A, B, C in E. discriminate E.
Qed.

(* A lease that is accepted sets the fingerprint. *)
Lemma accepted_sets lib prov l mem c os md :
  lease (dh c) l os -> named lib (dh c) os md ->
  fst (set_values lib prov l mem c) <> RError ->
  fp_md (snd (set_values lib prov l mem c)) = md
  /\ fp_data (snd (set_values lib prov l mem c)) = last_with (is_fp (dh c)) os
  /\ dh (snd (set_values lib prov l mem c)) = dh c.
Proof.
  intros L NM. rewrite (set_values_lease lib prov l mem c os md L NM). cbv zeta.
  unfold foundof. cbn [f_ep f_fp].
  destruct ((fp_md c =? md) && Ea_Model.is_selected (eps c) (view (last_with (is_ep (dh c)) os))
            && equal_len (fp_data c) (last_with (is_fp (dh c)) os)) eqn:E.
  - intros _. apply andb_true_iff in E. destruct E as [E E3]. apply andb_true_iff in E.
    destruct E as [E1 E2]. apply N.eqb_eq in E1. apply equal_len_eq in E3. cbn [snd]. auto.
  - pose proof (set_fingerprint_sets lib md (last_with (is_fp (dh c)) os) c) as S1.
    destruct (set_fingerprint lib md (last_with (is_fp (dh c)) os) c) as [ok c1].
    cbn [fst snd] in S1. destruct ok; cbn [negb]; [|intros H; destruct (H eq_refl)].
    rewrite (S1 eq_refl). intros _. unfold dhcp_set_endpoint. cbn [eps f_ep].
    destruct (Ea_Model.is_selected (eps c) (view (last_with (is_ep (dh c)) os)));
      cbn [snd fp_md fp_data dh]; [auto|].
    unfold set_endpoint. cbn [eps].
    match goal with |- context [if ?b then _ else _] => destruct b end;
      cbn [snd fp_md fp_data dh]; auto.
Qed.

Lemma error_iff lib prov l mem c os md :
  pinnable lib (fp_md c) (fp_data c) ->
  lease (dh c) l os -> named lib (dh c) os md ->
  (fst (set_values lib prov l mem c) = RError
   <-> ~ pinnable lib md (last_with (is_fp (dh c)) os)).
Proof.
  intros P L NM. rewrite (set_values_lease lib prov l mem c os md L NM). cbv zeta.
  unfold foundof. cbn [f_ep f_fp].
  destruct ((fp_md c =? md) && Ea_Model.is_selected (eps c) (view (last_with (is_ep (dh c)) os))
            && equal_len (fp_data c) (last_with (is_fp (dh c)) os)) eqn:E.
  - apply andb_true_iff in E. destruct E as [E E3]. apply andb_true_iff in E.
    destruct E as [E1 E2]. apply N.eqb_eq in E1. apply equal_len_eq in E3.
    rewrite E1, E3 in P. cbn [fst]. split; [intros H; discriminate H|]. intros H. destruct (H P).
  - pose proof (set_fingerprint_ok lib md (last_with (is_fp (dh c)) os) c) as S1.
    destruct (set_fingerprint lib md (last_with (is_fp (dh c)) os) c) as [ok c1].
    cbn [fst] in S1. destruct ok; cbn [negb].
    + destruct (dhcp_set_endpoint _ mem c1) as [ch c2]. cbn [fst].
      split; [destruct (ch || negb prov); intros H; discriminate H|].
      intros H. exfalso. apply H. apply S1. reflexivity.
    + cbn [fst]. split; [|reflexivity]. intros _ H. apply S1 in H. discriminate H.
Qed.

Lemma unnamed_error lib prov l mem c os :
  lease (dh c) l os -> (forall md, ~ named lib (dh c) os md) ->
  fst (set_values lib prov l mem c) = RError.
Proof.
  intros L NM. unfold set_values. rewrite (parse_lease _ _ _ L).
  destruct (parse_md lib (foundof (dh c) os)) as [md|] eqn:E; [|reflexivity].
  exfalso. apply (NM md). destruct L as [rest [_ [_ G]]].
  apply (parse_md_named lib (dh c) os md G). exact E.
Qed.

Lemma no_lease_error lib prov l mem c : bytes l ->
  (forall os, ~ lease (dh c) l os) -> fst (set_values lib prov l mem c) = RError.
Proof.
  intros B H. unfold set_values.
  destruct (parse (dh c) l) as [| | |f] eqn:E; [reflexivity..|].
  destruct (parse_only _ _ _ B E) as [os [L _]]. destruct (H os L).
Qed.

(* The address of an accepted lease is selected. *)
Lemma accepted_selects lib prov l p c os md u :
  Ea_Spec.reach (eps c) -> lease (dh c) l os -> named lib (dh c) os md ->
  last_with (is_ep (dh c)) os = Some u -> (length u < 128)%nat ->
  fst (set_values lib prov l (Some p) c) <> RError ->
  selected_is (snd (set_values lib prov l (Some p) c)) u.
Proof.
  intros R L NM EP LU. rewrite (set_values_lease lib prov l (Some p) c os md L NM). cbv zeta.
  unfold foundof. cbn [f_ep f_fp]. rewrite EP. cbn [view].
  assert (G : (0 < length u < 256)%nat).
  { destruct L as [rest [_ [_ G]]]. exact (last_good _ _ _ _ G EP). }
  destruct ((fp_md c =? md) && Ea_Model.is_selected (eps c) u
            && equal_len (fp_data c) (last_with (is_fp (dh c)) os)) eqn:E.
  - intros _. apply andb_true_iff in E. destruct E as [E E3]. apply andb_true_iff in E.
    destruct E as [E1 E2]. apply is_selected_spec in E2. exact E2.
  - pose proof (set_fingerprint_sets lib md (last_with (is_fp (dh c)) os) c) as S1.
    destruct (set_fingerprint lib md (last_with (is_fp (dh c)) os) c) as [ok c1].
    cbn [fst snd] in S1. destruct ok; cbn [negb]; [|intros H; destruct (H eq_refl)].
    rewrite (S1 eq_refl). intros _. unfold dhcp_set_endpoint. cbn [eps f_ep view].
    destruct (Ea_Model.is_selected (eps c) u) eqn:E2; cbn [snd].
    + apply is_selected_spec in E2. exact E2.
    + unfold selected_is. rewrite firstn_all2 by lia.
      apply set_endpoint_selects; [exact R| |exact LU].
      intros H. rewrite H in G. cbn in G. lia.
Qed.

(* Only updated: the address was selected already and the device is provisioned. *)
Lemma updated_means lib prov l mem c os md :
  lease (dh c) l os -> named lib (dh c) os md ->
  pinnable lib md (last_with (is_fp (dh c)) os) ->
  ~ (fp_md c = md /\ fp_data c = last_with (is_fp (dh c)) os
     /\ selected_is c (endpoint_of (dh c) os)) ->
  (fst (set_values lib prov l mem c) = RUpdated
   /\ prov = true /\ selected_is c (endpoint_of (dh c) os)
   /\ eps (snd (set_values lib prov l mem c)) = eps c)
  \/ (fst (set_values lib prov l mem c) = RReprovision
      /\ (prov = false \/ ~ selected_is c (endpoint_of (dh c) os))).
Proof.
  intros L NM P ND. rewrite (set_values_lease lib prov l mem c os md L NM). cbv zeta.
  unfold foundof, endpoint_of, selected_is in *. cbn [f_ep f_fp].
  change (match last_with (is_ep (dh c)) os with Some u => u | None => [] end)
    with (view (last_with (is_ep (dh c)) os)) in *.
  destruct ((fp_md c =? md) && Ea_Model.is_selected (eps c) (view (last_with (is_ep (dh c)) os))
            && equal_len (fp_data c) (last_with (is_fp (dh c)) os)) eqn:E.
  { exfalso. apply ND. apply andb_true_iff in E. destruct E as [E E3].
    apply andb_true_iff in E. destruct E as [E1 E2]. apply N.eqb_eq in E1.
    apply is_selected_spec in E2. apply equal_len_eq in E3. auto. }
  clear E. pose proof (set_fingerprint_sets lib md (last_with (is_fp (dh c)) os) c) as S1.
  apply (set_fingerprint_ok lib md _ c) in P.
  destruct (set_fingerprint lib md (last_with (is_fp (dh c)) os) c) as [ok c1].
  cbn [fst snd] in S1, P. subst ok. cbn [negb]. rewrite (S1 eq_refl).
  unfold dhcp_set_endpoint. cbn [eps f_ep].
  destruct (Ea_Model.is_selected (eps c) (view (last_with (is_ep (dh c)) os))) eqn:E.
  - apply is_selected_spec in E. cbn [orb].
    destruct prov; cbn [negb fst snd eps]; [left; auto|right; auto].
  - cbn [orb fst]. right. split; [reflexivity|]. right. intros H.
    apply is_selected_spec in H. congruence.
Qed.

(* What is pinned can be pinned, whatever happened. *)
Lemma step_pinnable lib c o : pinnable lib (fp_md c) (fp_data c) ->
  pinnable lib (fp_md (step lib c o)) (fp_data (step lib c o)).
Proof.
  intros P.
  assert (F : forall md d, pinnable lib (fp_md (snd (set_fingerprint lib md d c)))
                             (fp_data (snd (set_fingerprint lib md d c)))).
  { intros md d. pose proof (set_fingerprint_ok lib md d c) as A.
    pose proof (set_fingerprint_sets lib md d c) as B.
    pose proof (set_fingerprint_fails lib md d c) as C.
    destruct (fst (set_fingerprint lib md d c)).
    - rewrite (B eq_refl). cbn [fp_md fp_data]. apply A. reflexivity.
    - rewrite (C eq_refl). exact P. }
  assert (EPT : forall u m x, pinnable lib (fp_md x) (fp_data x) ->
            pinnable lib (fp_md (set_endpoint u m x)) (fp_data (set_endpoint u m x))).
  { intros u m x Q. unfold set_endpoint.
    match goal with |- context [if ?b then _ else _] => destruct b end; exact Q. }
  destruct o as [prov l mem|md d|k|u mem]; cbn [step].
  - unfold set_values. destruct (parse (dh c) l) as [| | |f]; cbn [snd]; try exact P.
    destruct (parse_md lib f) as [md|]; cbn [snd]; [|exact P].
    match goal with |- context [if ?b then (RNotChanged, _) else _] => destruct b end;
      cbn [snd]; [exact P|].
    specialize (F md (f_fp f)).
    destruct (set_fingerprint lib md (f_fp f) c) as [ok c1]. destruct ok; cbn [negb]; [|exact P].
    cbn [snd] in F. unfold dhcp_set_endpoint.
    destruct (Ea_Model.is_selected (eps c1) (view (f_ep f))); cbn [snd]; [exact F|].
    apply EPT. exact F.
  - apply F.
  - exact P.
  - apply EPT. exact P.
Qed.

Lemma run_pinnable lib l : forall c, pinnable lib (fp_md c) (fp_data c) ->
  pinnable lib (fp_md (run lib c l)) (fp_data (run lib c l)).
Proof.
  induction l as [|o l IH]; intros c P; [exact P|]. cbn [run fold_left].
  apply (IH (step lib c o)). apply step_pinnable. exact P.
Qed.
