From Verif Require Import Common Hex_Model Hex_Spec Hex_Proofs.
From Coq Require Import Lia.
Local Open Scope N_scope.

Lemma unhex_reads_as c v : unhexchar c = Some v -> reads_as c v.
Proof.
  intros H. assert (Hc : c < 103).
  { unfold unhexchar in H. destruct (N.leb_spec c 57); [lia|]. destruct (N.leb_spec c 102); [lia|]. destruct (N.leb_spec c 70); [lia|].
    rewrite !andb_false_r in H. discriminate. }
  assert (Hs : forallb (fun c => match unhexchar c with None => true | Some v => (v <? 16) && ((c =? nth (N.to_nat v) hexdigits 0) || (c =? nth (N.to_nat v) HEXDIGITS 0)) end)
                 (map N.of_nat (seq 0 103)) = true) by (vm_compute; reflexivity).
  rewrite forallb_forall in Hs. specialize (Hs c). rewrite H in Hs.
  assert (Hin : In c (map N.of_nat (seq 0 103))) by (apply in_map_iff; exists (N.to_nat c); split; [lia|apply in_seq; lia]).
  specialize (Hs Hin). apply andb_true_iff in Hs as [Ha Hb]. split; [apply N.ltb_lt, Ha|].
  apply orb_true_iff in Hb as [Hb|Hb]; apply N.eqb_eq in Hb; tauto.
Qed.

Lemma pairs_text : forall n s l, (length s <= n)%nat -> hex_pairs s = Some l -> Nat.eqb (length s mod 2) 0 = true -> hex_text s l.
Proof.
  induction n as [|n IH]; intros s l Hn Hs He.
  - destruct s; [|cbn [length] in Hn; lia]. injection Hs as <-. constructor.
  - destruct s as [|c [|d s]].
    + injection Hs as <-. constructor.
    + discriminate.
    + cbn [hex_pairs] in Hs. destruct (unhexchar c) as [a|] eqn:Ha; [|discriminate]. destruct (unhexchar d) as [b|] eqn:Hb; [|discriminate].
      destruct (hex_pairs s) as [l'|] eqn:Hl; [|discriminate]. injection Hs as <-. apply ht_cons; [apply unhex_reads_as, Ha|apply unhex_reads_as, Hb|].
      apply IH; [cbn [length] in Hn; lia|exact Hl|]. cbn [length] in He. replace (S (S (length s))) with (length s + 1 * 2)%nat in He by lia. rewrite Nat.mod_add in He by lia. exact He.
Qed.

Lemma odd_len s l : hex_text s l -> Nat.eqb (S (length s) mod 2) 0 = false /\ (S (length s) / 2 = length l)%nat /\ Nat.eqb (length s mod 2) 0 = true /\ (length s / 2 = length l)%nat.
Proof.
  intros H. rewrite (hex_text_len s l H). replace (S (2 * length l)) with (1 + length l * 2)%nat by lia.
  rewrite Nat.mod_add, Nat.div_add by lia. replace (2 * length l)%nat with (length l * 2)%nat by lia. rewrite Nat.mod_mul, Nat.div_mul by lia. repeat split; reflexivity || lia.
Qed.

Lemma hex_odd c v s l n : reads_as c v -> hex_text s l -> (length l < n)%nat -> hex_to_bytes (c :: s) n = HexOk (v :: l).
Proof.
  intros Hc Hs Hn. unfold hex_to_bytes. cbn [length]. destruct (odd_len s l Hs) as [Ho [Hd _]]. rewrite Ho, Hd.
  change (Nat.ltb (S (length s)) 1) with false. cbv iota. destruct (Nat.ltb_spec n (length l + 1)); [lia|].
  rewrite (reads_as_unhex c v Hc), (hex_pairs_text s l Hs). reflexivity.
Qed.

Lemma hex_small s l n : hex_text s l ->
  ((n < length l)%nat -> hex_to_bytes s n = HexErr) /\ (forall c v, reads_as c v -> (n <= length l)%nat -> hex_to_bytes (c :: s) n = HexErr).
Proof.
  intros Hs. destruct (odd_len s l Hs) as [Ho [Hd [He Hd']]]. split.
  - intros Hn. unfold hex_to_bytes. destruct (Nat.ltb (length s) 1); [reflexivity|]. rewrite He, Hd'. destruct (Nat.ltb_spec n (length l + 0)); [reflexivity|lia].
  - intros c v _ Hn. unfold hex_to_bytes. cbn [length]. change (Nat.ltb (S (length s)) 1) with false. cbv iota. rewrite Ho, Hd.
    destruct (Nat.ltb_spec n (length l + 1)); [reflexivity|lia].
Qed.

Lemma hex_only s n l : hex_to_bytes s n = HexOk l ->
  (length l <= n)%nat /\ s <> [] /\ (hex_text s l \/ exists c v s' l', s = c :: s' /\ l = v :: l' /\ reads_as c v /\ hex_text s' l').
Proof.
  unfold hex_to_bytes. destruct (Nat.ltb_spec (length s) 1) as [|Hs]; [discriminate|]. assert (Hne : s <> []) by (intros ->; cbn [length] in Hs; lia).
  destruct (Nat.ltb_spec n (length s / 2 + (if Nat.eqb (length s mod 2) 0 then 0 else 1))) as [|Hn]; [discriminate|].
  destruct (Nat.eqb (length s mod 2) 0) eqn:He.
  - destruct (hex_pairs s) as [l'|] eqn:Hp; [|discriminate]. intros [= <-]. pose proof (pairs_text (length s) s l' (le_n _) Hp He) as Ht.
    destruct (odd_len s l' Ht) as [_ [_ [_ Hd]]]. rewrite Hd in Hn. split; [lia|]. split; [exact Hne|left; exact Ht].
  - destruct s as [|c s]; [destruct (Hne eq_refl)|]. destruct (unhexchar c) as [a|] eqn:Ha; [|discriminate]. destruct (hex_pairs s) as [l'|] eqn:Hp; [|discriminate]. intros [= <-].
    assert (He' : Nat.eqb (length s mod 2) 0 = true).
    { cbn [length] in He. apply Nat.eqb_neq in He. apply Nat.eqb_eq. pose proof (Nat.div_mod (length s) 2 ltac:(lia)) as Hdm. pose proof (Nat.mod_upper_bound (length s) 2 ltac:(lia)) as Hub.
      destruct (length s mod 2)%nat as [|[|k]] eqn:Hm; [reflexivity| |lia]. exfalso. apply He. rewrite Hdm. replace (S (2 * (length s / 2) + 1)) with (0 + (length s / 2 + 1) * 2)%nat by lia. rewrite Nat.mod_add by lia. reflexivity. }
    pose proof (pairs_text (length s) s l' (le_n _) Hp He') as Ht. destruct (odd_len s l' Ht) as [_ [Hd _]]. cbn [length] in Hn. rewrite Hd in Hn. cbn [length].
    split; [lia|]. split; [exact Hne|]. right. exists c, a, s, l'. split; [reflexivity|]. split; [reflexivity|]. split; [apply unhex_reads_as, Ha|exact Ht].
Qed.

(* ---------- UUID texts that are refused ---------- *)
Definition halves (h : option N) : nat := match h with None => 0 | Some _ => 1 end.
Lemma uuid_loop_count : forall s out h, (length out <= 16)%nat ->
  let k := (halves h + length (filter nodash s))%nat in
  match uuid_loop out h s with None => (length out + k / 2 > 16)%nat | Some o => (length o = length out + k / 2 /\ length o <= 16)%nat end.
Proof.
  induction s as [|c s IH]; intros out h Ho; cbn zeta; cbn [uuid_loop filter].
  - cbn [length]. rewrite Nat.add_0_r. destruct h; cbn [halves]; change (1 / 2)%nat with 0%nat; change (0 / 2)%nat with 0%nat; lia.
  - change (nodash c) with (negb (c =? 45)). destruct (c =? 45) eqn:Hc; cbn [negb]; [exact (IH out h Ho)|]. cbn [length].
    assert (Hd : forall k, (S (S k) / 2 = S (k / 2))%nat) by (intros k; replace (S (S k)) with (k + 1 * 2)%nat by lia; rewrite Nat.div_add by lia; lia).
    destruct h as [x|]; cbn [halves].
    + destruct (Nat.eqb_spec (length out) UUID_ID_SIZE) as [He|He].
      * unfold UUID_ID_SIZE in He. change (1 + S (length (filter nodash s)))%nat with (S (S (length (filter nodash s)))). rewrite Hd. lia.
      * unfold UUID_ID_SIZE in He. assert (Ho' : (length (out ++ [N.lor x (char_bits c)]) <= 16)%nat) by (rewrite app_length; cbn [length]; lia).
        specialize (IH _ None Ho'). cbn zeta in IH. cbn [halves] in IH. rewrite app_length in IH. cbn [length Nat.add] in IH.
        change (1 + S (length (filter nodash s)))%nat with (S (S (length (filter nodash s)))). rewrite Hd.
        destruct (uuid_loop _ None s); lia.
    + specialize (IH out (Some ((char_bits c * 16) mod 256)) Ho). cbn zeta in IH. cbn [halves] in IH. exact IH.
Qed.

Lemma uuid_accepted s : s <> [42] ->
  ((32 <= digits_of s <= 33)%nat -> fst (str_to_uuid_v1 s) = 16%Z) /\ (~ (32 <= digits_of s <= 33)%nat -> fst (str_to_uuid_v1 s) = (-1)%Z).
Proof.
  intros Hs. assert (He : list_eqb s [42] = false) by (destruct (list_eqb s [42]) eqn:E; [apply list_eqb_spec in E; contradiction|reflexivity]).
  assert (Hstr : str_to_uuid s = match uuid_loop [] None (firstn (UUID_LEN - 1) s) with
         | None => ((-1)%Z, None)
         | Some out => (Z.of_nat (length out), Some (out ++ repeat 0 (UUID_ID_SIZE - length out))) end).
  { unfold str_to_uuid. destruct s as [|c [|d s]]; try reflexivity. destruct (N.eqb_spec c 42); [subst; contradiction|reflexivity]. }
  unfold str_to_uuid_v1. rewrite Hstr, He. pose proof (uuid_loop_count (firstn (UUID_LEN - 1) s) [] None ltac:(cbn [length]; lia)) as Hc. cbn zeta in Hc. cbn [halves length Nat.add] in Hc.
  change (UUID_LEN - 1)%nat with 36%nat in *. fold (digits_of s) in Hc. pose proof (Nat.div_mod (digits_of s) 2 ltac:(lia)) as Hdm. pose proof (Nat.mod_upper_bound (digits_of s) 2 ltac:(lia)) as Hub.
  destruct (uuid_loop [] None (firstn 36 s)) as [o|].
  - destruct Hc as [Hl Hm]. destruct (Z.eqb_spec (Z.of_nat (length o)) 16) as [H16|H16]; cbn [fst]; split; intros H; try reflexivity; exfalso; lia.
  - split; intros H; [exfalso; lia|]. destruct (Z.eqb_spec (-1) 16); [discriminate|reflexivity].
Qed.
