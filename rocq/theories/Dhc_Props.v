(* Lease options and pinned fingerprints of the provisioning client: C120, C121,
   C122, C123. *)
From Coq Require Import List NArith Bool Lia.
Import ListNotations.
From Verif Require Import Common Dhc_Model Dhc_Spec Dhc_Proofs Dhc2_Proofs Dhc3_Proofs.
From Verif Require Ea_Model Ea_Spec.
Local Open Scope N_scope.

(* C120 *)

(* Both documented forms are read as the bytes they stand for. *)
Theorem C120_documented_forms s bs buf : colons s bs \/ pairs s bs ->
  hex_string_to_bytes s buf
  = HOk (length bs) (option_map (fun l => filled (length l) bs) buf).
Proof.
  intros [H|H]; apply hex_ok; [apply colons_mean|apply pairs_mean]; exact H.
Qed.

(* Every text of digits and colons is read as what it means, whatever the buffer,
   which is filled as far as it goes and padded with zeros; the result is the
   number of bytes needed. *)
Theorem C120_reads_what_is_meant s bs buf : means s bs ->
  hex_string_to_bytes s buf
  = HOk (length bs) (option_map (fun l => filled (length l) bs) buf).
Proof. exact (hex_ok s bs buf). Qed.

(* Exactly the texts with another character are refused, and no text means two
   things. *)
Theorem C120_refuses_exactly_others s buf :
  (hex_string_to_bytes s buf = HErr <-> exists c, In c s /\ ~ legal c)
  /\ (Forall legal s -> exists bs, means s bs /\ bytes bs)
  /\ (forall bs1 bs2, means s bs1 -> means s bs2 -> bs1 = bs2).
Proof.
  assert (NL : forall bs, means s bs -> forall c, In c s -> legal c).
  { intros bs M. apply Forall_forall. exact (means_legal s bs M). }
  split; [|split].
  - split.
    + intros H. destruct (hex_cases s buf) as [[_ Q]|[bs M]]; [exact Q|].
      rewrite (hex_ok s bs buf M) in H. discriminate H.
    + intros [c [I C]]. destruct (hex_cases s buf) as [[Q _]|[bs M]]; [exact Q|].
      destruct (C (NL bs M c I)).
  - intros L. destruct (hex_cases s buf) as [[_ [c [I C]]]|[bs M]].
    + rewrite Forall_forall in L. destruct (C (L c I)).
    + exists bs. split; [exact M|exact (means_bytes s bs M)].
  - intros b1 b2 M1 M2.
    pose proof (hex_ok s b1 (Some (repeat 0 (length b1 + length b2))) M1) as A.
    rewrite (hex_ok s b2 (Some (repeat 0 (length b1 + length b2))) M2) in A.
    injection A as L E. rewrite repeat_length in E. unfold filled in E.
    rewrite !firstn_all2 in E by lia. rewrite L in E. apply app_inv_tail in E. auto.
Qed.

(* 01:a:3:14 and 010a0314 *)
Example C120_ex_colons :
  hex_string_to_bytes [48; 49; 58; 97; 58; 51; 58; 49; 52] (Some [9; 9; 9; 9; 9; 9])
  = HOk 4 (Some [1; 10; 3; 20; 0; 0]).
Proof. vm_compute. reflexivity. Qed.
Example C120_ex_pairs :
  hex_string_to_bytes [48; 49; 48; 97; 48; 51; 49; 52] (Some [9; 9])
  = HOk 4 (Some [1; 10]).
Proof. vm_compute. reflexivity. Qed.
Example C120_ex_size :
  hex_string_to_bytes [48; 49; 48; 97; 48; 51; 49; 52] None = HOk 4 None.
Proof. vm_compute. reflexivity. Qed.
Example C120_ex_forms : colons [48; 49; 58; 97] [1; 10].
Proof.
  apply (co_more [48; 49] 1 [97] [10]); [|constructor; constructor; left; reflexivity].
  apply (w_two 48 49 0 1); left; reflexivity.
Qed.
Example C120_ex_refused : hex_string_to_bytes [48; 49; 120] None = HErr.
Proof. vm_compute. reflexivity. Qed.

(* An empty place between colons is not refused but read as zero. *)
Theorem C120_empty_place_refuted : exists s, s = [49; 58; 58; 50]
  /\ hex_string_to_bytes s (Some [9; 9; 9]) = HOk 3 (Some [1; 0; 2]).
Proof. eexists. split; [reflexivity|]. vm_compute. reflexivity. Qed.

(* C121 *)

(* The parser never reads outside the lease and always ends; it accepts exactly
   the sequences of known, non-empty options, and the last of each kind counts. *)
Theorem C121_accepts_exactly_options k l : bytes l ->
  (parse k l = PFalse /\ forall os, ~ lease k l os)
  \/ exists os, lease k l os
       /\ parse k l = POk (mkFound (last_with (is_ep k) os) (last_with (is_fp k) os)
                                   (last_with (is_md k) os)).
Proof.
  intros B. destruct (parse_safe k l) as [H|[f H]].
  - left. split; [exact H|]. intros os L. rewrite (parse_lease k l os L) in H. discriminate H.
  - right. destruct (parse_only k l f B H) as [os [L F]]. exists os. split; [exact L|].
    rewrite H, F. reflexivity.
Qed.

Theorem C121_options_found k l os : lease k l os ->
  parse k l = POk (mkFound (last_with (is_ep k) os) (last_with (is_fp k) os)
                           (last_with (is_md k) os)).
Proof. exact (parse_lease k l os). Qed.

Example C121_ex :
  parse codes0 [200; 2; 104; 105; 202; 1; 65; 200; 1; 106]
  = POk (mkFound (Some [106]) None (Some [65])).
Proof. vm_compute. reflexivity. Qed.
Example C121_ex_lease : lease codes0 [200; 2; 104; 105; 202; 1; 65] [(200, [104; 105]); (202, [65])].
Proof.
  exists []. split; [reflexivity|]. split; [cbn; lia|].
  repeat constructor; cbn; auto; lia.
Qed.
Example C121_ex_short : parse codes0 [200; 3; 104; 105] = PFalse.
Proof. vm_compute. reflexivity. Qed.
Example C121_ex_unknown : parse codes0 [7; 1; 104] = PFalse.
Proof. vm_compute. reflexivity. Qed.
(* A byte left over is ignored. *)
Theorem C121_left_over_refuted : exists l, l = [200; 1; 104; 201]
  /\ parse codes0 l = POk (mkFound (Some [104]) None None).
Proof. eexists. split; [reflexivity|]. vm_compute. reflexivity. Qed.

(* C122 *)

(* A lease that is refused or says nothing new changes nothing. *)
Theorem C122_refused_changes_nothing lib prov l mem c :
  fst (set_values lib prov l mem c) = RError \/ fst (set_values lib prov l mem c) = RNotChanged ->
  snd (set_values lib prov l mem c) = c.
Proof. exact (set_values_kept lib prov l mem c). Qed.

(* Refused are exactly: bytes that are no options, an unknown algorithm, a
   fingerprint that cannot be pinned. *)
Theorem C122_refused_exactly lib prov l mem c :
  bytes l -> pinnable lib (fp_md c) (fp_data c) ->
  (fst (set_values lib prov l mem c) = RError
   <-> ~ exists os md, lease (dh c) l os /\ named lib (dh c) os md
                       /\ pinnable lib md (last_with (is_fp (dh c)) os)).
Proof.
  intros B P. split.
  - intros H [os [md [L [NM Q]]]].
    apply (proj1 (error_iff lib prov l mem c os md P L NM) H). exact Q.
  - intros H. destruct (C121_accepts_exactly_options (dh c) l B) as [[_ A]|[os [L _]]].
    + exact (no_lease_error lib prov l mem c B A).
    + destruct (parse_md lib (foundof (dh c) os)) as [md|] eqn:E.
      * assert (NM : named lib (dh c) os md).
        { destruct L as [rest [_ [_ G]]]. apply (parse_md_named lib (dh c) os md G). exact E. }
        apply (error_iff lib prov l mem c os md P L NM). intros Q. apply H. exists os, md. auto.
      * apply (unnamed_error lib prov l mem c os L). intros md NM.
        destruct L as [rest [_ [_ G]]]. apply (parse_md_named lib (dh c) os md G) in NM. congruence.
Qed.

(* Nothing is reported as new exactly when all settings are the same. *)
Theorem C122_not_changed_exactly lib prov l mem c os md :
  lease (dh c) l os -> named lib (dh c) os md ->
  (fst (set_values lib prov l mem c) = RNotChanged
   <-> fp_md c = md /\ fp_data c = last_with (is_fp (dh c)) os
       /\ selected_is c (endpoint_of (dh c) os)).
Proof. exact (not_changed_iff lib prov l mem c os md). Qed.

(* Provisioning again is asked for exactly when the address is new or the device
   is not provisioned. *)
Theorem C122_reprovision_exactly lib prov l mem c os md :
  lease (dh c) l os -> named lib (dh c) os md ->
  pinnable lib md (last_with (is_fp (dh c)) os) ->
  ~ (fp_md c = md /\ fp_data c = last_with (is_fp (dh c)) os
     /\ selected_is c (endpoint_of (dh c) os)) ->
  (fst (set_values lib prov l mem c) = RUpdated
   /\ prov = true /\ selected_is c (endpoint_of (dh c) os)
   /\ eps (snd (set_values lib prov l mem c)) = eps c)
  \/ (fst (set_values lib prov l mem c) = RReprovision
      /\ (prov = false \/ ~ selected_is c (endpoint_of (dh c) os))).
Proof. exact (updated_means lib prov l mem c os md). Qed.

(* A lease that is not refused is in force afterwards. *)
Theorem C122_in_force lib prov l p c os md :
  Ea_Spec.reach (eps c) -> lease (dh c) l os -> named lib (dh c) os md ->
  fst (set_values lib prov l (Some p) c) <> RError ->
  fp_md (snd (set_values lib prov l (Some p) c)) = md
  /\ fp_data (snd (set_values lib prov l (Some p) c)) = last_with (is_fp (dh c)) os
  /\ dh (snd (set_values lib prov l (Some p) c)) = dh c
  /\ forall u, last_with (is_ep (dh c)) os = Some u -> (length u < 128)%nat ->
       selected_is (snd (set_values lib prov l (Some p) c)) u.
Proof.
  intros R L NM H.
  destruct (accepted_sets lib prov l (Some p) c os md L NM H) as [A [B C]].
  split; [exact A|]. split; [exact B|]. split; [exact C|].
  intros u EP LU. exact (accepted_selects lib prov l p c os md u R L NM EP LU H).
Qed.

(* Whatever happens, a fingerprint with an algorithm has the length of its
   hashes and the algorithm was allowed. *)
Theorem C122_pinned_can_match lib l :
  pinnable lib (fp_md (run lib ctx0 l)) (fp_data (run lib ctx0 l)).
Proof. apply run_pinnable. left. reflexivity. Qed.

(* A library with one algorithm, named A, of hashes of two bytes. *)
Definition lib1 : mdlib :=
  mkLib (fun n => if list_eqb n [65] then Some 6 else None)
        (fun m => if m =? 6 then Some 2%nat else None) (fun m => m =? 6).
Definition lease1 : list N := [200; 2; 104; 105; 202; 1; 65; 201; 2; 7; 8].
Example C122_ex_sets :
  let r := set_values lib1 true lease1 (Some 1) ctx0 in
  fst r = RReprovision /\ fp_md (snd r) = 6 /\ fp_data (snd r) = Some [7; 8]
  /\ Ea_Model.selected_uri (eps (snd r)) = Some [104; 105]
  /\ fst (set_values lib1 true lease1 (Some 1) (snd r)) = RNotChanged
  /\ fst (set_values lib1 true [200; 2; 104; 105; 202; 1; 65; 201; 2; 7; 9] (Some 1) (snd r)) = RUpdated
  /\ fst (set_values lib1 true [200; 2; 104; 105; 202; 1; 65; 201; 1; 7] (Some 1) (snd r)) = RError.
Proof. vm_compute. repeat split; reflexivity. Qed.

(* Options without an address remove all addresses. *)
Theorem C122_address_lost_refuted : exists l, l = [202; 1; 65; 201; 2; 7; 8]
  /\ Ea_Model.selected_uri (eps (snd (set_values lib1 true l (Some 1)
       (snd (set_values lib1 true lease1 (Some 1) ctx0))))) = None.
Proof. eexists. split; [reflexivity|]. vm_compute. reflexivity. Qed.
(* So does an address of 128 bytes or more, although success is reported. *)
Theorem C122_long_address_refuted : exists l,
  l = [200; 128] ++ repeat 104 128
  /\ fst (set_values lib1 true l (Some 1) (snd (set_values lib1 true lease1 (Some 1) ctx0)))
     = RReprovision
  /\ Ea_Model.selected_uri (eps (snd (set_values lib1 true l (Some 1)
       (snd (set_values lib1 true lease1 (Some 1) ctx0))))) = None.
Proof. eexists. split; [reflexivity|]. vm_compute. auto. Qed.
(* A fingerprint without an algorithm is stored but pins nothing. *)
Theorem C122_fingerprint_without_algorithm_refuted : exists l,
  l = [200; 2; 104; 105; 201; 2; 7; 8]
  /\ fst (set_values lib1 true l (Some 1) ctx0) = RReprovision
  /\ fp_data (snd (set_values lib1 true l (Some 1) ctx0)) = Some [7; 8]
  /\ fp_md (snd (set_values lib1 true l (Some 1) ctx0)) = 0.
Proof. eexists. split; [reflexivity|]. vm_compute. auto. Qed.

(* C123 *)

(* With a pinned fingerprint a chain is accepted exactly if one of its
   certificates has it or the leaf passes the usual verification by itself. *)
Theorem C123_pinned_accepts_exactly c skip x up : fp_md c <> 0 ->
  Forall (hashable c) (x :: up) -> Forall unopposed (x :: up) ->
  (accepted c skip (x :: up) <-> Exists (pinned c) (x :: up) \/ trusted x).
Proof. exact (pinned_iff c skip x up). Qed.

(* Without one, and without skipping the verification, every certificate has to
   pass the usual verification. *)
Theorem C123_unpinned_needs_trust c l : fp_md c = 0 ->
  Forall (fun x => forall fl, appl x fl = (true, fl)) l ->
  (accepted c false l <-> Forall trusted l).
Proof.
  intros Z U. unfold accepted, handshake. rewrite Z.
  exact (proj2 (plain_chain (fp_data c) l 0 vnew eq_refl U)).
Qed.

Theorem C123_skipping_accepts_all c l : fp_md c = 0 -> Forall unopposed l ->
  accepted c true l.
Proof.
  intros Z U. unfold accepted, handshake. rewrite Z, (skip_chain (fp_data c) l 0 vnew eq_refl U).
  reflexivity.
Qed.

(* The application can always refuse, and so does a missing hash algorithm. *)
Theorem C123_application_may_refuse c skip l : accepted c skip l ->
  Forall (fun x => exists fl, appl x fl = (true, 0)) l
  /\ (fp_md c <> 0 -> Forall (fun x => exists h, hash x (fp_md c) = Some h) l).
Proof. exact (chain_app (fp_md c) (fp_data c) skip l 0 vnew). Qed.

(* The data of the verification is freed once, whatever the chain. *)
Theorem C123_data_freed_once c skip l :
  freed (free_peer (snd (handshake c skip l))) = 1%nat.
Proof. exact (freed_once c skip l). Qed.

Definition pin1 : ctx := snd (set_values lib1 true lease1 (Some 1) ctx0).
Definition leafc (h : list N) (fl : N) : cert := mkCert (fun _ => Some h) fl cloud_cb cloud_cb.
(* A self-signed certificate is accepted if and only if it is the pinned one. *)
Example C123_ex_pinned : accepted pin1 false [leafc [7; 8] 8].
Proof. vm_compute. reflexivity. Qed.
Example C123_ex_other : fst (handshake pin1 false [leafc [7; 9] 8]) = false.
Proof. vm_compute. reflexivity. Qed.
Example C123_ex_unpinned : fst (handshake ctx0 false [leafc [7; 9] 0; leafc [1; 1] 8]) = false
  /\ fst (handshake ctx0 false [leafc [7; 9] 0; leafc [1; 1] 0]) = true
  /\ fst (handshake ctx0 true [leafc [7; 9] 0; leafc [1; 1] 8]) = true.
Proof. vm_compute. auto. Qed.
Example C123_ex_hyp : Forall (hashable pin1) [leafc [7; 8] 8] /\ Forall unopposed [leafc [7; 8] 8].
Proof.
  split; (constructor; [|constructor]); [right; exists [7; 8]|]; reflexivity.
Qed.

(* With a pinned fingerprint, a leaf issued by an authority that nobody trusts
   is accepted although no certificate has the fingerprint: the missing trust is
   noted at the authority, where it is forgiven. Without a pinned fingerprint the
   same chain is refused. *)
Theorem C123_untrusted_issuer_refuted : exists l,
  l = [leafc [7; 9] 0; leafc [1; 1] 8]
  /\ accepted pin1 false l
  /\ ~ Exists (pinned pin1) l /\ ~ Forall trusted l
  /\ fst (handshake ctx0 false l) = false.
Proof.
  eexists. split; [reflexivity|]. split; [vm_compute; reflexivity|].
  split; [|split; [|vm_compute; reflexivity]].
  - intros H. inversion H as [? ? [_ [h [A B]]]|? ? Q]; subst.
    + cbn in A. vm_compute in B. congruence.
    + inversion Q as [? ? [_ [h [A B]]]|? ? Q2]; subst.
      * cbn in A. vm_compute in B. congruence.
      * inversion Q2.
  - intros H. inversion H as [|? ? _ Q]; subst. inversion Q as [|? ? T _]; subst.
    discriminate T.
Qed.

Print Assumptions C120_documented_forms.
Print Assumptions C120_reads_what_is_meant.
Print Assumptions C120_refuses_exactly_others.
Print Assumptions C120_empty_place_refuted.
Print Assumptions C121_accepts_exactly_options.
Print Assumptions C121_options_found.
Print Assumptions C121_left_over_refuted.
Print Assumptions C122_refused_changes_nothing.
Print Assumptions C122_refused_exactly.
Print Assumptions C122_not_changed_exactly.
Print Assumptions C122_reprovision_exactly.
Print Assumptions C122_in_force.
Print Assumptions C122_pinned_can_match.
Print Assumptions C122_address_lost_refuted.
Print Assumptions C122_long_address_refuted.
Print Assumptions C122_fingerprint_without_algorithm_refuted.
Print Assumptions C123_pinned_accepts_exactly.
Print Assumptions C123_unpinned_needs_trust.
Print Assumptions C123_skipping_accepts_all.
Print Assumptions C123_application_may_refuse.
Print Assumptions C123_data_freed_once.
Print Assumptions C123_untrusted_issuer_refuted.
