(** C39: the checksum of util/oc_crc.c. *)
From Verif Require Import Common Crc_Model Crc_Spec Crc_Proofs.
Local Open Scope N_scope.

(** Checksums can be computed piecewise. *)
Theorem C39_incremental : forall c a b, crc64 c (a ++ b) = crc64 (crc64 c a) b.
Proof. intros c a b. apply crc_app. Qed.
Print Assumptions C39_incremental.

(** The checksum is the remainder of the message, followed by 64 zero bits, divided by the ECMA-182
    polynomial, and there is only one such remainder. *)
Theorem C39_is_ecma182_remainder :
  forall c m r, bytes_ok m -> c < 2 ^ 64 ->
  remainder (N.lxor (2 ^ (8 * N.of_nat (List.length m)) * reflect c) (2 ^ 64 * message_poly m)) r <-> r = reflect (crc64 c m).
Proof.
  intros c m r Hm Hc. pose proof (crc_remainder c m Hm Hc) as R. split; [intros H; eapply remainder_unique; eassumption|intros ->; exact R].
Qed.
Print Assumptions C39_is_ecma182_remainder.

(** Every change confined to 64 consecutive bits, at any place of a message of any length, is detected. *)
Theorem C39_detects_bursts :
  forall c m1 m2 k d, bytes_ok m1 -> bytes_ok m2 -> List.length m1 = List.length m2 ->
  N.lxor (le m1) (le m2) = 2 ^ k * d -> 0 < d < 2 ^ 64 -> crc64 c m1 <> crc64 c m2.
Proof. intros c m1 m2 k d H1 H2 Hl He [Hd1 Hd2]. eapply burst; eassumption. Qed.
Print Assumptions C39_detects_bursts.

(** In particular replacing up to eight consecutive bytes by other ones. *)
Theorem C39_detects_changed_bytes :
  forall c p w1 w2 q, bytes_ok p -> bytes_ok w1 -> bytes_ok w2 -> bytes_ok q -> c < 2 ^ 64 ->
  List.length w1 = List.length w2 -> (List.length w1 <= 8)%nat -> w1 <> w2 ->
  crc64 c (p ++ w1 ++ q) <> crc64 c (p ++ w2 ++ q).
Proof. exact word_change. Qed.
Print Assumptions C39_detects_changed_bytes.

(** Different checksums so far stay different when the same data follows. *)
Theorem C39_state_injective :
  forall m c1 c2, bytes_ok m -> c1 < 2 ^ 64 -> c2 < 2 ^ 64 -> crc64 c1 m = crc64 c2 m -> c1 = c2.
Proof. exact state_inj. Qed.
Print Assumptions C39_state_injective.

(** Length is not protected: leading zero bytes do not change the checksum started at 0. *)
Theorem C39_length_change_refuted : exists m1 m2, m1 <> m2 /\ bytes_ok m1 /\ bytes_ok m2 /\ crc64 0 m1 = crc64 0 m2.
Proof. exists [1; 2; 3], [0; 1; 2; 3]. split; [discriminate|]. split; [repeat constructor|]. split; [repeat constructor|]. vm_compute. reflexivity. Qed.
Print Assumptions C39_length_change_refuted.

(** "123456789" without the initial and final inversions of CRC-64/XZ. *)
Example C39_case : crc64 0 (map (fun i => 48 + N.of_nat i) (seq 1 9)) = 0x2B9C7EE4E2780C8A.
Proof. vm_compute. reflexivity. Qed.
(** With them it is the published check value. *)
Example C39_check_value : N.lxor (crc64 (2 ^ 64 - 1) (map (fun i => 48 + N.of_nat i) (seq 1 9))) (2 ^ 64 - 1) = 0x995DC9BBDF1939FA.
Proof. vm_compute. reflexivity. Qed.
Example C39_burst_case : N.lxor (le [7; 1; 2; 3]) (le [7; 9; 130; 3]) = 2 ^ 11 * 4097 /\ bytes_ok [7; 1; 2; 3].
Proof. split; [vm_compute; reflexivity|repeat constructor]. Qed.
