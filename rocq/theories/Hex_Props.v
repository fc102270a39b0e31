(** C17, C18: UUID and hex text conversions (api/oc_uuid.c, api/oc_helpers.c). *)
From Verif Require Import Common Hex_Model Hex_Spec Hex_Proofs Hex2_Proofs.
From Coq Require Import String.
Local Open Scope N_scope.

(** C17: any UUID written as text reads back as itself (the wildcard UUID included). *)
Theorem C17_uuid_roundtrip :
  forall u buflen s,
    bytes_ok u -> List.length u = 16%nat -> uuid_to_str u buflen = Some s ->
    snd (str_to_uuid_v1 s) = Some u /\ (fst (str_to_uuid_v1 s) > 0)%Z.
Proof. exact uuid_roundtrip. Qed.
Print Assumptions C17_uuid_roundtrip.

(** C17: the text is the RFC 4122 form in lower case, and 37 bytes suffice and are needed. *)
Theorem C17_uuid_text_form :
  forall u buflen,
    bytes_ok u -> List.length u = 16%nat -> u <> wildcard -> (37 <= buflen)%nat ->
    exists s, uuid_to_str u buflen = Some s /\ uuid_text s u /\ no_uppercase s.
Proof. exact uuid_to_str_spec. Qed.
Print Assumptions C17_uuid_text_form.

Theorem C17_uuid_small_buffer_refused :
  forall u buflen,
    bytes_ok u -> List.length u = 16%nat -> u <> wildcard -> (buflen < 37)%nat ->
    uuid_to_str u buflen = None.
Proof. exact uuid_small_buffer. Qed.
Print Assumptions C17_uuid_small_buffer_refused.

(** C17: the reader accepts every RFC 4122 text, in either letter case. *)
Theorem C17_uuid_parse_text :
  forall s u, uuid_text s u -> str_to_uuid_v1 s = (16%Z, Some u).
Proof. exact str_to_uuid_text. Qed.
Print Assumptions C17_uuid_parse_text.

Definition sample : list N := [0x3b;0x96;0x2f;0xc4;5;6;0x47;8;0x59;0xa;0xb;0xc;0xd;0xe;0xf;0xff].
Example C17_uuid_case :
  uuid_to_str sample 37 = Some (str "3b962fc4-0506-4708-590a-0b0c0d0e0fff") /\
  str_to_uuid_v1 (str "3B962FC4-0506-4708-590a-0b0c0d0e0fff") = (16%Z, Some sample) /\
  bytes_ok sample /\ sample <> wildcard /\ uuid_to_str wildcard 37 = Some (str "*").
Proof.
  repeat split; try (vm_compute; reflexivity).
  - apply bytes_okb_spec. vm_compute; reflexivity.
  - discriminate.
Qed.

(** C17, reader rejects non-UUID text: false of the code (api/oc_uuid.c:80-84 ignores letters that
    are not hex digits and subtracts '0' from anything else). *)
Theorem C17_uuid_parse_rejects_garbage_refuted :
  exists s u, str_to_uuid_v1 s = (16%Z, Some u) /\ (forall u', ~ uuid_text s u') /\
              List.length s = 36%nat /\ In 122 s.
Proof.
  exists (str "zz962fc4-0506-4708-590a-0b0c0d0e0fff"), (0 :: tl sample).
  split; [vm_compute; reflexivity|]. split; [|split; vm_compute; auto].
  intros u' (s1 & s2 & s3 & s4 & s5 & u1 & u2 & u3 & u4 & u5 & Hs & _ & H1 & _ & _ & _ & _ & L1 & _).
  destruct H1 as [|c d hi lo s l Hc Hd Hs']; [discriminate L1|].
  cbn [app] in Hs. injection Hs as Hc1 Hd1 _. subst c.
  apply reads_as_unhex in Hc. vm_compute in Hc. discriminate.
Qed.
Print Assumptions C17_uuid_parse_rejects_garbage_refuted.

(** C17: a generated UUID has version 4 and is never one of the two reserved values (nil, "*"). *)
Theorem C17_gen_uuid_version_partial :
  (* missing: the RFC 4122 variant, which is never set, see C17_gen_uuid_variant_refuted *)
  forall r, bytes_ok r -> List.length r = 16%nat ->
    List.length (gen_uuid r) = 16%nat /\ bytes_ok (gen_uuid r) /\
    uuid_version (gen_uuid r) = 4 /\
    gen_uuid r <> wildcard /\ gen_uuid r <> repeat 0 16.
Proof.
  exact (fun r Hb Hl => match gen_uuid_bits r Hb Hl with
         | conj a (conj b (conj c (conj _ (conj d e)))) => conj a (conj b (conj c (conj d e))) end).
Qed.
Print Assumptions C17_gen_uuid_version_partial.

(** C17: other than for the wildcard, oc_str_to_uuid_v1 reports success exactly when 32 or 33
    characters other than dashes are among the first 36, and -1 otherwise. *)
Theorem C17_uuid_accepted :
  forall s, s <> str "*" ->
    ((32 <= digits_of s <= 33)%nat -> fst (str_to_uuid_v1 s) = 16%Z) /\
    (~ (32 <= digits_of s <= 33)%nat -> fst (str_to_uuid_v1 s) = (-1)%Z).
Proof. exact uuid_accepted. Qed.
Print Assumptions C17_uuid_accepted.

Example C17_uuid_accepted_case :
  digits_of (str "01234567-89ab-cdef-0123-456789abcdef") = 32%nat /\
  fst (str_to_uuid_v1 (str "01234567-89ab-cdef-0123-456789abcdef")) = 16%Z /\
  fst (str_to_uuid_v1 (str "01234567-89ab-cdef-0123-456789abcd")) = (-1)%Z /\
  fst (str_to_uuid_v1 []) = (-1)%Z.
Proof. repeat split; vm_compute; reflexivity. Qed.

(** C17, RFC 4122 variant: false of the code for every random draw (api/oc_uuid.c:202-203 sets the
    two top bits of octet 8 to 01 instead of 10). *)
Theorem C17_gen_uuid_variant_refuted :
  (forall r, bytes_ok r -> List.length r = 16%nat -> rfc4122_variant (gen_uuid r) = false) /\
  (exists r, bytes_ok r /\ List.length r = 16%nat /\ rfc4122_variant (gen_uuid r) = false).
Proof.
  split.
  - exact (fun r Hb Hl => proj1 (proj2 (proj2 (proj2 (gen_uuid_bits r Hb Hl))))).
  - exists sample. split; [apply bytes_okb_spec; vm_compute; reflexivity|]. split; vm_compute; reflexivity.
Qed.
Print Assumptions C17_gen_uuid_variant_refuted.

(** C18: hex text round trip. *)
Theorem C18_hex_roundtrip :
  forall l hex_len array_len s,
    bytes_ok l -> l <> [] -> bytes_to_hex l hex_len = Some s -> (List.length l <= array_len)%nat ->
    hex_to_bytes s array_len = HexOk l.
Proof. exact hex_roundtrip. Qed.
Print Assumptions C18_hex_roundtrip.

(** C18: the text is two lower-case digits per byte and fits with its terminator; refusal only when
    it would not fit. *)
Theorem C18_hex_text :
  forall l hex_len, bytes_ok l ->
    match bytes_to_hex l hex_len with
    | Some s => hex_text s l /\ no_uppercase s /\ (List.length s < hex_len)%nat
    | None => (hex_len <= 2 * List.length l)%nat
    end.
Proof. exact bytes_to_hex_spec. Qed.
Print Assumptions C18_hex_text.

(** C18: every even-length hex text in either case is read. *)
Theorem C18_hex_parse :
  forall s l array_len, hex_text s l -> s <> [] -> (List.length l <= array_len)%nat ->
    hex_to_bytes s array_len = HexOk l.
Proof. exact hex_to_bytes_text. Qed.
Print Assumptions C18_hex_parse.

Example C18_hex_case :
  bytes_to_hex [0; 171; 255] 7 = Some (str "00abff") /\ hex_to_bytes (str "00ABff") 3 = HexOk [0; 171; 255]
  /\ bytes_to_hex [0; 171; 255] 6 = None.
Proof. repeat split; vm_compute; reflexivity. Qed.

(** C18: a text with an odd number of digits is read as if it had a leading zero. *)
Theorem C18_hex_parse_odd :
  forall c v s l array_len, reads_as c v -> hex_text s l -> (List.length l < array_len)%nat ->
    hex_to_bytes (c :: s) array_len = HexOk (v :: l).
Proof. exact hex_odd. Qed.
Print Assumptions C18_hex_parse_odd.

(** C18: an array too small for the bytes of the text is refused. *)
Theorem C18_hex_parse_too_small :
  forall s l array_len, hex_text s l ->
    ((array_len < List.length l)%nat -> hex_to_bytes s array_len = HexErr) /\
    (forall c v, reads_as c v -> (array_len <= List.length l)%nat -> hex_to_bytes (c :: s) array_len = HexErr).
Proof. exact hex_small. Qed.
Print Assumptions C18_hex_parse_too_small.

(** C18: nothing but hex text is read, and never more bytes than the array holds. *)
Theorem C18_hex_parse_only_hex :
  forall s array_len l, hex_to_bytes s array_len = HexOk l ->
    (List.length l <= array_len)%nat /\ s <> [] /\
    (hex_text s l \/ exists c v s' l', s = c :: s' /\ l = v :: l' /\ reads_as c v /\ hex_text s' l').
Proof. exact hex_only. Qed.
Print Assumptions C18_hex_parse_only_hex.

Example C18_hex_odd_case :
  hex_to_bytes (str "fAb") 2 = HexOk [15; 171] /\ hex_to_bytes (str "fAb") 1 = HexErr /\ hex_to_bytes (str "abcd") 1 = HexErr.
Proof. repeat split; vm_compute; reflexivity. Qed.

(** C18, invalid text is rejected: false of the code: the conversion result is not checked and an
    uninitialised variable is stored (api/oc_helpers.c:404-414). *)
Theorem C18_hex_rejects_invalid_refuted :
  exists s n, (forall l, ~ hex_text s l) /\ hex_to_bytes s n = HexUninit.
Proof.
  exists (str "zz"), 1%nat. split; [|vm_compute; reflexivity].
  intros l H. apply hex_pairs_text in H. vm_compute in H. discriminate.
Qed.
Print Assumptions C18_hex_rejects_invalid_refuted.
