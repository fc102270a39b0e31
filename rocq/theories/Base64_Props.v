(** C16: base64 round trip and output bounds (api/oc_base64.c). *)
From Verif Require Import Common Base64_Model Base64_Spec Base64_Proofs.
Local Open Scope N_scope.

(** Whatever encode produced is decoded to the original bytes. *)
Theorem C16_base64_roundtrip :
  forall e padding input bufsize1 bufsize2 text,
    bytes_ok input ->
    encode e padding input bufsize1 = Some text ->
    (length input <= bufsize2)%nat ->
    decode e padding text bufsize2 = Some input.
Proof. exact roundtrip. Qed.
Print Assumptions C16_base64_roundtrip.

Example C16_roundtrip_case :
  encode URL false [251; 255; 0; 7] 6 = Some [45; 95; 56; 65; 66; 119] /\
  decode URL false [45; 95; 56; 65; 66; 119] 4 = Some [251; 255; 0; 7].
Proof. split; vm_compute; reflexivity. Qed.

(** With a sufficient buffer the result is the RFC 4648 encoding. *)
Theorem C16_base64_encode_rfc4648 :
  forall e padding input bufsize,
    bytes_ok input ->
    (encoded_size (length input) padding <= bufsize)%nat ->
    encode e padding input bufsize =
    Some (rfc_encode (match e with STD => digits_std | URL => digits_url end)
                     (if padding then [61] else []) input).
Proof. exact encode_spec. Qed.
Print Assumptions C16_base64_encode_rfc4648.

Example C16_encode_case : encode STD true [77; 97] 4 = Some [84; 87; 69; 61].
Proof. vm_compute; reflexivity. Qed.

(** The announced size is the size produced ... *)
Theorem C16_base64_encoded_size :
  forall e padding input bufsize text,
    bytes_ok input -> encode e padding input bufsize = Some text ->
    length text = encoded_size (length input) padding /\
    (length text <= bufsize)%nat /\
    (padding = true -> length text = 4 * ((length input + 2) / 3))%nat.
Proof. exact encoded_size_full. Qed.
Print Assumptions C16_base64_encoded_size.

(** ... and a smaller buffer is refused. *)
Theorem C16_base64_small_buffer_refused :
  forall e padding input bufsize,
    input <> [] -> (bufsize < encoded_size (length input) padding)%nat ->
    encode e padding input bufsize = None.
Proof. exact encode_refuses. Qed.
Print Assumptions C16_base64_small_buffer_refused.

Example C16_small_buffer_case : encode STD true [1] 3 = None /\ (3 < encoded_size 1 true)%nat.
Proof. split; vm_compute; [reflexivity|lia]. Qed.

(** The decoder never stores more bytes than the output buffer holds, for any input at all, whether
    it succeeds or fails. *)
Theorem C16_base64_decode_in_bounds :
  forall e padding input bufsize, (length (fst (decode_run e padding input bufsize)) <= bufsize)%nat.
Proof. exact decode_bounds. Qed.
Print Assumptions C16_base64_decode_in_bounds.

(** Only base64 text is accepted: alphabet characters, then at most two pads. *)
Theorem C16_base64_decode_accepts_only_text :
  forall e padding input bufsize out,
    decode e padding input bufsize = Some out ->
    rfc_text (match e with STD => digits_std | URL => digits_url end) padding input.
Proof. exact decode_accepts_text. Qed.
Print Assumptions C16_base64_decode_accepts_only_text.

Example C16_reject_case : decode STD true [84; 87; 42; 61] 10 = None /\ decode STD true [84; 61; 61; 61] 9 = None.
Proof. split; vm_compute; reflexivity. Qed.

(** Decoding in place gives the same bytes as decoding into a separate buffer, the rest is zeroed. *)
Theorem C16_base64_decode_in_place :
  forall buf,
    match decode STD true buf (length buf) with
    | Some out => decode_in_place buf = (out ++ repeat 0 (length buf - length out), Some (length out))
    | None => snd (decode_in_place buf) = None
    end.
Proof. exact decode_in_place_spec. Qed.
Print Assumptions C16_base64_decode_in_place.

Example C16_in_place_case :
  decode_in_place [84; 87; 69; 61] = ([77; 97; 0; 0], Some 2%nat).
Proof. vm_compute; reflexivity. Qed.
