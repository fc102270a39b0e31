(** Model of api/oc_base64.c *)
From Verif Require Import Common.
Local Open Scope N_scope.

(** include/oc_base64.h:91-94, oc_base64_encoding_t *)
Inductive encoding := STD | URL.

(** api/oc_base64.c:54-66: the alphabet table, entries 62 and 63 replaced for URL. *)
Definition alphabet_std : list N :=
  [65;66;67;68;69;70;71;72;73;74;75;76;77;
   78;79;80;81;82;83;84;85;86;87;88;89;90;
   97;98;99;100;101;102;103;104;105;106;107;108;109;
   110;111;112;113;114;115;116;117;118;119;120;121;122;
   48;49;50;51;52;53;54;55;56;57;43;47].
Definition alphabet (e : encoding) : list N :=
  match e with
  | STD => alphabet_std
  | URL => firstn 62 alphabet_std ++ [45; 95]
  end.
(** alphabet[val]; every index used is below 64 (lemma [enc_index_ok]). *)
Definition alpha (e : encoding) (v : N) : N := nth (N.to_nat v) (alphabet e) 0.

(** api/oc_base64.c:29-40, oc_base64_encoded_output_size *)
Definition encoded_size (size : nat) (padding : bool) : nat :=
  if padding
  then ((size / 3) * 4 + (if Nat.eqb (size mod 3) 0 then 0 else 4))%nat
  else ((size * 4 + 2) / 3)%nat.

(** api/oc_base64.c:84-127: the loop.  [val] is the uint8_t carried between iterations; the result
    is the sequence of characters stored at output_buffer[j++]. *)
Fixpoint enc_loop (e : encoding) (i : nat) (val : N) (input : list N) : list N :=
  match input with
  | [] =>
    (* lines 123-127: leftover bits *)
    if Nat.eqb (i mod 3) 0 then [] else [alpha e val]
  | b :: rest =>
    if Nat.eqb (i mod 3) 0 then
      alpha e (N.shiftr b 2)
        :: enc_loop e (S i) (N.land (N.shiftl b 4 mod 256) 0x30) rest
    else if Nat.eqb (i mod 3) 1 then
      alpha e (N.lor val (N.shiftr b 4))
        :: enc_loop e (S i) (N.land (N.shiftl b 2 mod 256) 0x3D) rest
    else
      alpha e (N.lor val (N.shiftr b 6)) :: alpha e (N.land b 0x3F)
        :: enc_loop e (S i) (N.land b 0x3F) rest
  end.

(** api/oc_base64.c:42-141, oc_base64_encode_v1; [None] is the -1 result. *)
Definition encode (e : encoding) (padding : bool) (input : list N) (bufsize : nat)
  : option (list N) :=
  match input with
  | [] => Some []
  | _ =>
    let output_len := encoded_size (length input) padding in
    if Nat.ltb bufsize output_len then None
    else
      let out := enc_loop e 0 0 input in
      Some (if padding then out ++ repeat 61 (output_len - length out) else out)
  end.

(** api/oc_base64.c:151-179, base64_decode_char; [None] is -1. *)
Definition decode_char (e : encoding) (c : N) : option N :=
  if (65 <=? c) && (c <=? 90) then Some (c - 65)
  else if (97 <=? c) && (c <=? 122) then Some (c - 71)
  else if (48 <=? c) && (c <=? 57) then Some (c + 4)
  else match e with
       | STD => if c =? 43 then Some 62 else if c =? 47 then Some 63 else None
       | URL => if c =? 45 then Some 62 else if c =? 95 then Some 63 else None
       end.

(** number of '=' among the last two characters, api/oc_base64.c:196-200 *)
Definition pad_count (input : list N) : nat :=
  let tail2 := skipn (length input - 2) input in
  length (filter (fun c => c =? 61) tail2).

(** api/oc_base64.c:181-215, oc_base64_decoded_output_size; [None] is -1. *)
Definition decoded_size (input : list N) (padding : bool) : option nat :=
  let n := length input in
  if Nat.eqb n 0 then Some 0%nat
  else if padding then
    if Nat.eqb (n mod 4) 0 then Some ((n * 3) / 4 - pad_count input)%nat else None
  else
    if Nat.eqb (n mod 4) 1 then None
    else
      let pc := (if Nat.eqb (n mod 4) 0 then 0 else 4 - n mod 4)%nat in
      Some (((n + pc) * 3) / 4 - pc)%nat.

(** api/oc_base64.c:234-285: the decoding loop.  [rest] is what is left of the input ([size] its full
    size, [i] the index).  Result: the bytes stored so far, in order, and whether the function
    returns j (true) or -1 (false). *)
Fixpoint dec_loop (e : encoding) (padding : bool) (size i : nat) (val_c : N) (rest : list N)
  : list N * bool :=
  match rest with
  | [] => ([], true)
  | c :: rest' =>
    if padding && (c =? 61) then
      if Nat.ltb i (size - 2) then ([], false)
      else if Nat.eqb i (size - 2)
              && negb (match rest' with d :: _ => d =? 61 | [] => false end)
           then ([], false)
           else ([], true)
    else
      match decode_char e c with
      | None => ([], false)
      | Some val_s =>
        if Nat.eqb (i mod 4) 0 then
          dec_loop e padding size (S i) (N.land (N.shiftl val_s 2 mod 256) 0xFD) rest'
        else if Nat.eqb (i mod 4) 1 then
          let (o, ok) := dec_loop e padding size (S i)
                           (N.land (N.shiftl val_s 4 mod 256) 0xF0) rest' in
          (N.lor val_c (N.shiftr val_s 4) :: o, ok)
        else if Nat.eqb (i mod 4) 2 then
          let (o, ok) := dec_loop e padding size (S i)
                           (N.land (N.shiftl val_s 6 mod 256) 0xD0) rest' in
          (N.lor val_c (N.shiftr val_s 2) :: o, ok)
        else
          let (o, ok) := dec_loop e padding size (S i) (N.lor val_c val_s) rest' in
          (N.lor val_c val_s :: o, ok)
      end
  end.

(** api/oc_base64.c:217-288, oc_base64_decode_v1: bytes stored into the output buffer and success. *)
Definition decode_run (e : encoding) (padding : bool) (input : list N) (bufsize : nat)
  : list N * bool :=
  match decoded_size input padding with
  | None => ([], false)
  | Some size =>
    if Nat.ltb bufsize size then ([], false)
    else dec_loop e padding (length input) 0 0 input
  end.

Definition decode (e : encoding) (padding : bool) (input : list N) (bufsize : nat)
  : option (list N) :=
  let (o, ok) := decode_run e padding input bufsize in if ok then Some o else None.

(** In-place decoding, api/oc_base64.c:290-304 (oc_base64_decode): input and output are the same
    array, so every store changes what later iterations read.  [buf] is the array. *)
Definition store (buf : list N) (j : nat) (v : N) : list N :=
  firstn j buf ++ v :: skipn (S j) buf.

Fixpoint dec_inplace (fuel : nat) (buf : list N) (i j : nat) (val_c : N) : list N * option nat :=
  match fuel with
  | O => (buf, Some j)
  | S f =>
    let size := length buf in
    let c := nth i buf 0 in
    if c =? 61 then
      if Nat.ltb i (size - 2) then (buf, None)
      else if Nat.eqb i (size - 2) && negb (nth (S i) buf 0 =? 61) then (buf, None)
      else (buf, Some j)
    else
      match decode_char STD c with
      | None => (buf, None)
      | Some val_s =>
        if Nat.eqb (i mod 4) 0 then
          dec_inplace f buf (S i) j (N.land (N.shiftl val_s 2 mod 256) 0xFD)
        else if Nat.eqb (i mod 4) 1 then
          dec_inplace f (store buf j (N.lor val_c (N.shiftr val_s 4))) (S i) (S j)
            (N.land (N.shiftl val_s 4 mod 256) 0xF0)
        else if Nat.eqb (i mod 4) 2 then
          dec_inplace f (store buf j (N.lor val_c (N.shiftr val_s 2))) (S i) (S j)
            (N.land (N.shiftl val_s 6 mod 256) 0xD0)
        else
          dec_inplace f (store buf j (N.lor val_c val_s)) (S i) (S j) (N.lor val_c val_s)
      end
  end.

(** Result: final array and the return value ([None] = -1). *)
Definition decode_in_place (buf : list N) : list N * option nat :=
  match decoded_size buf true with
  | None => (buf, None)
  | Some size =>
    if Nat.ltb (length buf) size then (buf, None)
    else match dec_inplace (length buf) buf 0 0 0 with
         | (buf', None) => (buf', None)
         | (buf', Some j) => (firstn j buf' ++ repeat 0 (length buf' - j), Some j)
         end
  end.
