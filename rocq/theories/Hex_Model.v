(** Model of the hex conversions in api/oc_helpers.c and of api/oc_uuid.c *)
From Verif Require Import Common.
Local Open Scope N_scope.

(** printf "%02x" of a uint8_t: two lower-case hex digits (C library). *)
Definition hexchar (d : N) : N := if d <? 10 then 48 + d else 87 + d.
Definition hex2 (b : N) : list N := [hexchar (b / 16); hexchar (b mod 16)].

(** api/oc_helpers.c:367-382, oc_conv_byte_array_to_hex_string.
    [None]: -1.  [Some s]: the string stored (followed by a NUL) with *hex_str_len = length s. *)
Definition bytes_to_hex (array : list N) (hex_str_len : nat) : option (list N) :=
  if Nat.ltb hex_str_len (length array * 2 + 1) then None
  else Some (flat_map hex2 array).

(** sscanf "%1x"/"%2x" on characters that start with a hex digit (C library); [None] when the
    conversion does not match and the target variable is left uninitialised, or when the outcome
    depends on white space, sign or prefix handling (not modelled). *)
Definition unhexchar (c : N) : option N :=
  if (48 <=? c) && (c <=? 57) then Some (c - 48)
  else if (97 <=? c) && (c <=? 102) then Some (c - 87)
  else if (65 <=? c) && (c <=? 70) then Some (c - 55)
  else None.

Inductive hexres := HexErr | HexUninit | HexOk (l : list N).

(** api/oc_helpers.c:410-414: the loop over pairs; a non-matching conversion stores an
    uninitialised value. *)
Fixpoint hex_pairs (s : list N) : option (list N) :=
  match s with
  | c :: d :: r =>
    match unhexchar c, unhexchar d, hex_pairs r with
    | Some a, Some b, Some l => Some (a * 16 + b :: l)
    | _, _, _ => None
    end
  | _ => Some []
  end.

(** api/oc_helpers.c:384-417, oc_conv_hex_string_to_byte_array *)
Definition hex_to_bytes (hex : list N) (array_len : nat) : hexres :=
  if Nat.ltb (length hex) 1 then HexErr
  else
    let len := (length hex / 2 + (if Nat.eqb (length hex mod 2) 0 then 0 else 1))%nat in
    if Nat.ltb array_len len then HexErr
    else
      if Nat.eqb (length hex mod 2) 0 then
        match hex_pairs hex with Some l => HexOk l | None => HexUninit end
      else
        match hex with
        | c :: r =>
          match unhexchar c, hex_pairs r with
          | Some a, Some l => HexOk (a :: l)
          | _, _ => HexUninit
          end
        | [] => HexErr
        end.

(* ---------------------------------------------------------------- UUID *)

(** include/oc_uuid.h: OC_UUID_LEN = 37, OC_UUID_ID_SIZE = 16 *)
Definition UUID_LEN := 37%nat.
Definition UUID_ID_SIZE := 16%nat.

(** isalpha in the C locale *)
Definition isalpha (c : N) : bool := ((65 <=? c) && (c <=? 90)) || ((97 <=? c) && (c <=? 122)).

(** api/oc_uuid.c:52-84: contribution of one character, or-ed into c (uint8_t arithmetic). *)
Definition char_bits (ch : N) : N :=
  if isalpha ch then
    if (ch =? 65) || (ch =? 97) then 0x0a
    else if (ch =? 66) || (ch =? 98) then 0x0b
    else if (ch =? 67) || (ch =? 99) then 0x0c
    else if (ch =? 68) || (ch =? 100) then 0x0d
    else if (ch =? 69) || (ch =? 101) then 0x0e
    else if (ch =? 70) || (ch =? 102) then 0x0f
    else 0
  else (ch + 208) mod 256.   (* str[i] - 48 truncated to uint8_t *)

(** api/oc_uuid.c:48-100: the loop.  [out]: the bytes stored so far (j = length out);
    [half]: Some c when the high nibble has been read (c already shifted).
    The counter k of the code satisfies (j+1)*2 = k exactly when one nibble is pending. *)
Fixpoint uuid_loop (out : list N) (half : option N) (s : list N) : option (list N) :=
  match s with
  | [] => Some out
  | ch :: r =>
    if ch =? 45 then uuid_loop out half r
    else
      match half with
      | None => uuid_loop out (Some ((char_bits ch * 16) mod 256)) r
      | Some c =>
        if Nat.eqb (length out) UUID_ID_SIZE then None
        else uuid_loop (out ++ [N.lor c (char_bits ch)]) None r
      end
  end.

Definition wildcard : list N := 42 :: repeat 0 15.

(** api/oc_uuid.c:34-106, str_to_uuid: result code and the value copied to *uuid (None: not written). *)
Definition str_to_uuid (s : list N) : Z * option (list N) :=
  match s with
  | [c] =>
    if c =? 42 then (1%Z, Some wildcard)
    else match uuid_loop [] None (firstn (UUID_LEN - 1) s) with
         | None => ((-1)%Z, None)
         | Some out => (Z.of_nat (length out), Some (out ++ repeat 0 (UUID_ID_SIZE - length out)))
         end
  | _ => match uuid_loop [] None (firstn (UUID_LEN - 1) s) with
         | None => ((-1)%Z, None)
         | Some out => (Z.of_nat (length out), Some (out ++ repeat 0 (UUID_ID_SIZE - length out)))
         end
  end.

(** api/oc_uuid.c:108-121, oc_str_to_uuid_v1 *)
Definition str_to_uuid_v1 (s : list N) : Z * option (list N) :=
  let (ret, u) := str_to_uuid s in
  if list_eqb s [42] then (ret, u)
  else if Z.eqb ret 16 then (16%Z, u) else ((-1)%Z, u).

(** api/oc_uuid.c:134-174, oc_uuid_to_str_v1; [None] = -1.
    Each snprintf needs its text plus a NUL in the remaining space. *)
Fixpoint uuid_print (i : nat) (u : list N) (buflen : nat) : option (list N) :=
  match u with
  | [] => Some []
  | b :: r =>
    if (Nat.eqb i 4 || Nat.eqb i 6 || Nat.eqb i 8 || Nat.eqb i 10)%bool then
      if Nat.leb buflen 1 then None
      else if Nat.leb (buflen - 1) 2 then None
      else match uuid_print (S i) r (buflen - 1 - 2) with
           | Some t => Some (45 :: hex2 b ++ t)
           | None => None
           end
    else
      if Nat.leb buflen 2 then None
      else match uuid_print (S i) r (buflen - 2) with
           | Some t => Some (hex2 b ++ t)
           | None => None
           end
  end.

Definition uuid_to_str (u : list N) (buflen : nat) : option (list N) :=
  if list_eqb u wildcard then
    if Nat.ltb buflen 2 then None else Some [42]
  else uuid_print 0 u buflen.

(** api/oc_uuid.c:187-213, oc_gen_uuid: sixteen random bytes, then bits of octets 8 and 6. *)
Definition set_nth (l : list N) (k : nat) (v : N) : list N := firstn k l ++ v :: skipn (S k) l.
Definition gen_uuid (random : list N) : list N :=
  let u1 := set_nth random 8 (N.lor (N.land (nth 8 random 0) 0x3f) 0x40) in
  set_nth u1 6 (N.lor (N.land (nth 6 u1 0) 0x0f) 0x40).
