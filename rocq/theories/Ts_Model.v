(** Model of api/c-timestamp (RFC 3339 time stamps) and of the time stamp functions of api/oc_clock.c. *)
From Verif Require Import Common.
From Coq Require Import ZArith.
Local Open Scope Z_scope.

(** timestamp_t (api/c-timestamp/timestamp.h): int64_t sec, int32_t nsec, int16_t offset *)
Record ts := mk_ts { t_sec : Z; t_nsec : Z; t_off : Z }.

Definition u32 (x : Z) : Z := x mod 2 ^ 32.

(** * Calendar *)

(** api/c-timestamp/timestamp_parse.c:34-38, leap_year *)
Definition leap_year (y : Z) : bool := (Z.land y 3 =? 0) && (negb (y mod 100 =? 0) || (y mod 400 =? 0)).
(** api/c-timestamp/timestamp_parse.c:40-48, month_days *)
Definition month_days (y m : Z) : Z :=
  if (m =? 2) && leap_year y then nth (Z.to_nat m) [0; 31; 29; 31; 30; 31; 30; 31; 31; 30; 31; 30; 31] 0
  else nth (Z.to_nat m) [0; 31; 28; 31; 30; 31; 30; 31; 31; 30; 31; 30; 31] 0.
(** api/c-timestamp/timestamp_parse.c:93-94, DayOffset *)
Definition day_offset (m : Z) : Z := nth (Z.to_nat m) [0; 306; 337; 0; 31; 61; 92; 122; 153; 184; 214; 245; 275] 0.

(** api/c-timestamp/timestamp_parse.c:126-128 and 197-198: the rata die number; January and February belong to the year before *)
Definition rdn_of (y m d : Z) : Z :=
  let y := if m <? 3 then y - 1 else y in
  (1461 * y) / 4 - y / 100 + y / 400 + day_offset m + d - 306.

(** api/c-timestamp/timestamp_format.c:41-61, rdn_to_ymd (the conversions to uint16_t change nothing below year 65535) *)
Definition rdn_to_ymd (rdn : Z) : Z * Z * Z :=
  let z := rdn + 306 in
  let h := u32 (100 * z - 25) in
  let a := h / 3652425 in
  let b := a - Z.shiftr a 2 in
  let y := (100 * b + h) / 36525 in
  let d := b + z - Z.shiftr (1461 * y) 2 in
  let m := Z.shiftr (535 * d + 48950) 14 in
  if 12 <? m then (y + 1, m - 12, d - day_offset (m - 12)) else (y, m, d - day_offset m).

(** * Parsing *)

(** one digit: [p[i] - '0'] as unsigned char *)
Definition digit (c : N) : option Z :=
  let d := ((c + 208) mod 256)%N in if (d <=? 9)%N then Some (Z.of_N d) else None.
(** api/c-timestamp/timestamp_parse.c:50-64, parse_2d *)
Definition parse_2d (p : list N) (i : nat) : option Z :=
  match digit (nth i p 0%N), digit (nth (i + 1) p 0%N) with Some a, Some b => Some (a * 10 + b) | _, _ => None end.
(** api/c-timestamp/timestamp_parse.c:66-88, parse_4d *)
Definition parse_4d (p : list N) (i : nat) : option Z :=
  match digit (nth i p 0%N), digit (nth (i + 1) p 0%N), digit (nth (i + 2) p 0%N), digit (nth (i + 3) p 0%N) with
  | Some a, Some b, Some c, Some d => Some (a * 1000 + b * 100 + c * 10 + d)
  | _, _, _, _ => None
  end.
(** api/c-timestamp/timestamp_parse.c:90-92, Pow10 *)
Definition pow10 (k : nat) : Z :=
  nth k [1; 10; 100; 1000; 10000; 100000; 1000000; 10000000; 100000000; 1000000000] 0.

(** api/c-timestamp/timestamp_parse.c:97-107, check_format *)
Definition check_format (s : list N) : bool :=
  (Nat.leb 20 (List.length s) && (nth 4 s 0 =? 45) && (nth 7 s 0 =? 45) && (nth 13 s 0 =? 58) && (nth 16 s 0 =? 58) &&
   ((nth 10 s 0 =? 84) || (nth 10 s 0 =? 32) || (nth 10 s 0 =? 116)))%N.
(** api/c-timestamp/timestamp_parse.c:109-132, parse_date (the year is adjusted in [rdn_of]) *)
Definition parse_date (s : list N) : option (Z * Z * Z) :=
  match parse_4d s 0 with
  | None => None
  | Some y => if y <? 1 then None else
    match parse_2d s 5 with
    | None => None
    | Some m => if (m <? 1) || (12 <? m) then None else
      match parse_2d s 8 with
      | None => None
      | Some d => if (d <? 1) || (31 <? d) then None
                  else if (28 <? d) && (month_days y m <? d) then None else Some (y, m, d)
      end
    end
  end.
(** api/c-timestamp/timestamp_parse.c:134-149, parse_time *)
Definition parse_time (s : list N) : option (Z * Z * Z) :=
  match parse_2d s 11 with
  | None => None
  | Some h => if 23 <? h then None else
    match parse_2d s 14 with
    | None => None
    | Some m => if 59 <? m then None else
      match parse_2d s 17 with
      | None => None
      | Some x => if 59 <? x then None else Some (h, m, x)
      end
    end
  end.
(** api/c-timestamp/timestamp_parse.c:151-171, parse_offset *)
Definition parse_offset (s : list N) (minus : bool) : option Z :=
  if negb (nth 2 s 0 =? 58)%N then None else
  match parse_2d s 0 with
  | None => None
  | Some h => if 23 <? h then None else
    match parse_2d s 3 with
    | None => None
    | Some m => if 59 <? m then None else Some (if minus then - (h * 60 + m) else h * 60 + m)
    end
  end.
(** api/c-timestamp/timestamp_parse.c:206-215: value (uint32_t), number of digits, rest *)
Fixpoint fraction (l : list N) (nsec : Z) (n : nat) : Z * nat * list N :=
  match l with
  | [] => (nsec, n, [])
  | c :: r => match digit c with Some d => fraction r (u32 (nsec * 10 + d)) (S n) | None => (nsec, n, l) end
  end.
(** api/c-timestamp/timestamp_parse.c:229-251: the zone and the result; [ch] has been read *)
Definition zone (ch : N) (cur : list N) (rdn sod nsec : Z) : option ts :=
  let result off := Some (mk_ts ((rdn - 719163) * 86400 + sod - off * 60) nsec off) in
  if ((ch =? 90) || (ch =? 122))%N then match cur with [] => result 0 | _ => None end
  else if Nat.ltb (List.length cur) 5 || negb ((ch =? 43) || (ch =? 45))%N then None
  else match parse_offset cur (ch =? 45)%N with
       | None => None
       | Some off => if Nat.eqb (List.length cur) 5 then result off else None
       end.
(** api/c-timestamp/timestamp_parse.c:173-252, timestamp_parse *)
Definition timestamp_parse (s : list N) : option ts :=
  if negb (check_format s) then None else
  match parse_date s with
  | None => None
  | Some (y, m, d) =>
    match parse_time s with
    | None => None
    | Some (h, mi, x) =>
      let rdn := rdn_of y m d in
      let sod := h * 3600 + mi * 60 + x in
      match skipn 19 s with
      | [] => None
      | ch :: cur =>
        if (ch =? 46)%N then
          let '(nsec, n, rest) := fraction cur 0 0 in
          if Nat.ltb n 1 || Nat.ltb 9 n then None
          else match rest with
               | [] => None
               | ch2 :: cur2 => zone ch2 cur2 rdn sod (u32 (nsec * pow10 (9 - n)))
               end
        else zone ch cur rdn sod 0
      end
    end
  end.

(** * Formatting *)

(** api/c-timestamp/timestamp_valid.c:33-44, timestamp_valid (the sum does not overflow for |sec| < 2^62) *)
Definition timestamp_valid (t : ts) : bool :=
  let sec := t_sec t + t_off t * 60 in
  negb ((sec <? -62135596800) || (253402300799 <? sec) || (t_nsec t <? 0) || (999999999 <? t_nsec t) ||
        (t_off t <? -1439) || (1439 <? t_off t)).

Definition chr (v : Z) : N := Z.to_N (48 + v).
(** the last [k] decimal digits, as written from the right *)
Fixpoint digits (k : nat) (v : Z) : list N :=
  match k with O => [] | S k => digits k (v / 10) ++ [chr (v mod 10)] end.

(** api/c-timestamp/timestamp_format.c:69-200, timestamp_format_internal; the text, [None] for 0 *)
Definition format_internal (len : nat) (t : ts) (precision : nat) : option (list N) :=
  let dlen := (20 + (if (t_off t =? 0)%Z then 0 else 5) + (if Nat.eqb precision 0 then 0 else 1 + precision))%nat in
  if Nat.leb len dlen then None else
  let sec := t_sec t + t_off t * 60 + 62135683200 in
  let '(y, m, d) := rdn_to_ymd (u32 (Z.quot sec 86400)) in
  let v := u32 (Z.rem sec 86400) in
  let p18 := chr (v mod 10) in let v := v / 10 in
  let p17 := chr (v mod 6) in let v := v / 6 in
  let p15 := chr (v mod 10) in let v := v / 10 in
  let p14 := chr (v mod 6) in let v := v / 6 in
  let p12 := chr (v mod 10) in let v := v / 10 in
  let p11 := chr (v mod 10) in
  let p9 := chr (d mod 10) in let d := d / 10 in
  let p8 := chr (d mod 10) in
  let p6 := chr (m mod 10) in let m := m / 10 in
  let p5 := chr (m mod 10) in
  let p3 := chr (y mod 10) in let y := y / 10 in
  let p2 := chr (y mod 10) in let y := y / 10 in
  let p1 := chr (y mod 10) in let y := y / 10 in
  let p0 := chr (y mod 10) in
  let head := [p0; p1; p2; p3; 45; p5; p6; 45; p8; p9; 84; p11; p12; 58; p14; p15; 58; p17; p18]%N in
  let frac := if Nat.eqb precision 0 then [] else 46%N :: digits precision (t_nsec t / pow10 (9 - precision)) in
  let tail :=
    if t_off t =? 0 then [90%N]
    else let v := if t_off t <? 0 then - t_off t else t_off t in
      let q5 := chr (v mod 10) in let v := v / 10 in
      let q4 := chr (v mod 6) in let v := v / 6 in
      let q2 := chr (v mod 10) in let v := v / 10 in
      let q1 := chr (v mod 10) in
      [if (t_off t <? 0)%Z then 45 else 43; q1; q2; 58; q4; q5]%N in
  Some (head ++ frac ++ tail).

(** api/c-timestamp/timestamp_format.c:215-236, timestamp_format *)
Definition timestamp_format (len : nat) (t : ts) : option (list N) :=
  if negb (timestamp_valid t) then None else
  let f := t_nsec t in
  let precision := if f =? 0 then 0%nat else if f mod 1000000 =? 0 then 3%nat else if f mod 1000 =? 0 then 6%nat else 9%nat in
  format_internal len t precision.
(** api/c-timestamp/timestamp_format.c:238-246, timestamp_format_precision *)
Definition timestamp_format_precision (len : nat) (t : ts) (precision : Z) : option (list N) :=
  if negb (timestamp_valid t) || (precision <? 0) || (9 <? precision) then None
  else format_internal len t (Z.to_nat precision).

(** api/c-timestamp/timestamp_compare.c:33-44, timestamp_compare *)
Definition timestamp_compare (a b : ts) : Z :=
  if t_sec a <? t_sec b then -1 else if t_sec b <? t_sec a then 1
  else if t_nsec a <? t_nsec b then -1 else if t_nsec b <? t_nsec a then 1 else 0.

(** * struct tm *)
Record tm := mk_tm { tm_sec : Z; tm_min : Z; tm_hour : Z; tm_mday : Z; tm_mon : Z; tm_year : Z; tm_wday : Z; tm_yday : Z }.
(** api/c-timestamp/timestamp_tm.c:40-64, rdn_to_struct_tm, and 68-90, timestamp_to_tm *)
Definition timestamp_to_tm (t : ts) (local : bool) : option tm :=
  if negb (timestamp_valid t) then None else
  let sec := t_sec t + 62135683200 + (if local then t_off t * 60 else 0) in
  let rdn := u32 (sec / 86400) in
  let sod := sec mod 86400 in
  let z := rdn + 306 in
  let h := u32 (100 * z - 25) in
  let a := h / 3652425 in
  let b := a - Z.shiftr a 2 in
  let y := (100 * b + h) / 36525 in
  let c := b + z - Z.shiftr (1461 * y) 2 in
  let m := Z.shiftr (535 * c + 48950) 14 in
  let '(y, m, d) := if 12 <? m then (y + 1, m - 12, c - 306)
                    else (y, m, c + 59 + (if leap_year y then 1 else 0)) in
  Some (mk_tm (sod mod 60) (sod / 60 mod 60) (sod / 60 / 60) (c - day_offset m) (m - 1) (y - 1900) (rdn mod 7) (d - 1)).

(** * api/oc_clock.c; [hz] is OC_CLOCK_SECOND, a divisor of 10^9 (1, 1000 or 10^6) *)

(** api/oc_clock.c:36-46, oc_clock_encode_time_rfc3339; the quotient of doubles is exact *)
Definition clock_encode (hz time : Z) (len : nat) : option (list N) :=
  timestamp_format len (mk_ts (time / hz) (time mod hz * 1000000000 / hz) 0).
(** api/oc_clock.c:58-63, clock_from_timespec; uint64_t; the quotient of doubles, below 10^6, is cut to an integer: a
    quotient that is not an integer is at least 10^-9 away from one, far more than the rounding error *)
Definition clock_from_timespec (hz sec nsec : Z) : Z := (sec * hz + nsec * hz / 1000000000) mod 2 ^ 64.
(** api/oc_clock.c:65-78, oc_clock_parse_time_rfc3339_v1 *)
Definition clock_parse (hz : Z) (s : list N) : option Z :=
  match timestamp_parse s with Some t => Some (clock_from_timespec hz (t_sec t) (t_nsec t)) | None => None end.
