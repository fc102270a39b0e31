(** The Gregorian calendar by counting days, and the texts of RFC 3339. *)
From Verif Require Import Common Ts_Model.
From Coq Require Import ZArith.
Local Open Scope Z_scope.

(** * Calendar *)
Definition date := (Z * Z * Z)%type.
Definition leap (y : Z) : Prop := y mod 4 = 0 /\ (y mod 100 <> 0 \/ y mod 400 = 0).
Definition leapb (y : Z) : bool := (y mod 4 =? 0) && (negb (y mod 100 =? 0) || (y mod 400 =? 0)).
Definition last_day (y m : Z) : Z :=
  if m =? 2 then (if leapb y then 29 else 28)
  else if (m =? 4) || (m =? 6) || (m =? 9) || (m =? 11) then 30 else 31.
Definition tomorrow (x : date) : date :=
  let '(y, m, d) := x in
  if d <? last_day y m then (y, m, d + 1) else if m <? 12 then (y, m + 1, 1) else (y + 1, 1, 1).
(** a date of the calendar; one of the years from 1 on *)
Definition real (x : date) : Prop := let '(y, m, d) := x in 1 <= m <= 12 /\ 1 <= d <= last_day y m.
Definition proper (x : date) : Prop := 1 <= fst (fst x) /\ real x.
Definition four_digits (x : date) : Prop := fst (fst x) <= 9999.

(** [n] days after [a] it is [b] *)
Inductive later : date -> Z -> date -> Prop :=
| later_0 a : later a 0 a
| later_S a n b : later a n b -> later a (n + 1) (tomorrow b).
Definition epoch : date := (1970, 1, 1).
(** [x] is day [k], counted from 1970-01-01 *)
Definition day_count (x : date) (k : Z) : Prop := later epoch k x \/ later x (- k) epoch.

(** * Texts *)
(** [v] in [w] decimal digits *)
Fixpoint num (w : nat) (v : Z) : list N :=
  match w with O => [] | S w => num w (v / 10) ++ [Z.to_N (48 + v mod 10)] end.

(** the fraction of a second: absent, or one to nine digits *)
Inductive written_fraction : list N -> Z -> Prop :=
| no_fraction : written_fraction [] 0
| some_fraction w v : (1 <= w <= 9)%nat -> 0 <= v < 10 ^ Z.of_nat w ->
    written_fraction (46%N :: num w v) (v * 10 ^ (9 - Z.of_nat w)).
(** the offset from UTC in minutes *)
Inductive written_offset : list N -> Z -> Prop :=
| utc c : c = 90%N \/ c = 122%N -> written_offset [c] 0
| ahead h m : 0 <= h <= 23 -> 0 <= m <= 59 -> written_offset (43%N :: num 2 h ++ 58%N :: num 2 m) (h * 60 + m)
| behind h m : 0 <= h <= 23 -> 0 <= m <= 59 -> written_offset (45%N :: num 2 h ++ 58%N :: num 2 m) (- (h * 60 + m)).
(** an RFC 3339 text (without leap seconds, of the years 1 to 9999) and the time stamp it denotes *)
Inductive written : list N -> ts -> Prop :=
| w_text y m d sep h mi x frac nsec zone off k :
    proper (y, m, d) -> y <= 9999 -> In sep [84; 32; 116]%N ->
    0 <= h <= 23 -> 0 <= mi <= 59 -> 0 <= x <= 59 ->
    written_fraction frac nsec -> written_offset zone off -> day_count (y, m, d) k ->
    written (num 4 y ++ 45%N :: num 2 m ++ 45%N :: num 2 d ++ sep :: num 2 h ++ 58%N :: num 2 mi ++ 58%N :: num 2 x ++ frac ++ zone)
            (mk_ts (k * 86400 + h * 3600 + mi * 60 + x - off * 60) nsec off).

(** a time stamp whose local time is in the years 1 to 9999 *)
Definition representable (t : ts) : Prop :=
  (exists x k s, proper x /\ four_digits x /\ day_count x k /\ 0 <= s < 86400 /\ t_sec t + t_off t * 60 = k * 86400 + s) /\
  0 <= t_nsec t < 10 ^ 9 /\ -1440 < t_off t < 1440.

(** the instant in nanoseconds since the epoch *)
Definition instant (t : ts) : Z := t_sec t * 10 ^ 9 + t_nsec t.
(** cut to [p] digits after the second *)
Definition cut (p : Z) (t : ts) : ts := mk_ts (t_sec t) (t_nsec t - t_nsec t mod 10 ^ (9 - p)) (t_off t).
