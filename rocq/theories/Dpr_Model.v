(* The retry counter of the provisioning client
   (api/plgd/device-provisioning-client/plgd_dps_retry.c) and the moment at which
   certificates are renewed (plgd_dps_pki.c).

   Simplifications.  Random values are arguments.  The callback of the
   application for the schedule is represented by its answers.  Selecting the
   next endpoint is counted. *)
From Coq Require Import List NArith Bool.
Import ListNotations.
Local Open Scope N_scope.

(* plgd_dps_retry_t (plgd_dps_retry_internal.h:49-55): default_cfg without the
   zeros at its end, count, schedule_action.delay (ms) and .timeout (s), whether
   a callback of the application is set, and how often the next endpoint was
   selected. *)
Record retry := mkRetry {
  cfg : list N;
  cnt : N;
  delay : N;
  tmo : N;
  custom : bool;
  nsel : nat }.

Definition max_size : nat := 8.

(* dps_retry_init (plgd_dps_retry.c:47-59) *)
Definition rinit : retry := mkRetry [10; 20; 40; 80; 120] 0 0 0 false 0.

(* plgd_dps_set_retry_configuration (plgd_dps_retry.c:61-83) *)
Definition set_cfg (c : list N) (r : retry) : bool * retry :=
  if (Nat.eqb (length c) 0 || Nat.ltb max_size (length c))%bool then (false, r)
  else if existsb (N.eqb 0) c then (false, r)
  else (true, mkRetry c (cnt r) (delay r) (tmo r) (custom r) (nsel r)).

(* plgs_dps_get_retry_configuration (plgd_dps_retry.c:85-107) *)
Definition get_cfg (size : nat) (r : retry) : option (list N) :=
  if Nat.ltb size (length (cfg r)) then None else Some (cfg r).

(* get_delay_from_timeout (plgd_dps_retry.c:122-133) *)
Definition from_timeout (t rnd : N) : N :=
  if t =? 0 then rnd mod 256
  else let d := t * 1000 / 2 in d + rnd mod d.

(* What a call of the schedule finds: the answer of the application's callback,
   if one is set, and a random value. *)
Record answer := mkAns { a_cb : option (N * N); a_rnd : N }.

(* default_schedule_action and on_action_response_set_retry
   (plgd_dps_retry.c:135-186): delay and timeout, or nothing *)
Definition schedule (a : answer) (count : N) (r : retry) : option (N * N) * retry :=
  if custom r then (a_cb a, r)
  else if N.of_nat (length (cfg r)) <=? count
  then (None, mkRetry (cfg r) (cnt r) (delay r) (tmo r) (custom r) (S (nsel r)))
  else let t := nth (N.to_nat count) (cfg r) 0 in
       (Some (from_timeout t (a_rnd a), t), r).

Definition put (d t : N) (r : retry) : retry :=
  mkRetry (cfg r) (cnt r) d t (custom r) (nsel r).
Definition put_cnt (c : N) (r : retry) : retry :=
  mkRetry (cfg r) c (delay r) (tmo r) (custom r) (nsel r).

(* dps_retry_reset (plgd_dps_retry.c:220-231), with dps_schedule_action for the
   count 0 *)
Definition rreset (a : answer) (rnd : N) (r0 : retry) : retry :=
  let (x, r) := schedule a 0 (put_cnt 0 r0) in
  match x with
  | Some (d, t) => put d t r
  | None => put (from_timeout 2 rnd) 2 r
  end.

(* dps_retry_increment (plgd_dps_retry.c:212-218) and dps_schedule_action
   (188-210); count is a uint8_t *)
Definition rinc (a b : answer) (rnd : N) (r0 : retry) : retry :=
  let c := (cnt r0 + 1) mod 256 in
  let (x, r) := schedule a c (put_cnt c r0) in
  match x with
  | Some (d, t) => put d t r
  | None => if c =? 0 then r else rreset b rnd r
  end.

(* dps_retry_get_timeout and dps_retry_get_delay (plgd_dps_retry.c:233-253);
   None: the assertion on count fails *)
Definition get_timeout (r : retry) : option N :=
  if cnt r <? 8 then Some (if tmo r =? 0 then 2 else tmo r) else None.
Definition get_delay (rnd : N) (r : retry) : option N :=
  if cnt r <? 8
  then Some (if delay r =? 0 then from_timeout 2 rnd else delay r) else None.

Inductive rop :=
  | RSet (c : list N)
  | RCustom (b : bool)   (* plgd_dps_set_schedule_action (266-273) *)
  | RInc (a b : answer) (rnd : N)
  | RReset (a : answer) (rnd : N).

Definition rstep (r : retry) (o : rop) : retry :=
  match o with
  | RSet c => snd (set_cfg c r)
  | RCustom b => mkRetry (cfg r) (cnt r) (delay r) (tmo r) b (nsel r)
  | RInc a b rnd => rinc a b rnd r
  | RReset a rnd => rreset a rnd r
  end.
Definition rrun (l : list rop) : retry := fold_left rstep l rinit.

(* ------------------------------------------------------------------ *)
(* Certificates.  Times in seconds, uint64_t. *)
Definition w64 (x : N) : N := x mod 18446744073709551616.

(* dps_pki_certificate_is_expiring (plgd_dps_pki.c:120-125) *)
Definition is_expiring (limit valid_to now : N) : bool :=
  valid_to <? w64 (now + limit).

Inductive cert_state := NotYet | Expired | Expiring | Valid.

(* dps_pki_validate_certificate (plgd_dps_pki.c:127-150) *)
Definition validate (limit valid_from valid_to now : N) : cert_state :=
  if now <? valid_from then NotYet
  else if is_expiring limit valid_to now
  then if valid_to <? now then Expired else Expiring
  else Valid.

(* dps_pki_calculate_renew_certificates_interval (plgd_dps_pki.c:248-285), in
   milliseconds *)
Definition interval (limit valid_to now : N) : N :=
  if is_expiring limit valid_to now then 0
  else if valid_to <? w64 (now + 60) then 10 * 1000
  else if valid_to <? w64 (now + 180) then 60 * 1000
  else if valid_to <? w64 (now + 360) then 120 * 1000
  else w64 (w64 (2 * (valid_to - now)) / 3 * 1000).

(* dps_pki_schedule_renew_certificates (plgd_dps_pki.c:226-246) *)
Definition renew_in (limit valid_to now min : N) : N :=
  let i := interval limit valid_to now in if i <? min then min else i.
