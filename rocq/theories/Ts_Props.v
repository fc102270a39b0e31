(** C64: RFC 3339 texts.  C65: the order of time stamps and their calendar fields.  C66: the clock's time as text. *)
From Verif Require Import Common Rep_Model Ts_Model Ts_Spec Ts_Proofs Ts2_Proofs Ts3_Proofs Ts4_Proofs Ts5_Proofs.
From Coq Require Import ZArith Lia String.
Local Open Scope string_scope.
Local Open Scope list_scope.
Local Open Scope Z_scope.

Definition a_text : list N := str "2024-02-29T23:59:59.5+05:30".
Definition a_time : ts := mk_ts 1709231399 500000000 330.

(** C64: exactly the texts of the grammar are accepted, and each gives the time stamp it denotes. *)
Theorem C64_parse_exactly :
  forall s t, bytes_ok s -> (timestamp_parse s = Some t <-> written s t).
Proof. exact parse_iff. Qed.
Print Assumptions C64_parse_exactly.
Example C64_parse_case :
  timestamp_parse a_text = Some a_time /\ timestamp_parse (str "2023-02-29T00:00:00Z") = None /\
  timestamp_parse (str "0001-01-01t00:00:00z") = Some (mk_ts (-62135596800) 0 0) /\
  timestamp_parse (str "2016-12-31T23:59:60Z") = None /\ timestamp_parse (str "2016-12-31T23:59:59.1234567890Z") = None /\
  timestamp_parse (str "2016-12-31T23:59:59Z ") = None /\ timestamp_parse (str "0000-01-01T00:00:00Z") = None.
Proof. vm_compute. repeat split. Qed.
Example C64_written_case : written a_text a_time.
Proof. apply parse_iff; [|vm_compute; reflexivity]. apply bytes_okb_spec. vm_compute. reflexivity. Qed.

(** C64: the time stamps taken for valid are those whose local time lies in the years 1 to 9999 (with a
    fraction below a second and less than a day of offset); what is parsed is valid. *)
Theorem C64_valid_iff_representable :
  forall t, timestamp_valid t = true <-> representable t.
Proof. exact valid_iff. Qed.
Print Assumptions C64_valid_iff_representable.
Theorem C64_parsed_is_valid :
  forall s t, bytes_ok s -> timestamp_parse s = Some t -> timestamp_valid t = true.
Proof. intros s t Hb H. apply valid_iff, (written_valid s). apply parse_iff; assumption. Qed.
Print Assumptions C64_parsed_is_valid.
Example C64_valid_case :
  timestamp_valid (mk_ts (-62135596800) 0 0) = true /\ timestamp_valid (mk_ts (-62135596800) 0 (-1)) = false /\
  timestamp_valid (mk_ts (-62135596801) 0 1) = true /\ timestamp_valid (mk_ts 253402300799 999999999 0) = true /\
  timestamp_valid (mk_ts 253402300800 0 0) = false /\ timestamp_valid (mk_ts 0 0 1440) = false.
Proof. vm_compute. repeat split. Qed.

(** C64: a valid time stamp is written as a text of the grammar that denotes it, if the text and a NUL
    fit the buffer; parsing gives the time stamp back, offset included. *)
Theorem C64_format_parse :
  forall t, timestamp_valid t = true ->
    exists text, written text t /\ timestamp_parse text = Some t /\
      forall len, timestamp_format len t = if Nat.ltb (List.length text) len then Some text else None.
Proof. intros t H. destruct (format_best t H) as (text & W & F). exists text. split; [exact W|]. split; [exact (written_parse _ _ W)|exact F]. Qed.
Print Assumptions C64_format_parse.
(** C64: with a given precision the digits behind it are cut off. *)
Theorem C64_format_precision :
  forall t p, timestamp_valid t = true -> 0 <= p <= 9 ->
    exists text, written text (cut p t) /\ timestamp_parse text = Some (cut p t) /\
      forall len, timestamp_format_precision len t p = if Nat.ltb (List.length text) len then Some text else None.
Proof.
  intros t p H Hp. destruct (format_written t (Z.to_nat p) H) as (text & W & F); [lia|]. rewrite Z2Nat.id in W by lia.
  exists text. split; [exact W|]. split; [exact (written_parse _ _ W)|]. intros len. unfold timestamp_format_precision. rewrite H.
  destruct (Z.ltb_spec p 0); [lia|]. destruct (Z.ltb_spec 9 p); [lia|]. cbn [negb orb]. exact (F len).
Qed.
Print Assumptions C64_format_precision.
(** C64: nothing else is written. *)
Theorem C64_format_only_valid :
  forall t len p, timestamp_valid t = false \/ ~ (0 <= p <= 9) ->
    timestamp_format_precision len t p = None /\ (timestamp_valid t = false -> timestamp_format len t = None).
Proof.
  intros t len p H. unfold timestamp_format_precision, timestamp_format. split; [|intros ->; reflexivity].
  destruct (timestamp_valid t); [|reflexivity]. destruct H as [H|H]; [discriminate H|]. cbn [negb orb].
  destruct (Z.ltb_spec p 0); [reflexivity|]. destruct (Z.ltb_spec 9 p); [reflexivity|]. lia.
Qed.
Print Assumptions C64_format_only_valid.
Example C64_format_case :
  timestamp_format 30 a_time = Some (str "2024-02-29T23:59:59.500+05:30") /\ timestamp_format 29 a_time = None /\
  timestamp_format_precision 26 a_time 0 = Some (str "2024-02-29T23:59:59+05:30") /\
  timestamp_format 21 (mk_ts 0 0 0) = Some (str "1970-01-01T00:00:00Z") /\ timestamp_format 40 (mk_ts 0 1 0) = Some (str "1970-01-01T00:00:00.000000001Z").
Proof. vm_compute. repeat split. Qed.

(** C65: comparing two time stamps compares the instants, whatever their offsets. *)
Theorem C65_compare_instants :
  forall a b, timestamp_valid a = true -> timestamp_valid b = true ->
    timestamp_compare a b = match instant a ?= instant b with Lt => -1 | Eq => 0 | Gt => 1 end.
Proof. intros a b Ha Hb. apply valid_iff in Ha as (_ & Ha & _). apply valid_iff in Hb as (_ & Hb & _). apply compare_instant; assumption. Qed.
Print Assumptions C65_compare_instants.
Example C65_compare_case :
  timestamp_compare a_time (mk_ts 1709231399 500000000 0) = 0 /\ timestamp_compare a_time (mk_ts 1709231399 500000001 (-60)) = -1.
Proof. vm_compute. repeat split. Qed.

(** C65: the fields of struct tm are those of the calendar: the date is the date of that day, counted
    from 1970-01-01; the weekday is counted from that Thursday; the day of the year is counted from
    January 1st; the time is the time of day. *)
Theorem C65_calendar_fields :
  forall t local, timestamp_valid t = true ->
    exists r k, timestamp_to_tm t local = Some r /\
      let x := (tm_year r + 1900, tm_mon r + 1, tm_mday r) in
      real x /\ day_count x k /\ tm_wday r = (k + 4) mod 7 /\ later (tm_year r + 1900, 1, 1) (tm_yday r) x /\
      t_sec t + (if local then t_off t * 60 else 0) = k * 86400 + tm_hour r * 3600 + tm_min r * 60 + tm_sec r /\
      0 <= tm_hour r <= 23 /\ 0 <= tm_min r <= 59 /\ 0 <= tm_sec r <= 59.
Proof.
  intros t local H. destruct (to_tm t local H) as (r & k & E & (G1 & G2 & G3 & G4) & T). exists r, k. split; [exact E|]. cbv zeta.
  replace (719163 + k - 719163) with k in * by lia. repeat (split; [assumption|]). exact T.
Qed.
Print Assumptions C65_calendar_fields.
(** C65: a day of the calendar has one number and a number one day. *)
Theorem C65_days_are_numbered :
  forall x, proper x -> exists k, forall j, day_count x j <-> j = k.
Proof. intros x P. exists (rdn_date x - 719163). intros j. rewrite (day_count_rdn x j P). lia. Qed.
Print Assumptions C65_days_are_numbered.
Theorem C65_one_day_per_number :
  forall x y k, proper x -> proper y -> day_count x k -> day_count y k -> x = y.
Proof. intros x y k Px Py Hx Hy. apply day_count_rdn in Hx, Hy; try assumption. apply rdn_inj; try assumption. lia. Qed.
Print Assumptions C65_one_day_per_number.
Example C65_calendar_case :
  timestamp_to_tm a_time true = Some (mk_tm 59 59 23 29 1 124 4 59) /\
  timestamp_to_tm (mk_ts (-62135596801) 0 1) false = Some (mk_tm 59 59 23 31 11 (-1900) 0 365) /\
  timestamp_to_tm (mk_ts 253402300799 0 (-1439)) false = Some (mk_tm 59 59 23 31 11 8099 5 364) /\
  timestamp_to_tm (mk_ts 253402300800 0 (-1439)) false = Some (mk_tm 0 0 0 1 0 8100 6 0).
Proof. vm_compute. repeat split. Qed.

(** C66: a time of the clock, up to the end of the year 9999, is written as the text of that instant in
    UTC, and parsing the text gives the time back, tick for tick. *)
Theorem C66_encode_parse :
  forall hz time, 0 < hz -> (hz | 10 ^ 9) -> 0 <= time < 2 ^ 64 -> time / hz <= 253402300799 ->
    exists text t, written text t /\ instant t * hz = time * 10 ^ 9 /\ t_off t = 0 /\
      (forall len, clock_encode hz time len = if Nat.ltb (List.length text) len then Some text else None) /\ clock_parse hz text = Some time.
Proof. exact clock_roundtrip. Qed.
Print Assumptions C66_encode_parse.
(** C66: a parsed text from 1970 on is the number of whole ticks since 1970, the offset taken into
    account. *)
Theorem C66_parse_whole_ticks :
  forall hz s t, 0 < hz -> written s t -> 0 <= instant t -> instant t * hz < 2 ^ 64 * 10 ^ 9 ->
    clock_parse hz s = Some (instant t * hz / 10 ^ 9).
Proof.
  intros hz s t Hh W H0 H1. rewrite (clock_parse_written hz s t Hh W). rewrite Z.mod_small; [reflexivity|].
  split; [apply Z.div_pos; lia|apply Z.div_lt_upper_bound; lia].
Qed.
Print Assumptions C66_parse_whole_ticks.
(** C66: a text that is not of the grammar is refused. *)
Theorem C66_parse_refuses :
  forall hz s, bytes_ok s -> (forall t, ~ written s t) -> clock_parse hz s = None.
Proof.
  intros hz s Hb H. unfold clock_parse. destruct (timestamp_parse s) as [t|] eqn:E; [|reflexivity].
  apply parse_iff in E; [|exact Hb]. contradiction (H t E).
Qed.
Print Assumptions C66_parse_refuses.
Example C66_case :
  clock_encode 1000000 1709231399500000 40 = Some (str "2024-02-29T18:29:59.500Z") /\ clock_parse 1000000 a_text = Some 1709231399500000 /\
  clock_parse 1000 (str "1970-01-01T00:00:00.0019Z") = Some 1 /\ clock_parse 1000 (str "1970-01-01") = None /\ (1000000 | 10 ^ 9).
Proof. split; [vm_compute; reflexivity|]. split; [vm_compute; reflexivity|]. split; [vm_compute; reflexivity|]. split; [vm_compute; reflexivity|]. exists 1000. reflexivity. Qed.
(** C66 fails for texts before 1970: the negative number of ticks is taken for a large unsigned one and
    reported as success. *)
Theorem C66_before_1970_refuted :
  exists s t, written s t /\ instant t < 0 /\ clock_parse 1000000 s = Some (2 ^ 64 - 1000000).
Proof.
  exists (str "1969-12-31T23:59:59Z"), (mk_ts (-1) 0 0). split; [|split; [reflexivity|vm_compute; reflexivity]].
  apply parse_iff; [apply bytes_okb_spec; vm_compute; reflexivity|vm_compute; reflexivity].
Qed.
Print Assumptions C66_before_1970_refuted.
