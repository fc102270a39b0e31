(** What others see of the synchronised time. *)
From Verif Require Import Common Rep_Model Repd_Model Ael_Model Ts_Model Ts_Spec Pt_Model.
From Verif Require Sd_Spec.
From Coq Require Import String ZArith.
Notation rep := Rep_Model.rep.
Local Open Scope string_scope.
Local Open Scope list_scope.
Local Open Scope Z_scope.

(** A frequency of the clock: a divisor of 10^9. *)
Definition frequency (hz : Z) : Prop := 0 < hz /\ (hz | 10 ^ 9).

(** A time after 1970 and before the year 10000. *)
Definition sensible (hz t : Z) : Prop := 0 < t /\ t < 2 ^ 64 - 1 /\ t / hz <= 253402300799.

(** [s] is a text of time [t], cut to ticks; of time [t] exactly. *)
Definition text_of (hz : Z) (s : list N) (t : Z) : Prop := exists x, written s x /\ 0 <= instant x /\ instant x * hz / 10 ^ 9 = t.
Definition exact_text (hz : Z) (s : list N) (t : Z) : Prop := exists x, written s x /\ instant x * hz = t * 10 ^ 9.

(** A request that names the time with [s]; one that does not name a time. *)
Definition names (l : list rep) (s : list N) : Prop := Sd_Spec.last_text l (str "lastSyncedTime") s.
Definition names_nothing (l : list rep) : Prop :=
  Sd_Spec.no_text l (str "lastSyncedTime") \/ exists s, names l s /\ bytes_ok s /\ forall x, ~ written s x.

(** Readings of the clock from [m] on. *)
Definition from (m : Z) (c : clock) : Prop := match c with Some x => m <= x < 2 ^ 63 | None => True end.

(** What happens while the time is not set and the device not restarted: everything else, and attempts that fail. *)
Definition quiet (hz m : Z) (o : op) : Prop :=
  match o with
  | SetTime t c _ => t <> 0 /\ c = None
  | SetStatus s => 1 <= s <= 3
  | Now c | Get _ _ c => from m c
  | Post l c _ => names_nothing l \/ (c = None /\ exists s t, names l s /\ text_of hz s t /\ sensible hz t)
  | Start _ _ => False
  | _ => True
  end.

(** From now on, until the time is set anew, the time is [t] plus what has passed since the reading [m]. *)
Definition keeps_time (hz : Z) (d : dev) (t m : Z) : Prop :=
  forall ops m', Forall (quiet hz m) ops -> m <= m' < 2 ^ 63 -> t + (m' - m) < 2 ^ 64 ->
    exists d', run hz d ops = Some d' /\ step hz d' (Now (Some m')) = Some (d', Ticks (t + (m' - m))) /\ step hz d' LastSynced = Some (d', Ticks t).
(** From now on, until the time is set, there is none. *)
Definition keeps_off (hz : Z) (d : dev) : Prop :=
  forall ops c, Forall (quiet hz 0) ops ->
    exists d', run hz d ops = Some d' /\ step hz d' (Now c) = Some (d', Ticks (2 ^ 64 - 1)) /\ step hz d' LastSynced = Some (d', Ticks 0).

(** The names of the status. *)
Definition status_name (s : Z) (n : list N) : Prop :=
  (s = 1 /\ n = str "syncing") \/ (s = 2 /\ n = str "in-sync") \/ (s = 3 /\ n = str "in-sync-from-storage").
