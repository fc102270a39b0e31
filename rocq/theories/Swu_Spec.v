(** What is asked of the software update resource. *)
From Verif Require Import Common Rep_Model Repd_Model Ael_Model Ael_Spec Ts_Model Ts_Spec Pt_Spec Swu_Model.
From Verif Require Sd_Spec.
From Coq Require Import String ZArith.
Notation rep := Rep_Model.rep.
Local Open Scope string_scope.
Local Open Scope list_scope.
Local Open Scope Z_scope.

(** The names of actions and states. *)
Definition action_name (a : Z) (s : text) : Prop :=
  (a = 0 /\ s = str "idle") \/ (a = 1 /\ s = str "isac") \/ (a = 2 /\ s = str "isvv") \/ (a = 3 /\ s = str "upgrade").
Definition state_name (a : Z) (s : text) : Prop :=
  (a = 0 /\ s = str "idle") \/ (a = 1 /\ s = str "nsa") \/ (a = 2 /\ s = str "svv") \/ (a = 3 /\ s = str "sva") \/ (a = 4 /\ s = str "upgrading").

(** A property a client may set. *)
Definition time_text (s : text) : Prop := s = str "none" \/ s = str "now" \/ exists x, written s x.
Definition settable (r : rep) : Prop :=
  (exists s a, r = (str "swupdateaction", RStr s) /\ action_name a s) \/ (exists s, r = (str "updatetime", RStr s) /\ time_text s) \/
  (exists s, r = (str "purl", RStr s)).

(** A request that is in order at the time [now] for functions [im]; [has]: the device holds a package URL already. *)
Definition in_time (hz now : Z) (s : text) : Prop := s = str "none" \/ s = str "now" \/ exists x, written s x /\ now <= instant x * hz / 10 ^ 9.
Definition url_ok (im : impl) (has : bool) (l : list rep) (u : text) : Prop :=
  (exists v, i_url im = Some v /\ v u = true) \/ (u = [] /\ has = true /\ exists s a, Sd_Spec.last_text l (str "swupdateaction") s /\ action_name a s /\ a <> 0).
Definition in_order (hz now : Z) (im : impl) (has : bool) (l : list rep) : Prop :=
  Forall settable l /\ (exists s, Sd_Spec.last_text l (str "updatetime") s /\ in_time hz now s) /\
  (exists u, Sd_Spec.last_text l (str "purl") u /\ url_ok im has l u).
(** Requests whose package URL holds no zero; whose times are of 1970 or later, and not beyond 2^64 ticks. *)
Definition plain_urls (l : list rep) : Prop := forall u, In (str "purl", RStr u) l -> plain_text u.
Definition modern (hz : Z) (l : list rep) : Prop :=
  forall s x, In (str "updatetime", RStr s) l -> written s x -> 0 <= instant x * hz / 10 ^ 9 < 2 ^ 64.

(** The data after such a request. *)
Definition update_time (hz now : Z) (l : list rep) (t : Z) : Prop :=
  exists s, Sd_Spec.last_text l (str "updatetime") s /\
    ((s = str "none" /\ t = 0) \/ (s = str "now" /\ t = now) \/ exists x, written s x /\ t = instant x * hz / 10 ^ 9).
Definition new_action (l : list rep) (old a : Z) : Prop :=
  (Sd_Spec.no_text l (str "swupdateaction") /\ a = old) \/ (exists s, Sd_Spec.last_text l (str "swupdateaction") s /\ action_name a s).
Definition updated (hz now : Z) (l : list rep) (s s' : swu) : Prop :=
  (exists u, Sd_Spec.last_text l (str "purl") u /\ s_purl s' = Some u) /\ new_action l (s_action s) (s_action s') /\ update_time hz now l (s_time s') /\
  s_nv s' = s_nv s /\ s_signed s' = s_signed s /\ s_state s' = s_state s /\ s_result s' = s_result s /\ s_last s' = s_last s.

(** Requests that are never in order. *)
Definition hopeless (l : list rep) : Prop :=
  (exists r, In r l /\ bytes_ok (match snd r with RStr s => s | _ => [] end) /\ ~ settable r) \/ Sd_Spec.no_text l (str "updatetime") \/ Sd_Spec.no_text l (str "purl").

(** What happens while nobody changes the update: time passes, the clock is set, requests are looked at and refused. *)
Definition quiet (o : op) : Prop :=
  match o with
  | Elapse dt _ => 0 <= dt
  | ClockSet _ | Get _ | Validate _ _ => True
  | Post _ l _ => hopeless l
  | _ => False
  end.
Fixpoint passed (l : list op) : Z := match l with [] => 0 | Elapse dt _ :: t => dt + passed t | _ :: t => passed t end.
Definition looked (l : list op) : bool := existsb (fun o => match o with Elapse _ _ => true | _ => false end) l.

(** What an action makes the application do. *)
Definition done_for (im : impl) (a : Z) (url nv : option text) (c : list call) : Prop :=
  (a = 0 /\ c = []) \/ (a = 1 /\ c = (if i_check im then [Check url nv] else [])) \/ (a = 2 /\ c = (if i_down im then [Download url] else [])) \/
  (a = 3 /\ c = (if i_up im then [Upgrade url] else [])).

(** From now on, until somebody changes the update: the calls [c] are made once [t] ticks have passed, and never again. *)
Definition will_do (hz : Z) (d : dev) (t : Z) (c : list call) : Prop :=
  forall ops, Forall quiet ops -> d_calls (run hz d ops) = (if looked ops && (t <=? passed ops) then c else []) ++ d_calls d.
Definition will_rest (hz : Z) (d : dev) : Prop := forall ops, Forall quiet ops -> d_calls (run hz d ops) = d_calls d.

(** Data that can be stored and told: an action and a state, texts without zeros, and times of 1970 to 9999. *)
Definition time_ok (hz t : Z) : Prop := t = 0 \/ sensible hz t.
Definition sound (hz : Z) (s : swu) : Prop :=
  0 <= s_action s <= 3 /\ 0 <= s_state s <= 4 /\ 0 <= s_result s < 2 ^ 31 /\ time_ok hz (s_last s) /\ time_ok hz (s_time s) /\
  opt_plain (s_purl s) /\ opt_plain (s_nv s) /\ opt_plain (s_signed s).
(** The same, but that no text and the empty one are not told apart. *)
Definition same_text (a b : option text) : Prop := match a, b with Some x, Some y => x = y | None, Some y => y = [] | Some x, None => x = [] | None, None => True end.
Definition same (a b : swu) : Prop :=
  same_text (s_purl a) (s_purl b) /\ same_text (s_nv a) (s_nv b) /\ same_text (s_signed a) (s_signed b) /\ s_action a = s_action b /\ s_state a = s_state b /\
  s_result a = s_result b /\ s_last a = s_last b /\ s_time a = s_time b.

(** What is wrong with a property: it is only told (-9), its value is none (-10), there is no such property (-8). *)
Definition told_only (r : rep) : Prop :=
  (exists z, r = (str "swupdateresult", RInt z)) \/ (exists n s, r = (n, RStr s) /\ In n [str "nv"; str "signed"; str "swupdatestate"; str "lastupdate"]).
Definition bad_value (r : rep) : Prop :=
  (exists s, r = (str "swupdateaction", RStr s) /\ forall a, ~ action_name a s) \/ (exists s, r = (str "updatetime", RStr s) /\ ~ time_text s).
Definition unknown (r : rep) : Prop :=
  (forall z, r <> (str "swupdateresult", RInt z)) /\
  (forall n s, r = (n, RStr s) -> ~ In n [str "nv"; str "signed"; str "swupdatestate"; str "lastupdate"; str "swupdateaction"; str "updatetime"; str "purl"]).
Definition fault (r : rep) (e : Z) : Prop := (e = -9 /\ told_only r) \/ (e = -10 /\ bad_value r) \/ (e = -8 /\ unknown r).
(** The faults of the properties, in their order. *)
Inductive faults : list rep -> list report -> Prop :=
| faults_nil : faults [] []
| faults_fine r l f : settable r -> faults l f -> faults (r :: l) f
| faults_bad r e l f : fault r e -> faults l f -> faults (r :: l) ((Some r, e) :: f).
(** What is wrong with the time (-16 there is none, -17 it has passed), and with the package URL (-18 there is none, -1 it cannot be
    validated, -19 it is not valid). *)
Definition time_faults (hz now : Z) (l : list rep) (f : list report) : Prop :=
  (Sd_Spec.no_text l (str "updatetime") /\ f = [(None, -16)]) \/
  (exists s, Sd_Spec.last_text l (str "updatetime") s /\ ((in_time hz now s /\ f = []) \/ (~ in_time hz now s /\ f = [(None, -17)]))).
Definition url_faults (im : impl) (has : bool) (l : list rep) (f : list report) : Prop :=
  (Sd_Spec.no_text l (str "purl") /\ f = [(None, -18)]) \/
  (exists u, Sd_Spec.last_text l (str "purl") u /\
     ((url_ok im has l u /\ f = []) \/ (~ url_ok im has l u /\ i_url im = None /\ f = [(None, -1)]) \/ (~ url_ok im has l u /\ (exists v, i_url im = Some v /\ v u = false) /\ f = [(None, -19)]))).
Definition all_faults (hz now : Z) (im : impl) (has : bool) (l : list rep) (f : list report) : Prop :=
  (f <> [] /\ faults l f) \/ (faults l [] /\ exists a b, time_faults hz now l a /\ url_faults im has l b /\ f = a ++ b).
