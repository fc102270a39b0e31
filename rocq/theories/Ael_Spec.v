(** What the auditable event list holds and what its entries say, without the functions of the model. *)
From Verif Require Import Common Rep_Model Repd_Model Repd_Spec Ts_Model Ts_Spec Ael_Model.
From Coq Require Import String.
Local Open Scope string_scope.
Local Open Scope list_scope.
Local Open Scope N_scope.

(** The space events take. *)
Fixpoint total (l : list event) : N := match l with [] => 0 | e :: t => ev_size e + total t end.

(** [kept] are the latest of [all] that fit: taking one more would exceed the limit. *)
Definition latest (max : N) (all kept : list event) : Prop :=
  exists dropped, all = dropped ++ kept /\ total kept <= max /\ forall d e, dropped = d ++ [e] -> max < ev_size e + total kept.

(** The accounted size is the size of the events and within the limit. *)
Definition sound (a : ael) : Prop := a_used a = total (a_events a) /\ a_used a <= a_max a /\ a_max a < 2 ^ 64.

(** An event passes the filters: a category in common, and at least as important. *)
Definition passes (cats pri0 cat pri : N) : Prop := (exists i, N.testbit cats i = true /\ N.testbit cat i = true) /\ pri <= pri0.

(** Text without zero bytes. *)
Definition plain_text (s : list N) : Prop := ~ In 0 s.

(** The space of an event: its record, each text with its terminator, a pointer for each item. *)
Definition opt_cost (s : option (list N)) : N := match s with None => 0 | Some t => N.of_nat (S (List.length t)) end.
Fixpoint item_cost (p : plat) (l : list (list N)) : N := match l with [] => 0 | t :: r => p_ptr p + N.of_nat (S (List.length t)) + item_cost p r end.
Definition cost (p : plat) (aeid msg : option (list N)) (aux : list (list N)) : N := p_event p + opt_cost aeid + opt_cost msg + item_cost p aux.
Definition opt_text (s : option (list N)) : list N := match s with None => [] | Some t => t end.
Definition opt_plain (s : option (list N)) : Prop := match s with None => True | Some t => plain_text t end.

(** What is asked to be logged. *)
Record entry := mkEntry { en_cat : N; en_pri : N; en_time : Z; en_aeid : option (list N); en_msg : option (list N); en_aux : list (list N) }.
Definition plain_entry (x : entry) : Prop := opt_plain (en_aeid x) /\ opt_plain (en_msg x) /\ Forall plain_text (en_aux x).
Definition as_event (p : plat) (x : entry) : event :=
  mkEvent (cost p (en_aeid x) (en_msg x) (en_aux x)) (en_cat x) (en_pri x) (en_time x) (opt_text (en_aeid x)) (opt_text (en_msg x)) (en_aux x).
Definition enough : mem := mkMem true (fun _ => true).

(** Which of the entries asked for are logged under given filters and limit. *)
Inductive logged (p : plat) (cats pri0 max : N) : list entry -> list event -> Prop :=
| L_nil : logged p cats pri0 max [] []
| L_yes x l r : passes cats pri0 (en_cat x) (en_pri x) -> ev_size (as_event p x) <= max -> logged p cats pri0 max l r ->
    logged p cats pri0 max (x :: l) (as_event p x :: r)
| L_no x l r : ~ (passes cats pri0 (en_cat x) (en_pri x) /\ ev_size (as_event p x) <= max) -> logged p cats pri0 max l r ->
    logged p cats pri0 max (x :: l) r.

Definition add_entry (p : plat) (m : mem) (a : ael) (x : entry) : ael * bool :=
  add_event p m a (en_cat x) (en_pri x) (en_time x) (en_aeid x) (en_msg x) (en_aux x).
Fixpoint add_all (p : plat) (a : ael) (l : list entry) : ael :=
  match l with [] => a | x :: t => add_all p (fst (add_entry p enough a x)) t end.

(** Every restart is one of a build with dynamic allocation. *)
Definition dynamic_op (o : op) : Prop := match o with OBoot d _ => d = true | _ => True end.

(** Entries that survive in the storage: numbers in range, at most 256 items of at most 127 bytes. *)
Definition keepable (x : entry) : Prop :=
  en_cat x < 256 /\ en_pri x < 256 /\ (0 <= en_time x < 2 ^ 63)%Z /\ plain_entry x /\
  (List.length (en_aux x) <= N.to_nat 256)%nat /\ Forall (fun s => (List.length s <= 127)%nat) (en_aux x).
Definition keepable_op (o : op) : Prop :=
  match o with
  | OAdd m _ cat pri time aeid msg aux => keepable (mkEntry cat pri time aeid msg aux)
  | OBoot d _ => d = true
  | _ => True
  end.

(** An event without its accounted size. *)
Definition said (e : event) : N * N * Z * list N * list N * list (list N) := (ev_cat e, ev_pri e, ev_time e, ev_aeid e, ev_msg e, ev_aux e).
(** Those of the events that pass the filters, in order. *)
Inductive passing (cats pri0 : N) : list event -> list event -> Prop :=
| P_none : passing cats pri0 [] []
| P_yes e l r : passes cats pri0 (ev_cat e) (ev_pri e) -> passing cats pri0 l r -> passing cats pri0 (e :: l) (e :: r)
| P_no e l r : ~ passes cats pri0 (ev_cat e) (ev_pri e) -> passing cats pri0 l r -> passing cats pri0 (e :: l) r.

(** The last whole number given for a property. *)
Definition last_int (l : list rep) (name : list N) (z : Z) : Prop :=
  exists a b, l = a ++ (name, RInt z) :: b /\ forall z', ~ In (name, RInt z') b.
Definition no_int (l : list rep) (name : list N) : Prop := forall z, ~ In (name, RInt z) l.

(** Hexadecimal text of bytes separated by colons. *)
Definition hexdig (d : N) : N := nth (N.to_nat d) (str "0123456789abcdef") 0.
Fixpoint colons (l : list N) : list N :=
  match l with
  | [] => []
  | [b] => [hexdig (b / 16); hexdig (b mod 16)]
  | b :: t => hexdig (b / 16) :: hexdig (b mod 16) :: 58 :: colons t
  end.

(** The line about roles: their names, each followed by a blank, cut after 78 bytes. *)
Definition roles_line (roles : list (list N)) : list N :=
  match roles with [] => str "No roles asserted" | _ => firstn 78 (List.concat (map (fun r => r ++ [32]) roles)) end.

(** What an answer says about an event: every property once. *)
Definition tells (hz : Z) (e : event) (o : list rep) : Prop :=
  NoDup (map fst o) /\ In (str "category", RInt (Z.of_N (ev_cat e))) o /\ In (str "priority", RInt (Z.of_N (ev_pri e))) o /\
  ((0 <= ev_time e < 2 ^ 64)%Z -> (ev_time e / hz <= 253402300799)%Z ->
     exists s t, In (str "timestamp", RStr s) o /\ Ts_Spec.written s t /\ (Ts_Spec.instant t * hz = ev_time e * 10 ^ 9)%Z) /\
  (forall s, In (str "aeid", RStr s) o <-> s = ev_aeid e /\ s <> []) /\ (forall s, In (str "message", RStr s) o <-> s = ev_msg e /\ s <> []) /\
  In (str "auxiliaryinfo", RStrArr (ev_aux e)) o.

(** The names of methods and states in an entry. *)
Definition verb (m : nat) : list N := nth m [str "UNKNOWN"; str "RETRIEVE"; str "UPDATE"; str "UPDATE"; str "DELETE"] [].
Definition mode (s : nat) : list N := nth s [str "RESET"; str "RFOTM"; str "RFPRO"; str "RFNOP"; str "SRESET"] [].
Definition denied_lines (ip : list N) (peer : option (list N * list (list N))) (uri : list N) (m s : nat) : list (list N) :=
  [ip] ++ (match peer with None => [] | Some (u, _) => [u] end)
  ++ [uri; str "attempt to " ++ verb m ++ str " the resource"; str "device is in " ++ mode s;
      roles_line (match peer with None => [] | Some (_, r) => r end)].
