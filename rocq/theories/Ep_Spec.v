(** What the comparison of endpoints and their texts mean, stated without the code. *)
From Verif Require Import Common Ep_Model.
From Coq Require Import String.
Local Open Scope string_scope.
Local Open Scope list_scope.
Local Open Scope N_scope.

(** The fields of an endpoint have the widths of their C types. *)
Record ep_ok (e : ep) : Prop := mk_ep_ok {
  eo_flags : e_flags e < 256; eo_len : List.length (e_addr e) = 16%nat;
  eo_bytes : bytes_ok (e_addr e); eo_port : e_port e < 65536 }.

Definition is_v6 (e : ep) : Prop := N.testbit (e_flags e) 3 = true.
Definition is_v4 (e : ep) : Prop := N.testbit (e_flags e) 2 = true.

(** The same transport (the flags that say how a message was received do not count: bits 6 and 7), device, address
    and port, and no two different sessions. *)
Definition same_peer (a b : ep) : Prop :=
  (forall i, i < 6 -> N.testbit (e_flags a) i = N.testbit (e_flags b) i) /\
  e_dev a = e_dev b /\ e_port a = e_port b /\
  (e_sess a = 0 \/ e_sess b = 0 \/ e_sess a = e_sess b) /\
  (is_v6 a /\ e_addr a = e_addr b \/
   ~ is_v6 a /\ is_v4 a /\ (forall i, (i < 4)%nat -> nth i (e_addr a) 0 = nth i (e_addr b) 0)).

(** Digits and numbers written in a base up to sixteen. *)
Definition digit (c v : N) : Prop := v < 10 /\ c = 48 + v \/ 10 <= v < 16 /\ (c = 87 + v \/ c = 55 + v).
Inductive reads (base : N) : list N -> N -> Prop :=
| R_one c v : digit c v -> v < base -> reads base [c] v
| R_more t n c v : reads base t n -> digit c v -> v < base -> reads base (t ++ [c]) (n * base + v).

(** RFC 4291, section 2.2, forms 1 and 2: eight groups of one to four hexadecimal digits, or fewer with one double
    colon standing for one or more zero groups. *)
Definition group (w : N) (t : list N) : Prop := reads 16 t w /\ (List.length t <= 4)%nat.
Fixpoint join (ts : list (list N)) : list N :=
  match ts with
  | [] => []
  | [t] => t
  | t :: r => t ++ [58] ++ join r
  end.
Definition bytes_of (ws : list N) : list N := flat_map (fun w => [w / 256; w mod 256]) ws.
Inductive v6_text : list N -> list N -> Prop :=
| V6_full ws ts : List.length ws = 8%nat -> Forall2 group ws ts -> v6_text (bytes_of ws) (join ts)
| V6_gap l k r lt rt :
    (List.length l + k + List.length r = 8)%nat -> (1 <= k)%nat -> Forall2 group l lt -> Forall2 group r rt ->
    v6_text (bytes_of (l ++ repeat 0 k ++ r)) (join lt ++ [58; 58] ++ join rt).

(** Four decimal numbers below 256 separated by dots. *)
Inductive v4_text : list N -> list N -> Prop :=
| V4 a b c d ta tb tc td :
    reads 10 ta a -> reads 10 tb b -> reads 10 tc c -> reads 10 td d -> bytes_ok [a; b; c; d] ->
    v4_text [a; b; c; d] (ta ++ [46] ++ tb ++ [46] ++ tc ++ [46] ++ td).

(** What may follow the host: a port and a path; without a port it is the default one of the scheme. *)
Inductive tail_text (secured : bool) : list N -> N -> option (list N) -> Prop :=
| T_none : tail_text secured [] (if secured then 5684 else 5683) None
| T_port t p : reads 10 t p -> p < 65536 -> tail_text secured ([58] ++ t) p None
| T_path u : ~ In 58 u -> tail_text secured ([47] ++ u) (if secured then 5684 else 5683) (Some ([47] ++ u))
| T_both t p u : reads 10 t p -> p < 65536 -> tail_text secured ([58] ++ t ++ [47] ++ u) p (Some ([47] ++ u)).

Inductive scheme : bool -> bool -> list N -> Prop :=
| S_coap : scheme false false (str "coap://")
| S_coaps : scheme false true (str "coaps://")
| S_tcp : scheme true false (str "coap+tcp://")
| S_tcps : scheme true true (str "coaps+tcp://").
Definition flags_of (tcp secured : bool) : N := (if tcp then 16 else 0) + (if secured then 2 else 0).

(** The addresses that the C library prints with an embedded IPv4 address. *)
Definition dotted (a : list N) : Prop :=
  (forall i, (i < 12)%nat -> nth i a 0 = 0) /\ ~ (nth 12 a 0 = 0 /\ nth 13 a 0 = 0) \/
  (forall i, (i < 10)%nat -> nth i a 0 = 0) /\ nth 10 a 0 = 255 /\ nth 11 a 0 = 255.
