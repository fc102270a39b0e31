(* What the lease of a DHCP server means for the provisioning client, and which
   provisioning servers it trusts. *)
From Coq Require Import List NArith Bool.
Import ListNotations.
From Verif Require Import Dhc_Model.
Local Open Scope N_scope.

(* Hexadecimal digits by their place in the alphabet. *)
Definition lower : list N :=
  [48; 49; 50; 51; 52; 53; 54; 55; 56; 57; 97; 98; 99; 100; 101; 102].
Definition upper : list N :=
  [48; 49; 50; 51; 52; 53; 54; 55; 56; 57; 65; 66; 67; 68; 69; 70].
Definition digit (c v : N) : Prop :=
  nth_error lower (N.to_nat v) = Some c \/ nth_error upper (N.to_nat v) = Some c.

(* How a byte may be written. *)
Inductive writes : list N -> N -> Prop :=
| w_one c v : digit c v -> writes [c] v
| w_two c d v w : digit c v -> digit d w -> writes [c; d] (16 * v + w).

(* The two documented forms: bytes separated by colons, and bytes of two digits
   each without separators. *)
Inductive colons : list N -> list N -> Prop :=
| co_one t v : writes t v -> colons t [v]
| co_more t v s bs : writes t v -> colons s bs -> colons (t ++ colon :: s) (v :: bs).
Inductive pairs : list N -> list N -> Prop :=
| pa_nil : pairs [] []
| pa_more c d v w s bs : digit c v -> digit d w -> pairs s bs ->
    pairs (c :: d :: s) (16 * v + w :: bs).

(* What any text means: nothing before a colon is zero, a colon at the end is
   ignored, a third digit begins the next byte. *)
Inductive means : list N -> list N -> Prop :=
| m_nil : means [] []
| m_empty t bs : means t bs -> means (colon :: t) (0 :: bs)
| m_last t v : writes t v -> means t [v]
| m_sep t v s bs : writes t v -> means s bs -> means (t ++ colon :: s) (v :: bs)
| m_next c d v w e x s bs : digit c v -> digit d w -> digit e x ->
    means (e :: s) bs -> means (c :: d :: e :: s) (16 * v + w :: bs).

Definition legal (c : N) : Prop := c = colon \/ exists v, digit c v.

(* The first bytes of bs in an array of n bytes, zeros behind them. *)
Definition filled (n : nat) (bs : list N) : list N :=
  firstn n bs ++ repeat 0 (n - length bs).

(* Options of a lease as they are written. *)
Definition wire (o : N * list N) : list N :=
  fst o :: N.of_nat (length (snd o)) :: snd o.
Definition wires (os : list (N * list N)) : list N := concat (map wire os).

Fixpoint last_with (p : N -> bool) (os : list (N * list N)) : option (list N) :=
  match os with
  | [] => None
  | o :: r => match last_with p r with
              | Some d => Some d
              | None => if p (fst o) then Some (snd o) else None
              end
  end.

Definition is_ep (k : codes) (c : N) : bool := c =? c_ep k.
Definition is_fp (k : codes) (c : N) : bool := negb (c =? c_ep k) && (c =? c_fp k).
Definition is_md (k : codes) (c : N) : bool :=
  negb (c =? c_ep k) && negb (c =? c_fp k) && (c =? c_md k).

Definition good_option (k : codes) (o : N * list N) : Prop :=
  (fst o = c_ep k \/ fst o = c_fp k \/ fst o = c_md k)
  /\ (0 < length (snd o) < 256)%nat.

(* The lease l has the options os, perhaps with a byte left over. *)
Definition lease (k : codes) (l : list N) (os : list (N * list N)) : Prop :=
  exists rest, l = wires os ++ rest /\ (length rest <= 1)%nat
               /\ Forall (good_option k) os.

Definition bytes (l : list N) : Prop := Forall (fun x => x < 256) l.

(* The settings that can be seen from outside. *)
Definition selected_is (c : ctx) (u : list N) : Prop :=
  Ea_Model.selected_uri (eps c) = Some u.

(* The address in the options, empty when there is none. *)
Definition endpoint_of (k : codes) (os : list (N * list N)) : list N :=
  match last_with (is_ep k) os with Some u => u | None => [] end.

(* The algorithm named by the options. *)
Definition named (lib : mdlib) (k : codes) (os : list (N * list N)) (md : N) : Prop :=
  match last_with (is_md k) os with
  | None => md = 0
  | Some d => md_named lib (cstr d) = Some md
  end.

(* A fingerprint that may be pinned: the algorithm is allowed and the length is
   that of its hashes. *)
Definition pinnable (lib : mdlib) (md : N) (d : option (list N)) : Prop :=
  md = 0 \/ (md_allowed lib md = true
             /\ md_size lib md = Some (match d with Some x => length x | None => 0%nat end)).

Definition run (lib : mdlib) (c : ctx) (l : list op) : ctx :=
  fold_left (step lib) l c.

(* The usual verification trusts a certificate. *)
Definition trusted (x : cert) : Prop := orig x (flags x) = (true, 0).
(* A certificate has the pinned fingerprint. *)
Definition pinned (c : ctx) (x : cert) : Prop :=
  fp_md c <> 0 /\ exists h, hash x (fp_md c) = Some h /\ fp_data c = Some h.
(* The application has nothing against a certificate without flags. *)
Definition unopposed (x : cert) : Prop := appl x 0 = (true, 0).
(* The algorithm of the pinned fingerprint is available. *)
Definition hashable (c : ctx) (x : cert) : Prop :=
  fp_md c = 0 \/ exists h, hash x (fp_md c) = Some h.

Definition accepted (c : ctx) (skip : bool) (l : list cert) : Prop :=
  fst (handshake c skip l) = true.
