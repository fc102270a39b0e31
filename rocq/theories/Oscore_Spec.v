(** What C11-C15 mean, written without the model's helpers. *)
From Verif Require Import Common Oscore_Model.
Local Open Scope N_scope.

(** Big-endian value of a byte string. *)
Fixpoint be_val_acc (a : N) (l : list N) : N :=
  match l with [] => a | b :: r => be_val_acc (a * 256 + b) r end.
Definition be_val (l : list N) : N := be_val_acc 0 l.

(** RFC 8613, 6.1: the partial IV has no leading zero, except 0 itself which is one zero byte. *)
Definition minimal (l : list N) : Prop :=
  l = [0] \/ exists b r, l = b :: r /\ b <> 0.

(** RFC 8613, 6.1: layout of the OSCORE option value.
    flags = |0 0 0|h|k| n |, then n bytes of partial IV, then if h: s and s bytes of kid context,
    then if k: the rest is the kid. *)
Definition rfc8613_option (opt : list N) (n h k : N) (piv ctx kid : list N) : Prop :=
  n = N.of_nat (List.length piv) /\ (n <= 5) /\
  (h = 0 /\ ctx = [] \/ h = 1 /\ (List.length ctx <= 16)%nat) /\
  (k = 0 /\ kid = [] \/ k = 1 /\ (List.length kid <= 7)%nat) /\
  opt = (16 * h + 8 * k + n) :: piv ++
        (if h =? 1 then N.of_nat (List.length ctx) :: ctx else []) ++ kid.

(** In a history of requests and their outcomes: request [i] carries partial IV [p] and was
    delivered. *)
Definition delivered_at (rs : list (N * bool)) (os : list recv_outcome) (i : nat) (p : N) : Prop :=
  (exists a, nth_error rs i = Some (p, a)) /\ nth_error os i = Some R_delivered.

(** Number of outcomes, strictly between positions i and j, that are not replay refusals. *)
Definition not_refused (o : recv_outcome) : bool := match o with R_replayed => false | _ => true end.
Definition passed_between (os : list recv_outcome) (i j : nat) : nat :=
  List.length (filter not_refused (firstn (j - i - 1) (skipn (i + 1) os))).

(** Between two persists there are at most 160 sends, and after a power loss the scheduled persist
    comes before the first send.  [budget]: sends still allowed, [None] when a persist is due. *)
Fixpoint timely (budget : option nat) (es : list sevent) : Prop :=
  match es with
  | [] => True
  | SPersist :: r => timely (Some 160%nat) r
  | SCrash :: r => timely None r
  | _ :: r => match budget with Some (S b) => timely (Some b) r | _ => False end
  end.

Definition is_send (e : sevent) : bool :=
  match e with SUnicast | SUnicastFail | SMulticast => true | _ => false end.

(** Number of sends after the last persist of a history. *)
Fixpoint sends_since_persist (es : list sevent) (acc : nat) : nat :=
  match es with
  | [] => acc
  | SPersist :: r => sends_since_persist r 0
  | e :: r => sends_since_persist r (if is_send e then S acc else acc)
  end.

(** When an OSCORE option announces more than its fields can hold or more than the option contains
    (RFC 8613 requires such an option to be rejected). *)
Definition overrunning_option (opt : list N) : Prop :=
  match opt with
  | [] => False
  | fl :: _ =>
    let n := N.to_nat (fl mod 8) in
    (n > 5)%nat \/ (List.length opt < 1 + n)%nat \/
    ((fl / 16) mod 2 = 1 /\
     (nth_error opt (1 + n) = None \/
      exists s, nth_error opt (1 + n) = Some s /\ s <= 16 /\ (List.length opt < 2 + n + N.to_nat s)%nat))
  end.
