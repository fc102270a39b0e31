(** What a pool of [num] blocks promises: the blocks in use, each with its own contents. *)
From Verif Require Import Common Memb_Model.
Local Open Scope N_scope.

(** Blocks in use: address and contents. *)
Definition live := list (N * (N -> N)).
Definition addrs (s : live) : list N := map fst s.
Definition contents (s : live) (p : N) : option (N -> N) :=
  option_map snd (find (fun b => fst b =? p) s).

(** An address at which a block of the pool starts. *)
Definition slot (base size : N) (num : nat) (a : N) : Prop :=
  exists i, i < N.of_nat num /\ a = base + i * size.

(** The promised answer of a call. *)
Definition answer_ok (base size : N) (num : nat) (s : live) (o : op) (v : N) : Prop :=
  match o with
  | OAlloc => if (List.length s =? num)%nat then v = 0
              else v <> 0 /\ slot base size num v /\ ~ In v (addrs s)
  | OFree p => v = N.of_nat num - N.of_nat (List.length (filter (fun b => negb (fst b =? p)) s))
  | ONumFree => v = N.of_nat num - N.of_nat (List.length s)
  | OIn p => v = 1 <-> (base <= p /\ p < base + N.of_nat num * size)
  | OWrite _ _ _ => True
  | ORead p off => match contents s p with None => True | Some c => v = c off end
  end.

(** The blocks in use afterwards, given the answer. *)
Definition after (s : live) (o : op) (v : N) : live :=
  match o with
  | OAlloc => if v =? 0 then s else (v, fun _ => 0) :: s
  | OFree p => filter (fun b => negb (fst b =? p)) s
  | OWrite p off v => map (fun b => if fst b =? p then (fst b, fun x => if x =? off then v else snd b x) else b) s
  | _ => s
  end.

(** A client only touches bytes of blocks it holds; it may free anything, also twice. *)
Definition allowed (size : N) (s : live) (o : op) : Prop :=
  match o with
  | OWrite p off _ | ORead p off => In p (addrs s) /\ off < size
  | _ => True
  end.

Fixpoint trace_ok (base size : N) (num : nat) (s : live) (os : list op) (vs : list N) : Prop :=
  match os, vs with
  | [], [] => True
  | o :: os', v :: vs' =>
      allowed size s o -> answer_ok base size num s o v /\ trace_ok base size num (after s o v) os' vs'
  | _, _ => False
  end.
