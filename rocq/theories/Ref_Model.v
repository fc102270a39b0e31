(** The reference count of a message, api/oc_message.c:181-232, used by any number of threads at once. Every step is one atomic access
    (util/oc_atomic.h:36-76: a failed compare-and-swap writes what it found into the expected value). *)
From Verif Require Import Common.
Local Open Scope nat_scope.

(** What a thread is doing with the message. *)
Inductive rpc : Type :=
| RIdle
| RAdd (c : nat)     (* oc_message_add_ref, 187-191: has the count [c] in hand *)
| RUnref (c : nat)   (* oc_message_unref, 201-213 *)
| RFree.             (* 221-222: it has set the count to 0 and frees the message *)
(** The count (8 bits), the references (for each, the thread that has it), what the threads do, how often the message was freed, the largest
    number of references there ever were. The references are not in the code: they are what the count is to count. *)
Record rst := mk_rst { cnt : nat; refs : list nat; pc : nat -> rpc; freed : nat; peak : nat }.
(** message_allocate_with_size, 59-101: the thread that allocates the message has the only reference. *)
Definition fresh (t : nat) : rst := mk_rst 1 [t] (fun _ => RIdle) 0 1.

Inductive rop : Type :=
| Add (t : nat)        (* the call and the load of oc_message_add_ref by a thread that has a reference *)
| AddCas (t : nat)     (* 190 *)
| Unref (t : nat)      (* the call and the load of oc_message_unref by a thread that has a reference *)
| UnrefCas (t : nat)   (* 207 *)
| Free (t : nat)       (* 221-222 *)
| Give (t u : nat)     (* a reference passes to another thread with the message, as with oc_process_post *)
| Use (t : nat).       (* a thread that has a reference reads or writes the message *)

Inductive out : Type := Next (s : rst) | Wait | UB.

Definition upd (t : nat) (p : rpc) (f : nat -> rpc) : nat -> rpc := fun x => if x =? t then p else f x.
Definition drop (t : nat) (l : list nat) : list nat := (fix go l := match l with [] => [] | x :: r => if x =? t then r else x :: go r end) l.
Definition has (t : nat) (s : rst) : bool := existsb (Nat.eqb t) (refs s).
(** Every access to a message that was freed is undefined. *)
Definition alive (s : rst) (o : out) : out := match freed s with O => o | _ => UB end.
Definition idle (t : nat) (s : rst) : bool := match pc s t with RIdle => true | _ => false end.

Definition rstep (s : rst) (o : rop) : out :=
  match o with
  | Add t => if idle t s && has t s then alive s (Next (mk_rst (cnt s) (refs s) (upd t (RAdd (cnt s)) (pc s)) (freed s) (peak s))) else Wait
  | AddCas t =>
      match pc s t with
      | RAdd c => alive s (if c =? cnt s
                           then Next (mk_rst ((c + 1) mod 256) (t :: refs s) (upd t RIdle (pc s)) (freed s) (Nat.max (peak s) (S (List.length (refs s)))))
                           else Next (mk_rst (cnt s) (refs s) (upd t (RAdd (cnt s)) (pc s)) (freed s) (peak s)))
      | _ => Wait
      end
  | Unref t =>
      if idle t s && has t s
      then alive s (Next (if cnt s =? 0 then mk_rst (cnt s) (drop t (refs s)) (pc s) (freed s) (peak s) else mk_rst (cnt s) (refs s) (upd t (RUnref (cnt s)) (pc s)) (freed s) (peak s)))
      else Wait
  | UnrefCas t =>
      match pc s t with
      | RUnref c => alive s (if c =? cnt s
                             then Next (mk_rst (c - 1) (drop t (refs s)) (upd t (if c - 1 =? 0 then RFree else RIdle) (pc s)) (freed s) (peak s))
                             else if cnt s =? 0 then Next (mk_rst (cnt s) (drop t (refs s)) (upd t RIdle (pc s)) (freed s) (peak s))
                             else Next (mk_rst (cnt s) (refs s) (upd t (RUnref (cnt s)) (pc s)) (freed s) (peak s)))
      | _ => Wait
      end
  | Free t => match pc s t with RFree => alive s (Next (mk_rst (cnt s) (refs s) (upd t RIdle (pc s)) (S (freed s)) (peak s))) | _ => Wait end
  | Give t u => if idle t s && has t s then Next (mk_rst (cnt s) (u :: drop t (refs s)) (pc s) (freed s) (peak s)) else Wait
  | Use t => if has t s then alive s (Next s) else Wait
  end.
Fixpoint rrun (s : rst) (l : list rop) : out := match l with [] => Next s | o :: k => match rstep s o with Next s' => rrun s' k | x => x end end.
