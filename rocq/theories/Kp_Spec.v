(** Key pairs as a table from devices to keys. *)

From Coq Require Import List Bool Arith.
From Verif Require Import Kp_Model.
Import ListNotations.

Definition small (k : key) : Prop := length (pub k) <= 120 /\ length (priv k) <= 200.

(** The byte strings under a name. *)
Definition bytes_of (n : name) (l : list (name * val)) : list (list nat) :=
  flat_map (fun p => match p with
                     | (m, Bytes b) => match n, m with
                                       | NPub, NPub | NPriv, NPriv | NOther, NOther => [b]
                                       | _, _ => []
                                       end
                     | _ => []
                     end) l.

Definition final {A} (l : list A) : option A := match rev l with [] => None | a :: _ => Some a end.

(** The keys of a file: the last ones named, if none is too long. *)
Definition content (l : list (name * val)) : option key :=
  if forallb (fun b => length b <=? 120) (bytes_of NPub l) &&
     forallb (fun b => length b <=? 200) (bytes_of NPriv l)
  then match final (bytes_of NPub l), final (bytes_of NPriv l) with
       | Some p, Some q => Some (mkkey p q)
       | _, _ => None
       end
  else None.

Record table : Type := mktable { keys : list (nat * key); files : nat -> file }.

Fixpoint lookup (d : nat) (l : list (nat * key)) : option key :=
  match l with [] => None | (e, k) :: t => if e =? d then Some k else lookup d t end.

Definition room (c : cfg) (x : input) (t : table) : bool :=
  match c with None => x_mem x | Some n => length (keys t) <? n end.

Definition drawn (x : input) : option key :=
  match x_gen x with
  | Some k => if (length (pub k) <=? 120) && (length (priv k) <=? 200) then Some k else None
  | None => None
  end.

Definition enter (c : cfg) (x : input) (d : nat) (r : option key) (t : table) : table :=
  match r with
  | Some k => if room c x t then mktable (keys t ++ [(d, k)]) (files t) else t
  | None => t
  end.

Definition enter_new (c : cfg) (x : input) (d : nat) (t : table) : table :=
  match drawn x with
  | Some k =>
      if room c x t then
        mktable (keys t ++ [(d, k)])
                (if x_write x then upd (files t) d (Rep [(NPub, Bytes (pub k)); (NPriv, Bytes (priv k))]) else files t)
      else t
  | None => t
  end.

Definition act (c : cfg) (t : table) (o : op) : table :=
  match o with
  | OLoad d x =>
      match files t d with
      | Absent => enter_new c x d t
      | Garbage => t
      | Rep l => enter c x d (content l) t
      end
  | OReset d keep x =>
      match lookup d (keys t) with
      | Some _ =>
          if keep && negb (x_free x) then t
          else enter_new c x d (mktable (filter (fun p => negb (fst p =? d)) (keys t)) (files t))
      | None => enter_new c x d t
      end
  | OGet _ => t
  | OShutdown => mktable [] (files t)
  | OFile d f => mktable (keys t) (upd (files t) d f)
  end.

Definition acts (c : cfg) (f : nat -> file) (ops : list op) : table := fold_left (act c) ops (mktable [] f).

(** The operations that may give a device a key pair. *)
Definition about (d : nat) (o : op) : Prop :=
  match o with OLoad e _ | OReset e _ _ => e = d | _ => False end.

(** A device is loaded only once, before anything else is done for it, after
    each start. *)
Definition calm (ops : list op) : Prop :=
  forall p d x q o, ops = p ++ OLoad d x :: q -> In o p -> about d o ->
    exists p1 p2, p = p1 ++ OShutdown :: p2 /\ ~ (exists o', In o' p2 /\ about d o').
