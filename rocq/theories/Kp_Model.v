(** The ECDSA key pairs of the devices: security/oc_keypair.c, with their
    storage (security/oc_store.c:164-228).

    Simplifications, all stated in DESIGN.md:
    - a stored key pair is the list of its properties; the CBOR coding is an
      area of its own;
    - the keys drawn by mbedtls, failures of allocation and of writing, and
      whether the key is given up by oc_pk_free_key, are inputs;
    - the storage buffer can be had. *)

From Coq Require Import List Bool Arith.
Import ListNotations.

Record key : Type := mkkey { pub : list nat; priv : list nat }.

(** oc_ecdsa_keypair_t, security/oc_keypair_internal.h:38-46. *)
Record kp : Type := mkkp { kdev : nat; kkey : key }.

Inductive val : Type := Bytes (l : list nat) | NoBytes.
Inductive name : Type := NPub | NPriv | NOther.

(** A file in the storage: none, one that is no CBOR map, properties. *)
Inductive file : Type := Absent | Garbage | Rep (l : list (name * val)).

(** g_oc_keypairs as handles, the memory behind them (whether allocated, and
    its content), the next address, the storage. *)
Record st : Type := mkst { lst : list nat; mem : nat -> bool * kp; next : nat; store : nat -> file }.

(** [Stale]: freed memory was read; [Cycle]: the list was tied into a ring. *)
Inductive res : Type := Fine (s : st) | Stale | Cycle.

(** Without dynamic allocation the pool has as many places as there are
    devices (OC_MEMB, security/oc_keypair.c:38). *)
Definition cfg : Type := option nat.

Definition none : kp := mkkp 0 (mkkey [] []).
Definition init (f : nat -> file) : st := mkst [] (fun _ => (false, none)) 0 f.

Definition upd {A} (f : nat -> A) (k : nat) (a : A) : nat -> A := fun x => if x =? k then a else f x.

Definition live (s : st) (h : nat) : bool := fst (mem s h).
Definition at_ (s : st) (h : nat) : kp := snd (mem s h).

(** oc_sec_ecdsa_get_keypair, security/oc_keypair.c:41-52; [None] if freed
    memory is read. *)
Fixpoint find (c : cfg) (s : st) (d : nat) (l : list nat) : option (option nat) :=
  match l with
  | [] => Some None
  | h :: t =>
      if match c with None => negb (live s h) | Some _ => false end then None
      else if kdev (at_ s h) =? d then Some (Some h) else find c s d t
  end.

Record input : Type := mkin {
  x_mem : bool;            (* there is memory *)
  x_gen : option key;      (* what mbedtls draws *)
  x_write : bool;          (* the storage can be written *)
  x_free : bool }.         (* oc_pk_free_key gives up the key *)

(** oc_memb_alloc, util/oc_memb.c: calloc, or the first free place. *)
Definition alloc (c : cfg) (x : input) (s : st) : option (nat * st) :=
  match c with
  | None =>
      if x_mem x then
        Some (next s, mkst (lst s) (upd (mem s) (next s) (true, none)) (S (next s)) (store s))
      else None
  | Some n =>
      match List.find (fun h => negb (live s h)) (seq 0 n) with
      | Some h => Some (h, mkst (lst s) (upd (mem s) h (true, none)) (next s) (store s))
      | None => None
      end
  end.

(** oc_memb_free. *)
Definition free (h : nat) (s : st) : st :=
  mkst (lst s) (upd (mem s) h (false, at_ s h)) (next s) (store s).

Definition put (h : nat) (k : kp) (s : st) : st :=
  mkst (lst s) (upd (mem s) h (live s h, k)) (next s) (store s).

(** ecdsa_add_keypair, security/oc_keypair.c:81-87, with oc_list_add
    (util/oc_list.c:79-89): the tail of a list that holds the item already is
    the item itself. *)
Definition add (h : nat) (s : st) : res :=
  if existsb (Nat.eqb h) (lst s) then Cycle
  else Fine (mkst (lst s ++ [h]) (mem s) (next s) (store s)).

(** oc_sec_ecdsa_decode_keypair, security/oc_keypair.c:89-140. *)
Fixpoint decode (p q : option (list nat)) (l : list (name * val)) : option key :=
  match l with
  | [] => match p, q with Some p, Some q => Some (mkkey p q) | _, _ => None end
  | (NPub, Bytes b) :: t => if 120 <? length b then None else decode (Some b) q t
  | (NPriv, Bytes b) :: t => if 200 <? length b then None else decode p (Some b) t
  | _ :: t => decode p q t
  end.

(** oc_sec_ecdsa_encode_keypair, security/oc_keypair.c:142-156. *)
Definition encode (k : key) : list (name * val) := [(NPub, Bytes (pub k)); (NPriv, Bytes (priv k))].

(** oc_sec_ecdsa_generate_keypair, security/oc_keypair.c:191-271: mbedtls
    fails if a buffer is too small. *)
Definition generate (x : input) : option key :=
  match x_gen x with
  | Some k => if (length (pub k) <=? 120) && (length (priv k) <=? 200) then Some k else None
  | None => None
  end.

(** What oc_sec_ecdsa_decode_keypair_for_device
    (security/oc_keypair.c:158-178) and
    oc_sec_ecdsa_update_or_generate_keypair_for_device (:273-299) have in
    common: [r] are the keys read or drawn. *)
Definition update (c : cfg) (x : input) (d : nat) (r : option key) (s : st) : res * bool :=
  match find c s d (lst s) with
  | None => (Stale, false)
  | Some (Some h) =>
      match r with
      | None => (Fine (free h s), false)
      | Some k => (Fine (put h (mkkp (kdev (at_ s h)) k) s), true)
      end
  | Some None =>
      match alloc c x s with
      | None => (Fine s, false)
      | Some (h, s1) =>
          match r with
          | None => (Fine (free h s1), false)
          | Some k => (add h (put h (mkkp d k) s1), true)
          end
      end
  end.

(** oc_sec_dump_ecdsa_keypair, security/oc_store.c:201-228. *)
Definition dump (c : cfg) (x : input) (d : nat) (s : st) : res :=
  match find c s d (lst s) with
  | None => Stale
  | Some None => Fine s
  | Some (Some h) =>
      Fine (if x_write x
            then mkst (lst s) (mem s) (next s) (upd (store s) d (Rep (encode (kkey (at_ s h))))) else s)
  end.

Definition after (r : res) (f : st -> res) : res := match r with Fine s => f s | _ => r end.

(** oc_sec_load_ecdsa_keypair, security/oc_store.c:164-199. *)
Definition load (c : cfg) (x : input) (d : nat) (s : st) : res :=
  match store s d with
  | Garbage => Fine s
  | Rep l => fst (update c x d (decode None None l) s)
  | Absent => after (fst (update c x d (generate x) s)) (dump c x d)
  end.

(** oc_sec_ecdsa_reset_keypair, security/oc_keypair.c:301-323. *)
Definition reset (c : cfg) (x : input) (d : nat) (keep : bool) (s : st) : res :=
  let again s := match update c x d (generate x) s with
                 | (r, true) => after r (dump c x d)
                 | (r, false) => r
                 end in
  match find c s d (lst s) with
  | None => Stale
  | Some (Some h) =>
      if keep && negb (x_free x) then Fine s
      else again (free h (mkst (filter (fun k => negb (k =? h)) (lst s)) (mem s) (next s) (store s)))
  | Some None => again s
  end.

(** oc_sec_ecdsa_free_keypairs, security/oc_keypair.c:60-68. *)
Definition shutdown (c : cfg) (s : st) : res :=
  if match c with None => existsb (fun h => negb (live s h)) (lst s) | Some _ => false end then Stale
  else Fine (mkst [] (fun h => (live s h && negb (existsb (Nat.eqb h) (lst s)), at_ s h)) (next s) (store s)).

Inductive op : Type :=
| OLoad (d : nat) (x : input)
| OReset (d : nat) (keep : bool) (x : input)
| OGet (d : nat)
| OShutdown
| OFile (d : nat) (f : file).   (* the storage is changed from outside *)

Definition step (c : cfg) (s : st) (o : op) : res :=
  match o with
  | OLoad d x => load c x d s
  | OReset d keep x => reset c x d keep s
  | OGet d => match find c s d (lst s) with None => Stale | Some _ => Fine s end
  | OShutdown => shutdown c s
  | OFile d f => Fine (mkst (lst s) (mem s) (next s) (upd (store s) d f))
  end.

Definition run (c : cfg) (f : nat -> file) (ops : list op) : res :=
  fold_left (fun r o => after r (fun s => step c s o)) ops (Fine (init f)).

(** The key pair of a device. *)
Definition get (c : cfg) (s : st) (d : nat) : option key :=
  match find c s d (lst s) with Some (Some h) => Some (kkey (at_ s h)) | _ => None end.
