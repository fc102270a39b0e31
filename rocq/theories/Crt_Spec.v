(** Certificates: the profile of the OCF specification and the meaning of a trust anchor,
    independent of the code. *)
From Verif Require Import Common Hex_Model Hex_Spec Crt_Model.
From Coq Require Import String.
Local Open Scope string_scope.
Local Open Scope list_scope.
Local Open Scope N_scope.

(** The bits of [n]: all of [must], and otherwise only ones of [may]. *)
Definition bits (n : N) (must may : list N) : Prop :=
  (forall i, In i must -> N.testbit n i = true) /\
  (forall i, N.testbit n i = true -> In i must \/ In i may).

(** Number [v] is in the set with the mask [m] (number 1 is the lowest bit). *)
Definition member (m v : N) : Prop := 0 < v < 32 /\ N.testbit m (v - 1) = true.

(** What all certificates need: an allowed digest, version 3, an ECDSA key on an allowed curve. *)
Definition common (g : conf) (c : cert) : Prop :=
  member (allowed_mds g) (c_md c) /\ c_version c = 3 /\ c_pk c = 4 /\ member (allowed_grps g) (c_grp c).

(** Within its validity period. *)
Definition in_time (c : cert) : Prop := c_future c = false /\ c_past c = false.

(** Certificates of authorities: digitalSignature is bit 7, keyCertSign bit 2, cRLSign bit 1. *)
Definition ca_profile (g : conf) (c : cert) (otm : bool) (depth : N) : Prop :=
  common g c /\ (if otm then bits (c_ku c) [2; 1] [7] else bits (c_ku c) [2] [7; 1]) /\ c_ca c = true /\
  (c_pathlen c = 0 \/ depth <= c_pathlen c).
Definition root_profile (g : conf) (c : cert) (otm : bool) (depth : N) : Prop :=
  ca_profile g c otm depth /\ c_issuer c = c_subject c.
Definition middle_profile (g : conf) (c : cert) (otm : bool) (depth : N) : Prop :=
  ca_profile g c otm depth /\ c_issuer c <> c_subject c /\ (otm = true -> c_pathlen c = 1).

(** End entities: digitalSignature and keyAgreement (bit 3), no authority, usable by servers and
    clients, marked as [kind] and not as [other] nor as usable for everything. *)
Definition end_profile (g : conf) (c : cert) (kind other : list N) : Prop :=
  common g c /\ bits (c_ku c) [7; 3] [] /\ c_ca c = false /\ c_pathlen c = 0 /\
  exists l, c_eku c = Some l /\ In [43; 6; 1; 5; 5; 7; 3; 1] l /\ In [43; 6; 1; 5; 5; 7; 3; 2] l /\
    In kind l /\ ~ In other l /\ ~ In [85; 29; 37; 0] l.
(** 1.3.6.1.4.1.44924.1.6 and 1.3.6.1.4.1.44924.1.7 *)
Definition identity_mark : list N := [43; 6; 1; 4; 1; 130; 222; 124; 1; 6].
Definition role_mark : list N := [43; 6; 1; 4; 1; 130; 222; 124; 1; 7].

(** A name as it is encoded in a certificate: a sequence with its length in front (DER). *)
Definition der_length (n : N) : list N :=
  if n <? 128 then [n] else if n <? 256 then [129; n] else [130; n / 256; n mod 256].
Definition der_name (l : list N) : Prop :=
  exists body, N.of_nat (List.length body) < 65536 /\ l = 48 :: der_length (N.of_nat (List.length body)) ++ body.

(** A chain, the root first, leads a peer called [uuid] to a trust anchor of the device that is
    meant for that peer or for any peer. *)
Definition anchored (s : st) (dev : nat) (chain : list cert) (uuid : list N) : Prop :=
  exists a c, In a (cas s) /\ a_dev a = dev /\ a_use a = UTrustca /\
    In c (removelast chain) /\ c_raw c = a_raw a /\ (a_sub a = uuid \/ a_sub a = wildcard).

(** The profile of a certificate at its place in a chain, the root first. *)
Fixpoint chain_ok (g : conf) (otm : bool) (chain : list cert) : Prop :=
  match chain with
  | [] => True
  | [c] => end_profile g c identity_mark role_mark /\ in_time c /\ c_bad c = false /\ c_key c = true
  | c :: r => ca_profile g c otm (N.of_nat (List.length r)) /\ in_time c /\ c_bad c = false /\ chain_ok g otm r
  end.

(** The common name that says that the owner of a certificate is [u]. *)
Definition says (c : cert) (u : list N) : Prop :=
  exists t, uuid_text t u /\ c_cn c = Some (str "uuid:" ++ t).
