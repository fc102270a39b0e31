(** Secured connections: which key, which kind of authentication, independent of the code. *)
From Verif Require Import Common Hs_Model.
From Coq Require Import String.
Local Open Scope string_scope.
Local Open Scope list_scope.
Local Open Scope N_scope.

(** [identity] stands for the uuid [id]: it is that uuid, or for a device in normal operation that
    uuid after the prefix which a device to be taken over uses. *)
Definition stands_for (v : dev) (identity id : list N) : Prop :=
  List.length id = 16%nat /\
  (identity = id \/ v_dos v = 3 /\ identity = str "oic.sec.doxm.rdp:" ++ id).

(** A pre-shared key for [id] (a PSK credential without a usage). *)
Definition psk_for (id : list N) (k : cred) : Prop := k_type k = 1 /\ k_use k = 0 /\ k_sub k = id.

(** [key] is the one of the first such credential. *)
Definition first_key (v : dev) (id key : list N) : Prop :=
  exists pre k post, v_creds v = pre ++ k :: post /\ psk_for id k /\ k_key k = key /\
    forall x, In x pre -> ~ psk_for id x.
Definition no_key (v : dev) (id : list N) : Prop := forall x, In x (v_creds v) -> ~ psk_for id x.

(** The random PIN method is in progress. *)
Definition pin_otm (v : dev) : Prop := v_dos v = 1 /\ v_oxm v = 1.

(** The kinds of cipher suites in the lists. *)
Definition offers_anonymous (x : suites) : Prop := x = SJw \/ x = SAnon.
Definition offers_psk (x : suites) : Prop := x = SDefault \/ x = SPsk \/ x = SPin.
Definition offers_certificates (x : suites) : Prop := x = SDefault \/ x = SCertOtm \/ x = SCert \/ x = SCloud.

(** The onboarding connections of a device. *)
Definition docs (s : st) (d : nat) : list peer :=
  filter (fun p => p_doc p && Nat.eqb (p_dev p) d) (peers s).

(** The step opened a connection. *)
Definition opened (s : st) (p : peer) (s' : st) : Prop := peers s' = peers s ++ [p].

(** [k] is the first own certificate of that kind that the number selects (-1: any). *)
Definition first_cert (v : dev) (use : N) (credid : Z) (k : cred) : Prop :=
  exists pre post, v_certs v = pre ++ k :: post /\ k_use k = use /\ (credid = (-1)%Z \/ k_id k = credid) /\
    forall x, In x pre -> k_use x = use -> credid <> (-1)%Z /\ k_id x <> credid.
