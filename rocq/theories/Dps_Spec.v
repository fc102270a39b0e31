(* What is expected of the provisioning client, told by the sequence of its
   events (latest first) and, for progress, by what is still to come. *)
From Coq Require Import List Bool Arith.
Import ListNotations.
From Verif Require Import Dps_Model.

Definition rank (k : step5) : nat :=
  match k with ST => 0 | SO => 1 | SL => 2 | SC => 3 | SA => 4 end.
Definition same (j k : step5) : bool := Nat.eqb (rank j) (rank k).
Definition earlier (j k : step5) : bool := Nat.ltb (rank j) (rank k).

(* A step counts as done when its answer has been applied or when it was found
   done at the start, until it fails or is forgotten. *)
Fixpoint known (l : list ev) (k : step5) : bool :=
  match l with
  | [] => false
  | EDone j :: t => if same j k then true else known t k
  | EFail j :: t => if same j k then false else known t k
  | (EForget | EReset | EFactory) :: _ => false
  | EForgetCA :: t => if Nat.leb (rank SC) (rank k) then false else known t k
  | EStart h :: _ => fget k h
  | _ :: t => known t k
  end.

(* A step has been asked for and its answer has not been applied. *)
Fixpoint asked (l : list ev) (k : step5) : bool :=
  match l with
  | [] => false
  | EReq j :: t => if same j k then true else asked t k
  | EDone j :: t => if same j k then false else asked t k
  | (EForget | EReset | EFactory | EStart _) :: _ => false
  | EForgetCA :: t => if Nat.leb (rank SC) (rank k) then false else asked t k
  | _ :: t => asked t k
  end.

(* Number of connection failures in a row, starting again after the third. *)
Fixpoint consec (l : list ev) : nat :=
  match l with
  | [] => 0
  | ETrans _ :: t => match consec t with 0 => 1 | 1 => 2 | _ => 0 end
  | (EDone _ | ECloud | EStart _ | ERenewed | EFactory) :: _ => 0
  | _ :: t => consec t
  end.

(* Everything has to be repeated: the service refused something, the connection
   failed three times in a row, the cloud could not be started, or somebody
   demanded it. *)
Fixpoint must (l : list ev) : bool :=
  match l with
  | [] => false
  | (EFail _ | ENoStart | EForce) :: _ => true
  | ETrans _ :: t => if Nat.leb 2 (consec t) then true else must t
  | (EForget | EStart _ | EReset) :: _ => false
  | _ :: t => must t
  end.

(* What may happen after the events t. *)
Definition allowed (e : ev) (t : list ev) : Prop :=
  match e with
  | EReq k => (forall j, earlier j k = true -> known t j = true)
              /\ known t k = false
  | EDone k => (forall j, known t j = earlier j k)
               /\ (forall j, asked t j = same j k)
  | ECloud => forall j, known t j = true
  | EForget => must t = true
  | EAttempt => must t = false
  | EStart h => (forall j k, earlier j k = true -> fget k h = true ->
                   fget j h = true)
                /\ (must t = true -> forall k, fget k h = false)
  | _ => True
  end.

Fixpoint history (l : list ev) : Prop :=
  match l with [] => True | e :: t => allowed e t /\ history t end.

(* Something will happen: a callback that continues the provisioning is
   pending, an answer that will not be ignored is outstanding, or the insecure
   session over which the time was fetched has still to be closed. *)
Definition awaiting (s : ctx) : Prop :=
  (exists c, In c [KProv; KRetry; KStart; KNext; KReprov; KUuid; KRestart]
             /\ In c (pend s))
  \/ (exists k, In k (reqs s)
        /\ (fget k (hass (st s)) = false \/ fai (st s) = true))
  \/ (closing s = true /\ conn s = true).

(* The service has been used completely and the cloud has been started. *)
Definition finished (s : ctx) : Prop :=
  (forall k, fget k (hass (st s)) = true) /\ tra (st s) = false
  /\ fai (st s) = false /\ cst (st s) = true.

(* Operations of the application that start the manager. *)
Definition starts (o : op) : bool :=
  match o with OStart | ORestart | OPost => true | _ => false end.
Definition is_iface (o : op) : bool :=
  match o with OIface => true | _ => false end.

(* Events by which the device acts on others. *)
Definition acts (e : ev) : bool :=
  match e with EReq _ | ECloud | ERenew => true | _ => false end.

(* Operations of others than the application and the cloud. *)
Definition outside (o : op) : bool :=
  match o with
  | OFire _ | OResp _ _ | ORenew _ | OUp | ODown | OCloudDown | OIface
  | OServer => true
  | _ => false
  end.

(* A service and a device without problems. *)
Definition fine : env :=
  mkEnv true true true false true false true true true true true fnone
    false false false true 0 true false false true false false.

(* Further operations. *)
Definition later (l : list (env * op)) (s : ctx) : ctx :=
  fold_left (fun s eo => step eo s) l s.

(* The events that the operations l add to those of s. *)
Definition adds (l : list (env * op)) (s : ctx) (new : list ev) : Prop :=
  tr (later l s) = new ++ tr s.

(* The service answers every question of a device without problems, callbacks
   fire. *)
Definition helpful (eo : env * op) : Prop :=
  fst eo = fine /\ exists x, snd eo = OFire x \/ exists k, snd eo = OResp k ROk.

(* A check of the observer that finds the session with the cloud down. *)
Definition checks (es : list env) : list (env * op) :=
  map (fun e => (e, OFire KObs)) es.
