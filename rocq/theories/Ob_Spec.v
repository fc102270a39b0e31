(** Specification of onboarding. *)
From Verif Require Import Common Rep_Model Acl_Model Acl_Spec Ob_Model.
From Coq Require Import String.
Local Open Scope string_scope.
Local Open Scope list_scope.
Local Open Scope N_scope.

(** An identifier that is not the nil UUID. *)
Definition real (u : list N) : Prop := exists b, In b u /\ b <> 0.

(** Everything a provisioned device needs: an owner, an identity, and an owner with a credential for each
    of its four security resources. *)
Definition complete (o : ob) : Prop :=
  dx_owned (o_dx o) = true /\ real (dx_devowner (o_dx o)) /\ real (dx_device (o_dx o)) /\
  forall u, In u [ps_owner (o_ps o); dx_owner (o_dx o); o_aclown o; o_credown o] -> real u /\ In u (o_creds o).

(** State changes by an update of the provisioning status, other than asking for a reset.  (From RESET the
    code lets every change through; the specification knows only the one to RFOTM.) *)
Definition move (s s' : N) : Prop :=
  In (s, s') [(S_RFOTM, S_RFPRO); (S_RFOTM, S_RFNOP); (S_RFPRO, S_RFNOP); (S_RFNOP, S_RFPRO); (S_RFPRO, S_SRESET); (S_RFNOP, S_SRESET);
              (S_SRESET, S_RFPRO); (S_RESET, S_RFOTM); (S_RESET, S_RFPRO); (S_RESET, S_RFNOP); (S_RESET, S_SRESET)].

(** A device as new: no owner, no owners of resources, no credentials but the factory's, a new identity. *)
Definition as_new (e : env) (o : ob) : Prop :=
  o_ps o = mk_ps S_RFOTM false false 2 0 3 4 nil_uuid false /\ o_dx o = mk_dx 4 457 false nil_uuid (ev_uuid e) nil_uuid /\
  o_aclown o = nil_uuid /\ o_credown o = nil_uuid /\ o_creds o = match ev_presets e with Some l => l | None => [] end /\
  o_di o = ev_uuid e /\ o_pending o = false /\ o_sps o = o_ps o /\ o_sdx o = o_dx o.

(** Which ownership properties a request may write. *)
Definition may_write (e : env) (doc : bool) (s : N) (r : rep) : Prop :=
  (fst r = str "owned" /\ (exists b, snd r = RBool b) /\ s = S_RFOTM /\ doc = true) \/
  (fst r = str "oxmsel" /\ (exists z, snd r = RInt z /\ In (to_int z) (ev_oxms e)) /\ s = S_RFOTM /\ doc = false) \/
  (fst r = str "deviceuuid" /\ (exists v, snd r = RStr v) /\ s = S_RFOTM /\ doc = true) \/
  (fst r = str "devowneruuid" /\ (exists v, snd r = RStr v) /\ s = S_RFOTM /\ doc = true) \/
  (fst r = str "rowneruuid" /\ (exists v, snd r = RStr v) /\ (s = S_RFOTM \/ s = S_SRESET) /\ doc = true).

(** The last value of a property in a payload. *)
Fixpoint last_value (name : list N) (l : list rep) : option rval :=
  match l with
  | [] => None
  | r :: t => match last_value name t with Some v => Some v | None => if list_eqb (fst r) name then Some (snd r) else None end
  end.

(** A UUID property as written: the text's UUID, the old value if the text gives none. *)
Definition written (old : list N) (v : option rval) : list N := match v with Some (RStr s) => uuid_of s old | _ => old end.

(** The values the C types hold. *)
Definition typed_int (z : Z) : Prop := (-2147483648 <= z <= 2147483647)%Z.
Definition typed_ps (p : pstat) : Prop :=
  ps_s p < 4294967296 /\ ps_cm p < 4294967296 /\ ps_tm p < 4294967296 /\ typed_int (ps_om p) /\ typed_int (ps_sm p) /\ typed_uuid (ps_owner p).
Definition typed_dx (d : doxm) : Prop :=
  typed_int (dx_oxmsel d) /\ typed_int (dx_sct d) /\ typed_uuid (dx_devowner d) /\ typed_uuid (dx_device d) /\ typed_uuid (dx_owner d).

(** The operations a history may contain: a key pair can be generated; with storage as part of the claim
    ([b]) no reset that is only announced in memory, otherwise no restart. *)
Definition ordinary (b : bool) (x : env * oop) : Prop :=
  ev_key (fst x) = true /\ typed_uuid (ev_uuid (fst x)) /\
  match snd x with ResetLater => b = false | Reboot => b = true | Mode cm => cm < 4294967296 | _ => True end.

(** How an operation may change the provisioning state. *)
Definition change (e : env) (o : ob) (op : oop) (o' : ob) : Prop :=
  let s := ps_s (o_ps o) in let s' := ps_s (o_ps o') in
  s' = s \/
  (exists l, op = PPost l) /\ move s s' /\ (s' = S_RFOTM \/ complete o') \/
  ((exists l, op = PPost l) \/ op = ResetLater) /\ s' = S_RESET /\ o_pending o' = true \/
  (op = Forced \/ op = Fire /\ o_pending o = true \/ op = Shutdown /\ s = S_RFOTM \/ op = Reboot /\ dx_owned (o_dx o) = false) /\ as_new e o'.

(** Devices a history can lead to. *)
Definition reach (b : bool) (o : ob) : Prop := exists e0 l, ev_key e0 = true /\ typed_uuid (ev_uuid e0) /\ Forall (ordinary b) l /\ o = orun (first_start e0) l.

(** The last target mode an update asks for (names are compared by their first two letters). *)
Definition last_target (l : list rep) (z : Z) : Prop :=
  exists a k b, l = a ++ (k, RInt z) :: b /\ firstn 2 k = str "tm" /\ Forall (fun r => firstn 2 (fst r) <> str "tm") b.
(** What a target mode starts: availability check, validation, or update of the software; it is cleared then. *)
Definition starts (m : Z) : list action :=
  if (m =? 256)%Z then [ISAC] else if (m =? 64)%Z then [ISVV] else if (m =? 128)%Z then [UPGRADE] else [].
