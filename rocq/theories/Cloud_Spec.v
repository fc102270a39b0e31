(** What is expected of the cloud configuration in storage, of the retries, and of the answers of the cloud. *)
From Verif Require Import Common Rep_Model Acl_Spec Ea_Model Ea_Spec Cloud_Model.
Local Open Scope N_scope.

(** The pool never runs out and never hands out a slot twice. *)
Definition pool_ok (mem : pool) : Prop := (forall k, exists p, mem k = Some p) /\ forall j k, mem j = mem k -> j = k.

(** Servers of a cloud are identified by UUIDs. *)
Definition uuid_servers (z : ring) : Prop := forall a, In a (all z) -> exists u, snd a = MUuid u /\ typed_uuid u.

(** All but the server list. *)
Definition same_settings (a b : store) : Prop :=
  st_provider a = st_provider b /\ st_uid a = st_uid b /\ st_access a = st_access b /\ st_refresh a = st_refresh b /\
  st_status a = st_status b /\ st_cps a = st_cps b /\ st_expires a = st_expires b.

(** Timeouts an application may set and the schedule can work with: one to six, each of a second or more. *)
Definition good_times (l : list N) : Prop := (1 <= List.length l <= 6)%nat /\ Forall (fun t => 1000 <= t) l.

(** The manager neither waits nor reconnects any more. *)
Definition ended (p : phase) : Prop := match p with Trying | Restarting => False | _ => True end.

(** The first text with the name [k] in [l] is [v]. *)
Definition first_text (l : list rep) (k v : list N) : Prop :=
  exists a b, l = a ++ (k, RStr v) :: b /\ forall w, ~ In (k, RStr w) a.
Definition first_int (l : list rep) (k : list N) (v : Z) : Prop :=
  exists a b, l = a ++ (k, RInt v) :: b /\ forall w, ~ In (k, RInt w) a.

(** [z] with the selected server replaced by the server [u], which is added with the id of the selected one if it is new. *)
Definition redirected (z z' : ring) (u : list N) : Prop :=
  match cursor z with
  | None => z' = Some ([], (u, MUuid (repeat 0 16)), [])
  | Some x =>
      option_map fst (cursor z') = Some u /\
      (known z u -> all z' = without (fst x) (all z)) /\
      (~ known z u -> all z' = without (fst x) (all z) ++ [(u, snd x)])
  end.
