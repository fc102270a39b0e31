(** What a request for the cloud configuration has to say. *)
From Verif Require Import Common Rep_Model Hex_Model Ea_Model.
From Coq Require Import String.
Local Open Scope list_scope.
Local Open Scope N_scope.

(** The first text named [k] is [v]; there is no text named [k]. *)
Definition says (p : list rep) (k : string) (v : list N) : Prop :=
  exists l r, p = l ++ (str k, RStr v) :: r /\ forall w, ~ In (str k, RStr w) l.
Definition silent (p : list rep) (k : string) : Prop := forall w, ~ In (str k, RStr w) p.

(** [t] is the text of the server id [v]. *)
Definition id_text (t v : list N) : Prop := exists z, str_to_uuid_v1 t = (z, Some v) /\ (0 <= z)%Z.

(** The device is free to be configured: not registering, not registered. *)
Definition free (cps : N) : Prop := cps = 0 \/ cps = 1 \/ cps = 4 \/ cps = 5.

(** A request to leave the cloud. *)
Definition leaves (cps : N) (p : list rep) : Prop :=
  cps <= 5 /\ silent p "cps" /\ says p "cis" [] /\ (forall t, says p "sid" t -> t <> [] -> exists v, id_text t v).

(** A request to use the server [u] with the id [v] and the access token [a]. *)
Definition configures (cps : N) (p : list rep) (u v a : list N) : Prop :=
  free cps /\ silent p "cps" /\ says p "cis" u /\ u <> [] /\ says p "at" a /\ a <> [] /\
  exists t, says p "sid" t /\ t <> [] /\ id_text t v.

(** One of the further servers of the request. *)
Definition further (p : list rep) (u v : list N) : Prop :=
  exists l o t, In (str "x.org.iotivity.servers", RObjArr l) p /\ In o l /\ says o "uri" u /\ says o "id" t /\ id_text t v.
