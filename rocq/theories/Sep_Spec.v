(** Who is waiting for a delayed response, told from the history alone. *)
From Verif Require Import Common Sep_Model.
Local Open Scope N_scope.

(** The identity of a waiting request: its client, token and observe value. *)
Definition rid (r : req) : N * list N * Z := (q_ep r, q_tok r, q_obs r).

Inductive joins : list req -> req -> list req -> Prop :=
| J_again w r : In (rid r) (map rid w) -> joins w r w
| J_new w r : ~ In (rid r) (map rid w) -> joins w r (w ++ [r]).
Inductive leaves : list req -> req -> list req -> Prop :=
| L_not w r : ~ In (rid r) (map rid w) -> leaves w r w
| L_gone a x b r : rid x = rid r -> ~ In (rid r) (map rid (a ++ b)) -> leaves (a ++ x :: b) r (a ++ b).

(** A response for a request, a notification for an observation. *)
Definition expected (r : req) (m : msg) : Prop :=
  ((q_obs r < 2)%Z -> m = Response (q_ep r) (q_tok r)) /\ ((2 <= q_obs r)%Z -> m = Notification (q_uri r) (q_ep r)).

(** Clients never use the same token and observe value at the same time. *)
Definition no_clash (w : list req) (tok : list N) (obs : Z) (ep : N) : Prop :=
  forall r, In r w -> q_tok r = tok -> q_obs r = obs -> q_ep r = ep.

(** [w] are the clients that wait, by the history of the handle: those accepted since the last response, less those
    refused. *)
Inductive reach : handle -> list req -> Prop :=
| Reach0 : reach (mk_handle false [] BNone 0) []
| ReachA h w k con tok obs ep uri h' w' :
    reach h w -> no_clash w tok obs ep -> accept h k con tok obs ep uri = (h', true) -> joins w (mk_req tok obs ep uri) w' -> reach h' w'
| ReachF h w k con tok obs ep uri h' w' :
    reach h w -> no_clash w tok obs ep -> accept h k con tok obs ep uri = (h', false) -> leaves w (mk_req tok obs ep uri) w' -> reach h' w'
| ReachS h w h' out : reach h w -> step h (Send true) = Some (h', out) -> reach h' (if h_active h then [] else w).
