(** What is asked of the roles of sessions. *)
From Verif Require Import Common Rep_Model Ob_Model Cred_Model Cred_Spec Rol_Model.
From Coq Require Import String.
Local Open Scope string_scope.
Local Open Scope list_scope.
Local Open Scope N_scope.

Definition reachable (f : nat -> cs) (ops : list op) (t : st) : Prop := run (start f) ops = Some t.
(** The roles that count for a session. *)
Definition roles_of (t : st) (p : nat) : list cred := roles_get p (t_clients t).
Definition is_open (t : st) (p : nat) (s : ses) : Prop := In (p, s) (t_open t).

(** The session [s] presents the key and name of a certificate: its own certificate has the key, and it has the id the certificate names. *)
Definition has_key (s : ses) (key : list N) : Prop := exists d, ss_key s = d ++ key.
Definition named (s : ses) (cn : list N -> option (list N)) (pub : list N) : Prop := cn pub = Some (uuid_str (ss_uuid s)).
(** The role [c] is vouched for by the object [x] of a request: it is a role certificate, signed under the trust anchors [an], with the name
    of the session and its key, if it has one, and [c] holds the role that is in it, which is not a reserved one. *)
Definition vouched (s : ses) (E : cenv) (cn : list N -> option (list N)) (an : list (list N)) (x : list rep) (c : cred) : Prop :=
  exists it pub key r a, parse_props false item0 x = Some it /\ pub = od (sd_data (i_pub it)) /\ i_type it = CERT /\ i_usage it = ROLECERT /\
    ce_key E pub = Some key /\ (ss_key s <> [] -> has_key s key) /\ named s cn pub /\ ce_role E an pub = Some (r, a) /\ allowed_role r /\
    c_role c = Some r /\ c_auth c = Some a /\ od (cd_data (c_pub c)) = pub /\ c_type c = CERT /\ c_tag c = i_tag it.

(** What takes the roles of the session [s] at address [p] away. *)
Definition ends (p : nat) (s : ses) (o : op) : Prop :=
  match o with
  | Close q => q = p
  | Delete (Session q) None => q = p
  | Factory d => d = ss_dev s
  | _ => False
  end.
(** What the session [s] at address [p] does itself, or what ends it. *)
Definition concerns (p : nat) (s : ses) (o : op) : Prop :=
  match o with
  | Close q | Post (Session q) _ _ _ | Delete (Session q) _ | Access q _ => q = p
  | Factory d => d = ss_dev s
  | _ => False
  end.
(** How a role is told. *)
Definition describes (c : cred) (o : list rep) : Prop :=
  In (str "credid", RInt (c_id c)) o /\ In (str "credtype", RInt (Z.of_N (c_type c))) o /\
  (od (cd_data (c_pub c)) <> [] -> exists d, In (str "publicdata", RObj d) o /\
     In (str "data", if cd_enc (c_pub c) =? E_PEM then RStr (od (cd_data (c_pub c))) else RBytes (od (cd_data (c_pub c)))) d).
(** The objects of a request. *)
Definition in_request (x : list rep) (l : list rep) : Prop := exists n a, In (n, RObjArr a) l /\ (n = str "creds" \/ n = str "roles") /\ In x a.
