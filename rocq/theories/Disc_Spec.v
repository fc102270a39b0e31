(** What discovery should list, answer and report, stated without the functions of the code. *)
From Verif Require Import Common Query_Spec Rep_Model Repd_Model Repd_Spec Hex_Model Acl_Model Ob_Model Ri_Model Col_Spec Disc_Model.
From Verif Require Ep_Model Ep_Spec.
From Coq Require Import String.
Local Open Scope string_scope.
Local Open Scope list_scope.
Local Open Scope N_scope.

(** * Listing *)

(** one core resource of a kind per device, and one of each platform kind *)
Definition cores_ok (s : server) : Prop :=
  Forall (fun r => d_core r <> None) (v_core s) /\
  (forall x a y b z, v_core s = x ++ a :: y ++ b :: z -> d_core a = d_core b -> d_core a <> Some 0 /\ d_core a <> Some 1 /\ d_dev a <> d_dev b) /\
  Forall (fun r => d_core r = None) (v_apps s ++ v_cols s).

(** the kinds of core resources announced for each device: all but the introspection data (4) and /.well-known/core (5) *)
Definition announced_kind (s : server) (k : N) : Prop := k <= 19 /\ k <> 4 /\ k <> 5 /\ (k = 2 -> v_con s = true).
Definition known (s : server) (dev : N) (r : dres) : Prop :=
  (exists k, d_core r = Some k /\ announced_kind s k /\ In r (v_core s) /\ (k < 2 \/ d_dev r = dev)) \/
  ((In r (v_apps s) \/ In r (v_cols s)) /\ d_dev r = dev).

Definition discoverable (r : dres) : Prop := N.testbit (d_props r) 0 = true.

(** the resources a request is about: the core resources, then those of the application and the collections in their order *)
Definition listed (s : server) (q : dreq) (ps : list Query_Spec.pair) (rs : list dres) : Prop :=
  exists cs p, rs = cs ++ filter p (v_apps s) ++ filter p (v_cols s) /\ NoDup cs /\
    (forall r, In r cs <-> (exists k, d_core r = Some k /\ announced_kind s k /\ In r (v_core s) /\ (k < 2 \/ d_dev r = q_dev q)) /\
                           discoverable r /\ wanted (d_types r) ps) /\
    (forall r, p r = true <-> d_dev r = q_dev q /\ discoverable r /\ wanted (d_types r) ps).

(** * Endpoints of a resource *)

Definition v4 (e : ep) : Prop := N.testbit (Ep_Model.e_flags e) 2 = true.
Definition v6 (e : ep) : Prop := N.testbit (Ep_Model.e_flags e) 3 = true.
Definition secured (e : ep) : Prop := N.testbit (Ep_Model.e_flags e) 1 = true.
(** reachable on the way the request came *)
Definition same_way (o e : ep) : Prop :=
  (Ep_Model.e_if o = 0 \/ Ep_Model.e_if o = Ep_Model.e_if e) /\ ~ (v4 o /\ v6 e) /\ ~ (v6 o /\ v4 e).
Definition security_resource (r : dres) (dev : N) : Prop := exists k, d_core r = Some k /\ 10 <= k < 19 /\ d_dev r = dev.
(** reached only over secured connections: marked so, or a security resource of a device that is owned or being owned;
    unless marked as accessible while the device waits for its owner *)
Definition only_secured (s : server) (dev : N) (r : dres) : Prop :=
  (N.testbit (d_props r) 4 = true \/ security_resource r dev /\ (v_rfotm s = false \/ v_peers s = true)) /\
  ~ (v_rfotm s = true /\ N.testbit (d_props r) 9 = true).
Definition announced_at (s : server) (q : dreq) (r : dres) (e : ep) : Prop :=
  same_way (q_origin q) e /\ (only_secured s (q_dev q) r -> secured e).

(** the object that stands for an endpoint *)
Definition ep_object (s : server) (e : ep) (o : list Rep_Model.rep) : Prop :=
  (forall t, Ep_Model.to_string e = Some t <-> get_s o (str "ep") = Some t) /\
  (forall z, get_i o (str "lat") = Some z <-> 0 < v_latency s /\ z = Z.of_N (v_latency s)).

(** * The link of a resource *)

(** the names of the interfaces in a mask; the interface x.plgd.if.etag is not announced *)
Definition public_if (b : N) (name : list N) : Prop :=
  In (b, name) [(1, str "oic.if.baseline"); (2, str "oic.if.ll"); (3, str "oic.if.b"); (4, str "oic.if.r"); (5, str "oic.if.rw");
                (6, str "oic.if.a"); (7, str "oic.if.s"); (8, str "oic.if.create"); (9, str "oic.if.w"); (10, str "oic.if.startup");
                (11, str "oic.if.startup.revert")].
Definition names_mask (mask : N) (names : list (list N)) : Prop :=
  NoDup names /\ forall n, In n names <-> exists b, public_if b n /\ N.testbit mask b = true.
(** the bits of the properties that are announced: discoverable, observable, pushable *)
Definition policy_bits (props : N) (z : Z) : Prop := exists n, z = Z.of_N n /\ n < 8 /\ forall i, i < 3 -> N.testbit n i = N.testbit props i.

Record link_shows (s : server) (q : dreq) (with_eps : bool) (r : dres) (l : list Rep_Model.rep) : Prop := mk_shows {
  sh_anchor : get_s l (str "anchor") = Some (str "ocf://" ++ uuid_str (v_id s));
  sh_href : get_s l (str "href") = Some (d_uri r);
  sh_rt : exists ts, get_sa l (str "rt") = Some ts /\ forall t, In t ts <-> In t (d_types r) /\ t <> [];
  sh_if : exists ns, get_sa l (str "if") = Some ns /\ names_mask (d_ifs r) ns;
  sh_bm : exists o z, get_o l (str "p") = Some o /\ get_i o (str "bm") = Some z /\ policy_bits (d_props r) z;
  sh_rel : get_sa l (str "rel") = Some [str "self"] <-> d_core r = Some 6;
  sh_eps : if with_eps
           then exists os ms es, get_oa l (str "eps") = Some (os ++ ms) /\
                  (exists p, es = filter p (v_eps s) /\ forall e, In e (v_eps s) -> (p e = true <-> announced_at s q r e)) /\
                  Forall2 (ep_object s) es os /\
                  (ms <> [] <-> v_oscore s = true /\ N.testbit (d_props r) 8 = true)
           else get_oa l (str "eps") = None }.

(** * Answers *)

Definition multicast (o : ep) : Prop := N.testbit (Ep_Model.e_flags o) 6 = true.
(** the request asks for a device of some security domain: the first parameter of that name, when it has a value *)
Definition asks_domain (ps : list Query_Spec.pair) (v : list N) : Prop := first_match (str "sduuid") ps (Some (Some v)) /\ v <> [].

(** the device does not hide its security domain and it is that one *)
Definition in_domain (s : server) (v : list N) : Prop :=
  fst (fst (v_sdi s)) = false /\ List.length v = 36%nat /\ same_ignoring_case v (uuid_str (snd (fst (v_sdi s)))).
Definition addressed (s : server) (ps : list Query_Spec.pair) : Prop := forall v, asks_domain ps v -> in_domain s v.

(** * The client *)

(** the last attribute with a property *)
Definition last_such (P : Rep_Model.rep -> Prop) (l : list Rep_Model.rep) (a : Rep_Model.rep) : Prop :=
  exists x y, l = x ++ a :: y /\ P a /\ Forall (fun b => ~ P b) y.
Definition text_named (n : list N) (a : Rep_Model.rep) : Prop := fst a = n /\ exists t, snd a = RStr t.
Definition texts_named (n : list N) (a : Rep_Model.rep) : Prop := fst a = n /\ exists t, snd a = RStrArr t.
Definition other_texts (a : Rep_Model.rep) : Prop := fst a <> str "rt" /\ exists t, snd a = RStrArr t.
Definition obj_array (a : Rep_Model.rep) : Prop := exists o, snd a = RObjArr o.
Definition policy_attr (a : Rep_Model.rep) (z : Z) : Prop := fst a = str "p" /\ exists o, snd a = RObj ((str "bm", RInt z) :: o).

(** the mask of a list of interface names *)
Definition mask_of (names : list (list N)) (m : N) : Prop :=
  forall b, N.testbit m b = true <->
    exists n, In n names /\ (public_if b (cstr n) \/ b = 12 /\ cstr n = str "x.plgd.if.etag").

(** the endpoints a client makes of an array of endpoint objects: for each object its texts named ep in order, up to one
    that cannot be reached from where the answer came; texts that are no endpoints are passed over *)
Definition standard_port (e : ep) : Prop := Ep_Model.e_port e = 5683 /\ (v4 e \/ v6 e).
Definition usable (from e : ep) : Prop :=
  standard_port e \/ N.testbit (Ep_Model.e_flags e) 4 = true \/ ~ (v4 from /\ v6 e \/ v6 from /\ v4 e).
Definition reads_as (dns : list N -> N -> N -> option ep) (t : list N) (r : option ep) : Prop :=
  match Ep_Model.of_string t with
  | Ep_Model.PAddress e _ => r = Some e
  | Ep_Model.PName h fl p _ => r = dns h fl p
  | Ep_Model.PError => r = None
  end.
Definition taken_over (from e e' : ep) : Prop :=
  e' = Ep_Model.mk_ep (Ep_Model.e_flags e) (Ep_Model.e_dev from) (Ep_Model.e_addr e) (Ep_Model.e_port e) (Ep_Model.e_if from) (Ep_Model.e_sess e).
Inductive object_eps (dns : list N -> N -> N -> option ep) (from : ep) : list Rep_Model.rep -> list ep -> Prop :=
| OE_nil : object_eps dns from [] []
| OE_other a l es : ~ text_named (str "ep") a -> object_eps dns from l es -> object_eps dns from (a :: l) es
| OE_bad t l es : reads_as dns t None -> object_eps dns from l es -> object_eps dns from ((str "ep", RStr t) :: l) es
| OE_ep t e e' l es : reads_as dns t (Some e) -> usable from e -> taken_over from e e' -> object_eps dns from l es ->
    object_eps dns from ((str "ep", RStr t) :: l) (e' :: es)
| OE_stop t e l : reads_as dns t (Some e) -> ~ usable from e -> object_eps dns from ((str "ep", RStr t) :: l) [].
Definition array_eps dns from (os : list (list Rep_Model.rep)) (es : list ep) : Prop :=
  exists ess, Forall2 (object_eps dns from) os ess /\ es = List.concat ess.

(** a device id in the text after the scheme of an anchor *)
Definition anchor_id (a : list N) (di : list N) : Prop := bytes_ok di /\ List.length di = 16%nat /\ a = str "ocf://" ++ uuid_str di.

(** a link that says all that is reported of it: anchor, href, types, interfaces and endpoints, if any; the anchor before the
    endpoints, the interfaces after any other array of texts; it says [c] *)
Record complete (dns : list N -> N -> N -> option ep) (from : ep) (l : list Rep_Model.rep) (c : call) : Prop := mk_complete {
  cp_href : exists u, last_such (text_named (str "href")) l (str "href", RStr u) /\ c_uri c = cstr u;
  cp_rt : exists ts, last_such (texts_named (str "rt")) l (str "rt", RStrArr ts) /\ c_types c = map cstr ts;
  cp_if : exists ns, last_such other_texts l (str "if", RStrArr ns) /\ mask_of ns (c_ifs c);
  cp_bm : (exists a, last_such (fun b => exists z, policy_attr b z) l a /\ policy_attr a (c_bm c)) \/
          (forall a z, In a l -> ~ policy_attr a z) /\ c_bm c = 0%Z;
  cp_eps : exists x a di y es, l = x ++ (str "anchor", RStr a) :: y /\ Forall (fun b => ~ text_named (str "anchor") b) (x ++ y) /\
           Forall (fun b => ~ obj_array b) x /\ anchor_id a di /\ c_anchor c = a /\ c_eps c = map (fun e => (e, Some di)) es /\
           (Forall (fun b => ~ obj_array b) y /\ es = [] \/
            exists y1 os y2, y = y1 ++ (str "eps", RObjArr os) :: y2 /\ Forall (fun b => ~ obj_array b) (y1 ++ y2) /\ array_eps dns from os es) }.

(** the last argument of a handler for all resources: whether there are more links *)
Definition more_follow (cs : list call) : Prop := forall x c y, cs = x ++ c :: y -> (c_more c = true <-> y <> []).
(** the calls a handler sees: those of the links with endpoints, up to one it answers with stop *)
Inductive reported (stop : call -> bool) : list call -> list call -> bool -> Prop :=
| RP_nil : reported stop [] [] false
| RP_none c cs l b : c_eps c = [] -> reported stop cs l b -> reported stop (c :: cs) l b
| RP_call c cs l b : c_eps c <> [] -> stop c = false -> reported stop cs l b -> reported stop (c :: cs) (c :: l) b
| RP_stop c cs : c_eps c <> [] -> stop c = true -> reported stop (c :: cs) [c] true.

(** * From server to client *)

(** texts without zero bytes that fit the slots of a text array *)
Definition plain_text (t : list N) : Prop := ~ In 0 t.
Record resource_ok (r : dres) : Prop := mk_resource_ok {
  ro_uri : plain_text (d_uri r);
  ro_types : Forall (fun t => t <> [] /\ plain_text t /\ (List.length t <= 127)%nat) (d_types r);
  ro_some_type : d_types r <> [];
  ro_some_if : exists b n, public_if b n /\ N.testbit (d_ifs r) b = true;
  ro_pos : forall p, d_pos r = Some p -> p <> [] }.
Record server_ok (s : server) : Prop := mk_server_ok {
  so_id : bytes_ok (v_id s) /\ List.length (v_id s) = 16%nat;
  so_eps : Forall (fun e => Ep_Spec.ep_ok e /\ (v4 e /\ ~ v6 e \/ v6 e /\ ~ v4 e /\ ~ Ep_Spec.dotted (Ep_Model.e_addr e))) (v_eps s);
  so_res : Forall resource_ok (v_core s ++ v_apps s ++ v_cols s);
  so_latency : v_latency s < 2 ^ 63 }.

(** what a client sees of an endpoint of the server: the scheme, the address and the port *)
Definition seen (from e e' : ep) : Prop :=
  (forall i, N.testbit (Ep_Model.e_flags e') i = true <-> (i = 1 \/ i = 4 \/ i = 2 \/ i = 3) /\ N.testbit (Ep_Model.e_flags e) i = true) /\
  Ep_Model.e_addr e' = (if N.testbit (Ep_Model.e_flags e) 2 then firstn 4 (Ep_Model.e_addr e) ++ repeat 0 12 else Ep_Model.e_addr e) /\
  Ep_Model.e_port e' = Ep_Model.e_port e /\ Ep_Model.e_dev e' = Ep_Model.e_dev from /\ Ep_Model.e_if e' = Ep_Model.e_if from.
Definition group_eps (from : ep) : list ep :=
  [Ep_Model.mk_ep 4 (Ep_Model.e_dev from) ([224; 0; 1; 187] ++ repeat 0 12) 5683 (Ep_Model.e_if from) 0;
   Ep_Model.mk_ep 8 (Ep_Model.e_dev from) ([255; 2] ++ repeat 0 12 ++ [1; 88]) 5683 (Ep_Model.e_if from) 0].
Record tells (s : server) (q : dreq) (from : ep) (r : dres) (c : call) : Prop := mk_tells {
  te_anchor : c_anchor c = str "ocf://" ++ uuid_str (v_id s);
  te_uri : c_uri c = d_uri r;
  te_types : c_types c = d_types r;
  te_ifs : forall b, N.testbit (c_ifs c) b = true <-> 1 <= b <= 11 /\ N.testbit (d_ifs r) b = true;
  te_bm : policy_bits (d_props r) (c_bm c);
  te_eps : exists es es' ms, (exists p, es = filter p (v_eps s) /\ forall e, In e (v_eps s) -> (p e = true <-> announced_at s q r e /\ usable from e)) /\
           Forall2 (seen from) es es' /\ (ms = group_eps from /\ v_oscore s = true /\ N.testbit (d_props r) 8 = true \/
                                          ms = [] /\ ~ (v_oscore s = true /\ N.testbit (d_props r) 8 = true)) /\
           c_eps c = map (fun e => (e, Some (v_id s))) (es' ++ ms) }.
