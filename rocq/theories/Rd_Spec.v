(** Specification of the links of a device in the resource directory of its cloud. *)
From Verif Require Import Common Rep_Model Repd_Model Coap_Model Ep_Spec Disc_Spec Rd_Model.
From Coq Require Import String Permutation.
Notation rep := Rep_Model.rep.
Local Open Scope string_scope.
Local Open Scope list_scope.
Local Open Scope N_scope.

(** * The resources of the application *)

(** Resources added and not deleted since, by the calls alone. *)
Definition same (r x : res) : bool := (r_id x =? r_id r)%nat.
Definition track (l : list res) (vo : renv * op) : list res :=
  match snd vo with
  | Add r => if existsb (same r) l then l else if v_alloc (fst vo) then l ++ [r] else l
  | Del r => filter (fun x => negb (same r x)) l
  | Deinit => []
  | _ => l
  end.
Definition tracked (h : list (renv * op)) : list res := fold_left track h [].

Definition links_of (s : rd) : list link := s_publish s ++ s_published s.
Definition reach (s : rd) : Prop := exists h m, run start h = Some (s, m).

(** * Requests *)

(** A number written in decimal, without leading zeros. *)
Definition plain (t : list N) : Prop := t = [48] \/ hd 48 t <> 48.
Definition decimal (z : Z) (t : list N) : Prop :=
  (0 <= z)%Z /\ reads 10 t (Z.to_N z) /\ plain t \/ (z < 0)%Z /\ exists u, t = 45 :: u /\ reads 10 u (Z.to_N (- z)) /\ plain u.

(** An entry of a publish request describes a resource: the policy is the properties without the bits for periodic and
    secure, in one byte. *)
Record shows (r : res) (ins : Z) (o : list rep) : Prop := mk_shows {
  w_href : get_s o (str "href") = Some (r_uri r);
  w_rt : get_sa o (str "rt") = Some (r_types r);
  w_if : exists ns, get_sa o (str "if") = Some ns /\ names_mask (r_ifs r) ns;
  w_rel : get_s o (str "rel") = Some (str "hosts");
  w_ins : get_i o (str "ins") = Some ins;
  w_bm : exists p n, get_o o (str "p") = Some p /\ get_i p (str "bm") = Some (Z.of_N n) /\ n < 256 /\
           forall i, i < 8 -> N.testbit n i = N.testbit (r_props r) i && negb (i =? 4) && negb (i =? 6) }.
Definition shows_link (k : link) (o : list rep) : Prop := exists r, k_res k = Some r /\ shows r (k_ins k) o.

(** With nothing to publish, /oic/p and /oic/d are. *)
Definition to_publish (v : renv) (l : list link) : list link :=
  match l with [] => [mk_link (Some (v_p v)) (v_rand v); mk_link (Some (v_d v)) (v_rand v)] | _ => l end.
(** A publish request for these links. *)
Definition publishes (v : renv) (l : list link) (m : msg) : Prop :=
  exists p os, m = MPublish p /\ get_s p (str "di") = Some (v_di v) /\ get_s p (str "n") = Some (v_name v) /\
    get_i p (str "ttl") = Some (Z.of_N (v_ttl v)) /\ get_oa p (str "links") = Some os /\ Forall2 shows_link l os.

(** RFC 7252, section 3.1, and RFC 8323, section 3.2: the size of an option with a value of [n] bytes whose number is less
    than 13 above the one before it, and of the header of such a request: token of 8 bytes, the path oic/rd, the queries,
    Accept (2 bytes), the version (2 bytes, 2 more for its number). *)
Definition opt_len (n : N) : N := 1 + (if n <? 13 then 0 else if n <? 269 then 1 else 2) + n.
Definition sum (l : list N) : N := fold_right N.add 0 l.
Definition header_len (tcp : bool) (queries : list N) : N :=
  let opts := opt_len 3 + opt_len 2 + sum (map opt_len queries) + opt_len 2 + (2 + opt_len 2) in
  8 + opts + (if tcp then 2 + (if opts <? 13 then 0 else if opts <? 269 then 1 else if opts <? 65805 then 2 else 4) else 4).
Definition query_lens (di : list N) (ts : list (list N)) : list N := (3 + nlen di) :: map (fun t => 4 + nlen t) ts.

(** The query of an unpublish request names these instances, and the request is not too long. *)
Definition asks (v : renv) (ins : list Z) (q : list N) : Prop :=
  exists ts, Forall2 decimal ins ts /\ q = str "di=" ++ v_di v ++ List.concat (map (fun t => str "&ins=" ++ t) ts) /\
    header_len (c_tcp (v_cfg v) && v_tcp v) (query_lens (v_di v) ts) <= c_max_hdr (v_cfg v).
Definition too_many (v : renv) (ins : list Z) : Prop :=
  forall ts, Forall2 decimal ins ts -> c_max_hdr (v_cfg v) < header_len (c_tcp (v_cfg v) && v_tcp v) (query_lens (v_di v) ts).

(** Conditions on the environment: the identifier of the device is the text of a UUID, a header may have at least 123
    bytes (the least value in messaging/coap/conf.h), instance numbers are of 64 bits. *)
Definition env_ok (v : renv) : Prop :=
  List.length (v_di v) = 36%nat /\ ~ In 38 (v_di v) /\ 123 <= c_max_hdr (v_cfg v).
Definition int64 (z : Z) : Prop := (- 9223372036854775808 <= z <= 9223372036854775807)%Z.

(** What goes wrong only without memory, with an identifier that is none, or with a number that is none. *)
Definition ints_ok (p : list rep) : Prop := forall os o i, get_oa p (str "links") = Some os -> In o os -> get_i o (str "ins") = Some i -> int64 i.
Definition good (vo : renv * op) : Prop :=
  env_ok (fst vo) /\ int64 (v_rand (fst vo)) /\
  match snd vo with Hourly | Publish => v_alloc (fst vo) = true | Published _ p => ints_ok p | _ => True end.

(** * When requests are sent *)

Definition posts (ms : list msg) : list msg := filter (fun m => match m with MPublish _ => true | _ => false end) ms.
Definition dels (ms : list msg) : list (list N) := flat_map (fun m => match m with MDelete q => [q] | _ => [] end) ms.
Definition empty {A} (l : list A) : bool := match l with [] => true | _ => false end.

(** The operations after which the list of links to publish is sent; [s] is the state before. *)
Definition publishing (v : renv) (s : rd) (o : op) : bool :=
  match o with
  | Add r => v_alloc v && negb (existsb (fun k => match k_res k with Some x => same r x | None => false end) (links_of s))
  | Status a b => a && negb b && negb (empty (s_publish s))
  | Hourly => s_timer s
  | Publish => true
  | _ => false
  end.
(** The same for the links to unpublish. *)
Definition unpublishing (v : renv) (s : rd) (o : op) : bool :=
  match o with
  | Del r => negb (v_resets v) && existsb (fun k => match k_res k with Some x => same r x | None => false end) (s_published s)
  | Status a b => a && negb b
  | Publish => true
  | Deleted i => negb i
  | _ => false
  end.
(** The instance that has to be unpublished because of an operation. *)
Definition dropped (v : renv) (s : rd) (o : op) : list Z :=
  match o with
  | Del r => if v_resets v then []
             else match filter (fun k => match k_res k with Some x => same r x | None => false end) (s_published s) with [] => [] | k :: _ => [k_ins k] end
  | _ => []
  end.

(** * The answer to a publish request *)

(** The instance the answer gives to a resource: that of the first entry with the URI and a number. *)
Fixpoint answered (uri : list N) (l : list (list rep)) : option Z :=
  match l with
  | [] => None
  | o :: t => match get_s o (str "href"), get_i o (str "ins") with
              | Some h, Some i => if list_eqb h uri then Some i else answered uri t
              | _, _ => answered uri t
              end
  end.
Definition uri_of (k : link) : list N := match k_res k with Some r => r_uri r | None => [] end.
Definition kept (l : list (list rep)) (ks : list link) : list link := filter (fun k => match answered (uri_of k) l with None => true | Some _ => false end) ks.
Definition moved (l : list (list rep)) (ks : list link) : list link :=
  flat_map (fun k => match answered (uri_of k) l with Some i => [mk_link (k_res k) i] | None => [] end) ks.

(** * The cloud *)

(** The entries of the device: URI and instance.  The cloud gives a resource its instance by its URI. *)
Definition cloud : Type := list (list N * Z).
Definition hrefs (p : list rep) : list (list N) :=
  match get_oa p (str "links") with
  | None => []
  | Some os => flat_map (fun o => match get_s o (str "href") with Some h => [h] | None => [] end) os
  end.
Definition put (assign : list N -> Z) (c : cloud) (h : list N) : cloud := (h, assign h) :: filter (fun e => negb (list_eqb (fst e) h)) c.
Definition answer (assign : list N -> Z) (p : list rep) : list rep :=
  [(str "links", RObjArr (map (fun h => [(str "href", RStr h); (str "ins", RInt (assign h))]) (hrefs p)))].

(** The parts of a query between ampersands, and the instances they name. *)
Fixpoint parts (q : list N) : list (list N) :=
  match q with
  | [] => [[]]
  | c :: t => if c =? 38 then [] :: parts t else match parts t with w :: r => (c :: w) :: r | [] => [[c]] end
  end.
Definition value (t : list N) : N := fold_left (fun v c => v * 10 + (c - 48)) t 0.
Definition number (t : list N) : Z := match t with 45 :: u => (- Z.of_N (value u))%Z | _ => Z.of_N (value t) end.
Definition named (q : list N) : list Z :=
  flat_map (fun p => if list_eqb (firstn 4 p) (str "ins=") then [number (skipn 4 p)] else []) (parts q).
(** An unpublish request that names no instance removes all. *)
Definition drop (c : cloud) (q : list N) : cloud :=
  match named q with [] => [] | l => filter (fun e => negb (existsb (Z.eqb (snd e)) l)) c end.

(** A request reaches the cloud, its answer the device, before anything else happens. *)
Fixpoint deliver (fuel : nat) (assign : list N -> Z) (v : renv) (s : rd) (c : cloud) (ms : list msg) : option (rd * cloud) :=
  match ms with
  | [] => Some (s, c)
  | m :: t =>
      match fuel with
      | O => None
      | S f =>
          match m with
          | MPublish p => match step v s (Published true (answer assign p)) with
                          | Some (s', m') => deliver f assign v s' (fold_left (put assign) (hrefs p) c) (t ++ m') | None => None end
          | MDelete q => match step v s (Deleted false) with
                         | Some (s', m') => deliver f assign v s' (drop c q) (t ++ m') | None => None end
          end
      end
  end.
Definition exchange_in (fuel : nat) (assign : list N -> Z) (v : renv) (s : rd) (c : cloud) (o : op) : option (rd * cloud) :=
  match step v s o with Some (s1, m) => deliver fuel assign v s1 c m | None => None end.
Definition exchange (assign : list N -> Z) (v : renv) (s : rd) (c : cloud) (o : op) (s' : rd) (c' : cloud) : Prop :=
  exists fuel, exchange_in fuel assign v s c o = Some (s', c').
Fixpoint exchanges (fuel : nat) (assign : list N -> Z) (s : rd) (c : cloud) (h : list (renv * op)) : option (rd * cloud) :=
  match h with
  | [] => Some (s, c)
  | (v, o) :: t => match exchange_in fuel assign v s c o with Some (s', c') => exchanges fuel assign s' c' t | None => None end
  end.

(** What the cloud has of the device is what the device takes for published, and what it still has to unpublish. *)
Definition entry (k : link) : list N * Z := (uri_of k, k_ins k).
Definition covered (s : rd) (c : cloud) : Prop :=
  (forall k, In k (s_published s) -> In (entry k) c) /\
  (forall e, In e c -> (exists k, In k (s_published s) /\ e = entry k) \/ In (snd e) (map k_ins (s_delete s))).
Definition agrees (s : rd) (c : cloud) : Prop :=
  forall e, In e c <-> exists k, In k (s_published s) /\ e = entry k.

(** Logged in, and requests can be sent. *)
Definition online (v : renv) (s : rd) : Prop := v_rfnop v = true /\ s_in s = true /\ v_post v = true /\ v_del v = true.
(** What is excluded: two resources whose URIs have one instance, or are the same; adding a resource while the removal of
    one before it with this instance is still queued; deleting while the device is being reset; publishing again while not logged in, or nothing. *)
Definition allowed (assign : list N -> Z) (v : renv) (s : rd) (o : op) : Prop :=
  match o with
  | Add r => (forall k x, In k (links_of s) -> k_res k = Some x -> assign (r_uri x) = assign (r_uri r) -> r_id x = r_id r) /\ ~ In (assign (r_uri r)) (map k_ins (s_delete s))
  | Del _ => v_resets v = false
  | Status _ _ | Quiet _ _ => True
  | Hourly | Publish => online v s /\ links_of s <> []
  | _ => False
  end.
Inductive session (assign : list N -> Z) : list (renv * op) -> rd -> cloud -> Prop :=
| S_start : session assign [] start []
| S_step h s c v o s' c' : session assign h s c -> env_ok v -> int64 (v_rand v) -> allowed assign v s o -> exchange assign v s c o s' c' ->
    session assign (h ++ [(v, o)]) s' c'.

(** The cloud has exactly the resources of the application. *)
Definition mirrors (assign : list N -> Z) (h : list (renv * op)) (c : cloud) : Prop :=
  forall u z, In (u, z) c <-> z = assign u /\ exists r, In r (tracked h) /\ r_uri r = u.
