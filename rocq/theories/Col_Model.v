(** Model of collections and their links: api/oc_collection.c, api/oc_link.c, the part of api/oc_ri.c that unlinks a
    deleted resource, the choice of a URI for a created resource (api/oc_resource_factory.c) and the filter by resource
    type (api/oc_core_res.c). *)
From Verif Require Import Common Query_Model Ri_Model Ep_Model.
From Coq Require Import String ZArith.
Local Open Scope string_scope.
Local Open Scope list_scope.
Local Open Scope N_scope.

(** * Links of a collection *)

(** a resource with its types; [r_id] stands for its address.  Its URI and device stay the same while it lives. *)
Record tres := mkTres { t_res : res; t_types : list (list N) }.
Definition t_id (t : tres) : N := r_id (t_res t).
Definition t_uri (t : tres) : list N := r_uri (t_res t).
Definition t_dev (t : tres) : N := r_dev (t_res t).

(** include/oc_link.h, oc_link_t: [ln_id] stands for the address of the link, [ln_to] is link->resource (never NULL
    for a link made by oc_new_link, api/oc_link.c:59-79).  Relations, parameters and the instance number are left out. *)
Record link := mkLink { ln_id : N; ln_to : tres }.
Definition ln_uri (l : link) : list N := t_uri (ln_to l).
Definition ln_res (l : link) : N := t_id (ln_to l).

(** include/oc_collection.h, oc_collection_t *)
Record coll := mkColl { cl_res : res; cl_links : list link }.
Definition cl_id (c : coll) : N := r_id (cl_res c).

(** strcmp(a, b) < 0 *)
Fixpoint str_lt (a b : list N) : bool :=
  match a, b with
  | _, [] => false
  | [], _ :: _ => true
  | x :: a', y :: b' => if x <? y then true else if x =? y then str_lt a' b' else false
  end.

(** api/oc_collection.c:199-213: the new link goes before [next] *)
Definition goes_before (u : list N) (next : link) : bool :=
  match ln_uri next with
  | [] => false
  | v => (List.length u <? List.length v)%nat || ((List.length u =? List.length v)%nat && str_lt u v)
  end.
Fixpoint insert_link (l : link) (ls : list link) : list link :=
  match ls with
  | [] => [l]
  | next :: r => if goes_before (ln_uri l) next then l :: ls else next :: insert_link l r
  end.
(** api/oc_collection.c:178-219, oc_collection_add_link: a link to a resource without a URI is ignored *)
Definition add_link (l : link) (ls : list link) : list link :=
  match ln_uri l with [] => ls | _ => insert_link l ls end.

(** api/oc_collection.c:221-244, oc_collection_remove_link with oc_list_remove2 *)
Fixpoint remove_link (i : N) (ls : list link) : list link :=
  match ls with
  | [] => []
  | l :: r => if ln_id l =? i then r else l :: remove_link i r
  end.

(** api/oc_collection.c:276-308, oc_get_link_by_uri *)
Definition link_by_uri (u : list N) (ls : list link) : option link :=
  match u with
  | [] => None
  | _ => find (fun l => list_eqb (strip (ln_uri l)) (strip u)) ls
  end.

(** * The collections of a server *)

(** the list g_collections and the resources that have not been freed: those of the application and the collections *)
Record world := mkWorld { w_cols : list coll; w_live : list tres }.

Definition links_to (r : N) (c : coll) : bool := existsb (fun l => ln_res l =? r) (cl_links c).

(** api/oc_ri.c:567-587 in ri_delete_resource with oc_get_next_collection_with_link (api/oc_collection.c:603-629): in
    each collection of the device with a link to the resource, the first link with the resource's URI is removed *)
Definition unlink_one (t : tres) (c : coll) : coll :=
  if (r_dev (cl_res c) =? t_dev t) && links_to (t_id t) c then
    match link_by_uri (t_uri t) (cl_links c) with
    | Some l => mkColl (cl_res c) (remove_link (ln_id l) (cl_links c))
    | None => c
    end
  else c.

Definition on_col (i : N) (f : list link -> list link) (cs : list coll) : list coll :=
  map (fun c => if cl_id c =? i then mkColl (cl_res c) (f (cl_links c)) else c) cs.
Definition drop_live (i : N) (ts : list tres) : list tres := filter (fun t => negb (t_id t =? i)) ts.

Inductive col_op :=
| NewResource (t : tres)
| NewCollection (t : tres)
| AddLink (c : N) (l : link)
| RemoveLink (c i : N)
| DeleteResource (t : tres)
| DeleteCollection (i : N).

(** oc_ri_add_resource, oc_collection_add, oc_collection_add_link, oc_collection_remove_link, ri_delete_resource
    (api/oc_ri.c:549-625; the resource is not one made by a factory) and collection_free
    (api/oc_collection.c:118-141) *)
Definition col_step (w : world) (o : col_op) : world :=
  match o with
  | NewResource t => mkWorld (w_cols w) (w_live w ++ [t])
  | NewCollection t => mkWorld (w_cols w ++ [mkColl (t_res t) []]) (w_live w ++ [t])
  | AddLink c l => mkWorld (on_col c (add_link l) (w_cols w)) (w_live w)
  | RemoveLink c i => mkWorld (on_col c (remove_link i) (w_cols w)) (w_live w)
  | DeleteResource t => mkWorld (map (unlink_one t) (w_cols w)) (drop_live (t_id t) (w_live w))
  | DeleteCollection i => mkWorld (filter (fun c => negb (cl_id c =? i)) (w_cols w)) (drop_live i (w_live w))
  end.
Definition col_run (ops : list col_op) : world := fold_left col_step ops (mkWorld [] []).

(** * The URI of a created resource *)

Definition LONG_MAX : Z := 9223372036854775807.
(** strtol with base 10 on a text without NUL, and api/oc_resource_factory.c:103-107: [None] when the text is not
    wholly a number or the number does not fit (a long has 64 bits) *)
Definition link_index (s : list N) : option Z :=
  let s1 := skipn (List.length (span is_space s)) s in
  let '(neg, s2) := match s1 with
                    | 45 :: r => (true, r)
                    | 43 :: r => (false, r)
                    | _ => (false, s1)
                    end in
  match span is_digit s2 with
  | [] => None
  | d => if (List.length d <? List.length s2)%nat then None
         else
           let v := if neg then (- Z.of_N (dval d))%Z else Z.of_N (dval d) in
           if (LONG_MAX <=? v)%Z || (v <=? - LONG_MAX - 1)%Z then None else Some v
  end.

Fixpoint starts_with (p s : list N) : option (list N) :=
  match p, s with
  | [], _ => Some s
  | x :: p', y :: s' => if x =? y then starts_with p' s' else None
  | _ :: _, [] => None
  end.

(** api/oc_resource_factory.c:82-118 *)
Fixpoint index_loop (cu : list N) (ls : list link) (index : N) : N :=
  match ls with
  | [] => index
  | l :: r =>
    match starts_with (cu ++ [47]) (ln_uri l) with
    | None => index_loop cu r index
    | Some [] => index_loop cu r index
    | Some s =>
      match link_index s with
      | None => index_loop cu r index
      | Some v => if negb (v =? Z.of_N index)%Z then index
                  else if index =? 4294967295 then 0
                  else index_loop cu r (index + 1)
      end
    end
  end.
(** api/oc_resource_factory.c:69-121, find_collection_unique_instance_index *)
Definition unique_index (cu : list N) (ls : list link) : N :=
  match cu with
  | [] => 0
  | _ => if (62 <=? List.length cu)%nat then 0 else index_loop cu ls 1
  end.
(** api/oc_resource_factory.c:137-168, get_collection_instance_uri with a buffer of 64 bytes (line 183); the index is
    printed with %d, so above 2^31 - 1 as a negative number.  [None]: a random URI is made (line 187). *)
Definition instance_uri (cu : list N) (ls : list link) : option (list N) :=
  let i := unique_index cu ls in
  if i =? 0 then None
  else
    let d := if i <? 2147483648 then dec i else 45 :: dec (4294967296 - i) in
    if (64 <? List.length cu + 1 + List.length d + 1)%nat then None
    else Some (cu ++ [47] ++ d).

(** * The filter by resource type *)

(** api/oc_core_res.c:813-837, oc_filter_resource_by_rt; [None]: not enough fuel *)
Fixpoint rt_loop (fuel : nat) (types : list (list N)) (query : list N) (it : nat) (matched : bool) : option bool :=
  match fuel with
  | O => None
  | S f =>
    match get_values (S (List.length query)) query [114; 116] it with
    | None => None
    | Some (it', r, more) =>
      match r with
      | Some (Some (c :: v)) =>
        if existsb (list_eqb (c :: v)) types then Some true
        else if more then rt_loop f types query it' false else Some false
      | _ => if more then rt_loop f types query it' matched else Some matched
      end
    end
  end.
Definition filter_rt (types : list (list N)) (query : list N) : option bool :=
  rt_loop (S (List.length query)) types query 0 true.

(** * Requests to a collection *)

(** the payload of a batch request (api/oc_collection.c:951-988): the entries of the outer array; of an entry that is
    an object, the attributes that are texts and objects in their order, with their names [k] *)
Inductive attr := AText (k s : list N) | AObject (k p : list N) | AOther.
Inductive entry := EObject (a : list attr) | EOther.

(** what the application and the access control do: whether the origin may use the method on the resource (true for
    requests of the server itself, api/oc_collection.c:870-873), the answer of a handler (the CoAP code it sets, 0 when
    none, and what it writes), the set_props callback of a collection (None: not set) and the creation of a resource *)
Record env := mkEnv {
  e_acl : N -> res -> bool;
  e_app : res -> N -> N -> option (list N) -> N * option (list N);
  e_props : res -> option bool;
  e_create : res -> N -> bool
}.

Inductive event :=
| Handler (r : res) (m iface : N) (p : option (list N))
| SetProps (r : res) (p : list entry)
| Create (r : res) (m : N).

(** what is written: the items of a batch with their href, the links of a link list or of the baseline interface *)
Inductive rep := REmpty | RApp (s : list N) | RNone | RLinks (ls : list tres) | RBaseline (ls : list tres)
| RBatch (items : list (list N * rep)).

Inductive result :=
| Fuel
| Refused (evs : list event)                     (* oc_handle_collection_request returns false *)
| Answer (status : N) (evs : list event) (out : rep).

(** collection_batch_request_process_links returns *)
Inductive lresult :=
| LFuel
| LRefused (evs : list event)
| LDone (ecode pcode : N) (evs : list event) (items : list (list N * rep)).

Definition is_get_delete (m : N) : bool := (m =? GET) || (m =? DELETE).

(** api/oc_collection.c:837-849: the link takes part *)
Definition selected (m : N) (query : list N) (href : list N) (notify : option N) (l : link) : bool :=
  (match notify with None => true | Some i => ln_res l =? i end) &&
  (match filter_rt (t_types (ln_to l)) query with Some b => b | None => false end) &&
  (is_get_delete m || match href with [] => true | _ => list_eqb href (ln_uri l) end).

(** api/oc_collection.c:835-913; [sub] is oc_handle_collection_request for a linked collection, [self] the collection.
    An entry dropped at line 895 leaves what its handler wrote outside the reply. *)
Fixpoint links_loop (sub : coll -> result) (e : env) (cols : list coll) (self : N) (m : N) (query href : list N)
  (p : option (list N)) (notify : option N) (ls : list link) (ecode pcode : N) (evs : list event)
  (items : list (list N * rep)) : lresult :=
  match ls with
  | [] => LDone ecode pcode evs items
  | l :: r =>
    let go := links_loop sub e cols self m query href p notify r in
    let u := ln_uri l in
    let t := t_res (ln_to l) in
    if negb (selected m query href notify l) then go ecode pcode evs items
    else if negb (e_acl e m t) then go 131 pcode evs (items ++ [(u, REmpty)])
    else
      match (if r_id t =? self then None else find (fun c => cl_id c =? r_id t) cols) with
      | Some c =>
        match sub c with
        | Fuel => LFuel
        | Refused ev => LRefused (evs ++ ev)
        | Answer _ ev out => go ecode 0 (evs ++ ev) (items ++ [(u, match out with RNone => REmpty | _ => out end)])
        end
      | None =>
        if negb (has_handler t m) then go 133 pcode evs items
        else
          let i := if r_id t =? self then IF_BASELINE else r_def t in
          let (code, w) := e_app e t m i p in
          let ev := evs ++ [Handler t m i p] in
          let it := items ++ [(u, match w with Some s => RApp s | None => REmpty end)] in
          if code <? 128 then go ecode code ev it else go code pcode ev it
      end
  end.

(** api/oc_collection.c:957-971: the last text is the href (in each entry anew), the last object the payload,
    whatever their names *)
Definition scan_attr (s : option (list N) * option (list N)) (a : attr) :=
  match a with
  | AText _ h => (Some h, snd s)
  | AObject _ p => (fst s, Some p)
  | AOther => s
  end.
(** api/oc_collection.c:951-990 *)
Fixpoint entries_loop (run : list N -> option (list N) -> list event -> list (list N * rep) -> lresult)
  (es : list entry) (p : option (list N)) (ecode pcode : N) (evs : list event) (items : list (list N * rep)) : lresult :=
  match es with
  | [] => LDone ecode pcode evs items
  | EOther :: _ => LDone 128 pcode evs items
  | EObject a :: r =>
    let (h, p') := fold_left scan_attr a (None, p) in
    match h with
    | None | Some [] => LDone 128 pcode evs items
    | Some href =>
      match run href p' evs items with
      | LFuel => LFuel
      | LRefused ev => LRefused ev
      | LDone ec pc ev it => entries_loop run r p' ec pc ev it
      end
    end
  end.

(** api/oc_collection.c:997-1013, collection_method_success_code *)
Definition success_status (m iface : N) : N :=
  if m =? GET then 0
  else if (m =? POST) || (m =? PUT) then (if iface =? IF_CREATE then 1 else 2)
  else if m =? DELETE then 3 else 5.

(** api/oc_collection.c:1015-1090, oc_handle_collection_request, with the four interfaces (lines 424-563, 671-790 and
    922-995); [es] is the payload and [query] the query of the request.  A representation larger than the buffer
    (lines 1062-1068) and the notifications (1078-1087) are not modelled. *)
Fixpoint handle (fuel : nat) (e : env) (cols : list coll) (m : N) (query : list N) (es : list entry)
  (notify : option N) (iface : N) (c : coll) : result :=
  match fuel with
  | O => Fuel
  | S f =>
    let finish ecode pcode evs out :=
      Answer (if (ecode <? 128) && (pcode <? 128) then success_status m iface else 5) evs out in
    let shown := map ln_to (filter (fun l => match filter_rt (t_types (ln_to l)) query with Some b => b | None => false end)
                                   (cl_links c)) in
    if iface =? IF_CREATE then
      if e_create e (cl_res c) m then finish 69 69 [Create (cl_res c) m] RNone
      else finish 128 128 [Create (cl_res c) m] RNone
    else if iface =? IF_BASELINE then
      if (m =? PUT) || (m =? POST) then
        match e_props e (cl_res c) with
        | None => Refused []
        | Some ok => let ev := [SetProps (cl_res c) es] in
                     if ok then finish 69 128 ev RNone else Refused ev
        end
      else if m =? GET then finish 69 69 [] (RBaseline shown)
      else finish 69 128 [] RNone
    else if iface =? IF_LL then finish 69 69 [] (RLinks shown)
    else if iface =? IF_B then
      let sub c' := handle f e cols m query es None (r_def (cl_res c')) c' in
      let run href p evs items :=
        links_loop sub e cols (cl_id c) m query href p notify (cl_links c) 69 128 evs items in
      match (if is_get_delete m then run [] None [] [] else entries_loop run es None 69 128 [] []) with
      | LFuel => Fuel
      | LRefused ev => Refused ev
      | LDone ec pc ev items => finish ec pc ev (RBatch items)
      end
    else finish 69 128 [] RNone
  end.
