(** What is expected of collections, links and batch requests. *)
From Verif Require Import Common Query_Spec Ri_Model Col_Model.
From Coq Require Import String ZArith Sorting.Sorted.
Local Open Scope list_scope.
Local Open Scope N_scope.

(** * Order of the links *)

(** the first differing character decides, a proper beginning comes first *)
Inductive lex : list N -> list N -> Prop :=
| lex_nil y b : lex [] (y :: b)
| lex_char x y a b : x < y -> lex (x :: a) (y :: b)
| lex_next x a b : lex a b -> lex (x :: a) (x :: b).

(** shorter URIs first, URIs of the same length in the order of their characters *)
Definition href_lt (u v : list N) : Prop :=
  (List.length u < List.length v)%nat \/ (List.length u = List.length v /\ lex u v).
Definition in_order (ls : list link) : Prop := StronglySorted (fun a b => ~ href_lt (ln_uri b) (ln_uri a)) ls.

(** * Dangling links *)

Definition no_dangling (w : world) : Prop :=
  forall c l, In c (w_cols w) -> In l (cl_links c) -> In (ln_to l) (w_live w).

(** an application that keeps to these rules: addresses of resources are fresh and, apart from leading slashes, URIs
    are unique on a device; a link is made to a living resource of the collection's device, at most one in a
    collection; a resource deleted is alive and not a collection; a collection is deleted when no other collection
    links it *)
Definition same_place (a b : tres) : Prop := t_dev a = t_dev b /\ strip (t_uri a) = strip (t_uri b).
Definition is_new (w : world) (t : tres) : Prop :=
  t_uri t <> [] /\ forall t', In t' (w_live w) -> t_id t' <> t_id t /\ ~ same_place t' t.
Definition keeps_rules (w : world) (o : col_op) : Prop :=
  match o with
  | NewResource t => is_new w t
  | NewCollection t => is_new w t
  | AddLink c l =>
    In (ln_to l) (w_live w) /\
    forall k, In k (w_cols w) -> (forall l', In l' (cl_links k) -> ln_id l' <> ln_id l) /\
      (cl_id k = c -> r_dev (cl_res k) = t_dev (ln_to l) /\ forall l', In l' (cl_links k) -> ln_res l' <> ln_res l)
  | RemoveLink _ _ => True
  | DeleteResource t => In t (w_live w) /\ forall k, In k (w_cols w) -> cl_id k <> t_id t
  | DeleteCollection i => forall k l, In k (w_cols w) -> cl_id k <> i -> In l (cl_links k) -> ln_res l <> i
  end.
Inductive ruled : world -> list col_op -> world -> Prop :=
| ruled_nil w : ruled w [] w
| ruled_cons w o ops w' : keeps_rules w o -> ruled (col_step w o) ops w' -> ruled w (o :: ops) w'.

(** * URIs of created resources *)

(** a text of decimal digits without a leading zero, and its value *)
Definition digit_text (s : list N) : Prop := s <> [] /\ Forall (fun c => 48 <= c <= 57) s.
Definition plain_number (s : list N) : Prop := digit_text s /\ hd 0 s <> 48.
Fixpoint value_of (s : list N) : N :=
  match s with [] => 0 | c :: r => (c - 48) * 10 ^ N.of_nat (List.length r) + value_of r end.
Definition child (cu s : list N) : list N := cu ++ [47] ++ s.
(** a number as strtol reads it: white space, a sign or none, digits *)
Definition numeral (s : list N) : Prop := exists sp sg d, s = sp ++ sg ++ d /\ Forall (fun c => c = 32 \/ 9 <= c <= 13) sp /\ (sg = [] \/ sg = [43] \/ sg = [45]) /\ digit_text d.
(** what follows the collection's URI and a slash is either no number or one as the server makes them *)
Definition tidy (cu : list N) (ls : list link) : Prop :=
  forall l s, In l ls -> ln_uri l = child cu s -> ~ numeral s \/ plain_number s.
Definition distinct_uris (ls : list link) : Prop := NoDup (map ln_uri ls).

(** * The filter by type *)

(** the non-empty values given for rt in the query *)
Fixpoint rt_values (ps : list Query_Spec.pair) : list (list N) :=
  match ps with
  | [] => []
  | (k, v) :: r =>
    (if list_eqb k [114; 116] then match v with Some (c :: s) => [c :: s] | _ => [] end else []) ++ rt_values r
  end.
Definition wanted (types : list (list N)) (ps : list Query_Spec.pair) : Prop :=
  rt_values ps = [] \/ exists v, In v (rt_values ps) /\ In v types.

(** * Batch requests *)

Definition allowed_event (e : env) (m : N) (ev : event) : Prop :=
  match ev with
  | Handler r m' _ _ => m' = m /\ e_acl e m r = true /\ has_handler r m = true
  | SetProps r _ => e_acl e m r = true
  | Create r _ => e_acl e m r = true
  end.

(** no linked resource is another collection *)
Definition flat (cols : list coll) (c : coll) : Prop :=
  forall l k, In l (cl_links c) -> In k cols -> ln_res l = cl_id k -> ln_res l = cl_id c.

(** what happens to one link: refused, without handler, or answered with a code and a representation *)
Inductive fate := Forbidden | NoHandler | Answered (code : N) (w : option (list N)).
Definition iface_for (c : coll) (l : link) : N := if ln_res l =? cl_id c then IF_BASELINE else r_def (t_res (ln_to l)).
Definition fate_of (e : env) (m : N) (c : coll) (p : option (list N)) (l : link) : fate :=
  if e_acl e m (t_res (ln_to l)) then
    if has_handler (t_res (ln_to l)) m then
      let (code, w) := e_app e (t_res (ln_to l)) m (iface_for c l) p in Answered code w
    else NoHandler
  else Forbidden.
Definition good (f : fate) : bool := match f with Answered code _ => code <? 128 | _ => false end.
Definition event_of (e : env) (m : N) (c : coll) (p : option (list N)) (l : link) : list event :=
  match fate_of e m c p l with
  | Answered _ _ => [Handler (t_res (ln_to l)) m (iface_for c l) p]
  | _ => []
  end.
Definition item_of (e : env) (m : N) (c : coll) (p : option (list N)) (l : link) : list (list N * rep) :=
  match fate_of e m c p l with
  | Answered _ (Some s) => [(ln_uri l, RApp s)]
  | Answered _ None => [(ln_uri l, REmpty)]
  | Forbidden => [(ln_uri l, REmpty)]
  | NoHandler => []
  end.

(** entries as the interface asks for them: one href, not empty, and one representation *)
Definition HREF : list N := [104; 114; 101; 102].
Definition REP : list N := [114; 101; 112].
Definition proper (x : list N * list N) : list entry :=
  [EObject [AText HREF (fst x); AObject REP (snd x)]].

(** an entry that says of no resource what to do: no object, or an object whose last text is absent or empty *)
Definition hopeless (x : entry) : Prop :=
  match x with
  | EObject a => (forall k s, ~ In (AText k s) a) \/ (exists k before after, a = before ++ AText k [] :: after /\ forall k' s, ~ In (AText k' s) after)
  | EOther => True
  end.

(** collections linked from a collection rank below it *)
Definition ranked (cols : list coll) (rank : N -> nat) : Prop :=
  forall c l k, In c cols -> In l (cl_links c) -> In k cols -> ln_res l = cl_id k -> ln_res l <> cl_id c ->
    (rank (cl_id k) < rank (cl_id c))%nat.

(** the address of a resource tells which one it is *)
Definition coherent (cols : list coll) (c : coll) : Prop :=
  forall l k, In l (cl_links c) -> In k cols -> ln_res l = cl_id k -> t_res (ln_to l) = cl_res k.

(** the links of a collection a request is about: wanted by the query, with the href of the entry, and, for a
    notification, to the resource that changed *)
Definition concerns (m : N) (ps : list Query_Spec.pair) (href : list N) (notify : option N) (l : link) : Prop :=
  wanted (t_types (ln_to l)) ps /\ (forall i, notify = Some i -> ln_res l = i) /\
  (m = GET \/ m = DELETE \/ ln_uri l = href).
Definition picks (m : N) (ps : list Query_Spec.pair) (href : list N) (notify : option N) (pick : link -> bool) : Prop :=
  forall l, pick l = true <-> concerns m ps href notify l.
