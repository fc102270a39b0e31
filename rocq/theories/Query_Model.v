(** Model of the query helpers in api/oc_query.c.  A query is a byte list; a pointer into the query
    is represented by the suffix it points to (and an offset where a position is returned). *)
From Verif Require Import Common.
Local Open Scope nat_scope.

(** memchr *)
Fixpoint find_char (c : N) (s : list N) : option nat :=
  match s with
  | [] => None
  | x :: r => if (x =? c)%N then Some 0 else option_map S (find_char c r)
  end.

(** api/oc_query.c:107-128: key and value of the pair starting at the suffix [s]:
    (key_len, value_len if the key has a value). *)
Definition pair_at (s : list N) : nat * option nat :=
  match find_char 61 s, find_char 38 s with
  | None, None => (length s, None)
  | None, Some a => (a, None)
  | Some e, None => (e, Some (length s - (e + 1)))
  | Some e, Some a => if a <? e then (a, None) else (e, Some (a - (e + 1)))
  end.

(** api/oc_query.c:94-106: skip n-1 separators; result: offset of the pair and its suffix. *)
Fixpoint skip_pairs (n : nat) (off : nat) (s : list N) : option (nat * list N) :=
  match n with
  | O => Some (off, s)
  | S n' => match find_char 38 s with
            | None => None
            | Some a => skip_pairs n' (off + a + 1) (skipn (a + 1) s)
            end
  end.

Record kv := { key : list N; value : option (list N); next_pos : nat }.

(** the key, value and returned position for the pair at offset [off], suffix [s];
    [api/oc_query.c:146-160]: next_pos is counted from the query start when there is a value and from
    the key start otherwise. *)
Definition mk_kv (off : nat) (s : list N) : kv :=
  let (kl, vl) := pair_at s in
  {| key := firstn kl s;
     value := option_map (fun l => firstn l (skipn (kl + 1) s)) vl;
     next_pos := match vl with Some l => off + kl + 1 + l + 1 | None => kl + 1 end |}.

(** api/oc_query.c:132-163, oc_ri_get_query_nth_key_value; [None] is -1; n > 0. *)
Definition nth_key_value (query : list N) (n : nat) : option kv :=
  match query with
  | [] => None
  | _ => match skip_pairs (n - 1) 0 query with
         | None => None
         | Some (off, s) => Some (mk_kv off s)
         end
  end.

(** tolower, C locale; strncasecmp on strings of equal length without NUL *)
Definition lower (c : N) : N := if ((65 <=? c) && (c <=? 90))%N then (c + 32)%N else c.
Definition ieq (a b : list N) : bool := list_eqb (map lower a) (map lower b).

(** api/oc_query.c:165-199, oc_ri_get_query_value_v1: [None] = -1; [Some v]: the value slice
    (None: NULL pointer, length 0).  [fuel] bounds the loop; [Some] of running out is excluded by
    fuel > length (lemma lookup_fuel). *)
Inductive found := NotFound | OutOfFuel | Found (v : option (list N)).
Fixpoint lookup_loop (fuel : nat) (s : list N) (k : list N) : found :=
  match s with
  | [] => NotFound
  | _ =>
    match fuel with
    | O => OutOfFuel
    | S f =>
      match nth_key_value s 1 with
      | None => NotFound
      | Some p =>
        if Nat.eqb (length (key p)) (length k) && ieq k (key p) then Found (value p)
        else lookup_loop f (skipn (next_pos p) s) k
      end
    end
  end.
Definition get_query_value (query k : list N) : found :=
  if 255 <? length k then NotFound else lookup_loop (S (length query)) query k.

(** api/oc_query.c:236-261, oc_ri_query_exists_v1 with oc_ri_query_nth_key_exists (210-234), whose
    position is one less at the end of the query. *)
Fixpoint exists_loop (fuel : nat) (s : list N) (k : list N) : option bool :=
  match s with
  | [] => Some false
  | _ =>
    match fuel with
    | O => None
    | S f =>
      match nth_key_value s 1 with
      | None => Some false
      | Some p =>
        if Nat.eqb (length (key p)) (length k) && ieq k (key p) then Some true
        else
          let np := next_pos p - 1 in
          exists_loop f (skipn (if np <? length s then np + 1 else np) s) k
      end
    end
  end.
Definition query_exists (query k : list N) : option bool :=
  if 255 <? length k then Some false else exists_loop (S (length query)) query k.

(** api/oc_query.c:278-308: oc_iterate_query and oc_iterate_query_get_values_v1.  [it] is
    g_query_iterator; result: new iterator, the value if found, the "more" result. *)
Definition iterate (query : list N) (it : nat) : nat * option kv := (S it, nth_key_value query (S it)).

Fixpoint get_values (fuel : nat) (query k : list N) (it : nat) : option (nat * option (option (list N)) * bool) :=
  match fuel with
  | O => None
  | S f =>
    match iterate query it with
    | (it', None) => Some (it', None, false)
    | (it', Some p) =>
      if Nat.eqb (length k) (length (key p)) && list_eqb k (key p)
      then Some (it', Some (value p), next_pos p <? length query)
      else get_values f query k it'
    end
  end.

(** The loop documented in include/oc_api.h:1400-1412: value and value_len keep their previous content
    when a call finds nothing; each round with value_len > 0 reports the value.
    [cur] is (value, value_len) before the round, None for value_len = -1. *)
Fixpoint documented_loop (fuel : nat) (query k : list N) (it : nat) (cur : option (list N))
  : option (list (list N)) :=
  match fuel with
  | O => None
  | S f =>
    match get_values (S (length query)) query k it with
    | None => None
    | Some (it', r, more) =>
      let cur' := match r with Some (Some v) => Some v | Some None => Some [] | None => cur end in
      let report := match cur' with Some (c :: v) => [c :: v] | _ => [] end in
      if more then option_map (app report) (documented_loop f query k it' cur') else Some report
    end
  end.
