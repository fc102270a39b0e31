(** The list of server addresses of a client (util/oc_endpoint_address.c), with one of them selected. *)
From Verif Require Import Common.
Local Open Scope N_scope.

(** oc_endpoint_address_metadata_t (util/oc_endpoint_address_internal.h): a UUID or a name that may be NULL. *)
Inductive meta : Type := MUuid (u : list N) | MName (n : option (list N)).

(** oc_endpoint_address_t; [a_ptr] stands for the address of the pool slot. *)
Record ea : Type := mk_ea { a_ptr : N; a_uri : list N; a_meta : meta }.

(** oc_endpoint_addresses_t: the list in order, the pointer [selected], and what the change callback saw as selected URI at
    each of its calls (oldest first). *)
Record eas : Type := mk_eas { l_items : list ea; l_sel : option N; l_log : list (option (list N)) }.

(** OC_ENDPOINT_MAX_ENDPOINT_URI_LENGTH (util/oc_endpoint_address.h:40, include/oc_helpers.h:190): 128 with dynamic
    allocation. *)
Definition uri_max : nat := 128.
(** endpoint_address_is_valid (129-133). *)
Definition uri_valid (u : list N) : bool := ((0 <? List.length u) && (List.length u <? uri_max))%nat.

Definition opt_eqb (a b : option N) : bool :=
  match a, b with Some x, Some y => x =? y | None, None => true | _, _ => false end.

(** endpoint_address_select (135-147). The callback is taken to be set and not to change the list itself. *)
Definition select_ (s : eas) (e : option ea) : eas * bool :=
  if opt_eqb (l_sel s) (option_map a_ptr e) then (s, false)
  else (mk_eas (l_items s) (option_map a_ptr e) (l_log s ++ [option_map a_uri e]), true).

Definition set_items (s : eas) (l : list ea) : eas := mk_eas l (l_sel s) (l_log s).

(** endpoint_address_allocate_and_add (167-201). [mem] is the slot the pool hands out, [None] when it or a string cannot be
    allocated. *)
Definition alloc_add (s : eas) (u : list N) (m : meta) (mem : option N) : eas * option ea :=
  if negb (uri_valid u) then (s, None)
  else match mem with
       | None => (s, None)
       | Some p =>
           let e := mk_ea p u m in
           let s1 := match l_sel s with None => fst (select_ s (Some e)) | Some _ => s end in
           (set_items s1 (l_items s1 ++ [e]), Some e)
       end.

(** oc_endpoint_addresses_init (203-227) on zeroed memory: a default address is optional. *)
Definition init (log : list (option (list N))) (u : list N) (m : meta) (mem : option N) : eas * bool :=
  let s := mk_eas [] None log in
  match u with
  | [] => (s, true)
  | _ => match alloc_add s u m mem with (s', Some _) => (s', true) | (s', None) => (s', false) end
  end.

(** oc_endpoint_addresses_deinit (238-250): frees everything without telling the callback. *)
Definition deinit (s : eas) : eas := mk_eas [] None (l_log s).
(** oc_endpoint_addresses_reinit (252-260). *)
Definition reinit (s : eas) (u : list N) (m : meta) (mem : option N) : eas * bool := init (l_log (deinit s)) u m mem.

(** oc_endpoint_addresses_contains (289-305) and oc_endpoint_addresses_find (408-418). *)
Definition contains (s : eas) (u : list N) : bool := existsb (fun e => list_eqb (a_uri e) u) (l_items s).
Definition find_uri (s : eas) (u : list N) : option ea := find (fun e => list_eqb (a_uri e) u) (l_items s).

(** oc_endpoint_addresses_add (307-322). *)
Definition add (s : eas) (u : list N) (m : meta) (mem : option N) : eas * option ea :=
  if negb (uri_valid u) then (s, None)
  else if contains s u then (s, None)
  else alloc_add s u m mem.

(** The member [next] of the list item at [p]. *)
Fixpoint next_of (p : N) (l : list ea) : option ea :=
  match l with [] => None | e :: r => if a_ptr e =? p then hd_error r else next_of p r end.
(** endpoint_address_next (324-332). *)
Definition next_or_head (l : list ea) (n : option ea) : option ea := match n with Some e => Some e | None => hd_error l end.
(** oc_list_remove2 (util/oc_list.c:149-161). *)
Fixpoint unlink (p : N) (l : list ea) : list ea :=
  match l with [] => [] | e :: r => if a_ptr e =? p then r else e :: unlink p r end.
Definition has (p : N) (l : list ea) : bool := existsb (fun e => a_ptr e =? p) l.

(** oc_endpoint_addresses_remove (334-349). *)
Definition remove_ (s : eas) (p : N) : eas * bool :=
  let n := next_of p (l_items s) in
  if negb (has p (l_items s)) then (s, false)
  else
    let s1 := set_items s (unlink p (l_items s)) in
    (if opt_eqb (l_sel s) (Some p) then fst (select_ s1 (next_or_head (l_items s1) n)) else s1, true).

(** oc_endpoint_addresses_remove_by_uri (351-360). *)
Definition remove_uri (s : eas) (u : list N) : eas * bool :=
  match find_uri s u with None => (s, false) | Some e => remove_ s (a_ptr e) end.

(** oc_endpoint_addresses_clear (362-371). *)
Definition clear (s : eas) : eas := fst (select_ (set_items s []) None).

Definition find_ptr (p : N) (l : list ea) : option ea := find (fun e => a_ptr e =? p) l.

(** oc_endpoint_addresses_select (420-429). *)
Definition select (s : eas) (p : N) : eas * bool :=
  match find_ptr p (l_items s) with None => (s, false) | Some e => (fst (select_ s (Some e)), true) end.
(** oc_endpoint_addresses_select_by_uri (431-441). *)
Definition select_uri (s : eas) (u : list N) : eas * bool :=
  match find_uri s u with None => (s, false) | Some e => (fst (select_ s (Some e)), true) end.
(** oc_endpoint_addresses_select_next (443-451). *)
Definition select_next (s : eas) : eas * bool :=
  match l_sel s with
  | None => (s, false)
  | Some p => select_ s (next_or_head (l_items s) (next_of p (l_items s)))
  end.

(** oc_endpoint_addresses_selected (461-465), oc_endpoint_addresses_selected_uri (467-474). *)
Definition selected (s : eas) : option ea := match l_sel s with None => None | Some p => find_ptr p (l_items s) end.
Definition selected_uri (s : eas) : option (list N) := option_map a_uri (selected s).
(** oc_endpoint_addresses_is_selected (453-459). *)
Definition is_selected (s : eas) (u : list N) : bool :=
  match selected s with Some e => list_eqb (a_uri e) u | None => false end.
(** oc_endpoint_addresses_selected_uuid (476-484). *)
Definition selected_uuid (s : eas) : option (list N) :=
  match selected s with Some e => match a_meta e with MUuid u => Some u | MName _ => None end | None => None end.

(** oc_endpoint_address_set_uuid, oc_endpoint_address_set_name (90-96, 107-118) on an address of the list. *)
Definition set_meta (s : eas) (p : N) (m : meta) : eas :=
  set_items s (map (fun e => if a_ptr e =? p then mk_ea (a_ptr e) (a_uri e) m else e) (l_items s)).

Inductive op : Type :=
| Add (u : list N) (m : meta) (mem : option N)
| RemoveP (p : N) | RemoveU (u : list N) | Clear
| SelectP (p : N) | SelectU (u : list N) | SelectNext
| SetMeta (p : N) (m : meta)
| Deinit | Reinit (u : list N) (m : meta) (mem : option N).

Definition step (s : eas) (o : op) : eas :=
  match o with
  | Add u m mem => fst (add s u m mem)
  | RemoveP p => fst (remove_ s p)
  | RemoveU u => fst (remove_uri s u)
  | Clear => clear s
  | SelectP p => fst (select s p)
  | SelectU u => fst (select_uri s u)
  | SelectNext => fst (select_next s)
  | SetMeta p m => set_meta s p m
  | Deinit => deinit s
  | Reinit u m mem => fst (reinit s u m mem)
  end.
