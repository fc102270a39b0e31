(** C19: query parameters (api/oc_query.c). *)
From Verif Require Import Common Query_Model Query_Spec Query_Proofs Query2_Proofs.
From Coq Require Import String.
Local Open Scope nat_scope.

(** Looking up a key returns the value of its first occurrence (letter case ignored), and the
    existence test agrees. *)
Theorem C19_query_lookup :
  forall ps k r,
    Forall wf_pair ps -> List.length k <= 255 -> first_match k ps r ->
    get_query_value (render ps) k = match r with None => NotFound | Some v => Found v end /\
    query_exists (render ps) k = Some (match r with None => false | Some _ => true end).
Proof. exact get_query_value_spec. Qed.
Print Assumptions C19_query_lookup.

(** [first_match] always has an answer, so the theorem covers every key. *)
Theorem C19_query_lookup_total : forall k ps, exists r, first_match k ps r.
Proof. exact first_match_total. Qed.
Print Assumptions C19_query_lookup_total.

(** Iterating visits all pairs in order and then stops. *)
Theorem C19_query_iteration :
  forall ps n, Forall wf_pair ps ->
    match nth_error ps n with
    | Some p => exists np, snd (iterate (render ps) n) = Some {| key := fst p; value := snd p; next_pos := np |}
    | None => snd (iterate (render ps) n) = None
    end.
Proof. exact nth_key_value_spec. Qed.
Print Assumptions C19_query_iteration.

(** The returned position is the start of the next pair ... *)
Theorem C19_query_next_position_partial :
  (* missing: pairs after the first that have no value, see C19_query_next_position_refuted *)
  forall ps n p, Forall wf_pair ps -> nth_error ps n = Some p ->
    (snd p <> None \/ n = 0) -> skipn (S n) ps <> [] ->
    exists kv, nth_key_value (render ps) (S n) = Some kv /\
               skipn (next_pos kv) (render ps) = render (skipn (S n) ps).
Proof. exact next_pos_correct. Qed.
Print Assumptions C19_query_next_position_partial.

Definition ps1 : list pair := [(str "rt", Some (str "oic.r.a=b")); (str "secure", None); (str "if", Some [])].
Example C19_query_case :
  render ps1 = str "rt=oic.r.a=b&secure&if=" /\ Forall wf_pair ps1 /\
  get_query_value (render ps1) (str "IF") = Found (Some []) /\
  get_query_value (render ps1) (str "r") = NotFound /\
  nth_key_value (render ps1) 2 = Some {| key := str "secure"; value := None; next_pos := 7 |}.
Proof.
  split; [vm_compute; reflexivity|]. split.
  { repeat constructor; cbn; try discriminate; intuition (try discriminate). }
  repeat split; vm_compute; reflexivity.
Qed.

(** ... but not for a later pair without value (api/oc_query.c:153-155 counts from the key). *)
Theorem C19_query_next_position_refuted :
  exists ps n p kv,
    Forall wf_pair ps /\ nth_error ps n = Some p /\ skipn (S n) ps <> [] /\
    nth_key_value (render ps) (S n) = Some kv /\
    skipn (next_pos kv) (render ps) <> render (skipn (S n) ps).
Proof.
  exists ps1, 1, (str "secure", None), {| key := str "secure"; value := None; next_pos := 7 |}.
  split; [apply C19_query_case|]. repeat split; try (vm_compute; reflexivity); vm_compute; discriminate.
Qed.
Print Assumptions C19_query_next_position_refuted.

(** C19: looking for the next value of a key, from any position of the iteration, finds the first
    remaining pair with exactly that key (letter case counts here), reports its value, and moves the
    iteration just behind it; when there is none the iteration is finished. *)
Theorem C19_query_next_value :
  forall ps k it r, Forall wf_pair ps -> next_value k (skipn it ps) r ->
    exists more, get_values (S (List.length (render ps))) (render ps) k it =
      match r with
      | None => Some (S (it + List.length (skipn it ps)), None, false)
      | Some (n, v) => Some (it + n, Some v, more)
      end.
Proof. exact iterate_by_key. Qed.
Print Assumptions C19_query_next_value.

Example C19_query_next_value_case :
  let ps := [(str "x", Some (str "1")); (str "X", Some (str "2")); (str "x", Some (str "3"))] in
  Forall wf_pair ps /\ next_value (str "x") (skipn 1 ps) (Some (2, Some (str "3"))) /\
  get_values 12 (render ps) (str "x") 1 = Some (3, Some (Some (str "3")), false).
Proof.
  split. { repeat constructor; cbn; try discriminate; intuition (try discriminate). }
  split; [|vm_compute; reflexivity].
  apply (nv_next _ (str "X", Some (str "2")) [(str "x", Some (str "3"))] (Some (1, Some (str "3")))); [discriminate|].
  apply nv_here. reflexivity.
Qed.

(** The loop documented for oc_iterate_query_get_values_v1 reports a value that occurs once twice,
    when another parameter follows. *)
Theorem C19_query_documented_loop_refuted :
  exists ps k v,
    Forall wf_pair ps /\ first_match k ps (Some (Some v)) /\
    List.length (filter (fun p => list_eqb (fst p) k) ps) = 1 /\
    documented_loop 5 (render ps) k 0 None = Some [v; v].
Proof.
  exists [(str "x", Some (str "1")); (str "y", Some (str "2"))], (str "x"), (str "1").
  split. { repeat constructor; cbn; try discriminate; intuition (try discriminate). }
  split. { apply (fm_here _ (str "x", Some (str "1"))). apply ieq_spec. vm_compute. reflexivity. }
  split; vm_compute; reflexivity.
Qed.
Print Assumptions C19_query_documented_loop_refuted.
