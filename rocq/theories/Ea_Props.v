(** Property C43: the list of server addresses. *)
From Verif Require Import Common Ea_Model Ea_Spec Ea_Proofs Ea2_Proofs.
Local Open Scope N_scope.

Theorem C43_one_selected_iff_not_empty s : reach s ->
  match selected s with None => l_items s = [] /\ l_sel s = None | Some e => In e (l_items s) end.
Proof. exact (one_selected s). Qed.

Theorem C43_addresses_distinct_and_valid s : reach s ->
  NoDup (map a_uri (l_items s)) /\ NoDup (map a_ptr (l_items s)) /\ forall e, In e (l_items s) -> a_uri e <> [] /\ (List.length (a_uri e) < 128)%nat.
Proof. exact (distinct_valid s). Qed.

Theorem C43_every_state_shows_a_ring s : reach s -> exists z, shows s z.
Proof. exact (shows_ex s). Qed.

Theorem C43_add_appends s z u m mem : reach s -> shows s z -> op_ok s (Add u m mem) ->
  (snd (add s u m mem) <> None <-> u <> [] /\ (List.length u < 128)%nat /\ ~ known z u /\ mem <> None) /\
  (snd (add s u m mem) <> None -> shows (fst (add s u m mem)) (r_add z (u, m))) /\
  (snd (add s u m mem) = None -> fst (add s u m mem) = s).
Proof. exact (add_refines s z u m mem). Qed.

Theorem C43_remove_by_uri_moves_on s z u : reach s -> shows s z ->
  (snd (remove_uri s u) = true <-> known z u) /\
  (snd (remove_uri s u) = true -> shows (fst (remove_uri s u)) (r_remove z u)) /\
  (snd (remove_uri s u) = false -> fst (remove_uri s u) = s).
Proof. exact (remove_refines s z u). Qed.

Theorem C43_remove_moves_on s z e : reach s -> shows s z -> In e (l_items s) ->
  snd (remove_ s (a_ptr e)) = true /\ shows (fst (remove_ s (a_ptr e))) (r_remove z (a_uri e)).
Proof. exact (removep_refines s z e). Qed.

Theorem C43_select_by_uri_moves_the_cursor s z u : reach s -> shows s z ->
  (snd (select_uri s u) = true <-> known z u) /\
  (snd (select_uri s u) = true -> exists z', shows (fst (select_uri s u)) z' /\ moved z z' u) /\
  (snd (select_uri s u) = false -> fst (select_uri s u) = s).
Proof. exact (select_refines s z u). Qed.

Theorem C43_select_moves_the_cursor s z e : reach s -> shows s z -> In e (l_items s) ->
  snd (select s (a_ptr e)) = true /\ exists z', shows (fst (select s (a_ptr e))) z' /\ moved z z' (a_uri e).
Proof. exact (selectp_refines s z e). Qed.

Theorem C43_foreign_address_changes_nothing s p : ~ In p (map a_ptr (l_items s)) -> remove_ s p = (s, false) /\ select s p = (s, false).
Proof. exact (stale_pointer s p). Qed.

Theorem C43_next_steps_around s z : reach s -> shows s z -> shows (fst (select_next s)) (r_next z).
Proof. exact (next_refines s z). Qed.

Theorem C43_clear_empties s : shows (clear s) None.
Proof. exact (clear_refines s). Qed.

(** As many steps as there are addresses visit each of them once, in list order from the selected one, and come back. *)
Theorem C43_tour_is_one_round s z : reach s -> shows s z ->
  match z with
  | None => True
  | Some (l, x, r) => tour (List.length (l_items s)) s = map (fun a => Some (fst a)) (r ++ l ++ [x])
  end.
Proof. exact (tour_all s z). Qed.

Theorem C43_tour_visits_all s u : reach s -> In u (map a_uri (l_items s)) -> In (Some u) (tour (List.length (l_items s)) s).
Proof. exact (tour_visits s u). Qed.

Theorem C43_callback_exactly_on_change s o : reach s -> op_ok s o -> (match o with Deinit | Reinit _ _ _ => False | _ => True end) ->
  (selected_uri (step s o) = selected_uri s -> l_log (step s o) = l_log s) /\
  (selected_uri (step s o) <> selected_uri s -> l_log (step s o) = l_log s ++ [selected_uri (step s o)]).
Proof. exact (callback_exact s o). Qed.

(** Reinitialising the list may drop the selection without a call, and call although the same address is selected. *)
Theorem C43_callback_on_reinit_refuted :
  (exists s o, reach s /\ selected_uri (step s o) <> selected_uri s /\ l_log (step s o) = l_log s) /\
  (exists s o, reach s /\ selected_uri (step s o) = selected_uri s /\ l_log (step s o) <> l_log s).
Proof.
  split.
  - exists (fst (init [] [97] (MName None) (Some 1))), (Reinit [] (MName None) None).
    split; [exact (Reach0 [97] (MName None) (Some 1) [])|]. split; [vm_compute; discriminate|reflexivity].
  - exists (fst (init [] [97] (MName None) (Some 1))), (Reinit [97] (MName None) (Some 1)).
    split; [exact (Reach0 [97] (MName None) (Some 1) [])|]. split; [reflexivity|vm_compute; discriminate].
Qed.

(** Three addresses, the middle one selected and then removed. *)
Definition s3 : eas := fold_left step [Add [98] (MName None) (Some 2); Add [99] (MUuid [1]) (Some 3); SelectNext] (fst (init [] [97] (MName None) (Some 1))).
Lemma s3_reach : reach s3.
Proof.
  unfold s3. cbn [fold_left]. apply ReachS; [apply ReachS; [apply ReachS; [apply Reach0|]|]|exact I]; vm_compute; intuition discriminate.
Qed.
Example C43_ex_shows : shows s3 (Some ([([97], MName None)], ([98], MName None), [([99], MUuid [1])])).
Proof. split; vm_compute; reflexivity. Qed.
Example C43_ex_remove : selected_uri (step s3 (RemoveU [98])) = Some [99] /\ l_log (step s3 (RemoveU [98])) = [Some [97]; Some [98]; Some [99]].
Proof. split; vm_compute; reflexivity. Qed.
Example C43_ex_remove_last : selected_uri (fold_left step [SelectNext; RemoveU [99]] s3) = Some [97].
Proof. vm_compute. reflexivity. Qed.
Example C43_ex_tour : tour 3 s3 = [Some [99]; Some [97]; Some [98]].
Proof. vm_compute. reflexivity. Qed.
Example C43_ex_duplicate : add s3 [97] (MName None) (Some 4) = (s3, None) /\ op_ok s3 (Add [100] (MName None) (Some 4)).
Proof. split; [vm_compute; reflexivity|vm_compute; intuition discriminate]. Qed.

Print Assumptions C43_one_selected_iff_not_empty.
Print Assumptions C43_addresses_distinct_and_valid.
Print Assumptions C43_every_state_shows_a_ring.
Print Assumptions C43_add_appends.
Print Assumptions C43_remove_by_uri_moves_on.
Print Assumptions C43_remove_moves_on.
Print Assumptions C43_select_by_uri_moves_the_cursor.
Print Assumptions C43_select_moves_the_cursor.
Print Assumptions C43_foreign_address_changes_nothing.
Print Assumptions C43_next_steps_around.
Print Assumptions C43_clear_empties.
Print Assumptions C43_tour_is_one_round.
Print Assumptions C43_tour_visits_all.
Print Assumptions C43_callback_exactly_on_change.
Print Assumptions C43_callback_on_reinit_refuted.
