From Verif Require Import Common Query_Model Query_Spec Query_Proofs.
From Coq Require Import Lia.

Lemma exact_cond k l : (Nat.eqb (length k) (length l) && list_eqb k l) = true <-> k = l.
Proof.
  rewrite andb_true_iff, list_eqb_spec. split; [tauto|]. intros ->. rewrite Nat.eqb_refl. auto.
Qed.

Lemma nth_skip {A} (l : list A) n p r : skipn n l = p :: r -> nth_error l n = Some p /\ skipn (S n) l = r.
Proof.
  revert l. induction n as [|n IH]; intros l H; [cbn [skipn] in H; subst l; split; reflexivity|].
  destruct l as [|a l]; [discriminate|]. exact (IH l H).
Qed.
Lemma nth_skip_nil {A} (l : list A) n : skipn n l = [] -> nth_error l n = None.
Proof. revert l. induction n as [|n IH]; intros [|a l] H; try reflexivity; [discriminate|exact (IH l H)]. Qed.

Lemma get_values_spec ps k : Forall wf_pair ps -> forall rest it r fuel, skipn it ps = rest -> next_value k rest r -> (List.length rest < fuel)%nat ->
  exists more, get_values fuel (render ps) k it =
    match r with
    | None => Some (S (it + List.length rest), None, false)
    | Some (n, v) => Some (it + n, Some v, more)
    end.
Proof.
  intros Hw. induction rest as [|p rest IH]; intros it r fuel Hsk Hn Hf; destruct fuel as [|fuel]; try (cbn [List.length] in Hf; lia).
  - inversion Hn; subst. exists false. cbn [get_values]. pose proof (nth_key_value_spec ps it Hw) as Hi. rewrite (nth_skip_nil ps it Hsk) in Hi.
    unfold iterate in *. cbn [snd] in Hi. rewrite Hi. cbn [List.length]. rewrite Nat.add_0_r. reflexivity.
  - destruct (nth_skip ps it p rest Hsk) as [Hnth Hsk']. pose proof (nth_key_value_spec ps it Hw) as Hi. rewrite Hnth in Hi. destruct Hi as [np Hi].
    cbn [get_values]. unfold iterate in *. cbn [snd] in Hi. rewrite Hi. cbn [key value next_pos].
    inversion Hn as [|q l Hk|q l r' Hk Hr]; subst.
    + exists (np <? List.length (render ps)). rewrite (proj2 (exact_cond (fst p) (fst p)) eq_refl). replace (it + 1) with (S it) by lia. reflexivity.
    + destruct (Nat.eqb (List.length k) (List.length (fst p)) && list_eqb k (fst p)) eqn:Hc; [apply exact_cond in Hc; contradiction|].
      destruct (IH (S it) r' fuel eq_refl Hr ltac:(cbn [List.length] in Hf; lia)) as [more Hm]. exists more. rewrite Hm.
      destruct r' as [[n v]|]; cbn [option_map]; [|cbn [List.length]; f_equal; f_equal; f_equal; lia]. cbn [fst snd]; replace (it + S n) with (S it + n) by lia; reflexivity.
Qed.

Lemma render_length ps : Forall wf_pair ps -> (List.length ps <= List.length (render ps))%nat.
Proof.
  induction ps as [|p ps IH]; intros H; [cbn [List.length]; lia|]. inversion H as [|? ? Hp Hps]; subst. specialize (IH Hps).
  pose proof (render_pair_nonempty p Hp) as Hne. rewrite render_cons, app_length. destruct (render_pair p) as [|c l]; [contradiction|].
  destruct ps as [|q ps]; [cbn [List.length]; lia|]. cbn [tail_text]. cbn [List.length] in *. lia.
Qed.

Lemma iterate_by_key ps k it r : Forall wf_pair ps -> next_value k (skipn it ps) r ->
  exists more, get_values (S (List.length (render ps))) (render ps) k it =
    match r with
    | None => Some (S (it + List.length (skipn it ps)), None, false)
    | Some (n, v) => Some (it + n, Some v, more)
    end.
Proof.
  intros Hw Hn. apply (get_values_spec ps k Hw _ it r); [reflexivity|exact Hn|]. pose proof (render_length ps Hw). rewrite skipn_length. lia.
Qed.

Lemma next_value_total k ps : exists r, next_value k ps r.
Proof.
  induction ps as [|p ps [r IH]]; [exists None; constructor|]. destruct (list_eqb k (fst p)) eqn:He.
  - apply list_eqb_spec in He. exists (Some (1, snd p)). constructor. exact He.
  - exists (option_map (fun x => (S (fst x), snd x)) r). constructor; [|exact IH]. intros ->. rewrite list_eqb_refl in He. discriminate.
Qed.
