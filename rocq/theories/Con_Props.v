(** C137: the configuration resource. *)

From Coq Require Import List Bool Arith String Lia.
From Verif Require Import Con_Model Con_Spec Con_Proofs.
Import ListNotations.
Open Scope string_scope.
Open Scope list_scope.
Open Scope nat_scope.

(** The texts of the locations and their numbers belong together, one to one. *)
Theorem C137_locations_one_to_one : forall i t,
  (to_str i = Some t <-> place i t) /\ (from_str t = Some i <-> place i t) /\
  (forall j, place i t -> place j t -> i = j) /\
  (1 <= i <= 60 <-> exists u, to_str i = Some u) /\
  (In t locns <-> exists j, from_str t = Some j).
Proof.
  intros i t. split; [apply to_str_place|]. split; [apply from_str_place|].
  split; [intros j; apply place_inj|]. split.
  - split.
    + intros H. destruct i as [|i]; [lia|]. cbn [to_str].
      destruct (nth_error locns i) as [u|] eqn:E; [exists u; reflexivity|].
      apply nth_error_None in E. change (List.length locns) with 60 in E. lia.
    + intros [u H]. apply to_str_place in H. destruct H as [A B].
      assert (L : i - 1 < List.length locns) by (apply nth_error_Some; rewrite B; discriminate).
      change (List.length locns) with 60 in L. lia.
  - split.
    + intros H. destruct (from_str t) as [j|] eqn:E; [exists j; reflexivity|].
      destruct (from_str_none _ E H).
    + intros [j H]. exact (place_in _ _ (from_str_some _ _ H)).
Qed.
Print Assumptions C137_locations_one_to_one.

Example locations_ex : to_str 27 = Some "kitchen" /\ from_str "kitchen" = Some 27 /\ from_str "kitche" = None /\ to_str 61 = None.
Proof. repeat split. Qed.

(** A request that can be accepted is carried out, the callback is called once
    with it, and the answer tells the new name. *)
Theorem C137_accepted : forall s d v p, nth_error s d = Some v -> acceptable (tag v) p ->
  (exists w, nth_error (fst (step s (Post d p))) d = Some w /\ carried_out p v w) /\
  calls (snd (step s (Post d p))) = match cb v with Some f => [Called f d p] | None => [] end /\
  (exists b, answers (snd (step s (Post d p))) = [Answer d Changed b] /\
     (forall t, asked "n" t p -> b = Some t) /\ (unasked "n" p -> b = None)).
Proof.
  intros s d v p H A. cbn [step]. rewrite (on_step _ _ _ _ H). cbn [fst snd].
  destruct (post_outcome d p v) as [K _]. destruct (K A) as [B [C D]].
  split; [|split; [exact C|exact D]].
  exists (fst (post d p v)). split; [exact (put_same _ _ _ _ H)|exact B].
Qed.
Print Assumptions C137_accepted.

(** Every other request is refused, once and without a call; it leaves the
    device as it was, or all but the name if it can be read and asks for one. *)
Theorem C137_refused : forall s d v p, nth_error s d = Some v -> ~ acceptable (tag v) p ->
  (exists w, nth_error (fst (step s (Post d p))) d = Some w /\
     tag w = tag v /\ cb w = cb v /\
     (~ readable p \/ unasked "n" p -> w = v) /\
     (readable p -> forall t, asked "n" t p -> nm w = t)) /\
  calls (snd (step s (Post d p))) = [] /\
  (exists b, answers (snd (step s (Post d p))) = [Answer d BadRequest b]).
Proof.
  intros s d v p H A. cbn [step]. rewrite (on_step _ _ _ _ H). cbn [fst snd].
  destruct (post_outcome d p v) as [_ [K [_ M]]].
  destruct (K A) as [B [C [D [E [F [G I]]]]]].
  split; [|split; [exact D|exact E]].
  exists (fst (post d p v)). split; [exact (put_same _ _ _ _ H)|].
  split; [exact B|]. split; [exact C|]. split; [|exact G].
  intros Q. destruct (M Q) as [_ N].
  destruct (fst (post d p v)) as [a b c], v as [a' b' c']. cbn in *. congruence.
Qed.
Print Assumptions C137_refused.

(** Observers of /oic/d are told exactly when the name is set. *)
Theorem C137_observers_told : forall s d v p, nth_error s d = Some v ->
  (readable p -> forall t, asked "n" t p -> notes (snd (step s (Post d p))) = [Notified d]) /\
  (~ readable p \/ unasked "n" p -> notes (snd (step s (Post d p))) = []).
Proof.
  intros s d v p H. cbn [step]. rewrite (on_step _ _ _ _ H). cbn [fst snd].
  destruct (post_outcome d p v) as [_ [_ [K M]]].
  split; [exact K|]. intros Q. exact (proj1 (M Q)).
Qed.
Print Assumptions C137_observers_told.

(** Other devices are not affected. *)
Theorem C137_other_devices : forall s d e p, e <> d ->
  nth_error (fst (step s (Post d p))) e = nth_error s e.
Proof. intros s d e p H. cbn [step]. apply on_other. exact H. Qed.
Print Assumptions C137_other_devices.

Definition kitchen : st := [mkdev "Lamp" 1 (Some 7); mkdev "Fan" 0 None].
Definition move : payload := [("locn", Text "kitchen"); ("n", Text "Oven")].

Example accepted_ex : acceptable 1 move /\
  step kitchen (Post 0 move) =
    ([mkdev "Oven" 27 (Some 7); mkdev "Fan" 0 None], [Notified 0; Called 7 0 move; Answer 0 Changed (Some "Oven")]).
Proof.
  split; [|reflexivity]. split; [discriminate|]. split.
  - intros k x [E|[E|[]]]; injection E as E1 E2; rewrite <- E1, <- E2.
    + split; [right; reflexivity|]. exists "kitchen". split; [reflexivity|discriminate].
    + split; [left; reflexivity|]. exists "Oven". split; [reflexivity|discriminate].
  - intros t A. split; [discriminate|].
    assert (B : asked "locn" "kitchen" move).
    { exists [], [("n", Text "Oven")]. split; [reflexivity|]. intros x [E|[]]. discriminate E. }
    rewrite (asked_fun _ _ _ _ A B). apply (place_in 27). split; [lia|reflexivity].
Qed.

Example refused_ex : ~ acceptable 1 [("n", Text "Oven"); ("x", Text "y")] /\
  step kitchen (Post 0 [("n", Text "Oven"); ("x", Text "y")]) = (kitchen, [Answer 0 BadRequest None]).
Proof.
  split; [|reflexivity]. intros [_ [R _]].
  destruct (R "x" (Text "y") (or_intror (or_introl eq_refl))) as [[E|E] _]; discriminate E.
Qed.

(** A refused request can change the name. *)
Theorem C137_refused_changes_name_refuted : exists p,
  step kitchen (Post 0 p) =
    ([mkdev "Oven" 1 (Some 7); mkdev "Fan" 0 None], [Notified 0; Answer 0 BadRequest (Some "Oven")]).
Proof. exists [("n", Text "Oven"); ("locn", Text "moon")]. vm_compute. reflexivity. Qed.
Print Assumptions C137_refused_changes_name_refuted.

(** What was accepted is read back, until something else is done with the name
    or the location of this device. *)
Theorem C137_read_back : forall s d v p os, nth_error s d = Some v -> acceptable (tag v) p ->
  Forall (aside d) os ->
  exists n l, snd (step (fst (run (fst (step s (Post d p))) os)) (Get d)) = [Content d n l] /\
    (forall t, asked "n" t p -> n = t) /\ (unasked "n" p -> n = nm v) /\
    (forall t, asked "locn" t p -> l = Some t) /\
    (unasked "locn" p -> forall t, l = Some t <-> place (tag v) t).
Proof.
  intros s d v p os H A Fo.
  destruct (C137_accepted s d v p H A) as [[w [W [C1 [C2 [C3 [C4 _]]]]]] _].
  destruct (aside_run _ _ _ _ Fo W) as [x [X [Xn Xt]]].
  cbn [step]. rewrite (on_step _ _ _ _ X). cbn [fst snd get].
  assert (L : (if 0 <? tag x then to_str (tag x) else None) = to_str (tag w)).
  { rewrite Xt. destruct (tag w); reflexivity. }
  exists (nm x), (to_str (tag w)). unfold get. rewrite L. split; [reflexivity|].
  rewrite Xn. split; [exact C1|]. split; [exact C2|]. split.
  - intros t Ht. apply to_str_place. exact (C3 t Ht).
  - intros U t. rewrite (C4 U). apply to_str_place.
Qed.
Print Assumptions C137_read_back.

Example read_back_ex : Forall (aside 0) [Added "New"; SetCb (Some 3); Post 1 [("n", Text "Fan 2")]; Get 0] /\
  snd (run kitchen [Post 0 move; Added "New"; SetCb (Some 3); Post 1 [("n", Text "Fan 2")]; Get 0]) =
  [Notified 0; Called 7 0 move; Answer 0 Changed (Some "Oven");
   Notified 1; Called 3 1 [("n", Text "Fan 2")]; Answer 1 Changed (Some "Fan 2"); Content 0 "Oven" (Some "kitchen")].
Proof. split; [repeat constructor; discriminate|reflexivity]. Qed.

(** The callback is the one set last for the devices that are there. *)
Theorem C137_callback_last_set : forall s d v f os p w, nth_error s d = Some v ->
  (forall g, ~ In (SetCb g) os) ->
  nth_error (fst (run (fst (step s (SetCb f))) os)) d = Some w -> acceptable (tag w) p ->
  calls (snd (step (fst (run (fst (step s (SetCb f))) os)) (Post d p))) =
    match f with Some g => [Called g d p] | None => [] end.
Proof.
  intros s d v f os p w H N W A.
  assert (E : nth_error (fst (step s (SetCb f))) d = Some (mkdev (nm v) (tag v) f)).
  { cbn [step fst]. rewrite nth_error_map, H. reflexivity. }
  destruct (cb_run _ _ _ _ N E) as [x [X C]]. rewrite W in X. injection X as X. rewrite <- X in C.
  destruct (C137_accepted _ d w p W A) as [_ [B _]]. rewrite B, C. reflexivity.
Qed.
Print Assumptions C137_callback_last_set.

(** A device added after the callback was set has none. *)
Theorem C137_later_device_without_callback_refuted : exists p,
  snd (run [] [Added "A"; SetCb (Some 7); Added "B"; Post 0 p; Post 1 p]) =
    [Notified 0; Called 7 0 p; Answer 0 Changed (Some "x"); Notified 1; Answer 1 Changed (Some "x")].
Proof. exists [("n", Text "x")]. vm_compute. reflexivity. Qed.
Print Assumptions C137_later_device_without_callback_refuted.

(** A device whose location the application did not tag has no location that
    could be read or set, from the start on. *)
Theorem C137_untagged_has_no_location : forall d os,
  (forall n, ~ In (Tagged d n) os) ->
  (forall n l, In (Content d n l) (snd (step (fst (run [] os)) (Get d))) -> l = None) /\
  (forall p t b, asked "locn" t p -> ~ In (Answer d Changed b) (snd (step (fst (run [] os)) (Post d p)))).
Proof.
  intros d os N.
  assert (P : plain d (fst (run [] os))).
  { apply plain_run; [exact N|]. intros v H. destruct d; discriminate H. }
  split.
  - intros n l. cbn [step]. unfold on. destruct (nth_error (fst (run [] os)) d) as [v|] eqn:E; [|intros []].
    unfold get. rewrite (P v E). cbn. intros [H|[]]. injection H as _ H. symmetry. exact H.
  - intros p t b A I. destruct (nth_error (fst (run [] os)) d) as [v|] eqn:E.
    + assert (Q : ~ acceptable (tag v) p).
      { intros [_ [_ H]]. destruct (H t A) as [Z _]. apply Z. exact (P v E). }
      destruct (C137_refused _ d v p E Q) as [_ [_ [b' B]]].
      assert (J : In (Answer d Changed b) (answers (snd (step (fst (run [] os)) (Post d p))))).
      { apply filter_In. split; [exact I|reflexivity]. }
      rewrite B in J. destruct J as [J|[]]. discriminate J.
    + cbn [step] in I. unfold on in I. rewrite E in I. destruct I.
Qed.
Print Assumptions C137_untagged_has_no_location.

Example untagged_ex :
  snd (run [] [Added "A"; Added "B"; Tagged 1 5; Post 0 [("locn", Text "attic")]; Post 1 [("locn", Text "attic")]; Get 0; Get 1]) =
  [Answer 0 BadRequest None; Answer 1 Changed None; Content 0 "A" None; Content 1 "B" (Some "attic")].
Proof. reflexivity. Qed.

(** After a reset the location is unknown if there is one, the name is empty if
    it is to be wiped, and the callback stays. *)
Theorem C137_reset : forall s d v a w, nth_error s d = Some v ->
  exists x, nth_error (fst (step s (Wiped d a w))) d = Some x /\ cb x = cb v /\
    nm x = (if a && w then "" else nm v) /\
    (a = true -> tag v <> 0 -> place (tag x) "unknown") /\ (a = false \/ tag v = 0 -> tag x = tag v).
Proof.
  intros s d v a w H. cbn [step]. rewrite (on_step _ _ _ _ H). cbn [fst snd].
  exists (reset a w v). split; [exact (put_same _ _ _ _ H)|].
  unfold reset, set_name, tag_locn. destruct a, w; cbn; destruct (tag v) as [|k] eqn:E; cbn;
    rewrite ?E; (repeat split); try reflexivity; try lia; intros; try congruence; try reflexivity;
    destruct H0; discriminate.
Qed.
Print Assumptions C137_reset.

Example reset_ex : fst (step [mkdev "Oven" 27 (Some 7)] (Wiped 0 true true)) = [mkdev "" 1 (Some 7)].
Proof. reflexivity. Qed.
