(** Properties C42 and C44: decoding of payloads and lookup of attributes. *)
From Coq Require Import String.
From Verif Require Import Common Rep_Model Repd_Model Repd_Spec Repd_Proofs.
Local Open Scope string_scope.
Local Open Scope list_scope.
Local Open Scope N_scope.

Theorem C42_representable_payload_decoded_exactly c v : plain c -> (dec c = Ok v <-> means c v).
Proof. intros P. split; [exact (dec_sound c P v)|exact (proj1 dec_complete c v)]. Qed.

Theorem C42_every_meaningful_payload_decoded m o : mems m o -> parse (CMap m) = Ok (PRep o).
Proof. intros H. cbn [parse]. rewrite (proj1 (proj2 dec_complete) m o H). reflexivity. Qed.

Theorem C42_written_attributes_are_read_back l : wmems l -> parse (enc_root l) = Ok (PRep l).
Proof. exact (roundtrip l). Qed.

(** What the payload as a whole may be besides an object: nothing, or an empty array; a bare value is refused. *)
Theorem C42_root_values c : 
  (parse c = Ok PNull <-> c = CNull) /\ (parse c = Ok PEmptyArray <-> c = CArr []) /\
  ((forall m, c <> CMap m) -> (forall l, c <> CArr l) -> c <> CNull -> parse c = Err).
Proof.
  destruct c as [z|x|x|v|n| | |l|m|n c]; cbn [parse].
  1-5, 7, 10: split; [split; discriminate|]; split; [split; discriminate|]; reflexivity.
  - split; [split; reflexivity|]. split; [split; discriminate|]. congruence.
  - destruct l as [|x l].
    + split; [split; discriminate|]. split; [split; reflexivity|]. intros _ H. exfalso. exact (H _ eq_refl).
    + split; [destruct (seq root_item (x :: l)); cbn [bind]; split; discriminate|]. split; [destruct (seq root_item (x :: l)); cbn [bind]; split; discriminate|].
      intros _ H. exfalso. exact (H _ eq_refl).
  - split; [destruct (members dec m); cbn [bind]; split; discriminate|]. split; [destruct (members dec m); cbn [bind]; split; discriminate|].
    intros H. exfalso. exact (H _ eq_refl).
Qed.

(** A decoded array has items of one type only. *)
Theorem C42_decoded_array_is_uniform l v : plain (CArr l) -> dec (CArr l) = Ok v -> exists t, Forall (fun c => ctype c = Some t) l.
Proof.
  intros P H. apply (dec_sound _ P) in H. inversion H; subst.
  1-5: eexists; apply Forall_map, Forall_forall; intros x _; reflexivity.
  exists 6. match goal with H : objs _ _ |- _ => clear -H; induction H; constructor; auto end.
Qed.

Theorem C42_uniform_payload_never_crashes m : umems m -> parse (CMap m) <> Crash.
Proof.
  intros U. pose proof (uniform_safe (CMap m) (U_map m U)) as K. cbn [dec parse] in *. destruct (members dec m); cbn [bind] in *; congruence.
Qed.

(** Arrays of mixed types are not always rejected: the check of the item type compares bits. *)
Theorem C42_mixed_array_refuted : exists a b, ctype a <> ctype b /\ ctype a <> None /\ ctype b <> None /\ dec (CArr [a; b]) = Crash /\ dec (CArr [b; a]) = Err.
Proof. exists (CBool true), (CInt 1). repeat split; try discriminate; vm_compute; reflexivity. Qed.

(** An object of a root array with an unacceptable property makes the decoder follow a null pointer. *)
Theorem C42_error_in_root_array_refuted : exists m, umems m /\ parse (CMap m) = Err /\ parse (CArr [CMap m]) = Crash.
Proof.
  exists [(CText (str "a"), CArr [CArr [CInt 1]])]. split; [|split; vm_compute; reflexivity].
  constructor; [|constructor]. apply (U_arr (Some 8)); [repeat constructor|]. constructor; [|constructor]. apply (U_arr (Some 1)); [repeat constructor|]. repeat constructor.
Qed.

(** What the attribute types cannot express is not rejected: an empty array and a short float become null, a large number
    becomes a negative one, an array inside a root array becomes an object. *)
Theorem C42_inexpressible_values_refuted :
  dec (CArr []) = Ok RNil /\ dec COther = Ok RNil /\ dec (CInt (2 ^ 63)) = Ok (RInt (- 2 ^ 63)) /\
  parse (CArr [CArr [CText (str "a"); CInt 1]]) = Ok (PArr [[(str "a", RInt 1)]]).
Proof. repeat split; vm_compute; reflexivity. Qed.

Theorem C44_first_match_returned l ty key v : usable_key key -> (get_by l ty key = Some v <-> first_of l ty key v).
Proof. exact (get_by_some l ty key v). Qed.
Theorem C44_fails_iff_absent l ty key : usable_key key -> (get_by l ty key = None <-> none_of l ty key).
Proof. exact (get_by_none l ty key). Qed.
Theorem C44_empty_or_long_key_fails l ty key : ~ usable_key key -> get_by l ty key = None.
Proof. exact (get_by_bad_key l ty key). Qed.

(** The typed getters return the value of the first attribute of their type. *)
Theorem C44_getters l key : usable_key key ->
  (forall z, get_i l key = Some z <-> first_of l 1 key (RInt z)) /\
  (forall z, get_d l key = Some z <-> first_of l 2 key (RDouble z)) /\
  (forall z, get_b l key = Some z <-> first_of l 3 key (RBool z)) /\
  (forall z, get_bs l key = Some z <-> first_of l 4 key (RBytes z)) /\
  (forall z, get_s l key = Some z <-> first_of l 5 key (RStr z)) /\
  (forall z, get_o l key = Some z <-> first_of l 6 key (RObj z)) /\
  (forall z, get_ia l key = Some z <-> first_of l 9 key (RIntArr z)) /\
  (forall z, get_da l key = Some z <-> first_of l 10 key (RDoubleArr z)) /\
  (forall z, get_ba l key = Some z <-> first_of l 11 key (RBoolArr z)) /\
  (forall z, get_bsa l key = Some z <-> first_of l 12 key (RBytesArr z)) /\
  (forall z, get_sa l key = Some z <-> first_of l 13 key (RStrArr z)) /\
  (forall z, get_oa l key = Some z <-> first_of l 14 key (RObjArr z)).
Proof.
  intros U.
  assert (K : forall (A : Type) (ty : N) (mk : A -> rval) (get : rval -> option A) z,
             (forall w, rtype w = ty -> exists a, w = mk a) -> (forall a, get (mk a) = Some a) -> (forall a b, mk a = mk b -> a = b) ->
             (match get_by l ty key with Some w => get w | None => None end) = Some z <-> first_of l ty key (mk z)).
  { intros A ty mk get z Hty Hget Hinj. rewrite <- (get_by_some l ty key (mk z) U). destruct (get_by l ty key) as [w|] eqn:G; [|split; discriminate].
    apply (get_by_some l ty key w U) in G. destruct G as (_ & _ & _ & T & _). destruct (Hty w T) as [a ->]. rewrite Hget. split; [congruence|].
    intros [= E]. f_equal. now apply Hinj. }
  repeat match goal with |- _ /\ _ => split end; intros z;
    lazymatch goal with |- context [first_of l ?ty key (?mk z)] => refine (K _ ty mk _ z _ _ _) end;
    try (intros w T; destruct w; try discriminate T; eauto; fail); try (intros a b E; injection E; auto; fail); intros a; reflexivity.
Qed.

Theorem C44_null l key : usable_key key -> (get_null l key = Some true <-> first_of l 0 key RNil) /\ get_null l key <> Some false.
Proof.
  intros U. unfold get_null. rewrite <- (get_by_some l 0 key RNil U). destruct (get_by l 0 key) as [w|] eqn:G; [|split; [split|]; discriminate].
  apply (get_by_some l 0 key w U) in G. destruct G as (_ & _ & _ & T & _). destruct w; try discriminate T. split; [split; reflexivity|discriminate].
Qed.

(** An attribute written by one side is what the other side reads. *)
Theorem C44_reader_gets_what_was_written l ty key v : wmems l -> usable_key key -> first_of l ty key v ->
  exists o, parse (enc_root l) = Ok (PRep o) /\ get_by o ty key = Some v.
Proof. intros W U F. exists l. split; [exact (roundtrip l W)|]. now apply get_by_some. Qed.

Definition ex_obj : list rep := [(str "a", RInt 1); (str "b", RObjArr [[(str "x", RBool true)]; []]); (str "a", RStr (str "t")); (str "a", RInt 2); (str "n", RNil)].
Example C42_ex_writable : wmems ex_obj.
Proof.
  unfold ex_obj. repeat (constructor; try discriminate; try (unfold in64; lia)).
Qed.
Example C44_ex_lookup : get_i ex_obj (str "a") = Some 1%Z /\ get_s ex_obj (str "a") = Some (str "t") /\ get_d ex_obj (str "a") = None /\ usable_key (str "a").
Proof. repeat split; vm_compute; try reflexivity; discriminate. Qed.
Example C42_ex_errors : dec (CArr [CInt 1; CText (str "a")]) = Err /\ dec (CMap [(CInt 1, CInt 2)]) = Err /\ dec (CArr [CArr [CInt 1]]) = Err.
Proof. repeat split; vm_compute; reflexivity. Qed.

Print Assumptions C42_representable_payload_decoded_exactly.
Print Assumptions C42_every_meaningful_payload_decoded.
Print Assumptions C42_root_values.
Print Assumptions C42_written_attributes_are_read_back.
Print Assumptions C42_decoded_array_is_uniform.
Print Assumptions C42_uniform_payload_never_crashes.
Print Assumptions C42_mixed_array_refuted.
Print Assumptions C42_error_in_root_array_refuted.
Print Assumptions C42_inexpressible_values_refuted.
Print Assumptions C44_first_match_returned.
Print Assumptions C44_fails_iff_absent.
Print Assumptions C44_empty_or_long_key_fails.
Print Assumptions C44_getters.
Print Assumptions C44_null.
Print Assumptions C44_reader_gets_what_was_written.
