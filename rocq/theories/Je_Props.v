(** C41, encoding: the JSON encoder writes the text of the payload or reports an error; encoding and decoding give the
    payload back. *)
From Verif Require Import Common Rep_Model Jp_Spec Jd_Model Jd_Spec Je_Model Je_Spec Jp4_Proofs Jd2_Proofs Je_Proofs Je2_Proofs Jd_Props.
From Coq Require Import String.
Local Open Scope string_scope.
Local Open Scope list_scope.
Local Open Scope nat_scope.

(** Any sequence of calls on a fresh encoder, ending with all containers closed: the payload is the text of the calls if
    it is not longer than what the buffer may hold; else, or when a call is not allowed, there is no payload.  In
    particular the initial size of a growing buffer makes no difference. *)
Theorem C41_encoder_writes_calls :
  forall l s, ready s ->
  match calls l ([Top], []) with
  | Some ([p], T) => payload false (exec_all l s) = if Nat.leb (List.length T) (capacity (g_buf s)) then Some T else None
  | Some _ => True
  | None => payload false (exec_all l s) = None
  end.
Proof. exact encodes. Qed.
Definition some_calls : list op := [OOpen false; OPrim (PUint 7); OPrim (PText (str "x")); OOpen true; OPrim (PText (str "k")); OPrim (PDouble (str "0.5")); OClose; OPrim PNull; OClose].
Example C41_encoder_writes_calls_case :
  ready (start_growing [] 26) /\ ready (start_fixed (repeat 7%N 40)) /\
  calls some_calls ([Top], []) = Some ([Top], str "[7,""x"",{""k"":0.5},null]") /\
  payload false (exec_all some_calls (start_growing [] 26)) = Some (str "[7,""x"",{""k"":0.5},null]") /\
  payload false (exec_all some_calls (start_growing [] 21)) = None /\
  payload false (exec_all some_calls (start_fixed (repeat 7%N 40))) = Some (str "[7,""x"",{""k"":0.5},null]") /\
  calls [OOpen true; OPrim PNull; OClose] ([Top], []) = None.
Proof.
  split; [apply start_growing_ready; apply Nat.le_0_l|]. split; [apply start_fixed_ready|]. repeat split; vm_compute; reflexivity.
Qed.
Print Assumptions C41_encoder_writes_calls.

(** No write leaves the buffer, which never becomes larger than its maximum, and keeps its size if it may not grow. *)
Theorem C41_encoder_stays_in_buffer :
  forall l s, b_size (g_buf s) <= b_max (g_buf s) ->
  let s' := exec_all l s in
  b_max (g_buf s') = b_max (g_buf s) /\ b_realloc (g_buf s') = b_realloc (g_buf s) /\
  (b_realloc (g_buf s) = false -> b_size (g_buf s') = b_size (g_buf s)) /\ b_size (g_buf s') <= b_max (g_buf s) /\ g_bad s' = g_bad s.
Proof. exact exec_all_buffer. Qed.
Example C41_encoder_stays_case :
  b_size (g_buf (exec_all some_calls (start_growing [] 1000))) = 30 /\ b_size (g_buf (exec_all some_calls (start_growing [] 26))) = 26 /\
  b_size (g_buf (exec_all some_calls (start_fixed (repeat 7%N 4)))) = 4.
Proof. repeat split; vm_compute; reflexivity. Qed.
Print Assumptions C41_encoder_stays_in_buffer.

(** A payload whose integers are within [-2^52-1, 2^53] and that has no byte strings is encoded as its text, if that is
    not longer than what the buffer may hold.  Any other payload is reported as an error. *)
Theorem C41_encodes_payload :
  forall fmt l s, ready s -> encodables fmt l -> List.length (object_text fmt l) <= capacity (g_buf s) ->
  payload false (exec_all (payload_ops fmt l) s) = Some (object_text fmt l).
Proof.
  intros fmt l s HR HE HL. pose proof (encodes (payload_ops fmt l) s HR) as H. destruct (payload_calls fmt l) as [[_ E]|[X _]]; [|contradiction].
  rewrite E in H. rewrite H. destruct (Nat.leb_spec (List.length (object_text fmt l)) (capacity (g_buf s))); [reflexivity|lia].
Qed.
Theorem C41_reports_payload_too_large :
  forall fmt l s, ready s -> ~ encodables fmt l \/ capacity (g_buf s) < List.length (object_text fmt l) ->
  payload false (exec_all (payload_ops fmt l) s) = None.
Proof.
  intros fmt l s HR HX. pose proof (encodes (payload_ops fmt l) s HR) as H. destruct (payload_calls fmt l) as [[X E]|[_ E]]; rewrite E in H; [|exact H].
  rewrite H. destruct (Nat.leb_spec (List.length (object_text fmt l)) (capacity (g_buf s))); [|reflexivity]. destruct HX; [contradiction|lia].
Qed.
Definition small_doc : list rep :=
  [(str "n", RNil); (str "i", RInt (-42)); (str "b", RBool true); (str "s", RStr (str "x y")); (str "is", RIntArr [1; 9007199254740992]%Z);
   (str "o", RObj [(str "bs", RBoolArr [true; false]); (str "e", RObj [])]); (str "os", RObjArr [[(str "ss", RStrArr [str "q"; str "p"])]; []])].
Lemma small_encodable : encodables no_doubles small_doc.
Proof. cbv [encodables encodable small_doc small_int]. repeat split; try discriminate; repeat constructor; vm_compute; discriminate || lia. Qed.
Lemma small_decodable : decodables small_doc.
Proof. cbv [decodables decodable small_doc i64]. repeat split; try discriminate; repeat constructor; vm_compute; discriminate || lia. Qed.
Lemma small_clean : cleans small_doc.
Proof. cbv [cleans clean small_doc]. repeat split; repeat constructor; vm_compute; discriminate. Qed.
Example C41_encodes_payload_case :
  encodables no_doubles small_doc /\ List.length (object_text no_doubles small_doc) = 121 /\
  payload false (exec_all (payload_ops no_doubles small_doc) (start_growing [] 121)) = Some (object_text no_doubles small_doc) /\
  payload false (exec_all (payload_ops no_doubles small_doc) (start_growing [] 120)) = None /\
  ~ encodables no_doubles [(str "i", RInt (-9007199254740992))] /\
  payload false (exec_all (payload_ops no_doubles [(str "i", RInt (-9007199254740992))]) (start_growing [] 126)) = None.
Proof.
  split; [exact small_encodable|]. repeat (split; [vm_compute; reflexivity|]). split; [|vm_compute; reflexivity].
  intros [H _]. cbn [encodable] in H. unfold small_int in H. lia.
Qed.
Print Assumptions C41_encodes_payload.
Print Assumptions C41_reports_payload_too_large.

(** The round trip. *)
Theorem C41_round_trip :
  forall fmt l s t, ready s -> cleans l -> decodables l -> payload false (exec_all (payload_ops fmt l) s) = Some t ->
  parse_json t = PRep (named l).
Proof.
  intros fmt l s t HR HC HD HP. pose proof (encodes (payload_ops fmt l) s HR) as H. destruct (payload_calls fmt l) as [[X E]|[_ E]]; rewrite E in H; [|congruence].
  rewrite HP in H. destruct (Nat.leb _ _); [|discriminate]. injection H as ->.
  pose proof (parse_object_doc fmt l (object_text fmt l) [] [] [] (object_json fmt l HC) HD ws_nil ws_nil (or_introl eq_refl)) as HX.
  rewrite !app_nil_r in HX. exact HX.
Qed.
Example C41_round_trip_case :
  cleans small_doc /\ decodables small_doc /\
  option_map parse_json (payload false (exec_all (payload_ops no_doubles small_doc) (start_growing [] 200))) = Some (PRep (named small_doc)).
Proof. split; [exact small_clean|]. split; [exact small_decodable|]. vm_compute. reflexivity. Qed.
Print Assumptions C41_round_trip.

(** An object without attributes, and nothing else, is sent as an empty payload. *)
Theorem C41_empty_object_is_empty_payload :
  forall fmt l s, ready s -> encodables fmt l -> List.length (object_text fmt l) <= capacity (g_buf s) ->
  payload true (exec_all (payload_ops fmt l) s) = Some (match l with [] => [] | _ => object_text fmt l end).
Proof.
  intros fmt l s HR HE HL. destruct (payload_calls fmt l) as [[_ E]|[X _]]; [|contradiction]. rewrite (encodes_true _ _ _ _ HR E HL).
  destruct (Nat.eqb_spec (List.length (object_text fmt l)) 2) as [H|H].
  - apply object_text_empty in H. subst l. vm_compute. reflexivity.
  - destruct l; [exfalso; apply H; reflexivity|reflexivity].
Qed.
Example C41_empty_object_case :
  payload true (exec_all (payload_ops no_doubles []) (start_growing [] 10)) = Some [] /\
  payload false (exec_all (payload_ops no_doubles []) (start_growing [] 10)) = Some (str "{}") /\
  payload true (exec_all [OOpen false; OClose] (start_growing [] 10)) = Some (str "[]").
Proof. repeat split; vm_compute; reflexivity. Qed.
Print Assumptions C41_empty_object_is_empty_payload.

(** Without the conditions the round trip fails: empty strings of an array disappear, quotes are not escaped, empty arrays
    come back as null, and a double comes back as an integer. *)
Definition back (l : list rep) : option parsed :=
  option_map parse_json (payload false (exec_all (payload_ops (fun _ => str "0.500000") l) (start_growing [] 200))).
Theorem C41_round_trip_everything_refuted :
  back [(str "a", RStrArr [str ""; str "x"])] = Some (PRep [(Some (str "a"), JStrs [str "x"])]) /\
  back [(str "a", RStr (str "x"",""b"":""y"))] = Some (PRep [(Some (str "a"), JStr (str "x")); (Some (str "b"), JStr (str "y"))]) /\
  back [(str "a", RIntArr [])] = Some (PRep [(Some (str "a"), JNil)]) /\
  back [(str "a", RDouble 0)] = Some (PRep [(Some (str "a"), JInt 0)]).
Proof. repeat split; vm_compute; reflexivity. Qed.
Print Assumptions C41_round_trip_everything_refuted.

(** An integer that the decoder and JSON allow, and whose negative is encoded, cannot be encoded: the limits are -2^52-1
    and 2^53. *)
Theorem C41_integer_range_refuted :
  exists z, encodables no_doubles [(str "a", RInt z)] /\ ~ encodables no_doubles [(str "a", RInt (- z))] /\
  payload false (exec_all (payload_ops no_doubles [(str "a", RInt (- z))]) (start_growing [] 200)) = None.
Proof.
  exists 9007199254740992%Z. split; [split; [unfold encodable, small_int; lia|exact I]|]. split; [|vm_compute; reflexivity].
  intros [H _]. cbn [encodable] in H. unfold small_int in H. lia.
Qed.
Print Assumptions C41_integer_range_refuted.
