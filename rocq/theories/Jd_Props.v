(** C41, decoding: a JSON text of a payload is read back as that payload. *)
From Verif Require Import Common Rep_Model Jp_Spec Jd_Model Jd_Spec Je_Spec Jp_Proofs Jp4_Proofs Jd_Proofs Jd2_Proofs Jd3_Proofs Je2_Proofs.
From Coq Require Import String.
Local Open Scope string_scope.
Local Open Scope list_scope.
Local Open Scope nat_scope.

Definition no_doubles : N -> list N := fun _ => [].

(** A JSON object, with any white space, whose values have a type in the library, is decoded to its members in their
    order.  The text may be followed by a zero byte and anything behind it. *)
Theorem C41_reads_object :
  forall fmt l t w1 w2 rest, json_object fmt l t -> decodables l -> ws w1 -> ws w2 -> ended rest ->
  parse_json (w1 ++ t ++ w2 ++ rest) = PRep (named l).
Proof. exact parse_object_doc. Qed.
Definition doc : list rep :=
  [(str "n", RNil); (str "i", RInt (-42)); (str "b", RBool true); (str "s", RStr (str "x y")); (str "is", RIntArr [1; -9223372036854775808]%Z);
   (str "o", RObj [(str "bs", RBoolArr [true; false]); (str "e", RObj [])]); (str "os", RObjArr [[(str "ss", RStrArr [str "q"; str "p"])]; []])].
Lemma doc_decodable : decodables doc.
Proof. cbv [decodables decodable doc i64]. repeat split; try discriminate; repeat constructor; vm_compute; discriminate || lia. Qed.
Lemma doc_clean : cleans doc.
Proof. cbv [cleans clean doc]. repeat split; repeat constructor; vm_compute; discriminate. Qed.
Example C41_reads_object_case :
  json_object no_doubles doc (object_text no_doubles doc) /\ decodables doc /\
  parse_json (object_text no_doubles doc) = PRep (named doc) /\
  parse_json (str "{ ""a"" : [ 1 , 2 ] } ") = PRep (named [(str "a", RIntArr [1; 2]%Z)]).
Proof.
  split; [exact (object_json no_doubles doc doc_clean)|]. split; [exact doc_decodable|]. split; vm_compute; reflexivity.
Qed.
Print Assumptions C41_reads_object.

(** An array of objects: one unnamed object for each. *)
Theorem C41_reads_array_of_objects :
  forall fmt os t w1 w2 rest, separated (json_object fmt) os t -> os <> [] -> Forall decodables os -> ws w1 -> ws w2 -> ended rest ->
  parse_json (w1 ++ ([91%N] ++ t ++ [93%N]) ++ w2 ++ rest) = PRep (objects os).
Proof. exact parse_array_doc. Qed.
Example C41_reads_array_case :
  separated (json_object no_doubles) [doc; []] (join (map (object_text no_doubles) [doc; []])) /\
  parse_json (str "[" ++ object_text no_doubles doc ++ str ",{}]") = PRep (objects [doc; []]).
Proof.
  split; [|vm_compute; reflexivity]. apply join_json. constructor; [exact (object_json _ doc doc_clean)|].
  constructor; [exact (object_json _ [] I)|constructor].
Qed.
Print Assumptions C41_reads_array_of_objects.

(** An empty array: an empty payload. *)
Theorem C41_reads_empty_array :
  forall w1 w2 w3 rest, ws w1 -> ws w2 -> ws w3 -> ended rest -> parse_json (w1 ++ ([91%N] ++ w3 ++ [93%N]) ++ w2 ++ rest) = PEmpty.
Proof. exact parse_empty_array. Qed.
Example C41_reads_empty_array_case : parse_json (str " [ ]") = PEmpty.
Proof. vm_compute. reflexivity. Qed.
Print Assumptions C41_reads_empty_array.

(** On any input whatsoever: no write outside of the arrays that were allocated, no failed assertion, and the nesting
    the decoder follows is limited. *)
Theorem C41_decoder_never_traps : forall js, parse_json js <> PTrap /\ parse_json js <> PFuel.
Proof. exact parse_json_safe. Qed.
Example C41_decoder_never_traps_case : parse_json (str "{""a"":[[[[") = PError 0 /\ parse_json (repeat 123%N 300) = PError 0.
Proof. split; vm_compute; reflexivity. Qed.
Print Assumptions C41_decoder_never_traps.

(** The decoder accepts more than JSON: a document without braces, missing commas, letters behind a number, a name
    without a value. *)
Theorem C41_accepts_only_json_refuted :
  (exists js l, parse_json js = PRep l /\ forall fmt r, ~ json_doc fmt r js) /\
  parse_json (str "{""a"":1 ""b"":12abc ""c""}") = PRep [(Some (str "a"), JInt 1); (Some (str "b"), JInt 12); (Some (str "c"), JUnknown)].
Proof.
  split; [|vm_compute; reflexivity]. exists (str """a"":1"), [(Some (str "a"), JInt 1)]. split; [vm_compute; reflexivity|].
  intros fmt r H. inversion H as [l t w1 w2 H1 H2 H3 E1 E2|os t w1 w2 H1 H2 H3 E1 E2]; subst.
  - inversion H1 as [l t' _ E3 E4]; subst. destruct w1 as [|c w1]; [discriminate E2|]. vm_compute in E2. injection E2 as -> _. inversion H2 as [|? ? X _]; subst. intuition discriminate.
  - destruct w1 as [|c w1]; [discriminate E2|]. vm_compute in E2. injection E2 as -> _. inversion H2 as [|? ? X _]; subst. intuition discriminate.
Qed.
Print Assumptions C41_accepts_only_json_refuted.

(** An object inside of an array whose value is not readable makes the decoder dereference NULL; text behind a complete
    object leaves the payload that was read allocated. *)
Theorem C41_bad_input_refused_refuted :
  parse_json (str "[{""a"":x}]") = PNull /\ parse_json (str "{""a"":1} x") = PError 1.
Proof. split; vm_compute; reflexivity. Qed.
Print Assumptions C41_bad_input_refused_refuted.
