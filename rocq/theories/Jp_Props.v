(** C40: printing a payload as JSON (api/oc_rep_to_json.c). *)
From Verif Require Import Common Ep_Model Rep_Model Jp_Model Jp_Spec Jp_Proofs Jp2_Proofs Jp3_Proofs Jp4_Proofs Jp5_Proofs.
From Coq Require Import String.
Local Open Scope string_scope.
Local Open Scope list_scope.
Local Open Scope nat_scope.

Definition some_fmt (d : N) : list N := dec d ++ str ".000000".
Definition sample : list rep :=
  [(str "name", RStr (str "lamp")); (str "on", RBool true); (str "v", RInt (-7)); (str "key", RBytes [1; 2; 255]%N);
   (str "l", RIntArr [1; 2]%Z); (str "s", RStrArr [str "x"; str "y"]);
   (str "o", RObj [(str "d", RDouble 3); (str "e", RObj [])]); (str "a", RObjArr [[(str "n", RNil)]; []])].

(** Whatever the payload, the mode and the size of the buffer: no byte behind the buffer changes, and a buffer
    that is not empty holds a terminated string afterwards. *)
Theorem C40_never_outside_the_buffer :
  forall fmt pretty null l mem size mem' n, reps_ok l -> size <= List.length mem ->
  to_json fmt pretty null l mem size = Some (mem', n) ->
  List.length mem' = List.length mem /\ skipn size mem' = skipn size mem /\
  (size <> 0 -> exists i, i < size /\ nth_error mem' i = Some 0%N).
Proof. exact to_json_safe. Qed.
Example C40_never_outside_case : reps_ok sample /\
  to_json some_fmt true false sample (repeat 7%N 40) 30 <> None /\ 30 <= List.length (repeat 7%N 40).
Proof. split; [|split; [vm_compute; discriminate | vm_compute; lia]]. repeat split; try discriminate; repeat constructor. Qed.
Print Assumptions C40_never_outside_the_buffer.

(** Without indentation, for every buffer size, the value returned is the length of the whole text; the buffer
    holds the whole text when it is larger than that, and else a prefix of it, terminated in both cases. *)
Theorem C40_plain_text :
  forall fmt null l mem size, reps_ok l -> size <= List.length mem ->
  (N.of_nat (List.length (layout fmt false l)) < 2 ^ 64)%N ->
  exists mem', to_json fmt false null l mem size = Some (mem', N.of_nat (List.length (layout fmt false l))) /\
  (List.length (layout fmt false l) < size -> firstn (S (List.length (layout fmt false l))) mem' = layout fmt false l ++ [0%N]) /\
  (0 < size <= List.length (layout fmt false l) -> exists k, k < size /\ firstn (S k) mem' = firstn k (layout fmt false l) ++ [0%N]).
Proof.
  intros fmt null l mem size Hok Hsz Hsm. set (T := layout fmt false l) in *.
  destruct (to_json_printed fmt false null l (mkJ mem 0 size 0 false)) as (Ht & Hb & HP); [exact Hsz | reflexivity | exact Hok | split; [exact Hsm | left; reflexivity]|].
  fold T in Ht, HP. exists (j_mem (to_json_from fmt false null l (mkJ mem 0 size 0 false))).
  split; [unfold to_json; rewrite Hb; cbn [j_bad]; rewrite Ht; reflexivity|]. cbn [j_size j_off] in HP. unfold pre in HP. cbn [j_off j_mem firstn app] in HP.
  assert (HT : T <> []) by (unfold T, layout; destruct l as [|[[|? ?] []] ?]; try destruct l; discriminate).
  split; intros Hs.
  - destruct HP as [(_ & mid & Hm & Hl & _ & _ & Hz) | (? & _)]; [|lia]. rewrite Hm.
    destruct Hz as [Hz | [_ ?]]; [|congruence]. destruct mid as [|z mid]; [discriminate|]. cbn [hd_error] in Hz. injection Hz as ->.
    cbn [app]. rewrite (app_assoc T [0%N] (mid ++ _) : T ++ 0%N :: mid ++ _ = _).
    replace (S (List.length T)) with (List.length (T ++ [0%N]) + 0) by (rewrite app_length; cbn [List.length]; lia).
    rewrite firstn_app_2. rewrite firstn_O, app_nil_r. reflexivity.
  - destruct HP as [(? & _) | (_ & _ & _ & [[? _] | (k & mid & Hk & Hk2 & Hm & _)])]; [lia | lia|].
    exists k. split; [exact Hk|]. rewrite Hm. rewrite (app_assoc (firstn k T) [0%N] (mid ++ _) : firstn k T ++ 0%N :: mid ++ _ = _).
    replace (S k) with (List.length (firstn k T ++ [0%N]) + 0) by (rewrite app_length, firstn_length; cbn [List.length]; lia).
    rewrite firstn_app_2. rewrite firstn_O, app_nil_r. reflexivity.
Qed.
Example C40_plain_case : layout some_fmt false sample =
  str "{""name"":""lamp"",""on"":true,""v"":-7,""key"":""AQL/"",""l"":[1,2],""s"":[""x"",""y""],""o"":{""d"":3.000000,""e"":{}},""a"":[{""n"":null},{}]}".
Proof. vm_compute. reflexivity. Qed.
Print Assumptions C40_plain_text.

(** With or without indentation: a buffer larger than the text holds exactly the text. *)
Theorem C40_whole_text :
  forall fmt pretty l mem size, reps_ok l -> size <= List.length mem ->
  (N.of_nat (List.length (layout fmt pretty l)) < 2 ^ 64)%N -> List.length (layout fmt pretty l) < size ->
  exists mem', to_json fmt pretty false l mem size = Some (mem', N.of_nat (List.length (layout fmt pretty l))) /\
  firstn (S (List.length (layout fmt pretty l))) mem' = layout fmt pretty l ++ [0%N].
Proof.
  intros fmt pretty l mem size Hok Hsz Hsm Hlt. set (T := layout fmt pretty l) in *.
  destruct (to_json_printed fmt pretty false l (mkJ mem 0 size 0 false)) as (Ht & Hb & HP);
    [exact Hsz | reflexivity | exact Hok | split; [exact Hsm | right; right; split; [reflexivity | exact Hlt]]|].
  fold T in Ht, HP. exists (j_mem (to_json_from fmt pretty false l (mkJ mem 0 size 0 false))).
  split; [unfold to_json; rewrite Hb; cbn [j_bad]; rewrite Ht; reflexivity|]. cbn [j_size j_off] in HP. unfold pre in HP. cbn [j_off j_mem firstn app] in HP.
  assert (HT : T <> []) by (unfold T, layout; destruct l as [|[[|? ?] []] ?]; try destruct l; discriminate).
  destruct HP as [(_ & mid & Hm & Hl & _ & _ & Hz) | (? & _)]; [|lia]. rewrite Hm.
  destruct Hz as [Hz | [_ ?]]; [|congruence]. destruct mid as [|z mid]; [discriminate|]. cbn [hd_error] in Hz. injection Hz as ->.
  cbn [app]. rewrite (app_assoc T [0%N] (mid ++ _) : T ++ 0%N :: mid ++ _ = _).
  replace (S (List.length T)) with (List.length (T ++ [0%N]) + 0) by (rewrite app_length; cbn [List.length]; lia).
  rewrite firstn_app_2. rewrite firstn_O, app_nil_r. reflexivity.
Qed.
Example C40_whole_text_case : layout some_fmt true [(str "o", RObj [(str "l", RIntArr [1; 2]%Z); (str "s", RStrArr [str "x"])])] =
  str "{" ++ [10%N] ++ str "  ""o"" : {" ++ [10%N] ++ str "    ""l"" : [1, 2]," ++ [10%N] ++ str "    ""s"" : [" ++ [10%N] ++
  str "      ""x""" ++ [10%N] ++ str "    ]" ++ [10%N] ++ str "  }" ++ [10%N] ++ str "}" ++ [10%N].
Proof. vm_compute. reflexivity. Qed.
Print Assumptions C40_whole_text.

(** Measuring: without a buffer the length of the whole text is returned, with or without indentation. *)
Theorem C40_measuring :
  forall fmt pretty l mem, reps_ok l -> (N.of_nat (List.length (layout fmt pretty l)) < 2 ^ 64)%N ->
  to_json fmt pretty true l mem 0 = Some (mem, N.of_nat (List.length (layout fmt pretty l))).
Proof.
  intros fmt pretty l mem Hok Hsm.
  destruct (to_json_printed fmt pretty true l (mkJ mem 0 0 0 false)) as (Ht & Hb & HP);
    [unfold wfs; cbn [j_off j_size]; lia | reflexivity | exact Hok | split; [exact Hsm | right; left; split; reflexivity]|].
  unfold to_json. rewrite Hb, Ht. cbn [j_bad]. f_equal. f_equal.
  destruct HP as [(? & _) | (_ & _ & _ & [[_ H] | (k & _ & ? & _)])]; cbn [j_size] in *; [lia | exact H | lia].
Qed.
Example C40_measuring_case : to_json some_fmt true true sample [] 0 = Some ([], N.of_nat (List.length (layout some_fmt true sample))) /\
  List.length (layout some_fmt true sample) = 222.
Proof. split; vm_compute; reflexivity. Qed.
Print Assumptions C40_measuring.

(** The text is a JSON document for the payload: an object whose members are the attributes, or an array of objects,
    provided names and strings need no escaping and no value is an array without item type. *)
Theorem C40_text_is_json :
  forall fmt pretty l, reps_ok l -> plain_reps l -> json_doc fmt l (layout fmt pretty l).
Proof. exact layout_object. Qed.
Theorem C40_array_text_is_json :
  forall fmt pretty o os, o <> [] -> Forall (fun o => reps_ok o /\ plain_reps o) (o :: os) ->
  json_doc fmt (map (fun o => ([], RObj o)) (o :: os)) (layout fmt pretty (map (fun o => ([], RObj o)) (o :: os))).
Proof. exact layout_array. Qed.
Example C40_text_is_json_case : reps_ok sample /\ plain_reps sample /\
  layout some_fmt false (map (fun o => ([], RObj o)) [[(str "n", RInt 1)]; []]) = str "[{""n"":1},{}]".
Proof.
  split; [repeat split; try discriminate; repeat constructor|]. split; [|vm_compute; reflexivity].
  repeat split; repeat (constructor; try (vm_compute; intuition discriminate)).
Qed.
Print Assumptions C40_text_is_json.
Print Assumptions C40_array_text_is_json.

(** A text that does not fit is noticed in every mode: the value returned is at least the size of the buffer, and
    never more than the length of the text. *)
Theorem C40_truncation_is_noticed :
  forall fmt pretty l mem size mem' n, reps_ok l -> size <= List.length mem ->
  (N.of_nat (List.length (layout fmt pretty l)) < 2 ^ 64)%N ->
  to_json fmt pretty false l mem size = Some (mem', n) ->
  (n <= N.of_nat (List.length (layout fmt pretty l)))%N /\
  ((n < N.of_nat size)%N <-> List.length (layout fmt pretty l) < size).
Proof.
  intros fmt pretty l mem size mem' n Hok Hsz Hsm H. unfold to_json in H. destruct (j_bad _); [discriminate|]. injection H as _ <-.
  destruct pretty.
  - destruct (to_json_est fmt l (mkJ mem 0 size 0 false) eq_refl Hok Hsm) as [(H1 & _ & ->) | (H1 & z & -> & Hz & HD)]; cbn [j_size] in *; [lia|].
    rewrite Z.mod_small by lia. lia.
  - destruct (to_json_printed fmt false false l (mkJ mem 0 size 0 false)) as (-> & _); [exact Hsz | reflexivity | exact Hok | split; [exact Hsm | left; reflexivity] | lia].
Qed.
Example C40_truncation_case : option_map snd (to_json some_fmt true false sample (repeat 7%N 300) 100) = Some 163%N /\
  List.length (layout some_fmt true sample) = 222.
Proof. split; vm_compute; reflexivity. Qed.
Print Assumptions C40_truncation_is_noticed.

(** With indentation, a buffer that is too small: the value returned is not the length of the text, and the buffer
    does not hold a prefix of it (a failed indentation answers (size_t)-1, which the sum of the lengths absorbs, so
    that later output overwrites earlier output). *)
Definition nested : list rep := [(str "a", RObjArr [[]; []])].
Theorem C40_pretty_length_refuted :
  exists l mem size, reps_ok l /\ size <= List.length mem /\ (N.of_nat (List.length (layout some_fmt true l)) < 2 ^ 64)%N /\
  exists mem' n, to_json some_fmt true false l mem size = Some (mem', n) /\ n <> N.of_nat (List.length (layout some_fmt true l)).
Proof.
  exists nested, (repeat 7%N 35), 35. split; [repeat split; discriminate|]. split; [vm_compute; lia|]. split; [vm_compute; reflexivity|].
  eexists. eexists. split; [vm_compute; reflexivity | vm_compute; discriminate].
Qed.
Print Assumptions C40_pretty_length_refuted.
Theorem C40_pretty_prefix_refuted :
  exists l mem size mem' n, reps_ok l /\ size <= List.length mem /\ to_json some_fmt true false l mem size = Some (mem', n) /\
  forall k, firstn (S k) mem' <> firstn k (layout some_fmt true l) ++ [0%N].
Proof.
  exists nested, (repeat 7%N 35), 35. eexists. eexists. split; [repeat split; discriminate|]. split; [vm_compute; lia|].
  split; [vm_compute; reflexivity|]. intros k. do 36 (destruct k as [|k]; [vm_compute; discriminate|]).
  intros E. apply (f_equal (fun l => nth_error l 34)) in E. revert E.
  rewrite (nth_error_app1 (firstn _ _)) by (rewrite firstn_length; vm_compute List.length; lia). cbn -[layout]. vm_compute. discriminate.
Qed.
Print Assumptions C40_pretty_prefix_refuted.

(** Strings are printed without escaping: two different payloads have the same text. *)
Theorem C40_text_tells_payload_refuted :
  exists l l', l <> l' /\ reps_ok l /\ reps_ok l' /\ forall fmt, layout fmt false l = layout fmt false l'.
Proof.
  exists [(str "a", RStr (str "x"",""b"":""y"))], [(str "a", RStr (str "x")); (str "b", RStr (str "y"))].
  split; [discriminate|]. split; [repeat split|]. split; [repeat split|]. intros fmt. vm_compute. reflexivity.
Qed.
Print Assumptions C40_text_tells_payload_refuted.

(** An array without items and item type prints nothing behind the colon; an array of objects whose first object is
    empty loses the others; an array of no objects dereferences NULL. *)
Theorem C40_empty_arrays_refuted :
  (forall fmt, layout fmt false [(str "a", RArr)] = str "{""a"":}") /\
  (forall fmt, layout fmt false (map (fun o => ([], RObj o)) [[]; [(str "n", RInt 1)]]) = str "[]") /\
  (forall fmt pretty mem, to_json fmt pretty true [(str "a", RObjArr [])] mem 0 = None).
Proof.
  split; [intros; vm_compute; reflexivity|]. split; [intros; vm_compute; reflexivity|].
  intros fmt pretty mem. destruct pretty; vm_compute; reflexivity.
Qed.
Print Assumptions C40_empty_arrays_refuted.
