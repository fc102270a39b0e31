(** The answer to a publish request, and what the cloud then has. *)
From Verif Require Import Common Rep_Model Repd_Model Coap_Model Buf_Model Jp_Model Disc_Spec Rd_Model Rd_Spec Rd_Proofs Rd2_Proofs Rd3_Proofs Rd4_Proofs.
From Coq Require Import String Permutation.
Notation rep := Rep_Model.rep.
Local Open Scope string_scope.
Local Open Scope list_scope.
Local Open Scope N_scope.

Lemma of_href_uri h k : has_res k -> of_href h k = true <-> uri_of k = h.
Proof. unfold has_res, of_href, uri_of. destruct (k_res k); [|contradiction]. intros _. apply list_eqb_spec. Qed.

Lemma answer_lists l : forall s s', inv s -> NoDup (map uri_of (s_publish s)) -> publish_answer l s = Some s' ->
  s_publish s' = kept l (s_publish s) /\ Permutation (s_published s') (s_published s ++ moved l (s_publish s)).
Proof.
  induction l as [|o l IH]; intros s s' I ND E; cbn [publish_answer] in E.
  - injection E as <-. split.
    + unfold kept. cbn [answered]. clear. induction (s_publish s) as [|k t H]; [reflexivity|]. cbn [filter]. f_equal. exact H.
    + replace (moved [] (s_publish s)) with (@nil link); [rewrite app_nil_r; reflexivity|]. unfold moved. cbn [answered]. clear. induction (s_publish s) as [|k t H]; [reflexivity|exact H].
  - assert (Skip : (forall k, In k (s_publish s) -> answered (uri_of k) (o :: l) = answered (uri_of k) l) -> kept (o :: l) (s_publish s) = kept l (s_publish s) /\ moved (o :: l) (s_publish s) = moved l (s_publish s)).
    { clear. intros H. unfold kept, moved. induction (s_publish s) as [|k t J]; [split; reflexivity|]. cbn [filter flat_map]. rewrite (H k (or_introl eq_refl)). destruct (J (fun x X => H x (or_intror X))) as [J1 J2]. rewrite J1, J2. split; reflexivity. }
    destruct (get_s o (str "href")) as [h|] eqn:G; [|destruct Skip as [-> ->]; [intros k _; cbn [answered]; rewrite G; reflexivity|apply (IH _ _ I ND E)]].
    destruct (get_i o (str "ins")) as [i|] eqn:Gi; [|destruct Skip as [-> ->]; [intros k _; cbn [answered]; rewrite G, Gi; reflexivity|apply (IH _ _ I ND E)]].
    rewrite find_href_spec in E by apply I. pose proof (i_pub _ I) as HR. rewrite Forall_forall in HR.
    destruct (remove_first_split (of_href h) (s_publish s)) as [(a & k & b & P & F & _ & R & Fd)|(Nn & _ & Fd)]; rewrite Fd in E.
    + rewrite R in E. assert (U : uri_of k = h). { apply of_href_uri; [|exact F]. apply HR. rewrite P. apply in_elt. }
      match type of E with publish_answer l ?x = _ => set (s1 := x) in E end. rewrite P, map_app in ND. cbn [map] in ND. pose proof (NoDup_remove_2 _ _ _ ND) as NI. apply NoDup_remove_1 in ND. rewrite <- map_app in ND.
      assert (I1 : inv s1).
      { pose proof (answer_inv [o] s I) as (y & Y & Iy & _). cbn [publish_answer] in Y. rewrite G, Gi, find_href_spec in Y by apply I. rewrite Fd, R in Y. injection Y as Y. unfold s1. rewrite Y. exact Iy. }
      destruct (IH s1 s' I1 ND E) as [J1 J2]. cbn [s1 s_publish s_published with_publish with_published] in J1, J2. rewrite P.
      assert (O : forall x, In x (a ++ b) -> answered (uri_of x) (o :: l) = answered (uri_of x) l).
      { intros x X. cbn [answered]. rewrite G, Gi. destruct (list_eqb h (uri_of x)) eqn:L; [|reflexivity]. apply list_eqb_spec in L. exfalso. apply NI. rewrite U, L, <- map_app. apply in_map. exact X. }
      assert (K : answered (uri_of k) (o :: l) = Some i) by (cbn [answered]; rewrite G, Gi, U, list_eqb_refl; reflexivity).
      assert (Oa : kept (o :: l) (a ++ k :: b) = kept l (a ++ b) /\ Permutation (moved (o :: l) (a ++ k :: b)) (mk_link (k_res k) i :: moved l (a ++ b))).
      { clear - O K. unfold kept, moved. induction a as [|x a J]; cbn [app filter flat_map].
        - rewrite K. cbn [app] in O |- *. induction b as [|y b H]; [split; reflexivity|]. cbn [filter flat_map]. rewrite (O y (or_introl eq_refl)). destruct H as [H1 H2]; [intros z Z; apply O; right; exact Z|]. split; [destruct (answered (uri_of y) l); rewrite H1; reflexivity|]. apply Permutation_cons_inv in H2. destruct (answered (uri_of y) l); cbn [app]; [|constructor; exact H2]. do 2 constructor. exact H2.
        - rewrite (O x (or_introl eq_refl)). destruct J as [J1 J2]; [intros z Z; apply O; right; exact Z|]. split; [destruct (answered (uri_of x) l); rewrite J1; reflexivity|]. destruct (answered (uri_of x) l) as [z|]; cbn [app]; [rewrite J2; apply perm_swap|exact J2]. }
      destruct Oa as [O1 O2]. rewrite O1. split; [exact J1|]. rewrite J2, O2, <- app_assoc. reflexivity.
    + destruct Skip as [-> ->]; [|apply (IH _ _ I ND E)]. intros k X. cbn [answered]. rewrite G, Gi. destruct (list_eqb h (uri_of k)) eqn:L; [|reflexivity]. apply list_eqb_spec in L. exfalso. pose proof (Nn k X) as F. symmetry in L. apply of_href_uri in L; [congruence|apply HR; exact X].
Qed.

(** * Texts of requests as the cloud reads them *)

Lemma parts_plain l : ~ In 38 l -> parts l = [l].
Proof. induction l as [|c l IH]; intros H; [reflexivity|]. cbn [parts]. destruct (N.eqb_spec c 38) as [->|e]; [exfalso; apply H; left; reflexivity|]. rewrite IH by (intros X; apply H; right; exact X). reflexivity. Qed.
Lemma parts_sep l r : ~ In 38 l -> parts (l ++ 38 :: r) = l :: parts r.
Proof. induction l as [|c l IH]; intros H; [reflexivity|]. cbn [app parts]. destruct (N.eqb_spec c 38) as [->|e]; [exfalso; apply H; left; reflexivity|]. rewrite IH by (intros X; apply H; right; exact X). reflexivity. Qed.

Lemma parts_ins ts : forall l, ~ In 38 l -> Forall (fun t => ~ In 38 t) ts -> parts (l ++ List.concat (map (fun t => str "&ins=" ++ t) ts)) = l :: map (fun t => str "ins=" ++ t) ts.
Proof.
  induction ts as [|t ts IH]; intros l H F; cbn [map List.concat]; [rewrite app_nil_r; apply parts_plain; exact H|]. inversion F as [|x y F1 F2]; subst. change (str "&ins=" ++ t) with (38 :: (str "ins=" ++ t)). cbn [app]. rewrite parts_sep by exact H. f_equal. rewrite IH; [reflexivity| |exact F2].
  intros X. apply in_app_or in X. destruct X as [X|X]; [cbn in X; repeat (destruct X as [X|X]; [discriminate|]); exact X|exact (F1 X)].
Qed.

Lemma named_query di l : ~ In 38 di -> named (query di (texts l)) = map k_ins l.
Proof.
  intros H. unfold named, query. rewrite app_assoc, parts_ins; [| |apply texts_plain].
  - cbn [flat_map]. change (list_eqb (firstn 4 (str "di=" ++ di)) (str "ins=")) with false. cbn [app]. unfold texts. rewrite map_map. induction l as [|k l IH]; [reflexivity|]. cbn [map flat_map]. rewrite IH. change (firstn 4 (str "ins=" ++ dec_z (k_ins k))) with (str "ins="). rewrite list_eqb_refl. change (skipn 4 (str "ins=" ++ dec_z (k_ins k))) with (dec_z (k_ins k)). rewrite number_dec. reflexivity.
  - intros X. apply in_app_or in X. destruct X as [X|X]; [cbn in X; repeat (destruct X as [X|X]; [discriminate|]); exact X|exact (H X)].
Qed.

Lemma hrefs_publishes v l p : publishes v l (MPublish p) -> hrefs p = map uri_of l.
Proof.
  intros (q & os & [= <-] & _ & _ & _ & E & F). unfold hrefs. rewrite E. clear E. induction F as [|k o l os H _ IH]; [reflexivity|]. cbn [flat_map map]. destruct H as (r & R & S). rewrite (w_href _ _ _ S), IH. unfold uri_of. rewrite R. reflexivity.
Qed.

Lemma answered_all assign hs h : answered h (map (fun h => [(str "href", RStr h); (str "ins", RInt (assign h))]) hs) = if existsb (fun x => list_eqb x h) hs then Some (assign h) else None.
Proof.
  induction hs as [|x hs IH]; [reflexivity|]. cbn [map answered existsb]. change (get_s _ (str "href")) with (Some x). change (get_i _ (str "ins")) with (Some (assign x)). cbv iota. destruct (list_eqb x h) eqn:E; [apply list_eqb_spec in E; subst x; reflexivity|exact IH].
Qed.

Lemma put_spec assign hs : forall c e, In e (fold_left (put assign) hs c) <-> (In (fst e) hs /\ snd e = assign (fst e)) \/ (~ In (fst e) hs /\ In e c).
Proof.
  induction hs as [|h hs IH]; intros c e; cbn [fold_left]; [split; [intros H; right; split; [intros []|exact H]|intros [[[] _]|[_ H]]; exact H]|]. rewrite IH. unfold put at 1. cbn [In]. rewrite filter_In. destruct e as [u z]. cbn [fst snd].
  assert (D : {h = u} + {h <> u}) by (destruct (list_eqb h u) eqn:L; [left; apply list_eqb_spec; exact L|right; intros X; apply list_eqb_spec in X; congruence]).
  assert (D2 : In u hs \/ ~ In u hs) by (destruct (in_dec (list_eq_dec N.eq_dec) u hs); auto). assert (B : negb (list_eqb u h) = true <-> h <> u). { rewrite negb_true_iff. split; [intros X Y; subst; rewrite list_eqb_refl in X; discriminate|intros X; destruct (list_eqb u h) eqn:L; [apply list_eqb_spec in L; congruence|reflexivity]]. }
  split.
  - intros [[X Y]|[X [Y|[Y Z]]]]; [left; split; [right; exact X|exact Y]|injection Y as <- <-; left; split; [left; reflexivity|reflexivity]|]. right. split; [|exact Y]. intros [W|W]; [apply B in Z; congruence|contradiction].
  - intros [[[X|X] Y]|[X Y]].
    + subst h. destruct D2 as [D2|D2]; [left; split; assumption|right; split; [exact D2|]]. left. subst z. reflexivity.
    + left. split; assumption.
    + right. split; [intros Z; apply X; right; exact Z|]. right. split; [exact Y|]. apply B. intros Z. apply X. left. exact Z.
Qed.
