From Verif Require Import Common Ep_Model Ep_Spec Ep_Proofs Base64_Model Base64_Spec Base64_Proofs Buf_Model Rep_Model Jp_Model Jp_Spec Jp_Proofs.
From Coq Require Import String.
Local Open Scope string_scope.
Local Open Scope list_scope.
Local Open Scope nat_scope.

Section Print.
Variable fmt : N -> list N.
Variables pretty null : bool.

(** The cases in which the printed text is the layout. *)
Definition lim (s0 : jst) (n : nat) : Prop :=
  small n /\ (pretty = false \/ null = true /\ j_size s0 = 0 \/ null = false /\ n < j_size s0).
Lemma lim_le s0 n m : lim s0 n -> m <= n -> lim s0 m.
Proof. unfold lim, small. intros [H1 H2] H. split; [lia|]. destruct H2 as [H2 | [[H2 H3] | [H2 H3]]]; [left; exact H2 | right; left; split; assumption | right; right; split; [exact H2 | lia]]. Qed.

Lemma put_p s0 T s t t' : wfs s0 -> printed s0 T s -> lim s0 (List.length T + List.length t) -> t' = t -> printed s0 (T ++ t) (put s t').
Proof. intros Hw HP [Hs _] ->. apply put_printed; assumption. Qed.

Lemma tab_p s0 T s d : wfs s0 -> printed s0 T s -> lim s0 (List.length T + List.length (indent pretty d)) -> printed s0 (T ++ indent pretty d) (ptab pretty null s d).
Proof.
  intros Hw HP [Hs Hl]. unfold ptab, indent in *. destruct pretty; [|rewrite app_nil_r; exact HP].
  rewrite repeat_length in *. apply tab_printed; try assumption.
  destruct Hl as [H|H]; [discriminate|]. exact H.
Qed.
Lemma call_p s0 T s U f :
  wfs s0 -> printed s0 T s -> lim s0 (List.length T + List.length U) ->
  (forall s1, wfs s1 -> j_total s1 = 0%N -> lim s1 (List.length U) -> printed s1 U (f s1)) ->
  printed s0 (T ++ U) (call s f).
Proof.
  intros Hw HP [Hs Hl] Hf. apply call_printed; try assumption. intros Hw1. apply Hf; [exact Hw1 | reflexivity|].
  destruct HP as (_ & _ & HP). split; [unfold small in *; lia|].
  destruct Hl as [H | [[H1 H2] | [H1 H2]]]; [left; exact H | right; left; split; [exact H1|] | right; right; split; [exact H1|]]; cbn [j_size].
  - destruct HP as [(? & _) | (_ & _ & H & _)]; [lia | exact H].
  - destruct HP as [(_ & mid & _ & _ & _ & H & _) | (? & _)]; lia.
Qed.

Lemma len_app {A} (a b : list A) : List.length (a ++ b) = List.length a + List.length b.
Proof. apply app_length. Qed.
Ltac lens := rewrite ?len_app in *; lia.
Ltac lims := match goal with H : lim ?s ?n |- lim ?s ?m => apply (lim_le s n m H); rewrite ?len_app in *; cbn [List.length]; lia end.

Lemma with_eol c : (if pretty then [c] ++ nl else [c]) = [c] ++ eol pretty.
Proof. unfold eol, nl. destruct pretty; [reflexivity|]. rewrite app_nil_r. reflexivity. Qed.
Lemma put_eol s0 T s : wfs s0 -> printed s0 T s -> lim s0 (List.length T + List.length (eol pretty)) ->
  printed s0 (T ++ eol pretty) (if pretty then put s nl else s).
Proof.
  intros Hw HP Hl. unfold eol in *. destruct pretty eqn:E; [|rewrite app_nil_r; exact HP].
  destruct Hl as [Hs _]. apply put_printed; assumption.
Qed.

Lemma items_p l s0 T s : wfs s0 -> printed s0 T s -> lim s0 (List.length T + List.length (items_layout pretty l)) ->
  printed s0 (T ++ items_layout pretty l) (items pretty l s).
Proof.
  revert T s. induction l as [|t r IH]; intros T s Hw HP Hl; cbn [items items_layout] in *.
  - rewrite app_nil_r. exact HP.
  - rewrite !len_app in Hl. assert (H1 : printed s0 (T ++ t) (put s t)) by (apply put_p; [assumption | assumption | lims | reflexivity]).
    rewrite !app_assoc. destruct r as [|t2 r].
    + cbn [comma items items_layout app] in *. rewrite !app_nil_r. exact H1.
    + unfold comma in *. apply IH; [exact Hw | | lims].
      apply put_p; [exact Hw | exact H1 | lims | destruct pretty; reflexivity].
Qed.

Lemma lines_p one txt d l s0 T s :
  (forall t s T, In t l -> wfs s0 -> printed s0 T s -> lim s0 (List.length T + List.length (txt t)) -> printed s0 (T ++ txt t) (one t s)) ->
  wfs s0 -> printed s0 T s -> lim s0 (List.length T + List.length (lines_layout pretty d (map txt l))) ->
  printed s0 (T ++ lines_layout pretty d (map txt l)) (lines pretty null one d l s).
Proof.
  intros H1 Hw. revert T s. induction l as [|t r IH]; intros T s HP Hl; cbn [lines lines_layout map] in *.
  - rewrite app_nil_r. exact HP.
  - rewrite !len_app in Hl.
    assert (Ha : printed s0 (T ++ indent pretty (d + 2)) (ptab pretty null s (d + 2))) by (apply tab_p; [exact Hw | exact HP | lims]).
    assert (Hb : printed s0 ((T ++ indent pretty (d + 2)) ++ txt t) (one t (ptab pretty null s (d + 2))))
      by (apply H1; [left; reflexivity | exact Hw | exact Ha | lims]).
    rewrite !app_assoc. apply IH.
    + intros t' s' T' Hin. apply H1. right. exact Hin.
    + destruct r as [|t2 r]; cbn [map comma] in *.
      * rewrite app_nil_r. apply put_eol; [exact Hw | exact Hb | lims].
      * rewrite <- app_assoc. apply put_p; [exact Hw | exact Hb | lims | apply (with_eol 44%N) ].
    + lims.
Qed.
Lemma block_p one txt d l s0 T s :
  (forall t s T, In t l -> wfs s0 -> printed s0 T s -> lim s0 (List.length T + List.length (txt t)) -> printed s0 (T ++ txt t) (one t s)) ->
  wfs s0 -> printed s0 T s -> lim s0 (List.length T + List.length (block_layout pretty d (map txt l))) ->
  printed s0 (T ++ block_layout pretty d (map txt l)) (block pretty null one d l s).
Proof.
  intros H1 Hw HP Hl. unfold block, block_layout in *. rewrite !len_app in Hl.
  rewrite !app_assoc. apply put_p; [exact Hw | | lims | reflexivity]. apply tab_p; [exact Hw | | lims].
  apply lines_p; [exact H1 | exact Hw | | lims]. rewrite <- app_assoc. apply put_p; [exact Hw | exact HP | lims | apply (with_eol 91%N)].
Qed.

Lemma found_readable n : found n = readable n.
Proof. destruct n; reflexivity. Qed.

Definition P (v : rval) : Prop := forall d n s0 T s, wfs s0 -> tree_ok v -> printed s0 T s ->
  lim s0 (List.length T + List.length (value_layout fmt pretty d n v)) ->
  printed s0 (T ++ value_layout fmt pretty d n v) (value fmt pretty null d n v s).
Definition Q (l : list rep) : Prop := forall d s0 T s, wfs s0 -> reps_ok l -> printed s0 T s ->
  lim s0 (List.length T + List.length (attrs_layout pretty (value_layout fmt pretty d) d l)) ->
  printed s0 (T ++ attrs_layout pretty (value_layout fmt pretty d) d l) (attrs_with pretty null (value fmt pretty null d) d l s).

Lemma q_nil : Q [].
Proof. intros d s0 T s Hw _ HP _. cbn. rewrite app_nil_r. exact HP. Qed.
Lemma q_cons n v l : P v -> Q l -> Q ((n, v) :: l).
Proof.
  intros HPv HQ d s0 T s Hw [Hv Hr] HP Hl. cbn [attrs_layout attrs_with] in *. fold (attrs_layout pretty (value_layout fmt pretty d) d) in *.
  fold (attrs_with pretty null (value fmt pretty null d) d). rewrite !len_app in Hl. rewrite !app_assoc.
  apply HQ; [exact Hw | exact Hr | | lims]. apply put_eol; [exact Hw | | lims].
  assert (Hbase : printed s0 (((T ++ indent pretty (d + 1)) ++ match n with [] => [] | _ :: _ => quote n ++ (if pretty then str " : " else str ":") end) ++ value_layout fmt pretty d n v)
    (value fmt pretty null d n v match n with [] => ptab pretty null s (d + 1) | _ :: _ => put (ptab pretty null s (d + 1)) (quoted n ++ (if pretty then str " : " else str ":")) end)).
  { apply HPv; [exact Hw | exact Hv | | lims].
    assert (Ha : printed s0 (T ++ indent pretty (d + 1)) (ptab pretty null s (d + 1))) by (apply tab_p; [exact Hw | exact HP | lims]).
    destruct n; [rewrite app_nil_r; exact Ha|]. apply put_p; [exact Hw | exact Ha | lims | reflexivity]. }
  destruct l as [|a l]; cbn [comma] in *; [rewrite app_nil_r; exact Hbase|].
  rewrite app_nil_r in *. apply put_p; [exact Hw | exact Hbase | lims | reflexivity].
Qed.

Lemma p_obj l : Q l -> P (RObj l).
Proof.
  intros HQ d n s0 T s Hw Hok HP Hl. cbn [value_layout value] in *. fold (attrs_layout pretty (value_layout fmt pretty (d + 1)) (d + 1)) in *.
  rewrite !len_app in Hl. rewrite !app_assoc.
  apply put_p; [exact Hw | | lims | reflexivity]. apply tab_p; [exact Hw | | lims].
  apply call_p; [exact Hw | | lims |].
  - rewrite <- app_assoc. apply put_p; [exact Hw | exact HP | lims | apply (with_eol 123%N)].
  - intros s1 Hw1 Ht1 Hl1. apply (HQ (d + 1) s1 [] s1); [exact Hw1 | exact Hok | apply fresh; assumption | exact Hl1].
Qed.

Definition objs_layout (d : nat) : list (list rep) -> list N := fix objs_layout (l : list (list rep)) : list N :=
  match l with
  | [] => []
  | o :: r => indent pretty (d + 2) ++ [123%N] ++ eol pretty ++ attrs_layout pretty (value_layout fmt pretty (d + 2)) (d + 2) o
              ++ (match r with [] => [] | _ => indent pretty (d + 2) ++ [125; 44]%N ++ eol pretty end) ++ objs_layout r
  end.
Definition between (d : nat) (r : list (list rep)) : list N := match r with [] => [] | _ => indent pretty (d + 2) ++ [125; 44]%N ++ eol pretty end.
Definition objs (d : nat) : list (list rep) -> jst -> jst := fix objs (l : list (list rep)) (s : jst) : jst :=
  match l with
  | [] => s
  | o :: r =>
    let s := put (ptab pretty null s (d + 2)) (if pretty then str "{" ++ nl else str "{") in
    let s := call s (attrs_with pretty null (value fmt pretty null (d + 2)) (d + 2) o) in
    objs r (match r with [] => s | _ => put (ptab pretty null s (d + 2)) (if pretty then str "}," ++ nl else str "},") end)
  end.
Lemma objs_layout_cons d o r : objs_layout d (o :: r) =
  indent pretty (d + 2) ++ [123%N] ++ eol pretty ++ attrs_layout pretty (value_layout fmt pretty (d + 2)) (d + 2) o ++ between d r ++ objs_layout d r.
Proof. reflexivity. Qed.
Lemma objs_cons d o r s : objs d (o :: r) s =
  objs d r (match r with [] => call (put (ptab pretty null s (d + 2)) (if pretty then str "{" ++ nl else str "{")) (attrs_with pretty null (value fmt pretty null (d + 2)) (d + 2) o)
    | _ => put (ptab pretty null (call (put (ptab pretty null s (d + 2)) (if pretty then str "{" ++ nl else str "{")) (attrs_with pretty null (value fmt pretty null (d + 2)) (d + 2) o)) (d + 2)) (if pretty then str "}," ++ nl else str "},") end).
Proof. reflexivity. Qed.
Lemma objs_p d l : Forall Q l -> forall s0 T s, wfs s0 -> Forall reps_ok l -> printed s0 T s ->
  lim s0 (List.length T + List.length (objs_layout d l)) -> printed s0 (T ++ objs_layout d l) (objs d l s).
Proof.
  induction 1 as [|o r HQ _ IH]; intros s0 T s Hw Hok HP Hl; [change (objs_layout d []) with (@nil N); rewrite app_nil_r; exact HP|].
  inversion Hok as [|? ? Ho Hr]; subst. rewrite objs_cons. rewrite objs_layout_cons in *. rewrite !len_app in Hl. rewrite !app_assoc. apply IH; [exact Hw | exact Hr | | lims].
  assert (Hc : printed s0 ((((T ++ indent pretty (d + 2)) ++ [123%N]) ++ eol pretty) ++ attrs_layout pretty (value_layout fmt pretty (d + 2)) (d + 2) o)
    (call (put (ptab pretty null s (d + 2)) (if pretty then str "{" ++ nl else str "{")) (attrs_with pretty null (value fmt pretty null (d + 2)) (d + 2) o))).
  { apply call_p; [exact Hw | | lims |].
    - rewrite <- app_assoc. apply put_p; [exact Hw | apply tab_p; [exact Hw | exact HP | lims] | lims | apply (with_eol 123%N)].
    - intros s1 Hw1 Ht1 Hl1. apply (HQ (d + 2) s1 [] s1); [exact Hw1 | exact Ho | apply fresh; assumption | exact Hl1]. }
  destruct r as [|o2 r]; cbn [between] in *; [rewrite app_nil_r; exact Hc|]. rewrite !len_app in Hl. rewrite (app_assoc _ (indent pretty (d + 2))).
  apply put_p; [exact Hw | apply tab_p; [exact Hw | exact Hc | lims] | lims |]. unfold eol, nl. destruct pretty; reflexivity.
Qed.
Lemma tree_ok_objs os : tree_ok (RObjArr os) -> os <> [] /\ Forall reps_ok os.
Proof.
  intros [H1 H2]. split; [exact H1|]. clear H1. induction os as [|o r IH]; [constructor|]. destruct H2 as [Ha Hb]. constructor; [exact Ha | exact (IH Hb)].
Qed.
Lemma p_objs os : Forall Q os -> P (RObjArr os).
Proof.
  intros HQ d n s0 T s Hw Hok HP Hl. destruct (tree_ok_objs _ Hok) as [Hne Hos].
  change (value_layout fmt pretty d n (RObjArr os)) with ([91%N] ++ eol pretty ++ objs_layout d os ++ indent pretty (d + 2) ++ [125; 93]%N) in *.
  rewrite !len_app in Hl. rewrite !app_assoc.
  assert (E : value fmt pretty null d n (RObjArr os) s =
    put (ptab pretty null (objs d os (if pretty then put (put s (str "[")) nl else put s (str "["))) (d + 2)) (str "}]"))
    by (destruct os; [exfalso; apply Hne; reflexivity | reflexivity]).
  rewrite E. apply put_p; [exact Hw | | lims | reflexivity]. apply tab_p; [exact Hw | | lims].
  apply objs_p; [exact HQ | exact Hw | exact Hos | | lims]. apply put_eol; [exact Hw | | lims].
  apply put_p; [exact Hw | exact HP | lims | reflexivity].
Qed.

Lemma b64_p s0 b : bytes_ok b -> forall s T, wfs s0 -> printed s0 T s -> lim s0 (List.length T + List.length (quote (b64_text b))) ->
  printed s0 (T ++ quote (b64_text b)) (call s (b64 b)).
Proof. intros Hb s T Hw HP Hl. apply call_p; [exact Hw | exact HP | exact Hl|]. intros s1 Hw1 Ht1 [Hs _]. apply b64_fresh; assumption. Qed.

Lemma items_value_p s0 T s l : wfs s0 -> printed s0 T s -> lim s0 (List.length T + List.length ([91%N] ++ items_layout pretty l ++ [93%N])) ->
  printed s0 (T ++ [91%N] ++ items_layout pretty l ++ [93%N]) (put (items pretty l (put s (str "["))) (str "]")).
Proof.
  intros Hw HP Hl. rewrite !len_app in Hl. rewrite !app_assoc. apply put_p; [exact Hw | | lims | reflexivity].
  apply items_p; [exact Hw | | lims]. apply put_p; [exact Hw | exact HP | lims | reflexivity].
Qed.

Lemma p_leaf v : (forall l, v <> RObj l) -> (forall l, v <> RObjArr l) -> P v.
Proof.
  intros H1 H2 d n s0 T s Hw Hok HP Hl.
  destruct v as [|z|x|b|b|t|l| |l|l|l|l|l|l]; try (exfalso; eapply H1; reflexivity); try (exfalso; eapply H2; reflexivity);
    cbn [value value_layout tree_ok] in *; rewrite ?found_readable in *.
  - apply put_p; [exact Hw | exact HP | exact Hl | reflexivity].
  - apply put_p; [exact Hw | exact HP | exact Hl | reflexivity].
  - apply put_p; [exact Hw | exact HP | exact Hl | reflexivity].
  - apply put_p; [exact Hw | exact HP | exact Hl | destruct b; reflexivity].
  - destruct (readable n); [|rewrite app_nil_r; exact HP]. apply b64_p; assumption.
  - apply put_p; [exact Hw | exact HP | exact Hl | reflexivity].
  - rewrite app_nil_r. exact HP.
  - apply (items_value_p s0 T s _ Hw HP). exact Hl.
  - apply (items_value_p s0 T s _ Hw HP). exact Hl.
  - apply (items_value_p s0 T s _ Hw HP). exact Hl.
  - replace (if readable n then map (fun b => quote (b64_text b)) l else []) with (map (fun b => quote (b64_text b)) (if readable n then l else [])) in *
      by (destruct (readable n); reflexivity).
    apply block_p; [| exact Hw | exact HP | exact Hl]. intros t s' T' Hin. apply b64_p. destruct (readable n); [|destruct Hin].
    exact (proj1 (Forall_forall _ _) Hok t Hin).
  - replace (if readable n then map quote l else []) with (map quote (if readable n then l else [])) in * by (destruct (readable n); reflexivity).
    apply block_p; [| exact Hw | exact HP | exact Hl]. intros t s' T' _ Hw' HP' Hl'. apply put_p; [exact Hw' | exact HP' | exact Hl' | reflexivity].
Qed.

Lemma value_printed v : P v.
Proof. exact (rval_ind2 P Q q_nil q_cons p_obj p_objs p_leaf v). Qed.
Lemma reps_printed l : Q l.
Proof. exact (reps_ind2 P Q q_nil q_cons p_obj p_objs p_leaf l). Qed.

Lemma top_p l o c s0 : wfs s0 -> j_total s0 = 0%N -> reps_ok l ->
  lim s0 (List.length ([o] ++ eol pretty ++ attrs_layout pretty (value_layout fmt pretty 0) 0 l ++ [c] ++ eol pretty)) ->
  printed s0 ([o] ++ eol pretty ++ attrs_layout pretty (value_layout fmt pretty 0) 0 l ++ [c] ++ eol pretty)
   (let s := put s0 [o] in let s := if pretty then put s nl else s in let s := call s (format fmt pretty null 0 l) in
    let s := put s [c] in if pretty then put s nl else s).
Proof.
  intros Hw Ht Hok Hl. rewrite !len_app in Hl. rewrite !app_assoc. cbv zeta. apply put_eol; [exact Hw | | lims].
  apply put_p; [exact Hw | | lims | reflexivity]. apply call_p; [exact Hw | | lims |].
  - apply put_eol; [exact Hw | | lims]. apply (put_p s0 []); [exact Hw | apply fresh; assumption | lims | reflexivity].
  - intros s1 Hw1 Ht1 Hl1. apply (reps_printed l 0 s1 []); [exact Hw1 | exact Hok | apply fresh; assumption | exact Hl1].
Qed.

Lemma to_json_printed l s0 : wfs s0 -> j_total s0 = 0%N -> reps_ok l -> lim s0 (List.length (layout fmt pretty l)) ->
  printed s0 (layout fmt pretty l) (to_json_from fmt pretty null l s0).
Proof.
  intros Hw Ht Hok Hl. unfold to_json_from, layout in *.
  destruct l as [|[[|c n] v] r]; [apply (top_p [] 123%N 125%N s0 Hw Ht Hok Hl) | | apply (top_p ((c :: n, v) :: r) 123%N 125%N s0 Hw Ht Hok Hl)].
  destruct v as [|z|x|b|b|t|l| |l|l|l|l|l|l]; try (apply (top_p _ 123%N 125%N s0 Hw Ht Hok Hl)).
  destruct l as [|a l]; [|apply (top_p _ 91%N 93%N s0 Hw Ht Hok Hl)].
  cbn [is_objects]. cbv zeta. rewrite !len_app in Hl. rewrite !app_assoc. apply put_eol; [exact Hw | | lims].
  apply put_p; [exact Hw | | lims | reflexivity]. apply put_eol; [exact Hw | | lims].
  apply (put_p s0 []); [exact Hw | apply fresh; assumption | lims | reflexivity].
Qed.
End Print.
