(** What follows from the table. *)

From Coq Require Import List Bool Arith Lia.
From Verif Require Import Kp_Model Kp_Spec Kp_Proofs.
Import ListNotations.

Lemma get_lookup : forall c s t d, R c s t -> get c s d = lookup d (keys t).
Proof.
  intros c s t d V. assert (F := find_lookup c s d (lst s) (fun h H => proj2 (r_live _ _ _ V h) H)).
  rewrite (r_keys _ _ _ V) in F. unfold get. destruct (find c s d (lst s)) as [[h|]|]; [|symmetry; exact F|destruct F].
  destruct F as [_ [_ F]]. symmetry. exact F.
Qed.

Lemma snoc_split : forall (ops p q : list op) o z, ops ++ [o] = p ++ z :: q ->
  (q = [] /\ p = ops /\ z = o) \/ exists q', ops = p ++ z :: q'.
Proof.
  intros ops p q o z E. destruct (list_eq_dec_nil q) as [Q|[q' [y Q]]]; subst q.
  - left. apply app_inj_tail in E. destruct E as [A B]. auto.
  - right. exists q'. rewrite app_comm_cons, app_assoc in E. apply app_inj_tail in E. apply E.
Qed.

Lemma calm_snoc : forall ops o, calm ops -> (forall d x, o <> OLoad d x) -> calm (ops ++ [o]).
Proof.
  intros ops o C N p d x q o' E I A. destruct (snoc_split ops p q o _ E) as [[Q [P Z]]|[q' Q]].
  - destruct (N d x). symmetry. exact Z.
  - apply (C p d x q' o' Q I A).
Qed.

Lemma calm_restart : forall ops d x, calm ops -> calm ((ops ++ [OShutdown]) ++ [OLoad d x]).
Proof.
  intros ops d x C p e y q o E I A. destruct (snoc_split _ p q _ _ E) as [[Q [P Z]]|[q' Q]].
  - exists ops, []. split; [exact P|]. intros [o' [[] _]].
  - assert (C' : calm (ops ++ [OShutdown])) by (apply calm_snoc; [exact C|intros; discriminate]).
    apply (C' p e y q' o Q I A).
Qed.

Lemma calm_nil : calm [].
Proof. intros p d x q o E. destruct p; discriminate E. Qed.

Lemma calm_first : forall ops d x, calm ops ->
  (exists p1 p2, (ops = p1 ++ OShutdown :: p2 \/ ops = p2) /\ forall o, In o p2 -> ~ about d o) ->
  calm (ops ++ [OLoad d x]).
Proof.
  intros ops d x C [p1 [p2 [H N]]] p e y q o E I A. destruct (snoc_split ops p q _ _ E) as [[Q [P Z]]|[q' Q]].
  - inversion Z. subst e y p. destruct H as [H|H].
    + exists p1, p2. split; [exact H|]. intros [o' [B D]]. exact (N o' B D).
    + subst p2. destruct (N o I A).
  - apply (C p e y q' o Q I A).
Qed.

Lemma lookup_other : forall d e k l, d <> e -> lookup e (l ++ [(d, k)]) = lookup e l.
Proof.
  intros d e k l N. induction l as [|[a j] l IH]; cbn [lookup app].
  - destruct (d =? e) eqn:E; [apply Nat.eqb_eq in E; contradiction|reflexivity].
  - destruct (a =? e); [reflexivity|exact IH].
Qed.

Lemma lookup_kept : forall d e l, d <> e -> lookup e (filter (fun p : nat * key => negb (fst p =? d)) l) = lookup e l.
Proof.
  intros d e l N. induction l as [|[a j] l IH]; [reflexivity|]. cbn [filter fst lookup].
  destruct (a =? d) eqn:E; cbn [negb].
  - apply Nat.eqb_eq in E. subst a. destruct (d =? e) eqn:F; [apply Nat.eqb_eq in F; contradiction|exact IH].
  - cbn [lookup]. destruct (a =? e); [reflexivity|exact IH].
Qed.

Lemma enter_lookup : forall c x d r t, lookup d (keys t) = None ->
  lookup d (keys (enter c x d r t)) = if room c x t then r else None.
Proof.
  intros c x d r t N. unfold enter. destruct r as [k|]; destruct (room c x t); try exact N; try reflexivity.
  cbn [keys]. apply lookup_snoc. exact N.
Qed.
Lemma enter_new_lookup : forall c x d t, lookup d (keys t) = None ->
  lookup d (keys (enter_new c x d t)) = if room c x t then drawn x else None.
Proof.
  intros c x d t N. unfold enter_new. destruct (drawn x) as [k|]; destruct (room c x t); try exact N; try reflexivity.
  cbn [keys]. apply lookup_snoc. exact N.
Qed.
Lemma enter_new_other : forall c x d e t, d <> e -> lookup e (keys (enter_new c x d t)) = lookup e (keys t).
Proof.
  intros c x d e t N. unfold enter_new. destruct (drawn x) as [k|]; [|reflexivity]. destruct (room c x t); [|reflexivity].
  cbn [keys]. apply lookup_other. exact N.
Qed.

(** The pool is large enough. *)
Lemma pool_room : forall c f ops n d x, c = Some n -> NoDup (map fst (keys (acts c f ops))) ->
  (forall o e, In o ops -> about e o -> e < n) -> d < n -> lookup d (keys (acts c f ops)) = None ->
  room c x (acts c f ops) = true.
Proof.
  intros c f ops n d x C ND B D N. subst c. unfold room. apply Nat.ltb_lt.
  set (l := map fst (keys (acts (Some n) f ops))) in *.
  assert (L : length (d :: l) <= length (seq 0 n)).
  { apply NoDup_incl_length.
    - constructor; [apply lookup_none; exact N|exact ND].
    - intros e [E|E]; apply in_seq; [lia|].
      destruct (dom (Some n) f ops e E [] ops (or_intror eq_refl)) as [o [A Z]]. assert (Y := B o e A Z). lia. }
  unfold l in L. cbn [length] in L. rewrite map_length, seq_length in L. lia.
Qed.

(** What is in memory is in the storage. *)
Definition saves (o : op) : Prop :=
  match o with OLoad _ x | OReset _ _ x => x_write x = true | OFile _ _ => False | _ => True end.

Definition saved (t : table) : Prop :=
  forall d k, In (d, k) (keys t) -> exists l, files t d = Rep l /\ content l = Some k.

Lemma enter_new_saved : forall c x d t, x_write x = true -> lookup d (keys t) = None -> saved t ->
  saved (enter_new c x d t).
Proof.
  intros c x d t W N S. unfold enter_new. destruct (drawn x) as [k|] eqn:K; [|exact S]. destruct (room c x t); [|exact S].
  rewrite W. intros e j H. cbn [keys files] in *. apply in_app_or in H. destruct H as [H|[H|[]]].
  - rewrite upd_other; [apply S; exact H|]. intros X. subst e. apply lookup_none in N. apply N.
    apply (in_map fst) in H. exact H.
  - inversion H. subst e j. rewrite upd_same. eexists. split; [reflexivity|].
    apply (encode_content k). apply (drawn_small x). exact K.
Qed.

Lemma acts_saved : forall c f ops, calm ops -> Forall saves ops -> saved (acts c f ops).
Proof.
  intros c f ops. induction ops as [|o ops IH] using rev_ind; intros C S; [intros d k []|].
  rewrite Forall_app in S. destruct S as [S O]. inversion O as [|? ? O1 O2]; subst.
  assert (H := IH (calm_front _ _ C) S). rewrite acts_snoc. set (t := acts c f ops) in *.
  destruct o as [d x|d keep x|d| |d g]; cbn [act saves] in *; [| |exact H|intros d k []|destruct O1].
  - assert (N := calm_load c f ops d x C). fold t in N. destruct (files t d) as [| |l] eqn:F; [|exact H|].
    + apply enter_new_saved; assumption.
    + intros e k X. unfold enter in *. destruct (content l) as [j|] eqn:K; [|apply H; exact X].
      destruct (room c x t); [|apply H; exact X]. cbn [keys files] in *. apply in_app_or in X.
      destruct X as [X|[X|[]]]; [apply H; exact X|]. inversion X. subst e j. exists l. split; assumption.
  - destruct (lookup d (keys t)) eqn:L; [|apply enter_new_saved; assumption].
    destruct (keep && negb (x_free x)); [exact H|]. apply enter_new_saved; [exact O1|apply lookup_removed|].
    intros e j X. cbn [keys files] in *. apply filter_In in X. apply H. apply X.
Qed.
