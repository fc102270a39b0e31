(** Messages protected with OSCORE: a protected message that arrives is accepted. *)
From Verif Require Import Common Oscore_Model Oscore_Spec Oscore_Proofs Osx_Model Osx_Spec Osx_Proofs Osx2_Proofs Osx3_Proofs Osx4_Proofs.
Local Open Scope N_scope.

Section Live.
Variable civ : list N -> list N.

Lemma bytes_eqb_refl a : bytes_eqb a a = true.
Proof. now apply bytes_eqb_eq. Qed.
Lemma open_same k n a i : open k n a (Ct k n a i) = Some i.
Proof. unfold open. now rewrite !bytes_eqb_refl. Qed.

Lemma find_snoc {A} (p : A -> bool) l x : existsb p l = false -> p x = true -> find p (l ++ [x]) = Some x.
Proof. induction l as [|y l IH]; cbn; intros E P; [now rewrite P|]. destruct (p y); [discriminate|auto]. Qed.

(** A request with a token not in use is protected. *)
Lemma request_emits s d c ty mid tok i con : find (has_subject (x_subject c)) (d_ctxs (devs s d)) = Some c -> d_rfnop (devs s d) = true ->
  is_request (i_code i) = true -> existsb (has_token tok) (d_cbs (devs s d)) = false -> existsb (fun t => bytes_eqb tok (g_token t)) (d_trs (devs s d)) = false ->
  emits civ s (Request d (x_subject c) ty mid tok i con) =
  Some (Pkt ty mid tok (outer_code i) (i_obs i) (store_piv (x_ssn c)) (x_send c)
            (Ct (x_secret c, x_send c) (aead_nonce (x_send c) (store_piv (x_ssn c)) (civ (x_secret c))) (compose_aad (x_send c) (store_piv (x_ssn c))) (inner_obs i))) /\
  exists b, find (has_token tok) (d_cbs (devs (step civ s (Request d (x_subject c) ty mid tok i con)) d)) = Some b /\ b_peer b = x_subject c /\ b_piv b = store_piv (x_ssn c).
Proof.
  intros F RF RQ NC NT. cbn [emits step]. rewrite RQ, NC, NT. cbn [negb andb]. unfold dispatch, protect.
  cbn [devs g_peer g_inner g_token]. rewrite upd_same. cbn [d_ctxs set_cbs d_rfnop d_cbs]. rewrite F, RQ, RF.
  assert (HT : has_token tok (Cb tok (x_subject c) []) = true) by apply bytes_eqb_refl.
  rewrite (find_snoc _ _ _ NC HT). cbv zeta. split; [reflexivity|].
  assert (U : find (has_token tok) (upd_first (has_token tok) (set_cb_piv (store_piv (x_ssn c))) (d_cbs (devs s d) ++ [Cb tok (x_subject c) []])) =
              Some (Cb tok (x_subject c) (store_piv (x_ssn c)))).
  { clear - NC HT. induction (d_cbs (devs s d)) as [|y l IH]; cbn [app upd_first find existsb] in *.
    - rewrite HT. cbn [find]. change (has_token tok (set_cb_piv (store_piv (x_ssn c)) (Cb tok (x_subject c) []))) with (has_token tok (Cb tok (x_subject c) [])). rewrite HT. reflexivity.
    - destruct (has_token tok y) eqn:H; [discriminate|]. cbn [find]. rewrite H. auto. }
  exists (Cb tok (x_subject c) (store_piv (x_ssn c))). split; [|auto]. destruct con; cbn [devs]; rewrite ?upd_same; cbn [d_cbs set_trs set_cbs set_ctxs]; exact U.
Qed.

(** A request that arrives is accepted. *)
Lemma request_accepted s d c' k ty mid tok i oc ob x n :
  find (has_kid (x_recv c')) (d_ctxs (devs s d)) = Some c' -> x_type c' = Pair -> x_recv c' <> [] -> k = (x_secret c', x_recv c') -> x < 2 ^ 40 ->
  oc <= 5 -> 1 <= oc -> fst (check_replayed (x_win c') x) = false -> n = aead_nonce (x_recv c') (store_piv x) (civ (x_secret c')) ->
  acc (step civ s (Deliver d (Pkt ty mid tok oc ob (store_piv x) (x_recv c') (Ct k n (compose_aad (x_recv c') (store_piv x)) i)) false false)) =
  acc s ++ [Acc d (x_subject c') Pair (x_secret c') (x_send c') (x_recv c') false None (store_piv x) mid tok
                (match i_obs i with Some _ => Some (match ob with Some v => v | None => 0 end) | None => None end) i].
Proof.
  intros F TY NE -> XS O5 O1 FR ->. cbn [step]. unfold accept. cbn [o_kid o_code o_piv o_ct o_obs o_mid o_token].
  assert (R5 : oc <=? 5 = true) by now apply N.leb_le. assert (R1 : 1 <=? oc = true) by now apply N.leb_le. rewrite R5, R1. cbn [andb].
  destruct (x_recv c') as [|h r] eqn:XR; [contradiction|]. rewrite <- XR. rewrite <- XR in F. rewrite F, TY. cbn [andb negb].
  assert (PV : store_piv x <> []).
  { intros E. assert (Z := piv_roundtrip x XS). destruct (store_piv_shape x) as (_ & _ & SH). destruct (N.eq_dec x 0) as [->|D]; [discriminate|].
    assert (x mod 2 ^ 40 <> 0) by (rewrite N.mod_small; auto). destruct SH as [_ L]; [auto|]. rewrite E in L. cbn in L. lia. }
  assert (RV : read_piv (store_piv x) = x) by now apply piv_roundtrip.
  destruct (store_piv x) as [|h' r'] eqn:SP; [contradiction|]. rewrite RV. destruct (check_replayed (x_win c') x) as [rp w]. cbn [fst] in FR. subst rp.
  cbv zeta. rewrite open_same. cbn [acc]. rewrite XR. reflexivity.
Qed.

(** An answer to an accepted message is protected. *)
Lemma answer_emits s d n a c ty mid tok i con : nth_error (acc s) n = Some a -> a_dev a = d -> a_mcast a = false -> a_piv a <> [] -> is_request (i_code i) = false ->
  find (has_subject (a_from a)) (d_ctxs (devs s d)) = Some c ->
  emits civ s (Respond d n ty mid tok i con) =
  Some (Pkt ty mid tok (outer_code i) (i_obs i) (store_piv (x_ssn c)) []
            (Ct (x_secret c, x_send c) (aead_nonce (x_send c) (store_piv (x_ssn c)) (civ (x_secret c))) (compose_aad (x_recv c) (a_piv a)) (inner_obs i))).
Proof.
  intros NA E M P R F. cbn [emits]. rewrite NA, E, Nat.eqb_refl, M, R. cbn [negb andb]. unfold protect. cbn [g_peer g_inner g_piv g_type g_mid g_token].
  rewrite F, R. destruct (a_piv a) as [|h r]; [contradiction|]. reflexivity.
Qed.

(** An answer that arrives while its request is awaited is accepted. *)
Lemma answer_accepted s d c b k ty mid tok i oc ob x n dup :
  find (has_token tok) (d_cbs (devs s d)) = Some b -> b_peer b = x_subject c -> find (has_subject (x_subject c)) (d_ctxs (devs s d)) = Some c -> x_type c = Pair ->
  k = (x_secret c, x_recv c) -> x < 2 ^ 40 -> 5 < oc -> n = aead_nonce (x_recv c) (store_piv x) (civ (x_secret c)) ->
  acc (step civ s (Deliver d (Pkt ty mid tok oc ob (store_piv x) [] (Ct k n (compose_aad (x_send c) (b_piv b)) i)) false dup)) =
  acc s ++ [Acc d (x_subject c) Pair (x_secret c) (x_send c) (x_recv c) false (Some (b_piv b)) (store_piv x) mid tok
                (match i_obs i with Some _ => Some (match ob with Some v => v | None => 0 end) | None => None end) i].
Proof.
  intros FB EB F TY -> XS O5 ->. cbn [step]. unfold accept. cbn [o_kid o_code o_piv o_ct o_obs o_mid o_token].
  assert (R5 : oc <=? 5 = false) by now apply N.leb_gt. rewrite R5. cbn [andb]. unfold answered. rewrite FB, EB, F, TY. cbn [andb negb].
  assert (PV : store_piv x <> []).
  { intros E. assert (Z := piv_roundtrip x XS). destruct (store_piv_shape x) as (_ & _ & SH). destruct (N.eq_dec x 0) as [->|D]; [discriminate|].
    assert (x mod 2 ^ 40 <> 0) by (rewrite N.mod_small; auto). destruct SH as [_ L]; [auto|]. rewrite E in L. cbn in L. lia. }
  destruct (store_piv x) as [|h' r'] eqn:SP; [contradiction|]. cbv zeta. rewrite open_same. cbn [acc]. reflexivity.
Qed.
End Live.

(** ** What a client waits for *)
Section Await.
Variable civ : list N -> list N.

Lemma find_upd_other tok t f (l : list cb) : t <> tok -> (forall b, b_token (f b) = b_token b) ->
  find (has_token tok) (upd_first (has_token t) f l) = find (has_token tok) l.
Proof.
  intros NE FT. induction l as [|b l IH]; [reflexivity|]. cbn [upd_first find]. destruct (has_token t b) eqn:H.
  - cbn [find]. apply bytes_eqb_eq in H. assert (X : forall y, b_token y = t -> has_token tok y = false).
    { intros y E. destruct (has_token tok y) eqn:Z; [|reflexivity]. apply bytes_eqb_eq in Z. congruence. }
    rewrite (X (f b)) by (rewrite FT; congruence). now rewrite (X b) by congruence.
  - cbn [find]. now rewrite IH.
Qed.

Lemma protect_cbs s x m s1 m1 o d tok : protect civ s x m = (s1, m1, o) -> (x = d -> is_request (i_code (g_inner m)) = true -> g_token m <> tok) ->
  find (has_token tok) (d_cbs (devs s1 d)) = find (has_token tok) (d_cbs (devs s d)).
Proof.
  intros P NE. unfold protect in P. destruct (find (has_subject (g_peer m)) (d_ctxs (devs s x))) as [c|]; [|injection P as <- <- <-; reflexivity]. cbv zeta in P.
  assert (K : forall D, d_cbs D = d_cbs (devs s x) -> find (has_token tok) (d_cbs (upd (devs s) x D d)) = find (has_token tok) (d_cbs (devs s d))).
  { intros D E. unfold upd. destruct (Nat.eqb d x) eqn:Q; [|reflexivity]. apply Nat.eqb_eq in Q. subst d. now rewrite E. }
  destruct (is_request (i_code (g_inner m))) eqn:R.
  - destruct (d_rfnop (devs s x)); [|injection P as <- <- <-; reflexivity].
    destruct (find (has_token (g_token m)) (d_cbs (devs s x))); injection P as <- <- <-; cbn [devs]; [|now apply K].
    unfold upd. destruct (Nat.eqb d x) eqn:Q; [|reflexivity]. apply Nat.eqb_eq in Q. subst d. cbn [d_cbs set_cbs set_ctxs]. apply find_upd_other; auto.
  - destruct (g_piv m); injection P as <- <- <-; [reflexivity|]. now apply K.
Qed.

Lemma dispatch_cbs s x m con d tok : (x = d -> is_request (i_code (g_inner m)) = true -> g_token m <> tok) ->
  find (has_token tok) (d_cbs (devs (dispatch civ s x m con) d)) = find (has_token tok) (d_cbs (devs s d)).
Proof.
  intros NE. unfold dispatch. destruct (protect civ s x m) as [[s1 m1] o] eqn:P. rewrite <- (protect_cbs _ _ _ _ _ _ d tok P NE).
  destruct con; [|reflexivity]. cbn [devs]. unfold upd. destruct (Nat.eqb d x) eqn:Q; [|reflexivity]. apply Nat.eqb_eq in Q. now subst d.
Qed.

Lemma find_app_some {A} (p : A -> bool) l r x : find p l = Some x -> find p (l ++ r) = Some x.
Proof. induction l as [|y l IH]; [discriminate|]. cbn. destruct (p y); auto. Qed.

Lemma await_kept s o d tok b : find (has_token tok) (d_cbs (devs s d)) = Some b -> o <> EndCb d tok ->
  (forall k m, o = Again d k -> nth_error (d_trs (devs s d)) k = Some m -> g_token m <> tok) ->
  find (has_token tok) (d_cbs (devs (step civ s o) d)) = Some b.
Proof.
  intros F NE NA. destruct o as [x peer ty mid t i con|x n ty mid t i con|x mid t i|x k|x k|x t|x p mc dup]; cbn [step].
  - destruct (is_request (i_code i) && negb (existsb (has_token t) (d_cbs (devs s x))) && negb (existsb (fun y => bytes_eqb t (g_token y)) (d_trs (devs s x)))) eqn:B; [|exact F].
    apply andb_true_iff in B. destruct B as [B _]. apply andb_true_iff in B. destruct B as [_ B]. apply negb_true_iff in B.
    rewrite dispatch_cbs.
    + cbn [devs]. unfold upd. destruct (Nat.eqb d x) eqn:Q; [|exact F]. apply Nat.eqb_eq in Q. subst x. cbn. now apply find_app_some.
    + cbn [g_token]. intros -> _ ->. apply find_some in F. assert (Y : existsb (has_token tok) (d_cbs (devs s d)) = true) by (apply existsb_exists; eauto). congruence.
  - destruct (nth_error (acc s) n) as [a|]; [|exact F]. destruct (Nat.eqb (a_dev a) x && negb (a_mcast a) && negb (is_request (i_code i))) eqn:B; [|exact F].
    apply andb_true_iff in B. destruct B as [_ B]. apply negb_true_iff in B. rewrite dispatch_cbs; [exact F|]. cbn. congruence.
  - unfold protect_group. destruct (find is_group (d_ctxs (devs s x))); [|exact F]. cbn. unfold upd. destruct (Nat.eqb d x) eqn:Q; [|exact F]. apply Nat.eqb_eq in Q. now subst x.
  - destruct (nth_error (d_trs (devs s x)) k) as [m|] eqn:NK; [|exact F]. destruct (protect civ s x m) as [[s1 m1] q] eqn:P.
    assert (E : find (has_token tok) (d_cbs (devs s1 d)) = Some b).
    { rewrite <- F. eapply protect_cbs; [exact P|]. intros -> _. eapply NA; eauto. }
    cbn [devs]. unfold upd. destruct (Nat.eqb d x) eqn:Q; [|exact E]. apply Nat.eqb_eq in Q. now subst x.
  - cbn [devs]. unfold upd. destruct (Nat.eqb d x) eqn:Q; [|exact F]. apply Nat.eqb_eq in Q. now subst x.
  - cbn [devs]. unfold upd. destruct (Nat.eqb d x) eqn:Q; [|exact F]. apply Nat.eqb_eq in Q. subst x. cbn [d_cbs set_cbs].
    assert (NT : t <> tok) by congruence. clear - F NT. induction (d_cbs (devs s d)) as [|y l IH]; [discriminate|]. cbn [find filter] in *.
    destruct (has_token t y) eqn:H; cbn [negb].
    + apply bytes_eqb_eq in H. destruct (has_token tok y) eqn:Z; [apply bytes_eqb_eq in Z; congruence|auto].
    + cbn [find]. destruct (has_token tok y); auto.
  - destruct (accept_cases civ s x p mc dup) as (_ & _ & CT & _). now rewrite (proj1 (CT d)).
Qed.
End Await.
