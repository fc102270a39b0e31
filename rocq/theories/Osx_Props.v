(** C105, C106: messages protected with OSCORE between devices. *)
From Verif Require Import Common Oscore_Model Oscore_Spec Oscore_Proofs Osx_Model Osx_Spec Osx_Proofs Osx2_Proofs Osx3_Proofs Osx4_Proofs Osx5_Proofs.
Local Open Scope N_scope.

(** ** Example: device 0 and device 1 share the secret [7], device 2 and device 0 the secret [8],
    which is known to others. *)
Definition civ0 (_ : list N) : list N := [1; 2; 3; 4; 5; 6; 7; 8; 9; 10; 11; 12; 13].
Definition known8 (k : list N) : bool := bytes_eqb k [8].
Definition dev0 : dev := Dev [Ctx 11 Pair [7] [1] [2] 0 window_init; Ctx 12 Pair [8] [1] [3] 0 window_init] [] [] true.
Definition dev1 : dev := Dev [Ctx 10 Pair [7] [2] [1] 1 window_init] [] [] true.
Definition dev2 : dev := Dev [Ctx 10 Pair [8] [3] [1] 0 window_init] [] [] true.
Definition net (d : nat) : dev := match d with O => dev0 | 1%nat => dev1 | 2%nat => dev2 | _ => Dev [] [] [] true end.
Definition s0 : st := St net [] [].

Lemma s0_initial : initial s0.
Proof.
  split; [|repeat split; destruct d as [|[|[|d]]]; reflexivity]. split; [|split].
  - intros d c I. destruct d as [|[|[|d]]]; cbn in I; repeat (destruct I as [<-|I]); try contradiction;
      repeat split; cbn; try lia; try discriminate; repeat constructor.
  - intros d. destruct d as [|[|[|d]]]; cbn; repeat constructor; cbn; intuition discriminate.
  - intros d c d' c' I I'. destruct d as [|[|[|d]]], d' as [|[|[|d']]]; cbn in I, I';
      repeat (destruct I as [<-|I]); try contradiction; repeat (destruct I' as [<-|I']); try contradiction; cbn; intros; try discriminate; auto.
Qed.
Lemma civ0_len : forall k, List.length (civ0 k) = 13%nat. Proof. reflexivity. Qed.

Definition pk (s : st) (o : op) : pkt := match emits civ0 s o with Some p => p | None => Pkt 0 0 [] 0 None [] [] Junk end.
Definition set_tok (t : list N) (p : pkt) : pkt := Pkt (o_type p) (o_mid p) t (o_code p) (o_obs p) (o_piv p) (o_kid p) (o_ct p).
Definition set_obs (v : option N) (p : pkt) : pkt := Pkt (o_type p) (o_mid p) (o_token p) (o_code p) v (o_piv p) (o_kid p) (o_ct p).
Definition set_mid (v : N) (p : pkt) : pkt := Pkt (o_type p) v (o_token p) (o_code p) (o_obs p) (o_piv p) (o_kid p) (o_ct p).

(** A request of device 0 for device 1 and the answer. *)
Definition q1 := Request 0 11 0 100 [21] (Inner 1 None [1; 1]) true.
Definition s1 := step civ0 s0 q1.
Definition d1 := Deliver 1 (pk s0 q1) false false.
Definition s2 := step civ0 s1 d1.
Definition r1 := Respond 1 0 0 200 [21] (Inner 69 None [9; 9]) true.
Definition s3 := step civ0 s2 r1.
Definition d2 := Deliver 0 (pk s2 r1) false false.
Definition exchange := [q1; d1; r1; d2].

Definition nwb (kn : list N -> bool) (s : st) (o : op) : bool :=
  match o with
  | Deliver _ p _ _ =>
    forallb (fun b => b <? 256) (o_piv p) && Nat.leb (List.length (o_piv p)) 5 &&
    match o_ct p with
    | Junk => true
    | Ct k n a i => kn (fst k) || existsb (fun e => match e_ct e with
                                                     | Ct k' n' a' i' => bytes_eqb (fst k) (fst k') && bytes_eqb (snd k) (snd k') && bytes_eqb n n' && bytes_eqb a a' &&
                                                          (i_code i =? i_code i') && bytes_eqb (i_body i) (i_body i') &&
                                                          match i_obs i, i_obs i' with None, None => true | Some x, Some y => x =? y | _, _ => false end
                                                     | Junk => false end) (prot s)
    end
  | _ => true
  end.
Lemma nwb_ok kn s o : nwb kn s o = true -> network kn s o.
Proof.
  destruct o; cbn; try exact (fun _ => Logic.I). intros H. apply andb_true_iff in H. destruct H as [H H3]. apply andb_true_iff in H. destruct H as [H1 H2].
  split; [|split; [now apply Nat.leb_le|]].
  { apply Forall_forall. intros x I. rewrite forallb_forall in H1. apply N.ltb_lt. auto. }
  destruct (o_ct p) as [k n a i|]; [|exact Logic.I]. apply orb_true_iff in H3. destruct H3 as [H3|H3]; [auto|]. right. apply existsb_exists in H3. destruct H3 as (e & I & H3).
  destruct (e_ct e) as [k' n' a' i'|] eqn:E; [|discriminate]. repeat (apply andb_true_iff in H3; destruct H3 as [H3 ?]).
  assert (EQ : Ct k n a i = Ct k' n' a' i').
  { destruct k, k', i as [ic io ib], i' as [ic' io' ib']. cbn in *. repeat match goal with H : bytes_eqb _ _ = true |- _ => apply bytes_eqb_eq in H; subst end.
    repeat match goal with H : (_ =? _) = true |- _ => apply N.eqb_eq in H; subst end.
    destruct io, io'; try discriminate; repeat match goal with H : (_ =? _) = true |- _ => apply N.eqb_eq in H; subst end; reflexivity. }
  rewrite EQ. apply in_map_iff. eauto.
Qed.

Fixpoint alongb (P : st -> op -> bool) (s : st) (l : list op) : bool := match l with [] => true | o :: r => P s o && alongb P (step civ0 s o) r end.
Lemma alongb_ok (P : st -> op -> bool) (Q : st -> op -> Prop) : (forall s o, P s o = true -> Q s o) -> forall l s, alongb P s l = true -> along civ0 Q s l.
Proof. intros H. induction l as [|o l IH]; cbn; intros s E; [exact Logic.I|]. apply andb_true_iff in E. destruct E. auto. Qed.
Definition onceb (s : st) (o : op) : bool :=
  match o with Again d k => match nth_error (d_trs (devs s d)) k with Some m => is_request (i_code (g_inner m)) | None => true end | _ => true end.
Lemma onceb_ok s o : onceb s o = true -> answers_once s o.
Proof. destruct o; cbn; try exact (fun _ => Logic.I). intros H m E. now rewrite E in H. Qed.
Definition rangeb (s : st) : bool := forallb (fun e => e_ssn e <? 2 ^ 40) (prot s).
Lemma rangeb_ok s : rangeb s = true -> in_range s.
Proof. intros H e I. unfold rangeb in H. rewrite forallb_forall in H. apply N.ltb_lt. auto. Qed.

(** ** C105 *)
(** What is accepted was protected, as it is, by the holder of the key: as a request, or as an
    answer to the same message. *)
Theorem C105_accepted_is_authentic : forall civ known s l,
  (forall k, List.length (civ k) = 13%nat) -> initial s -> along civ (network known) s l ->
  forall a, In a (acc (run civ s l)) -> known (a_secret a) = false ->
  exists e c, In e (prot (run civ s l)) /\ origin a e /\
              In c (d_ctxs (devs (run civ s l) (e_dev e))) /\ x_secret c = a_secret a /\ x_send c = a_recv a /\
              (forall rp, a_to a = Some rp -> x_recv c = a_send a).
Proof.
  intros civ known s l CL IN NW a I KN. assert (V := init_inv civ s IN). assert (AU : authentic civ known s) by (intros x X; rewrite (proj1 (proj2 (proj2 IN))) in X; contradiction).
  destruct (run_authentic civ CL known l s V NW AU a I KN) as (e & c & A & B & (W1 & W2 & _) & O & _ & F). exists e, c. destruct O as (O1 & O2 & O3 & O4 & O5).
  split; [exact A|]. split; [repeat split; auto|]. split; [exact B|]. split; [congruence|]. split; [congruence|exact F].
Qed.
Print Assumptions C105_accepted_is_authentic.
Example ex_C105_authentic :
  along civ0 (network known8) s0 exchange /\ map (fun a => (a_dev a, a_from a, a_inner a)) (acc (run civ0 s0 exchange)) =
  [(1%nat, 10, Inner 1 None [1; 1]); (0%nat, 11, Inner 69 None [9; 9])].
Proof. split; [apply (alongb_ok (nwb known8)); [apply nwb_ok|vm_compute; reflexivity]|vm_compute; reflexivity]. Qed.

(** The device that holds a sender key is the only one. *)
Theorem C105_one_holder : forall civ s l d c d' c', initial s ->
  In c (d_ctxs (devs (run civ s l) d)) -> In c' (d_ctxs (devs (run civ s l) d')) -> sends c -> sends c' ->
  x_secret c = x_secret c' -> x_send c = x_send c' -> d = d' /\ c = c'.
Proof.
  intros civ s l d c d' c' IN I I' S S' E1 E2. assert (V := run_inv civ l s (init_inv civ s IN)). assert (W := v_wf _ _ V).
  destruct (proj2 (proj2 W) d c d' c' I I' S S' E1 E2) as [<- E]. split; [reflexivity|]. exact (one_ctx _ d c c' W I I' E).
Qed.
Print Assumptions C105_one_holder.

(** An answer accepted answers, for the peer too, the message of this device that it is taken to
    answer. *)
Theorem C105_answer_is_for_the_request : forall civ known s l,
  (forall k, List.length (civ k) = 13%nat) -> initial s -> along civ (network known) s l -> along civ answers_once s l -> in_range (run civ s l) ->
  forall a rp, In a (acc (run civ s l)) -> known (a_secret a) = false -> a_type a = Pair -> a_to a = Some rp ->
  exists e n b q,
    In e (prot (run civ s l)) /\ origin a e /\ e_ans e = Some n /\ nth_error (acc (run civ s l)) n = Some b /\ a_dev b = e_dev e /\
    In q (prot (run civ s l)) /\ origin b q /\ e_dev q = a_dev a /\ store_piv (e_ssn q) = rp /\
    (e_token q = a_token a \/ e_mid q = a_mid a).
Proof.
  intros civ known s l CL IN NW AO IR a rp I KN TY T. assert (V := init_inv civ s IN).
  assert (AU : authentic civ known s) by (intros x X; rewrite (proj1 (proj2 (proj2 IN))) in X; contradiction).
  assert (BO : bound s) by (intros x y X; rewrite (proj1 (proj2 IN)) in X; contradiction).
  destruct (agreement civ known _ a rp (run_inv civ l s V) (run_authentic civ CL known l s V NW AU) (run_bound civ l s V AO BO) IR I T TY KN)
    as (e & b & q & A & B & (n & C & D) & E & _ & F & G & H & _ & _ & J & K).
  exists e, n, b, q. repeat split; auto; try apply B; try apply G.
Qed.
Print Assumptions C105_answer_is_for_the_request.
Example ex_C105_answer :
  along civ0 (network known8) s0 exchange /\ along civ0 answers_once s0 exchange /\ in_range (run civ0 s0 exchange) /\
  exists a, In a (acc (run civ0 s0 exchange)) /\ known8 (a_secret a) = false /\ a_type a = Pair /\ a_to a = Some [0] /\ a_inner a = Inner 69 None [9; 9].
Proof.
  split; [apply (alongb_ok (nwb known8)); [apply nwb_ok|vm_compute; reflexivity]|]. split; [apply (alongb_ok onceb); [apply onceb_ok|vm_compute; reflexivity]|].
  split; [apply rangeb_ok; vm_compute; reflexivity|]. eexists. split; [right; left; reflexivity|]. vm_compute. auto.
Qed.

(** What is accepted comes with the subject of the credential whose key opened it; a message that
    was not multicast needs pairwise keys. *)
Theorem C105_subject_of_the_credential : forall civ s l, initial s -> forall a, In a (acc (run civ s l)) ->
  (exists c, In c (d_ctxs (devs (run civ s l) (a_dev a))) /\ x_subject c = a_from a /\ x_type c = a_type a /\ x_secret c = a_secret a /\
             x_send c = a_send a /\ x_recv c = a_recv a).
Proof.
  intros civ s l IN a I. destruct (v_actx _ _ (run_inv civ l s (init_inv civ s IN)) a I) as (c & Ic & S). unfold stat in S. injection S as S1 S2 S3 S4 S5. exists c. auto 10.
Qed.
Print Assumptions C105_subject_of_the_credential.

Lemma run_pair civ l : forall s, (forall a, In a (acc s) -> a_mcast a = false -> a_type a = Pair) -> forall a, In a (acc (run civ s l)) -> a_mcast a = false -> a_type a = Pair.
Proof.
  induction l as [|o l IH]; intros s H; [exact H|]. cbn [run]. apply IH. clear IH l. intros a I.
  destruct o as [d peer ty mid tok i con|d n ty mid tok i con|d mid tok i|d k|d k|d tok|d p mc dup]; cbn [step] in I; try (apply H; exact I).
  - destruct (is_request (i_code i) && _ && _) in I; [|auto]. rewrite (proj1 (dispatch_prot civ _ _ _ _)) in I. auto.
  - destruct (nth_error (acc s) n); [|auto]. destruct (Nat.eqb _ d && _ && _) in I; [|auto]. rewrite (proj1 (dispatch_prot civ _ _ _ _)) in I. auto.
  - unfold protect_group in I. destruct (find is_group _); auto.
  - destruct (nth_error (d_trs (devs s d)) k) as [m|]; [|auto]. destruct (protect civ s d m) as [[x y] z] eqn:P. cbn [acc] in I. rewrite (proj1 (protect_prot civ _ _ _ _ _ _ P)) in I. auto.
  - destruct (accept_cases civ s d p mc dup) as (_ & _ & _ & X). destruct X as [X|(c & rp & i & _ & TY & _ & X)]; rewrite X in I; [auto|].
    apply in_app_or in I. destruct I as [I|[<-|[]]]; [auto|]. exact TY.
Qed.
Theorem C105_unicast_needs_pairwise_keys : forall civ s l, initial s -> forall a, In a (acc (run civ s l)) -> a_mcast a = false -> a_type a = Pair.
Proof. intros civ s l IN. apply run_pair. intros a I. rewrite (proj1 (proj2 (proj2 IN))) in I. contradiction. Qed.
Print Assumptions C105_unicast_needs_pairwise_keys.

(** No two messages are protected with the same key and nonce. *)
Theorem C105_no_nonce_twice : forall civ s l, (forall k, List.length (civ k) = 13%nat) -> initial s -> in_range (run civ s l) ->
  forall i j e e' k n a x a' x', nth_error (prot (run civ s l)) i = Some e -> nth_error (prot (run civ s l)) j = Some e' -> e_send e <> [] ->
  e_ct e = Ct k n a x -> e_ct e' = Ct k n a' x' -> i = j.
Proof.
  intros civ s l CL IN IR i j e e' k n a x a' x' I J NE E E'. eapply (nonce_once civ CL); eauto using (run_inv civ l s (init_inv civ s IN)). now rewrite E, E'.
Qed.
Print Assumptions C105_no_nonce_twice.
Example ex_C105_nonces : List.length (prot (run civ0 s0 (exchange ++ [Again 0 0; Again 1 0]))) = 4%nat /\ in_range (run civ0 s0 (exchange ++ [Again 0 0; Again 1 0])).
Proof. split; [vm_compute; reflexivity|apply rangeb_ok; vm_compute; reflexivity]. Qed.

(** Exception: an answer sent again is bound to the partial IV of its previous transmission; under
    another token it is accepted as the answer to another request. *)
Definition q2 := Request 0 11 0 101 [22] (Inner 3 None [5]) false.
Definition again1 := Again 1 0.
Definition s4 := run civ0 s0 [q1; d1; r1; q2].
Definition d3 := Deliver 0 (set_tok [22] (pk s4 again1)) false false.
Theorem C105_answer_sent_again_refuted : exists l,
  l = [q1; d1; r1; q2; again1; d3] /\ initial s0 /\ along civ0 (network known8) s0 l /\ in_range (run civ0 s0 l) /\
  exists a e b q, nth_error (acc (run civ0 s0 l)) 1 = Some a /\ a_inner a = Inner 69 None [9; 9] /\ a_token a = [22] /\ a_to a = Some [1] /\
    nth_error (prot (run civ0 s0 l)) 3 = Some e /\ origin a e /\ e_ans e = Some O /\ nth_error (acc (run civ0 s0 l)) 0 = Some b /\
    a_inner b = Inner 1 None [1; 1] /\
    nth_error (prot (run civ0 s0 l)) 2 = Some q /\ e_token q = [22] /\ store_piv (e_ssn q) = [1] /\ e_inner q = Inner 3 None [5].
Proof.
  eexists. split; [reflexivity|]. split; [exact s0_initial|]. split; [apply (alongb_ok (nwb known8)); [apply nwb_ok|vm_compute; reflexivity]|].
  split; [apply rangeb_ok; vm_compute; reflexivity|]. do 4 eexists. unfold origin. vm_compute. repeat split.
Qed.

(** Exception: the value of the Observe option is that of the outer message, which is not
    protected: a registration becomes a cancellation. *)
Definition qo := Request 0 11 0 100 [21] (Inner 1 (Some 0) [1; 1]) true.
Theorem C105_observe_value_refuted : exists l,
  l = [qo; Deliver 1 (set_obs (Some 1) (pk s0 qo)) false false] /\ initial s0 /\ along civ0 (network known8) s0 l /\
  exists a, acc (run civ0 s0 l) = [a] /\ i_obs (a_inner a) = Some 0 /\ a_obs a = Some 1.
Proof.
  eexists. split; [reflexivity|]. split; [exact s0_initial|]. split; [apply (alongb_ok (nwb known8)); [apply nwb_ok|vm_compute; reflexivity]|]. eexists. vm_compute. repeat split.
Qed.

(** Exception: a request sent again has another partial IV; with another message id it is accepted
    twice. *)
Theorem C105_request_sent_again_refuted : exists l,
  l = [q1; d1; Again 0 0; Deliver 1 (set_mid 101 (pk s2 (Again 0 0))) false false] /\ initial s0 /\ along civ0 (network known8) s0 l /\
  exists a b, acc (run civ0 s0 l) = [a; b] /\ a_inner a = a_inner b /\ a_token a = a_token b /\ a_to a = None /\ a_to b = None.
Proof.
  eexists. split; [reflexivity|]. split; [exact s0_initial|]. split; [apply (alongb_ok (nwb known8)); [apply nwb_ok|vm_compute; reflexivity]|]. do 2 eexists. vm_compute. repeat split.
Qed.

(** ** C106 *)
Lemma outer_request i : is_request (i_code i) = true -> 1 <= outer_code i <= 5.
Proof. unfold outer_code. intros ->. destruct (i_obs i); lia. Qed.
Lemma outer_answer i : is_request (i_code i) = false -> 5 < outer_code i.
Proof. unfold outer_code. intros ->. destruct (i_obs i); lia. Qed.

(** A request to a peer with an OSCORE context is protected, and if it reaches the other end of
    the association with a number not seen there, it is accepted there as it is. *)
Theorem C106_request_arrives : forall civ s s' d d' c c' ty mid tok i con,
  find (has_subject (x_subject c)) (d_ctxs (devs s d)) = Some c -> d_rfnop (devs s d) = true -> is_request (i_code i) = true ->
  existsb (has_token tok) (d_cbs (devs s d)) = false -> existsb (fun t => bytes_eqb tok (g_token t)) (d_trs (devs s d)) = false ->
  x_ssn c < 2 ^ 40 -> ends c c' -> x_send c <> [] ->
  find (has_kid (x_recv c')) (d_ctxs (devs s' d')) = Some c' -> fst (check_replayed (x_win c') (x_ssn c)) = false ->
  exists p, emits civ s (Request d (x_subject c) ty mid tok i con) = Some p /\
    exists a, acc (step civ s' (Deliver d' p false false)) = acc s' ++ [a] /\ a_dev a = d' /\ a_from a = x_subject c' /\ a_mcast a = false /\ a_to a = None /\
      a_token a = tok /\ a_mid a = mid /\ a_piv a = store_piv (x_ssn c) /\ a_inner a = inner_obs i /\ a_obs a = i_obs i.
Proof.
  intros civ s s' d d' c c' ty mid tok i con F RF RQ NC NT XS (T1 & T2 & E1 & E2 & E3) NE F' FR.
  destruct (request_emits civ s d c ty mid tok i con F RF RQ NC NT) as [EM _]. eexists. split; [exact EM|]. rewrite E1, E2.
  eexists. split; [apply request_accepted; auto; try (apply outer_request; exact RQ); congruence|]. cbn. repeat split. destruct (i_obs i); reflexivity.
Qed.
Print Assumptions C106_request_arrives.
Example ex_C106_request : exists c c', find (has_subject (x_subject c)) (d_ctxs (devs s0 0%nat)) = Some c /\ ends c c' /\
  find (has_kid (x_recv c')) (d_ctxs (devs s0 1%nat)) = Some c' /\ fst (check_replayed (x_win c') (x_ssn c)) = false.
Proof. exists (Ctx 11 Pair [7] [1] [2] 0 window_init), (Ctx 10 Pair [7] [2] [1] 1 window_init). unfold ends. vm_compute. repeat split. Qed.

(** An answer to an accepted message is protected, and if it reaches the other end while a request
    with its token and the partial IV of the accepted message is awaited there, it is accepted
    there as the answer to that request. *)
Theorem C106_answer_arrives : forall civ s s' d d' n a b c c' ty mid tok i con dup,
  nth_error (acc s) n = Some a -> a_dev a = d -> a_mcast a = false -> a_piv a <> [] -> is_request (i_code i) = false ->
  find (has_subject (a_from a)) (d_ctxs (devs s d)) = Some c -> x_ssn c < 2 ^ 40 -> ends c c' ->
  find (has_token tok) (d_cbs (devs s' d')) = Some b -> b_peer b = x_subject c' -> b_piv b = a_piv a ->
  find (has_subject (x_subject c')) (d_ctxs (devs s' d')) = Some c' ->
  exists p, emits civ s (Respond d n ty mid tok i con) = Some p /\
    exists x, acc (step civ s' (Deliver d' p false dup)) = acc s' ++ [x] /\ a_dev x = d' /\ a_from x = x_subject c' /\ a_to x = Some (a_piv a) /\
      a_token x = tok /\ a_mid x = mid /\ a_inner x = inner_obs i /\ a_obs x = i_obs i.
Proof.
  intros civ s s' d d' n a b c c' ty mid tok i con dup NA AD AM AP R F XS (T1 & T2 & E1 & E2 & E3) FB BP BV F'.
  eexists. split; [eapply answer_emits; eauto|]. rewrite E1, E2 || idtac. rewrite E3, <- BV.
  eexists. split; [eapply answer_accepted; eauto; try (apply outer_answer; exact R)|]. cbn. repeat split. destruct (i_obs i); reflexivity.
Qed.
Print Assumptions C106_answer_arrives.
Example ex_C106_answer : exists a b c c', nth_error (acc s2) 0 = Some a /\ a_dev a = 1%nat /\ a_piv a <> [] /\
  find (has_subject (a_from a)) (d_ctxs (devs s2 1%nat)) = Some c /\ ends c c' /\ find (has_token [21]) (d_cbs (devs s3 0%nat)) = Some b /\
  b_peer b = x_subject c' /\ b_piv b = a_piv a /\ find (has_subject (x_subject c')) (d_ctxs (devs s3 0%nat)) = Some c'.
Proof.
  do 3 eexists. exists (Ctx 11 Pair [7] [1] [2] 1 window_init). unfold ends. vm_compute. repeat split; discriminate.
Qed.

(** A request that has been sent is awaited with the partial IV it was sent with, until its
    callback is removed or it is sent again. *)
Theorem C106_request_is_awaited : forall civ s d c ty mid tok i con,
  find (has_subject (x_subject c)) (d_ctxs (devs s d)) = Some c -> d_rfnop (devs s d) = true -> is_request (i_code i) = true ->
  existsb (has_token tok) (d_cbs (devs s d)) = false -> existsb (fun t => bytes_eqb tok (g_token t)) (d_trs (devs s d)) = false ->
  exists p b, emits civ s (Request d (x_subject c) ty mid tok i con) = Some p /\ o_token p = tok /\ o_piv p = store_piv (x_ssn c) /\
    find (has_token tok) (d_cbs (devs (step civ s (Request d (x_subject c) ty mid tok i con)) d)) = Some b /\ b_peer b = x_subject c /\ b_piv b = o_piv p.
Proof.
  intros civ s d c ty mid tok i con F RF RQ NC NT. destruct (request_emits civ s d c ty mid tok i con F RF RQ NC NT) as (EM & b & X & Y & Z).
  eexists _, b. split; [exact EM|]. cbn [o_token o_piv]. auto.
Qed.
Print Assumptions C106_request_is_awaited.
Theorem C106_awaited_until_the_end : forall civ s o d tok b,
  find (has_token tok) (d_cbs (devs s d)) = Some b -> o <> EndCb d tok ->
  (forall k m, o = Again d k -> nth_error (d_trs (devs s d)) k = Some m -> g_token m <> tok) ->
  find (has_token tok) (d_cbs (devs (step civ s o) d)) = Some b.
Proof. exact await_kept. Qed.
Print Assumptions C106_awaited_until_the_end.
Example ex_C106_awaited : exists b, find (has_token [21]) (d_cbs (devs s1 0%nat)) = Some b /\ b_piv b = [0] /\ find (has_token [21]) (d_cbs (devs s3 0%nat)) = Some b.
Proof. eexists. vm_compute. repeat split. Qed.

(** Exception: after the request has been sent again, the answer to its first transmission, which
    the peer has accepted, cannot be opened. *)
Definition s5 := run civ0 s0 [q1; d1; Again 0 0].
Theorem C106_answer_after_request_sent_again_refuted : exists l,
  l = [q1; d1; Again 0 0; r1; Deliver 0 (pk s5 r1) false false] /\
  map (fun a => (a_dev a, a_inner a)) (acc (run civ0 s0 l)) = [(1%nat, Inner 1 None [1; 1])] /\
  (exists b, find (has_token [21]) (d_cbs (devs (run civ0 s0 l) 0%nat)) = Some b) /\ o_token (pk s5 r1) = [21].
Proof. eexists. split; [reflexivity|]. vm_compute. repeat split. eexists. reflexivity. Qed.

(** Exception: an answer that is sent again cannot be opened. *)
Theorem C106_answer_sent_again_refuted : exists l,
  l = [q1; d1; r1; Again 1 0; Deliver 0 (pk s3 (Again 1 0)) false false] /\
  map (fun a => (a_dev a, a_inner a)) (acc (run civ0 s0 l)) = [(1%nat, Inner 1 None [1; 1])] /\
  o_token (pk s3 (Again 1 0)) = [21].
Proof. eexists. split; [reflexivity|]. vm_compute. repeat split. Qed.

(** Exception: with two contexts for one subject, the answer is protected in the first of them,
    not in the one the request came in. *)
Definition dev0' : dev := Dev [Ctx 11 Pair [7] [1] [2] 0 window_init] [] [] true.
Definition dev1' : dev := Dev [Ctx 10 Pair [6] [4] [5] 0 window_init; Ctx 10 Pair [7] [2] [1] 1 window_init] [] [] true.
Definition t0 : st := St (fun d => match d with O => dev0' | 1%nat => dev1' | _ => Dev [] [] [] true end) [] [].
Definition t1 := run civ0 t0 [q1; Deliver 1 (pk t0 q1) false false].
Theorem C106_two_contexts_refuted : exists l,
  l = [q1; Deliver 1 (pk t0 q1) false false; r1; Deliver 0 (pk t1 r1) false false] /\
  map (fun a => (a_dev a, a_inner a)) (acc (run civ0 t0 l)) = [(1%nat, Inner 1 None [1; 1])] /\
  (exists x, emits civ0 t1 r1 = Some x) /\ map e_secret (prot (run civ0 t0 l)) = [[7]; [6]].
Proof. eexists. split; [reflexivity|]. vm_compute. repeat split. eexists. reflexivity. Qed.
