(** What the cloud has after requests and answers. *)
From Verif Require Import Common Rep_Model Repd_Model Coap_Model Buf_Model Jp_Model Disc_Spec Rd_Model Rd_Spec Rd_Proofs Rd2_Proofs Rd3_Proofs Rd4_Proofs Rd5_Proofs.
From Coq Require Import String Permutation.
Notation rep := Rep_Model.rep.
Local Open Scope string_scope.
Local Open Scope list_scope.
Local Open Scope N_scope.

Section Cloud.
Variable assign : list N -> Z.
Hypothesis small : forall a, int64 (assign a).

Definition inst (k : link) : Z := assign (uri_of k).
Lemma inst_uris l : NoDup (map inst l) -> NoDup (map uri_of l).
Proof. intros H. apply (NoDup_map_inv assign). rewrite map_map. exact H. Qed.

(** [pend]: a publish request is on its way; [fl]: the instances in an unpublish request on its way. *)
Record mid (pend : bool) (fl : list Z) (s : rd) (c : cloud) : Prop := {
  m_inv : inv s;
  m_ints : ints s;
  m_uris : NoDup (map inst (links_of s));
  m_pub : forall k, In k (s_published s) -> k_ins k = assign (uri_of k) /\ In (entry k) c;
  m_val : forall e, In e c -> snd e = assign (fst e);
  m_cov : forall e, In e c -> (exists k, In k (s_published s) /\ e = entry k) \/ In (snd e) (map k_ins (s_delete s) ++ fl) \/ (pend = true /\ In (fst e) (map uri_of (s_publish s)));
  m_sep : forall i k, In i (map k_ins (s_delete s) ++ fl) -> In k (links_of s) -> i <> assign (uri_of k) }.

Lemma mid_weaken fl s c : mid false fl s c -> mid true fl s c.
Proof. intros [A B C D E F G]. constructor; try assumption. intros e H. destruct (F e H) as [X|[X|[X _]]]; [left; exact X|right; left; exact X|discriminate]. Qed.

Lemma mid_flags pend fl s c a b t : mid pend fl s c -> mid pend fl (mk_rd (s_publish s) (s_published s) (s_delete s) a b t) c.
Proof. intros [[A1 A2 A3 A4] B C D E F G]. constructor; try assumption. constructor; assumption. Qed.

(** Sending the next unpublish request. *)
Lemma mid_send pend s c n : mid pend [] s c -> mid pend (map k_ins (firstn n (s_delete s))) (with_delete s (skipn n (s_delete s))) c.
Proof.
  intros [A B C D E F G]. assert (P : forall i, In i (map k_ins (skipn n (s_delete s)) ++ map k_ins (firstn n (s_delete s))) <-> In i (map k_ins (s_delete s) ++ [])).
  { intros i. rewrite app_nil_r. rewrite <- (firstn_skipn n (s_delete s)) at 3. rewrite map_app, !in_app_iff. tauto. }
  constructor; try assumption.
  - apply inv_delete. exact A.
  - destruct B as (B1 & B2 & B3). repeat split; cbn; [exact B1|exact B2|apply forall_skipn; exact B3].
  - intros e H. destruct (F e H) as [X|[X|X]]; [left; exact X|right; left; apply P; exact X|right; right; exact X].
  - intros i k H. apply G. apply P. exact H.
Qed.

(** The cloud handles an unpublish request. *)
Lemma mid_drop s c l di : ~ In 38 di -> l <> [] -> mid false (map k_ins l) s c -> mid false [] s (drop c (query di (texts l))).
Proof.
  intros Hd NE [A B C D E F G]. unfold drop. rewrite named_query by exact Hd. destruct (map k_ins l) as [|z zs] eqn:L; [destruct l; [contradiction|discriminate]|]. rewrite <- L in *. clear L z zs.
  assert (Fi : forall e, In e (filter (fun e => negb (existsb (Z.eqb (snd e)) (map k_ins l))) c) <-> In e c /\ ~ In (snd e) (map k_ins l)).
  { intros e. rewrite filter_In, negb_true_iff. split; intros [X Y]; (split; [exact X|]).
    - intros Z. rewrite existsb_false in Y. specialize (Y _ Z). rewrite Z.eqb_refl in Y. discriminate.
    - apply existsb_false. intros x Hx. apply Z.eqb_neq. intros W. apply Y. rewrite W. exact Hx. }
  constructor; try assumption.
  - intros k H. destruct (D k H) as [D1 D2]. split; [exact D1|]. apply Fi. split; [exact D2|]. cbn [snd entry]. intros X. apply (G (k_ins k) k); [apply in_or_app; right; exact X|apply in_or_app; right; exact H|exact D1].
  - intros e H. apply Fi in H. apply E. tauto.
  - intros e H. apply Fi in H. destruct H as [H N]. destruct (F e H) as [X|[X|[X _]]]; [left; exact X|right; left|discriminate]. rewrite app_nil_r. apply in_app_or in X. tauto.
  - intros i k H. apply G. rewrite app_nil_r in H. apply in_or_app. left. exact H.
Qed.

Lemma kept_all hs ks : (forall k, In k ks -> In (uri_of k) hs) -> kept (map (fun h => [(str "href", RStr h); (str "ins", RInt (assign h))]) hs) ks = [] /\
  moved (map (fun h => [(str "href", RStr h); (str "ins", RInt (assign h))]) hs) ks = map (fun k => mk_link (k_res k) (assign (uri_of k))) ks.
Proof.
  intros H. unfold kept, moved. induction ks as [|k ks IH]; [split; reflexivity|]. cbn [filter flat_map map]. rewrite answered_all. destruct IH as [I1 I2]; [intros x X; apply H; right; exact X|].
  replace (existsb (fun x => list_eqb x (uri_of k)) hs) with true; [rewrite I1, I2; split; reflexivity|]. symmetry. apply existsb_exists. exists (uri_of k). split; [apply H; left; reflexivity|apply list_eqb_refl].
Qed.

(** The cloud answers a publish request, and the device handles the answer. *)
Lemma mid_answer v s c p fl : mid true fl s c -> s_in s = true -> publishes v (s_publish s) (MPublish p) ->
  exists s1, step v s (Published true (answer assign p)) = Some (s1, []) /\ mid false fl s1 (fold_left (put assign) (hrefs p) c) /\ s_publish s1 = [] /\ s_delete s1 = s_delete s /\ s_in s1 = true.
Proof.
  intros [A B C0 D E F G] On P. pose proof (inst_uris _ C0) as C. apply hrefs_publishes in P. set (l := map (fun h => [(str "href", RStr h); (str "ins", RInt (assign h))]) (hrefs p)).
  destruct (answer_inv l s A) as (s1 & S & I1 & _ & D1 & In1 & _). exists s1. cbn [step]. unfold publish_handler. rewrite On. cbn [negb orb]. change (get_oa (answer assign p) (str "links")) with (Some l). cbv iota. rewrite S. split; [reflexivity|].
  assert (NU : NoDup (map uri_of (s_publish s))) by (unfold links_of in C; rewrite map_app in C; apply nodup_app_l in C; exact C).
  destruct (answer_lists l s s1 A NU S) as [K M]. destruct (kept_all (hrefs p) (s_publish s)) as [K1 M1]; [intros k H; rewrite P; apply in_map; exact H|]. fold l in K1, M1. rewrite K1 in K. rewrite M1 in M. rewrite P.
  assert (Mi : forall k, In k (s_published s1) <-> In k (s_published s) \/ exists x, In x (s_publish s) /\ k = mk_link (k_res x) (assign (uri_of x))).
  { intros k. split; intros H.
    - apply (Permutation_in _ M) in H. apply in_app_or in H. destruct H as [H|H]; [left; exact H|right]. apply in_map_iff in H. destruct H as (x & <- & H). exists x. auto.
    - apply (Permutation_in _ (Permutation_sym M)). apply in_or_app. destruct H as [H|(x & H & ->)]; [left; exact H|right]. apply in_map_iff. exists x. auto. }
  assert (Mu : forall k, In k (links_of s1) -> exists x, In x (links_of s) /\ uri_of x = uri_of k).
  { intros k H. unfold links_of in H. rewrite K in H. cbn [app] in H. apply Mi in H. destruct H as [H|(x & H & ->)]; [exists k|exists x]; (split; [apply in_or_app; auto|reflexivity]). }
  split; [|split; [exact K|split; [exact D1|rewrite In1; exact On]]]. constructor.
  - exact I1.
  - apply (answer_ints l s s1); [|exact B|exact S]. intros o i H. apply in_map_iff in H. destruct H as (h & <- & _). change (get_i _ (str "ins")) with (Some (assign h)). intros [= <-]. apply small.
  - unfold links_of. rewrite K. cbn [app]. apply (Permutation_NoDup (l := map inst (links_of s))); [|exact C0]. rewrite (Permutation_map inst M). unfold links_of. rewrite !map_app, map_map. apply Permutation_app_comm.
  - intros k H. apply Mi in H. rewrite put_spec. destruct H as [H|(x & H & ->)].
    + destruct (D k H) as [D2 D3]. split; [exact D2|]. right. split; [|exact D3]. cbn [fst entry]. intros X. unfold links_of in C. rewrite map_app in C. apply in_map_iff in X. destruct X as (y & Y1 & Y2). rewrite <- Y1 in *.
      clear - C H Y1 Y2. induction (s_publish s) as [|z t J]; [exact Y2|]. cbn [map app] in C. inversion C as [|a b N1 N2]; subst. destruct Y2 as [->|Y2]; [|apply J; assumption]. apply N1. apply in_or_app. right. rewrite Y1. apply in_map. exact H.
    + split; [reflexivity|]. left. cbn [fst snd entry k_ins]. change (uri_of (mk_link (k_res x) (assign (uri_of x)))) with (uri_of x). split; [apply in_map; exact H|reflexivity].
  - intros e H. apply put_spec in H. destruct H as [[_ H]|[_ H]]; [exact H|apply E; exact H].
  - intros e H. apply put_spec in H. destruct H as [[H1 H2]|[H1 H2]].
    + left. apply in_map_iff in H1. destruct H1 as (x & X1 & X2). exists (mk_link (k_res x) (assign (uri_of x))). split; [apply Mi; right; exists x; auto|]. destruct e as [u z]. cbn [fst snd] in *. subst u z. reflexivity.
    + destruct (F e H2) as [(k & X1 & X2)|[X|[_ X]]]; [left; exists k; split; [apply Mi; left; exact X1|exact X2]|right; left; rewrite D1; exact X|contradiction].
  - intros i k H1 H2. rewrite D1 in H1. destruct (Mu k H2) as (x & X1 & X2). rewrite <- X2. apply G; assumption.
Qed.

(** All that is queued is unpublished. *)
Lemma deliver_dels v n : forall s c l, env_ok v -> (List.length (s_delete s) <= n)%nat -> l <> [] -> mid false (map k_ins l) s c ->
  exists fuel s' c', deliver fuel assign v s c [MDelete (query (v_di v) (texts l))] = Some (s', c') /\ mid false [] s' c' /\ s_publish s' = s_publish s /\ s_in s' = s_in s /\
    (v_rfnop v = true -> s_in s = true -> v_del v = true -> s_delete s' = []).
Proof.
  induction n as [n IH] using (well_founded_induction lt_wf). intros s c l V L NE M. pose proof (mid_drop s c l (v_di v) (proj1 (proj2 V)) NE M) as M1. set (c1 := drop c _) in *.
  pose proof (m_ints _ _ _ _ M) as (_ & _ & I3). destruct (cloud_delete_if_total v s V I3) as (s1 & m1 & E). pose proof (cloud_delete_spec v s s1 m1 V I3 E) as Sp.
  destruct (v_rfnop v && s_in s && v_del v && negb (empty (s_delete s))) eqn:Bo.
  - destruct Sp as (k & q & K & -> & -> & -> & _). apply andb_true_iff in Bo. destruct Bo as [_ Bo]. assert (Ln : (0 < List.length (s_delete s))%nat) by (destruct (s_delete s); [discriminate|cbn; lia]).
    destruct (IH (List.length (skipn k (s_delete s)))) with (s := with_delete s (skipn k (s_delete s))) (c := c1) (l := firstn k (s_delete s)) as (f & s' & c' & H1 & H2 & H3 & H4 & H5).
    + rewrite skipn_length. lia.
    + exact V.
    + cbn. lia.
    + destruct (s_delete s), k; try discriminate; cbn in *; lia.
    + apply mid_send. exact M1.
    + exists (S f), s', c'. cbn [deliver step]. rewrite E. fold c1. cbn [app]. split; [exact H1|]. split; [exact H2|]. split; [exact H3|]. split; [exact H4|exact H5].
  - destruct Sp as [-> ->]. exists 1%nat, s, c1. cbn [deliver step]. rewrite E. fold c1. split; [reflexivity|]. split; [exact M1|]. split; [reflexivity|]. split; [reflexivity|]. intros X Y Z. rewrite X, Y, Z in Bo. cbn [andb] in Bo. destruct (s_delete s); [reflexivity|discriminate].
Qed.

(** Messages sent after the lists are changed. *)
Lemma settle v s0 s1 c mp md (del : bool) t : env_ok v ->
  (mp = [] /\ mid false [] s0 c \/ exists p, mp = [MPublish p] /\ publishes v (s_publish s0) (MPublish p) /\ s_in s0 = true /\ mid true [] s0 c) ->
  (if del then cloud_delete_if v s0 = Some (s1, md) else md = [] /\ s1 = s0) ->
  exists fuel s' c', deliver fuel assign v (with_timer s1 t) c (mp ++ md) = Some (s', c') /\ mid false [] s' c' /\ s_in s' = s_in s0 /\ s_publish s' = (match mp with [] => s_publish s0 | _ => [] end) /\
    (if del then v_rfnop v = true -> s_in s0 = true -> v_del v = true -> s_delete s' = [] else s_delete s' = s_delete s0).
Proof.
  intros V P D.
  (* what is on its way after sending *)
  assert (X : exists l, (md = [] /\ l = [] \/ md = [MDelete (query (v_di v) (texts l))] /\ l <> []) /\ s_publish s1 = s_publish s0 /\ s_in s1 = s_in s0 /\ (forall pend, mid pend [] s0 c -> mid pend (map k_ins l) s1 c) /\
    (if del then v_rfnop v = true -> s_in s0 = true -> v_del v = true -> md = [] -> s_delete s1 = [] else s_delete s1 = s_delete s0 /\ md = [])).
  { destruct del.
    - assert (I3 : Forall (fun k => int64 (k_ins k)) (s_delete s0)) by (destruct P as [[_ M]|(p & _ & _ & _ & M)]; apply (m_ints _ _ _ _ M)). pose proof (cloud_delete_spec v s0 s1 md V I3 D) as Sp. destruct (v_rfnop v && s_in s0 && v_del v && negb (empty (s_delete s0))) eqn:Bo.
      + destruct Sp as (k & q & K & -> & -> & -> & _). exists (firstn k (s_delete s0)). split; [right; split; [reflexivity|]; apply andb_true_iff in Bo; destruct Bo as [_ Bo]; destruct (s_delete s0), k; try discriminate; lia|]. split; [reflexivity|]. split; [reflexivity|]. split; [intros pend; apply mid_send|]. intros _ _ _ W. discriminate.
      + destruct Sp as [-> ->]. exists []. split; [left; split; reflexivity|]. split; [reflexivity|]. split; [reflexivity|]. split; [intros pend H; exact H|]. intros W1 W2 W3 _. rewrite W1, W2, W3 in Bo. cbn [andb] in Bo. destruct (s_delete s0); [reflexivity|discriminate].
    - destruct D as [-> ->]. exists []. split; [left; split; reflexivity|]. split; [reflexivity|]. split; [reflexivity|]. split; [intros pend H; exact H|split; reflexivity]. }
  destruct X as (l & Xm & Xp & Xi & Xs & Xd).
  assert (Y : exists s2 c2 f0, (forall f, deliver (f0 + f) assign v (with_timer s1 t) c (mp ++ md) = deliver f assign v s2 c2 md) /\ mid false (map k_ins l) s2 c2 /\ s_in s2 = s_in s0 /\ s_publish s2 = (match mp with [] => s_publish s0 | _ => [] end) /\ s_delete s2 = s_delete s1).
  { destruct P as [[-> M]|(p & -> & Pp & On & M)].
    - exists (with_timer s1 t), c, 0%nat. split; [intros f; reflexivity|]. split; [apply mid_flags; apply (Xs false M)|]. split; [exact Xi|]. split; [exact Xp|reflexivity].
    - pose proof (mid_flags _ _ _ _ (s_in s1) (s_refreshed s1) t (Xs true M)) as M1. destruct (mid_answer v (with_timer s1 t) c p (map k_ins l) M1) as (s2 & S2 & M2 & P2 & D2 & I2); [cbn; rewrite Xi; exact On|cbn; rewrite Xp; exact Pp|].
      exists s2, (fold_left (put assign) (hrefs p) c), 1%nat. split; [intros f; cbn [app deliver Nat.add]; rewrite S2, app_nil_r; reflexivity|]. split; [exact M2|]. split; [rewrite I2, On; reflexivity|]. split; [exact P2|exact D2]. }
  destruct Y as (s2 & c2 & f0 & Yd & Ym & Yi & Yp & Yq). destruct Xm as [[-> ->]|[-> NE]].
  - exists (f0 + 0)%nat, s2, c2. rewrite Yd. split; [reflexivity|]. split; [exact Ym|]. split; [exact Yi|]. split; [exact Yp|]. rewrite Yq. destruct del; [intros W1 W2 W3; apply (Xd W1 W2 W3 eq_refl)|apply Xd].
  - destruct (deliver_dels v (List.length (s_delete s2)) s2 c2 l V (le_n _) NE Ym) as (f & s' & c' & H1 & H2 & H3 & H4 & H5). exists (f0 + f)%nat, s', c'. rewrite Yd. split; [exact H1|]. split; [exact H2|]. split; [rewrite H4; exact Yi|]. split; [rewrite H3; exact Yp|].
    destruct del; [intros W1 W2 W3; apply H5; [exact W1|rewrite Yi; exact W2|exact W3]|destruct Xd as [_ Xd]; discriminate].
Qed.

(** * Operations *)

Lemma with_timer_same s : with_timer s (s_timer s) = s.
Proof. destruct s; reflexivity. Qed.

Lemma publish_case v s m c : cloud_publish v s = Some m -> s_publish s <> [] -> mid false [] s c ->
  (m = [] /\ mid false [] s c \/ exists p, m = [MPublish p] /\ publishes v (s_publish s) (MPublish p) /\ s_in s = true /\ mid true [] s c) /\ (v_rfnop v && s_in s && v_post v = true -> m <> []).
Proof.
  intros E NE M. apply cloud_publish_spec in E. destruct (v_rfnop v && s_in s && v_post v) eqn:B; [|subst m; split; [left; split; [reflexivity|exact M]|discriminate]].
  destruct E as (p & -> & P). pose proof P as (q & os & -> & _). split; [right|discriminate]. exists q. split; [reflexivity|]. apply andb_true_iff in B. destruct B as [B _]. apply andb_true_iff in B. destruct B as [_ B].
  split; [destruct (s_publish s); [contradiction|exact P]|]. split; [exact B|apply mid_weaken; exact M].
Qed.

Lemma mid_add s c r z : int64 z -> mid false [] s c -> existsb (same r) (rlist (links_of s)) = false ->
  (forall k x, In k (links_of s) -> k_res k = Some x -> assign (r_uri x) = assign (r_uri r) -> r_id x = r_id r) -> ~ In (assign (r_uri r)) (map k_ins (s_delete s)) ->
  mid false [] (with_publish s (s_publish s ++ [mk_link (Some r) z])) c.
Proof.
  intros Z [A B C D E F G] K U Q. rewrite existsb_false in K. destruct (inv_add s r z A) as [A2 _]; [apply existsb_false; exact K|].
  assert (Li : forall k, In k (links_of (with_publish s (s_publish s ++ [mk_link (Some r) z]))) <-> In k (links_of s) \/ k = mk_link (Some r) z).
  { intros k. unfold links_of. cbn [s_publish s_published with_publish]. rewrite !in_app_iff. cbn [In]. split; [intros [[X|[X|[]]]|X]; auto|intros [[X|X]|X]; auto]. }
  constructor; try assumption.
  - destruct B as (B1 & B2 & B3). repeat split; cbn [s_publish s_published s_delete with_publish]; [apply Forall_app; split; [exact B1|constructor; [exact Z|constructor]]|exact B2|exact B3].
  - apply (Permutation_NoDup (l := assign (r_uri r) :: map inst (links_of s))).
    + unfold links_of. cbn [s_publish s_published with_publish]. rewrite !map_app. cbn [map]. change (inst (mk_link (Some r) z)) with (assign (r_uri r)). rewrite <- app_assoc. cbn [app]. apply Permutation_middle.
    + constructor; [|exact C]. intros X. apply in_map_iff in X. destruct X as (k & X1 & X2). pose proof (i_pub _ A) as P1. pose proof (i_pubd _ A) as P2. rewrite Forall_forall in P1, P2. assert (H : has_res k) by (unfold links_of in X2; apply in_app_or in X2; destruct X2; auto).
      unfold has_res in H. destruct (k_res k) as [x|] eqn:R; [|contradiction]. unfold inst, uri_of in X1. rewrite R in X1. pose proof (U k x X2 R X1) as W. pose proof (K x (rlist_in _ _ _ X2 R)) as W2. unfold same in W2. rewrite W, Nat.eqb_refl in W2. discriminate.
  - intros e H. destruct (F e H) as [X|[X|[X _]]]; [left; exact X|right; left; exact X|discriminate].
  - intros i k H1 H2. apply Li in H2. destruct H2 as [H2| ->]; [apply (G i k H1 H2)|]. change (uri_of (mk_link (Some r) z)) with (r_uri r). rewrite app_nil_r in H1. intros ->. exact (Q H1).
Qed.

Lemma nodup_remove_uri f l : NoDup (map inst l) -> NoDup (map inst (remove_first f l)).
Proof.
  induction l as [|k l IH]; intros H; [constructor|]. cbn [map] in H. inversion H as [|a b H1 H2]; subst. cbn [remove_first]. destruct (f k); [exact H2|]. cbn [map]. constructor; [|apply IH; exact H2]. intros X. apply H1. apply in_map_iff in X. destruct X as (x & X1 & X2). rewrite <- X1. apply in_map. apply (remove_first_in _ _ _ X2).
Qed.
Lemma nodup_two (a b a' b' : list link) : NoDup (map inst (a ++ b)) -> NoDup (map inst a') -> NoDup (map inst b') -> incl a' a -> incl b' b -> NoDup (map inst (a' ++ b')).
Proof.
  intros N Na Nb Ia Ib. rewrite map_app in *. induction a' as [|k t IH]; [exact Nb|]. cbn [map app] in *. inversion Na as [|x y Na1 Na2]; subst. constructor; [|apply IH; [exact Na2|intros z Z; apply Ia; right; exact Z]].
  intros X. apply in_app_or in X. destruct X as [X|X]; [contradiction|]. apply in_map_iff in X. destruct X as (x & X1 & X2). apply Ib in X2. assert (Ka : In k a) by (apply Ia; left; reflexivity).
  clear - N X1 X2 Ka. induction a as [|z a J]; [exact Ka|]. cbn [map app] in N. inversion N as [|u w N1 N2]; subst. destruct Ka as [->|Ka]; [|apply J; assumption]. apply N1. apply in_or_app. right. rewrite <- X1. apply in_map. exact X2.
Qed.

Lemma mid_del s c r : mid false [] s c ->
  let s2 := with_published (with_publish s (remove_first (of_res r) (s_publish s))) (remove_first (of_res r) (s_published s)) in
  mid false [] (match find_res r (s_published s) with Some k => with_delete s2 (s_delete s2 ++ [mk_link None (k_ins k)]) | None => s2 end) c.
Proof.
  intros [A B C D E F G] s2. set (d := match find_res r (s_published s) with Some k => s_delete s ++ [mk_link None (k_ins k)] | None => s_delete s end).
  replace (match find_res r (s_published s) with Some k => with_delete s2 (s_delete s2 ++ [mk_link None (k_ins k)]) | None => s2 end) with (with_delete s2 d) by (unfold d; destruct (find_res r (s_published s)); [reflexivity|destruct s; reflexivity]).
  assert (Hd : Forall no_res d /\ Forall (fun k => int64 (k_ins k)) d). { unfold d. destruct (find_res r (s_published s)) as [k|] eqn:K; [|split; [apply A|apply B]]. split; (apply Forall_app; split; [first [apply A|apply B]|constructor; [|constructor]]); [reflexivity|]. apply find_some in K. destruct K as [K _]. destruct B as (_ & B2 & _). rewrite Forall_forall in B2. apply (B2 k K). }
  assert (Dl : forall i, In i (map k_ins d ++ []) -> In i (map k_ins (s_delete s) ++ []) \/ exists k, find_res r (s_published s) = Some k /\ i = k_ins k).
  { intros i. rewrite !app_nil_r. unfold d. destruct (find_res r (s_published s)) as [k|]; [|auto]. rewrite map_app, in_app_iff. intros [X|[X|[]]]; [left; exact X|right; exists k; auto]. }
  assert (Inl : forall k, In k (links_of (with_delete s2 d)) -> In k (links_of s)). { intros k X. unfold links_of in *. cbn [s2 s_publish s_published with_delete with_published with_publish] in X. apply in_app_or in X. apply in_or_app. destruct X as [X|X]; [left|right]; apply (remove_first_in _ _ _ X). }
  constructor; cbn [s2 s_publish s_published s_delete with_delete with_published with_publish].
  - apply (inv_remove s r d A). apply Hd.
  - destruct B as (B1 & B2 & B3). repeat split; cbn; [apply remove_first_forall; exact B1|apply remove_first_forall; exact B2|apply Hd].
  - unfold links_of in *. cbn [s2 s_publish s_published with_delete with_published with_publish]. pose proof C as C'. rewrite map_app in C'. apply (nodup_two _ _ _ _ C).
    + apply nodup_remove_uri. apply nodup_app_l in C'. exact C'.
    + apply nodup_remove_uri. apply nodup_app_r in C'. exact C'.
    + intros k X. apply (remove_first_in _ _ _ X).
    + intros k X. apply (remove_first_in _ _ _ X).
  - intros k H. apply D. apply (remove_first_in _ _ _ H).
  - exact E.
  - intros e H. destruct (F e H) as [(k & X1 & X2)|[X|[X _]]]; [|right; left|discriminate].
    + destruct (remove_first_split (of_res r) (s_published s)) as [(a & x & b & P & Fx & _ & R & Fd)|(_ & R & Fd)]; [|left; exists k; rewrite R; auto]. rewrite R. rewrite P in X1. apply in_app_or in X1. destruct X1 as [X1|[<-|X1]]; [left; exists k; split; [apply in_or_app; auto|exact X2]| |left; exists k; split; [apply in_or_app; auto|exact X2]].
      right. left. rewrite app_nil_r. unfold d, find_res. rewrite Fd, map_app. apply in_or_app. right. left. subst e. reflexivity.
    + rewrite app_nil_r in *. unfold d. destruct (find_res r (s_published s)); [rewrite map_app; apply in_or_app; left|]; exact X.
  - intros i k H1 H2. apply Dl in H1. destruct H1 as [H1|(x & X1 & ->)]; [apply (G i k H1 (Inl k H2))|]. pose proof (find_some _ _ X1) as [Y1 Y2]. rewrite (proj1 (D x Y1)). intros W.
    (* the removed link is the only one with its URI *)
    destruct (remove_first_split (of_res r) (s_published s)) as [(a & y & b & P & Fx & _ & R & Fd)|(_ & R & Fd)]; [|unfold find_res in X1; congruence]. unfold find_res in X1. assert (y = x) by congruence. subst y.
    unfold links_of in H2, C. cbn [s2 s_publish s_published with_delete with_published with_publish] in H2. rewrite R in H2. rewrite P in C. rewrite app_assoc, map_app in C. cbn [map] in C. apply NoDup_remove_2 in C. apply C. unfold inst at 1. rewrite W, <- map_app. apply (in_map inst).
    apply in_app_or in H2. rewrite <- app_assoc. apply in_or_app. destruct H2 as [H2|H2]; [left; apply (remove_first_in _ _ _ H2)|right; exact H2].
Qed.

Lemma mid_move s c : mid false [] s c -> mid true [] (move s) c.
Proof.
  intros [A B C D E F G]. assert (L : links_of (move s) = links_of s) by (unfold links_of, move; cbn; apply app_nil_r). constructor.
  - apply inv_move. exact A.
  - destruct B as (B1 & B2 & B3). repeat split; cbn; [apply Forall_app; split; assumption|constructor|exact B3].
  - rewrite L. exact C.
  - intros k [].
  - exact E.
  - intros e H. destruct (F e H) as [(k & X1 & X2)|[X|[X _]]]; [right; right|right; left; exact X|discriminate]. split; [reflexivity|]. cbn. rewrite map_app. apply in_or_app. right. subst e. cbn [fst entry]. apply in_map. exact X1.
  - rewrite L. exact G.
Qed.

Definition calm (s : rd) : Prop := s_publish s = [] /\ s_delete s = [].

Theorem exchange_mid v s c o : env_ok v -> int64 (v_rand v) -> mid false [] s c -> allowed assign v s o ->
  exists s' c', exchange assign v s c o s' c' /\ mid false [] s' c' /\
    (o = Status true false -> v_rfnop v = true -> v_post v = true -> v_del v = true -> calm s') /\
    (calm s -> online v s -> match o with Add _ | Del _ | Hourly | Publish => True | _ => False end -> calm s').
Proof.
  intros V R M Al. unfold exchange, exchange_in. destruct o as [r|r|a b|a b| | |x p|i| |]; cbn [allowed] in Al; try contradiction; cbn [step].
  - destruct Al as [U Q]. pose proof (m_inv _ _ _ _ M) as I. rewrite known_spec. destruct (existsb (same r) (rlist (links_of s))) eqn:K; [exists s, c; split; [exists 0%nat; reflexivity|]; split; [exact M|]; split; [discriminate|intros H _ _; exact H]|].
    rewrite (no_res_remove r (s_delete s)) by apply I. rewrite with_delete_same. destruct (v_alloc v); [|exists s, c; split; [exists 0%nat; reflexivity|]; split; [exact M|]; split; [discriminate|intros H _ _; exact H]].
    pose proof (mid_add s c r (v_rand v) R M K U Q) as M1. set (s1 := with_publish s _) in *. assert (NE : s_publish s1 <> []) by (unfold s1; cbn; destruct (s_publish s); discriminate). destruct (cloud_publish_ok v s1 (m_inv _ _ _ _ M1)) as (m & E); [contradiction|]. rewrite E.
    destruct (publish_case v s1 m c E NE M1) as [P On]. destruct (settle v s1 s1 c m [] false (s_timer s1) V P (conj eq_refl eq_refl)) as (f & s' & c' & H1 & H2 & H3 & H4 & H5). rewrite with_timer_same, app_nil_r in H1. exists s', c'. split; [exists f; exact H1|]. split; [exact H2|]. split; [discriminate|].
    intros [C1 C2] (O1 & O2 & O3 & O4) _. split; [|rewrite H5; exact C2]. rewrite H4. destruct m; [|reflexivity]. exfalso. apply On; [|reflexivity]. rewrite O1, O3. change (s_in s1) with (s_in s). rewrite O2. reflexivity.
  - rewrite Al. cbn [s_published s_delete with_publish with_published]. pose proof (mid_del s c r M) as M1. cbv zeta in M1. destruct (find_res r (s_published s)) as [k|] eqn:K.
    + cbn [s_published s_delete with_publish with_published] in M1. set (s1 := with_delete _ _) in *. assert (ND : s_delete s1 <> []) by (unfold s1; cbn; destruct (s_delete s); discriminate). pose proof (m_ints _ _ _ _ M1) as (_ & _ & I3).
      destruct (cloud_delete_total v s1 V ND I3) as (s2 & m & E). rewrite E. assert (E' : cloud_delete_if v s1 = Some (s2, m)) by (unfold cloud_delete_if; destruct (s_delete s1); [contradiction|exact E]).
      destruct (settle v s1 s2 c [] m true (s_timer s2) V (or_introl (conj eq_refl M1)) E') as (f & s' & c' & H1 & H2 & H3 & H4 & H5). rewrite with_timer_same in H1. exists s', c'. split; [exists f; exact H1|]. split; [exact H2|]. split; [discriminate|].
      intros [C1 C2] (O1 & O2 & O3 & O4) _. split; [rewrite H4; unfold s1; cbn; rewrite C1; reflexivity|apply H5; assumption].
    + exists (with_published (with_publish s (remove_first (of_res r) (s_publish s))) (remove_first (of_res r) (s_published s))), c. split; [exists 0%nat; reflexivity|]. split; [exact M1|]. split; [discriminate|]. intros [C1 C2] _ _. split; cbn; [rewrite C1; reflexivity|exact C2].
  - destruct a; cbn [negb]; [|eexists; exists c; split; [exists 0%nat; reflexivity|]; split; [apply mid_flags with (s := s); exact M|]; split; [discriminate|intros _ _ []]].
    destruct b; [eexists; exists c; split; [exists 0%nat; reflexivity|]; split; [apply mid_flags; exact M|]; split; [discriminate|intros _ _ []]|].
    set (s1 := mk_rd _ _ _ _ _ _). assert (M1 : mid false [] s1 c) by (apply mid_flags; exact M). pose proof (m_ints _ _ _ _ M1) as (_ & _ & I3).
    assert (exists m, match s_publish s1 with [] => Some [] | _ => cloud_publish v s1 end = Some m /\ (m = [] /\ mid false [] s1 c \/ exists p, m = [MPublish p] /\ publishes v (s_publish s1) (MPublish p) /\ s_in s1 = true /\ mid true [] s1 c) /\
      (v_rfnop v = true -> v_post v = true -> match m with [] => s_publish s1 | _ => [] end = [])) as (m & Em & P & On).
    { destruct (s_publish s1) as [|k t] eqn:Ps; [exists []; split; [reflexivity|]; split; [left; split; [reflexivity|exact M1]|reflexivity]|]. destruct (cloud_publish_ok v s1 (m_inv _ _ _ _ M1)) as (m & E); [rewrite Ps; discriminate|]. exists m. split; [exact E|].
      destruct (publish_case v s1 m c E) as [P On]; [rewrite Ps; discriminate|exact M1|]. rewrite Ps in P. split; [exact P|]. intros X Y. destruct m; [|reflexivity]. exfalso. apply On; [rewrite X, Y; reflexivity|reflexivity]. }
    rewrite Em. destruct (cloud_delete_if_total v s1 V I3) as (s2 & m2 & E2). rewrite E2. cbn [seq_msgs]. destruct (settle v s1 s2 c m m2 true (negb (v_ttl v =? 0)) V P E2) as (f & s' & c' & H1 & H2 & H3 & H4 & H5).
    exists s', c'. split; [exists f; exact H1|]. split; [exact H2|]. split; [|intros _ _ []]. intros _ X Y Z. split; [rewrite H4; apply On; assumption|apply H5; [exact X|reflexivity|exact Z]].
  - eexists. exists c. split; [exists 0%nat; reflexivity|]. split; [apply mid_flags; exact M|]. split; [discriminate|intros _ _ []].
  - destruct Al as [(O1 & O2 & O3 & O4) NE]. destruct (s_timer s); [|exists s, c; split; [exists 0%nat; reflexivity|]; split; [exact M|]; split; [discriminate|intros H _ _; exact H]].
    pose proof (mid_move s c M) as M1. assert (NE1 : s_publish (move s) <> []) by exact NE. destruct (cloud_publish_ok v (move s) (m_inv _ _ _ _ M1)) as (m & E); [contradiction|]. rewrite E. apply cloud_publish_spec in E. replace (s_in (move s)) with true in E by (symmetry; exact O2). rewrite O1, O3 in E. cbn [andb] in E. destruct E as (p & -> & P). pose proof P as (q & os & -> & _).
    destruct (settle v (move s) (move s) c [MPublish q] [] false (s_timer (move s)) V) as (f & s' & c' & H1 & H2 & H3 & H4 & H5); [right; exists q; split; [reflexivity|]; split; [destruct (s_publish (move s)); [contradiction|exact P]|]; split; [exact O2|exact M1]|split; reflexivity|].
    rewrite with_timer_same in H1. exists s', c'. split; [exists f; exact H1|]. split; [exact H2|]. split; [discriminate|]. intros [C1 C2] _ _. split; [exact H4|rewrite H5; exact C2].
  - destruct Al as [(O1 & O2 & O3 & O4) NE]. pose proof (mid_move s c M) as M1. assert (NE1 : s_publish (move s) <> []) by exact NE. destruct (cloud_publish_ok v (move s) (m_inv _ _ _ _ M1)) as (m & E); [contradiction|]. rewrite E. apply cloud_publish_spec in E. replace (s_in (move s)) with true in E by (symmetry; exact O2). rewrite O1, O3 in E. cbn [andb] in E. destruct E as (p & -> & P). pose proof P as (q & os & -> & _).
    pose proof (m_ints _ _ _ _ M1) as (_ & _ & I3). destruct (cloud_delete_if_total v (move s) V I3) as (s2 & m2 & E2). rewrite E2. cbn [seq_msgs].
    destruct (settle v (move s) s2 c [MPublish q] m2 true (s_timer s2) V) as (f & s' & c' & H1 & H2 & H3 & H4 & H5); [right; exists q; split; [reflexivity|]; split; [destruct (s_publish (move s)); [contradiction|exact P]|]; split; [exact O2|exact M1]|exact E2|].
    rewrite with_timer_same in H1. exists s', c'. split; [exists f; exact H1|]. split; [exact H2|]. split; [discriminate|]. intros [C1 C2] _ _. split; [exact H4|]. apply H5; assumption.
Qed.

(** * Sessions *)

Lemma deliver_more f : forall v s c m x, deliver f assign v s c m = Some x -> deliver (S f) assign v s c m = Some x.
Proof.
  induction f as [|f IH]; intros v s c m x H; (destruct m as [|a m]; [exact H|]); [discriminate|]. cbn [deliver] in H. remember (S f) as g. cbn [deliver]. subst g. destruct a as [p|q].
  - destruct (step v s (Published true (answer assign p))) as [[s1 m1]|]; [|discriminate]. apply IH. exact H.
  - destruct (step v s (Deleted false)) as [[s1 m1]|]; [|discriminate]. apply IH. exact H.
Qed.
Lemma deliver_le f g v s c m x : (f <= g)%nat -> deliver f assign v s c m = Some x -> deliver g assign v s c m = Some x.
Proof. induction 1 as [|g _ IH]; intros H; [exact H|]. apply deliver_more. apply IH. exact H. Qed.
Lemma exchange_unique v s c o s1 c1 s2 c2 : exchange assign v s c o s1 c1 -> exchange assign v s c o s2 c2 -> s1 = s2 /\ c1 = c2.
Proof.
  intros (f & F) (g & G). unfold exchange_in in *. destruct (step v s o) as [[x m]|]; [|discriminate]. apply (deliver_le f (f + g)) in F; [|lia]. apply (deliver_le g (f + g)) in G; [|lia]. rewrite F in G. injection G as <- <-. split; reflexivity.
Qed.

Lemma deliver_tracks f : forall v s c m s' c', inv s -> deliver f assign v s c m = Some (s', c') -> Permutation (rlist (links_of s')) (rlist (links_of s)).
Proof.
  induction f as [|f IH]; intros v s c m s' c' I H; (destruct m as [|a m]; [injection H as <- <-; reflexivity|]); [discriminate|]. cbn [deliver] in H. destruct a as [p|q].
  - destruct (step v s (Published true (answer assign p))) as [[s1 m1]|] eqn:E; [|discriminate]. destruct (step_tracks _ _ _ _ _ I E) as [I1 P]. rewrite (IH _ _ _ _ _ _ I1 H). exact P.
  - destruct (step v s (Deleted false)) as [[s1 m1]|] eqn:E; [|discriminate]. destruct (step_tracks _ _ _ _ _ I E) as [I1 P]. rewrite (IH _ _ _ _ _ _ I1 H). exact P.
Qed.

Lemma session_mid h s c : session assign h s c -> mid false [] s c /\ Permutation (rlist (links_of s)) (tracked h).
Proof.
  induction 1 as [|h s c v o s' c' _ [M P] V R Al X].
  - split; [|reflexivity]. constructor; try (intros; contradiction); [apply inv_start|repeat split; constructor|constructor].
  - destruct (exchange_mid v s c o V R M Al) as (s2 & c2 & X2 & M2 & _). destruct (exchange_unique _ _ _ _ _ _ _ _ X X2) as [-> ->]. split; [exact M2|]. destruct X2 as (f & F). unfold exchange_in in F. destruct (step v s o) as [[s1 m]|] eqn:E; [|discriminate].
    destruct (step_tracks _ _ _ _ _ (m_inv _ _ _ _ M) E) as [I1 P1]. rewrite (deliver_tracks _ _ _ _ _ _ _ I1 F), P1. unfold tracked. rewrite fold_left_app. cbn [fold_left]. apply track_perm. exact P.
Qed.

Theorem session_covered h s c : session assign h s c -> covered s c.
Proof.
  intros S. destruct (session_mid _ _ _ S) as [M _]. split; [intros k H; apply (m_pub _ _ _ _ M k H)|]. intros e H. destruct (m_cov _ _ _ _ M e H) as [X|[X|[X _]]]; [left; exact X|right; rewrite app_nil_r in X; exact X|discriminate].
Qed.

Lemma calm_mirrors h s c : session assign h s c -> calm s -> agrees s c /\ mirrors assign h c.
Proof.
  intros S [C1 C2]. destruct (session_mid _ _ _ S) as [M P]. assert (A : agrees s c).
  { intros e. split; [intros H; destruct (m_cov _ _ _ _ M e H) as [X|[X|[X _]]]; [exact X|rewrite C2 in X; contradiction|discriminate]|intros (k & K & ->); apply (m_pub _ _ _ _ M k K)]. }
  split; [exact A|]. intros u z. split.
  - intros H. split; [apply (m_val _ _ _ _ M (u, z) H)|]. apply A in H. destruct H as (k & K & E). pose proof (i_pubd _ (m_inv _ _ _ _ M)) as Hp. rewrite Forall_forall in Hp. specialize (Hp k K). unfold has_res in Hp. destruct (k_res k) as [r|] eqn:R; [|contradiction].
    exists r. split; [apply (Permutation_in _ P); apply (rlist_in _ k); [apply in_or_app; right; exact K|exact R]|]. injection E as E _. unfold uri_of in E. rewrite R in E. symmetry. exact E.
  - intros (-> & r & H & <-). apply (Permutation_in _ (Permutation_sym P)) in H. apply rlist_back in H. destruct H as (k & K & R). unfold links_of in K. rewrite C1 in K. cbn [app] in K. apply A. exists k. split; [exact K|]. unfold entry. rewrite (proj1 (m_pub _ _ _ _ M k K)). unfold uri_of. rewrite R. reflexivity.
Qed.
End Cloud.
