(** C98: opened and closed connections are told to the event loop.  C99: the application's callbacks for them. *)
From Coq Require Import PeanoNat Lia Bool.
From Verif Require Import Common Ses_Model Ses_Spec Ses_Proofs.
Local Open Scope nat_scope.

(** * C98 *)

(** What was put in the lists is handled exactly once, and for either kind in that order. *)
Theorem C98_once : forall l s, run start l = Some s ->
  of_kind Conn (added s) = of_kind Conn (out s) ++ starts s /\ of_kind Disc (added s) = of_kind Disc (out s) ++ ends s.
Proof. intros l s H. exact (proj1 (good_run l start s good_start H)). Qed.
Print Assumptions C98_once.

(** Events that wait while the process runs are not forgotten: whenever no thread is in the middle of reporting, a poll of the process or a delayed callback is pending, or the event
    loop is handling them. *)
Theorem C98_pending : forall l s, run start l = Some s -> running s = true -> quiet s ->
  (starts s <> [] -> (need s = true /\ (poll s = true \/ cons s = CPoll)) \/ cons s = CStart)
  /\ (ends s <> [] -> (need s = true /\ (poll s = true \/ cons s = CPoll)) \/ cons s = CStart \/ cons s = CCount \/ cons s = CEnd \/ timers s > 0).
Proof.
  intros l s H R Q. destruct (good_run l start s good_start H) as (_ & W & _). destruct (W R) as (A & B).
  assert (P : pend s -> need s = true /\ (poll s = true \/ cons s = CPoll)).
  { intros [(d & [X|X])|(X & [Y|[Y|(d & Y)]])]; try (rewrite Q in X; discriminate X); try (rewrite Q in Y; discriminate Y); auto. }
  split; intros X; [apply A in X|apply B in X]; destruct X as [X|X]; auto.
Qed.
Print Assumptions C98_pending.

(** If no thread closes a connection just while the event loop tells about closed ones: once the threads are quiet the event loop, left alone, comes to rest, and then it has told
    all that each thread opened and all that it closed, each in that order. *)
Theorem C98_all : forall l s, run start l = Some s -> polite start l -> quiet s ->
  exists n t, loop n s = Some t /\ at_rest t /\ asked t = asked s /\
    forall d k, filter (fun e => e_thr e =? d) (of_kind k (out t)) = filter (fun e => e_thr e =? d) (of_kind k (asked s)).
Proof.
  intros l s H P Q. pose proof (good_run l start s good_start H) as G. destruct (polite_skip l start s marked_start eq_refl eq_refl P H) as (K & R).
  destruct (loop_rest (work s) s (Nat.le_refl _)) as (t & l2 & L & RT & AR & E1 & E2 & E3 & E4 & E5). exists (work s), t. split; [exact L|]. split; [exact AR|]. split; [exact E3|].
  pose proof (good_run l2 s t G RT) as GT. assert (QT : quiet t) by (intros d; rewrite E1; apply Q).
  destruct (rest_empty t GT ltac:(congruence) QT AR) as (S0 & S1). destruct GT as ((O1 & O2) & _ & EA & _). rewrite S0, app_nil_r in O1. rewrite S1, app_nil_r in O2.
  intros d k. assert (EK : of_kind k (out t) = of_kind k (added t)) by (destruct k; congruence). rewrite EK.
  assert (X : of_thread d (asked s) = of_thread d (added t)) by (pose proof (EA d ltac:(congruence)) as Y; rewrite (QT d), app_nil_r, E3 in Y; exact Y).
  assert (C : forall z, filter (fun e => e_thr e =? d) (of_kind k z) = of_kind k (of_thread d z)).
  { induction z as [|(k0, e) z IH]; [reflexivity|]. unfold of_kind, of_thread in *. cbn [filter fst snd]. destruct (kind_eqb k0 k) eqn:KE, (e_thr e =? d) eqn:TE; cbn [map filter fst snd]; rewrite ?KE, ?TE; cbn [map snd]; congruence. }
  rewrite !C. now rewrite X.
Qed.
Print Assumptions C98_all.

(** Two threads; the second closes a connection while the event loop has taken the first start event. *)
Definition two_threads : list op :=
  [Open 0 5; CheckRun 0; Open 1 6; AddList 0; CheckRun 1; CheckState 0; SetNeed 0; AddList 1; CheckState 1; SetPoll 0; Run; Take; PopStart; SetNeed 1; Close 0 5; CheckRun 0; AddList 0; PopStart; PopStart; Count;
   CheckState 0; SetNeed 0; SetPoll 0; SetPoll 1].
Lemma polite_check l : forall s,
  (fix ok (s : st) (l : list op) : bool :=
     match l with
     | [] => true
     | o :: r => match o with Close _ _ => match cons s with CEnd | CClear => false | _ => true end | Exit => false | _ => true end && match step s o with Some t => ok t r | None => true end
     end) s l = true -> polite s l.
Proof.
  induction l as [|o l IH]; intros s H; [exact Coq.Init.Logic.I|]. apply andb_true_iff in H. destruct H as (H1 & H2). cbn [polite]. split.
  - destruct o; try exact Coq.Init.Logic.I; [|discriminate H1]. intros [X|X]; rewrite X in H1; discriminate H1.
  - intros t E. apply IH. now rewrite E in H2.
Qed.
Example C98_example : exists s t, run start two_threads = Some s /\ polite start two_threads /\ quiet s /\ loop 20 s = Some t
  /\ out s = [(Conn, mk_ev 0 5); (Conn, mk_ev 1 6)] /\ out t = [(Conn, mk_ev 0 5); (Conn, mk_ev 1 6); (Disc, mk_ev 0 5)].
Proof.
  destruct (run start two_threads) as [s|] eqn:E; [|vm_compute in E; discriminate E]. exists s. destruct (loop 20 s) as [t|] eqn:L; [|vm_compute in E; injection E as <-; vm_compute in L; discriminate L].
  exists t. split; [reflexivity|]. split; [apply polite_check; vm_compute; reflexivity|]. vm_compute in E. injection E as <-.
  split; [intros d; cbn; unfold upd; destruct d as [|[|d]]; reflexivity|]. split; [first [exact L|reflexivity]|]. vm_compute in L. injection L as <-. split; reflexivity.
Qed.

(** A connection that is closed while the event loop tells about other closed ones is never told to be closed. *)
Theorem C98_lost_refuted : exists l s, l = [Open 0 5; CheckRun 0; AddList 0; CheckState 0; SetNeed 0; SetPoll 0; Open 1 6; CheckRun 1; AddList 1; CheckState 1; SetNeed 1; SetPoll 1; Run; Take; PopStart; PopStart; PopStart; Count;
    Close 0 5; CheckRun 0; AddList 0; CheckState 0; SetNeed 0; SetPoll 0; Run; Take; PopStart; Count; Fire; PopEnd; Close 1 6; PopEnd; Clear]
  /\ run start l = Some s /\ quiet s /\ at_rest s /\ ends s = [] /\ In (Disc, mk_ev 1 6) (asked s) /\ out s = [(Conn, mk_ev 0 5); (Conn, mk_ev 1 6); (Disc, mk_ev 0 5)].
Proof.
  eexists. eexists. split; [reflexivity|]. split; [vm_compute; reflexivity|]. split; [intros d; cbn; unfold upd; destruct d as [|[|d]]; reflexivity|]. split; [cbn; repeat split|]. cbn. auto 10.
Qed.
Print Assumptions C98_lost_refuted.

(** A connection is told to be closed before it is told to be opened. *)
Theorem C98_order_refuted : exists l s, l = [Open 0 5; CheckRun 0; AddList 0; CheckState 0; SetNeed 0; SetPoll 0; Close 0 5; CheckRun 0; AddList 0; CheckState 0; SetNeed 0; SetPoll 0; Run; Take; PopStart; PopStart; Count;
    Open 1 6; CheckRun 1; AddList 1; CheckState 1; SetNeed 1; SetPoll 1; Close 1 6; CheckRun 1; AddList 1; CheckState 1; SetNeed 1; SetPoll 1; Fire; PopEnd; PopEnd; PopEnd; Clear; Run; Take; PopStart]
  /\ run start l = Some s /\ polite start l /\ out s = [(Conn, mk_ev 0 5); (Disc, mk_ev 0 5); (Disc, mk_ev 1 6); (Conn, mk_ev 1 6)].
Proof.
  eexists. eexists. split; [reflexivity|]. split; [vm_compute; reflexivity|]. split; [apply polite_check; vm_compute; reflexivity|reflexivity].
Qed.
Print Assumptions C98_order_refuted.

(** When the process is ended, waiting start events are neither told nor freed. *)
Theorem C98_exit_refuted : exists l s, l = [Open 0 5; CheckRun 0; AddList 0; CheckState 0; SetNeed 0; SetPoll 0; Exit; PopEnd; Clear; Run; Take]
  /\ run start l = Some s /\ quiet s /\ at_rest s /\ starts s = [mk_ev 0 5] /\ out s = [].
Proof. eexists. eexists. split; [reflexivity|]. split; [vm_compute; reflexivity|]. split; [intros [|d]; reflexivity|]. cbn. repeat split. Qed.
Print Assumptions C98_exit_refuted.

(** * C99 *)

(** A list of callbacks made by registering and removing them is in the order of registration. *)
Theorem C99_order : forall l, sane (fold_left act1 l ([], 0)).
Proof. intros l. apply sane_acts. split; [exact Coq.Init.Logic.I|intros c []]. Qed.
Print Assumptions C99_order.

(** An event is told to callbacks that register and remove others: nobody is called twice, in the order of registration; whoever is registered in the end was called; and
    nobody else than those registered before or meanwhile. *)
Theorem C99_told : forall acts n s l s2, sane s -> stays acts -> call_all n acts s = Some (l, s2) ->
  sane s2 /\ sorted (map c_id l) /\ (forall c, In c (fst s2) -> In c l) /\ (forall c, In c l -> In c (fst s) \/ snd s <= c_id c).
Proof.
  intros acts n s l s2 SA ST H. unfold call_all in H.
  assert (CU : match hd_error (fst s) with Some c => In c (fst s) | None => True end) by (destruct (fst s); cbn; auto).
  destruct (dispatch_spec acts n _ s l s2 SA ST CU H) as (A & B & N & C). split; [exact A|]. split; [exact B|].
  destruct (fst s) as [|c r] eqn:F; cbn [hd_error] in C.
  - destruct C as (-> & ->). rewrite F. split; [intros c []|intros c []].
  - destruct C as (C1 & C2 & C3 & C4 & C5). split.
    + intros x X. destruct (Nat.le_gt_cases (c_id c) (c_id x)) as [G|G]; [now apply C3|]. exfalso. pose proof (C4 x X G) as Y. destruct Y as [<-|Y]; [lia|].
      destruct SA as (SO & _). rewrite F in SO. cbn [map sorted] in SO. destruct SO as (SO & _). apply (in_map c_id) in Y. apply SO in Y. lia.
    + intros x X. destruct (Nat.le_gt_cases (snd s) (c_id x)) as [G|G]; [now right|]. left. now apply C5.
Qed.
Print Assumptions C99_told.

(** If the callbacks register no others, all of them are told within as many calls as there are callbacks, and no freed one is touched. *)
Theorem C99_ends : forall acts s, sane s -> stays acts -> (forall c v f d, ~ In (Add v f d) (acts c)) -> exists l s2, call_all (List.length (fst s)) acts s = Some (l, s2).
Proof.
  intros acts s SA ST NA. apply dispatch_ends; [|exact ST|exact SA|].
  - intros c. apply forallb_forall. intros a A. destruct a; try reflexivity. exfalso. exact (NA c ver f d A).
  - destruct (fst s) as [|c r]; cbn [hd_error]; [exact Coq.Init.Logic.I|]. split; [now left|]. clear. induction (c :: r) as [|x l IH]; [apply Nat.le_refl|]. cbn [filter]. destruct (c_id c <=? c_id x); cbn [List.length]; lia.
Qed.
Print Assumptions C99_ends.

(** Removing takes away the first callback with that function of that version - and that user data, unless that is to be ignored or it is of version 0 - and no other. *)
Theorem C99_removes : forall v f d i l n, exists l', act1 (l, n) (Remove v f d i) = (l', n) /\
  let same := fun c => c_ver c = v /\ c_fun c = f /\ (v = true -> i = false -> c_data c = d) in
  ((forall c, In c l -> ~ same c) /\ l' = l) \/ exists a c b, l = a ++ c :: b /\ same c /\ (forall x, In x a -> ~ same x) /\ l' = a ++ b.
Proof.
  intros v f d i l n. eexists. split; [reflexivity|]. cbv zeta. cbn [fst].
  assert (M : forall c, matches v f d i c = true <-> c_ver c = v /\ c_fun c = f /\ (v = true -> i = false -> c_data c = d)).
  { intros c. unfold matches. rewrite !andb_true_iff, !orb_true_iff, Bool.eqb_true_iff, !Nat.eqb_eq, negb_true_iff. split.
    - intros ((A & B) & C). repeat split; auto. intros V I. destruct C as [[C|C]|C]; congruence.
    - intros (A & B & C). repeat split; auto. destruct v; auto. destruct i; auto. right. symmetry. auto. }
  assert (NM : forall a, forallb (fun c => negb (matches v f d i c)) a = true -> forall x, In x a -> ~ (c_ver x = v /\ c_fun x = f /\ (v = true -> i = false -> c_data x = d))).
  { intros a A x X Y. rewrite forallb_forall in A. specialize (A x X). apply M in Y. rewrite Y in A. discriminate A. }
  destruct (remove_first_split (matches v f d i) l) as [(A & B)|(a & c & b & A & B & C & D)]; [left; split; [now apply NM|exact B]|right]. exists a, c, b. split; [exact A|]. split; [now apply M|]. split; [now apply NM|exact D].
Qed.
Print Assumptions C99_removes.

(** Three callbacks: the first removes the second and registers a fourth. *)
Lemma in_remove p l c : In c l -> p c = false -> In c (remove_first p l).
Proof. intros C P. destruct (remove_first_split p l) as [(_ & ->)|(a & x & b & E & X & _ & ->)]; [exact C|]. rewrite E in C. apply in_app_iff in C. apply in_app_iff. destruct C as [C|[C|C]]; [now left|congruence|now right]. Qed.
Definition some_acts (c : cb) : list act := if c_fun c =? 1 then [Remove true 2 7 false; Add false 9 0] else [].
Example C99_example : let s := ([mk_cb 0 true 1 7; mk_cb 1 true 2 8; mk_cb 2 true 2 7], 3) in sane s /\ stays some_acts
  /\ call_all 9 some_acts s = Some ([mk_cb 0 true 1 7; mk_cb 1 true 2 8; mk_cb 3 false 9 0], ([mk_cb 0 true 1 7; mk_cb 1 true 2 8; mk_cb 3 false 9 0], 4)).
Proof.
  cbv zeta. split.
  - split; cbn; [repeat split; intros y Y; repeat (destruct Y as [<-|Y]; [lia|]); contradiction|]. intros c C. repeat (destruct C as [<-|C]; [cbn; lia|]). contradiction.
  - split; [|reflexivity]. intros c (l, n) _ C. unfold some_acts. destruct (c_fun c =? 1) eqn:F; [|exact C]. apply Nat.eqb_eq in F. cbn. apply in_app_iff. left. apply in_remove; [exact C|]. unfold matches. rewrite F. cbn. now rewrite andb_false_r.
Qed.

(** A callback that removes itself is read after it was freed. *)
Theorem C99_self_refuted : exists acts s, s = ([mk_cb 0 true 1 7], 1) /\ acts = (fun _ => [Remove true 1 7 false]) /\ sane s /\ forall n, call_all n acts s = None.
Proof.
  eexists. eexists. split; [reflexivity|]. split; [reflexivity|]. split; [split; cbn; [split; [intros y []|exact Coq.Init.Logic.I]|intros c [<-|[]]; cbn; lia]|]. intros [|n]; reflexivity.
Qed.
Print Assumptions C99_self_refuted.
