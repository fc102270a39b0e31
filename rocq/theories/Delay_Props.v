(** C25: delayed callbacks (api/oc_event_callback.c). *)
From Verif Require Import Common Delay_Model Delay_Spec Delay_Proofs.
Local Open Scope N_scope.

(** For all handlers that remove themselves by the plain call only, and every history, the code behaves
    exactly as specified: the same handlers are run in the same order at the same times, each fired
    registration once per timer event unless removed before its turn; it is due again one interval after it
    returned "continue" and unregistered after "done" or after a removal. *)
Theorem C25_behaves_as_specified :
  forall beh now os, plain beh ->
  exists s, run beh (init now) os = Some s /\ s_log s = p_log (sp_run beh (sp_init now) os) /\ s_evs s = p_evs (sp_run beh (sp_init now) os).
Proof.
  intros beh now os Hp. destruct (run_sim beh os Hp (init now) (sp_init now)) as (s & E & R).
  - constructor; reflexivity.
  - apply inv_init.
  - reflexivity.
  - reflexivity.
  - reflexivity.
  - exists s. split; [exact E|]. split; apply R.
Qed.
Print Assumptions C25_behaves_as_specified.

(** Whatever handlers do, no execution gets stuck in the rescanning loop and no handler runs before its time. *)
Theorem C25_ends_and_never_early :
  forall beh now os, exists s, run beh (init now) os = Some s /\
  forall e t, In (LCall e t) (s_log s) -> e_start e + e_int e <= t.
Proof.
  intros beh now os. destruct (run_ext beh os (init now)) as (s & E & X). exists s. split; [exact E|].
  destruct (x_log _ _ X) as (new & El & Ok & _). cbn [init s_log] in El. rewrite app_nil_r in El. rewrite El. apply Ok, inv_init.
Qed.
Print Assumptions C25_ends_and_never_early.

(** Whatever handlers do, a registration that is no longer in the list is never called again. *)
Theorem C25_removed_never_called :
  forall beh now os s i os' s', run beh (init now) os = Some s -> i < s_next s -> ~ In i (map e_id (s_evs s)) ->
  run beh s os' = Some s' ->
  exists new, s_log s' = new ++ s_log s /\ forall e t, In (LCall e t) new -> e_id e <> i.
Proof.
  intros beh now os s i os' s' _ Hi Hn E. destruct (run_ext beh os' s) as (s2 & E2 & X). rewrite E in E2. injection E2 as <-.
  destruct (x_log _ _ X) as (new & El & _ & Q). exists new. split; [exact El|]. exact (Q i Hi Hn).
Qed.
Print Assumptions C25_removed_never_called.

(** oc_ri_remove_timed_event_callback takes out the first registration of the handler with this data and
    leaves all others; if that one is being processed it is marked instead and goes when its handler returns. *)
Theorem C25_remove_exactly_first :
  forall s cb data s', s' = act s (ARemove cb (fun x => x =? data) false 0) ->
  (forallb (fun e => negb ((e_cb e =? cb) && (e_data e =? data))) (s_evs s) = true /\ s_evs s' = s_evs s /\ s_del s' = s_del s) \/
  (exists l1 e l2, s_evs s = l1 ++ e :: l2 /\ forallb (fun e => negb ((e_cb e =? cb) && (e_data e =? data))) l1 = true /\ e_cb e = cb /\ e_data e = data /\
     ((s_cur s <> Some (e_id e) /\ s_evs s' = l1 ++ l2 /\ s_del s' = s_del s) \/ (s_cur s = Some (e_id e) /\ s_evs s' = s_evs s /\ s_del s' = true))).
Proof.
  intros s cb data s' ->. cbn [act]. unfold remove_by_filter.
  assert (G : forall l, let '(l', ds, w) := rm l (s_cur s) cb (fun x => x =? data) false false in
    (forallb (fun e => negb ((e_cb e =? cb) && (e_data e =? data))) l = true /\ l' = l /\ w = false) \/
    (exists l1 e l2, l = l1 ++ e :: l2 /\ forallb (fun e => negb ((e_cb e =? cb) && (e_data e =? data))) l1 = true /\ e_cb e = cb /\ e_data e = data /\
       ((s_cur s <> Some (e_id e) /\ l' = l1 ++ l2 /\ w = false) \/ (s_cur s = Some (e_id e) /\ l' = l /\ w = true)))).
  { induction l as [|e r IH]; cbn [rm]; [left; auto|].
    destruct (negb (e_cb e =? cb) || negb (e_data e =? data)) eqn:Em.
    - destruct (rm r (s_cur s) cb (fun x => x =? data) false false) as [[l' ds] w].
      assert (Hne : negb ((e_cb e =? cb) && (e_data e =? data)) = true) by (destruct (e_cb e =? cb); destruct (e_data e =? data); cbn in *; congruence).
      destruct IH as [(H1 & H2 & H3)|(l1 & x & l2 & H1 & H2 & H3 & H4 & H5)].
      + left. cbn [forallb]. rewrite Hne, H1, H2. auto.
      + right. exists (e :: l1), x, l2. rewrite H1. split; [reflexivity|]. cbn [forallb]. rewrite Hne, H2. repeat (split; [auto|]).
        destruct H5 as [(K1 & K2 & K3)|(K1 & K2 & K3)]; [left|right]; rewrite K2; [auto|rewrite H1; auto].
    - apply orb_false_iff in Em. destruct Em as [E1 E2]. apply negb_false_iff in E1. apply negb_false_iff in E2.
      destruct (is_cur (s_cur s) e) eqn:Ec; right; exists [], e, r; (split; [reflexivity|]); (split; [reflexivity|]); (split; [lia|]); (split; [lia|]).
      + right. unfold is_cur in Ec. destruct (s_cur s) as [i|]; [|discriminate]. split; [f_equal; lia|auto].
      + left. split; [|auto]. intros K. unfold is_cur in Ec. rewrite K, N.eqb_refl in Ec. discriminate. }
  specialize (G (s_evs s)). destruct (rm (s_evs s) (s_cur s) cb (fun x => x =? data) false false) as [[l' ds] w]. cbn [s_evs s_del].
  destruct G as [(H1 & H2 & H3)|(l1 & x & l2 & H1 & H2 & H3 & H4 & H5)].
  - left. rewrite H3. auto.
  - right. exists l1, x, l2. repeat (split; [assumption|]). destruct H5 as [(K1 & K2 & K3)|(K1 & K2 & K3)]; [left|right]; rewrite K3; auto.
Qed.
Print Assumptions C25_remove_exactly_first.

(** Two registrations of handler 7 with data 1 and 2, due at 10; the first one's handler removes "all of
    handler 7": itself and the second are asked for, but the flag is cleared by the second match, and the
    handler is called again later. *)
Definition beh_all : behaviour := fun lg e => ([ARemove 7 (fun _ => true) true 0], false).
Theorem C25_remove_all_from_handler_refuted :
  exists os s, run beh_all (init 0) os = Some s /\
    os = [OAct (AAdd 7 1 10 true); OAct (AAdd 7 2 10 true); OAct (ATick 10); OFire (fun _ => true); OCheck;
          OAct (ATick 10); OFire (fun _ => true); OCheck] /\
    map (fun it => match it with LCall e t => (e_id e, t) | _ => (0, 0) end) (rev (s_log s)) = [(1, 10); (1, 20)].
Proof. eexists. eexists. split; [|split; [reflexivity|]]; vm_compute; reflexivity. Qed.
Print Assumptions C25_remove_all_from_handler_refuted.

(** The first handler removes itself with an on_delete function; the second, unrelated, returns "done": the
    same on_delete function is called with the second one's data. *)
Definition beh_od : behaviour := fun lg e => if e_id e =? 1 then ([ARemove 7 (fun x => x =? 100) false 55], false) else ([], true).
Theorem C25_on_delete_of_other_refuted :
  exists os s, run beh_od (init 0) os = Some s /\
    os = [OAct (AAdd 7 100 10 true); OAct (AAdd 8 200 10 true); OAct (ATick 10); OFire (fun _ => true); OCheck] /\
    In (LDelete 55 200) (s_log s).
Proof. eexists. eexists. split; [|split; [reflexivity|]]; vm_compute; [reflexivity|left; reflexivity]. Qed.
Print Assumptions C25_on_delete_of_other_refuted.

(** Three registrations; the first removes the second, adds a new one and continues; the third removes itself. *)
Definition beh_case : behaviour := fun lg e =>
  if e_id e =? 1 then ([ARemove 8 (fun x => x =? 2) false 0; AAdd 9 4 5 true; ATick 1], false)
  else if e_id e =? 3 then ([ARemove 7 (fun x => x =? 3) false 0; AHas 7 3 false], false) else ([], true).
Example C25_case :
  option_map (fun s => (map (fun it => match it with LCall e t => (e_id e, t) | LHas b => (100, if b then 1 else 0) | _ => (0, 0) end) (rev (s_log s)), map (fun e => (e_id e, e_start e, e_int e)) (s_evs s)))
    (run beh_case (init 0) [OAct (AAdd 7 1 10 true); OAct (AAdd 8 2 10 true); OAct (AAdd 7 3 8 true); OAct (ATick 10); OFire (fun _ => true); OCheck;
                            OAct (ATick 20); OFire (fun i => i =? 4); OCheck; OCheck])
  = Some ([(1, 10); (3, 11); (100, 1); (4, 31)], [(1, 11, 10)]).
Proof. vm_compute. reflexivity. Qed.
Example C25_case_plain : plain beh_case.
Proof.
  intros lg e. unfold beh_case. destruct (e_id e =? 1); [|destruct (e_id e =? 3); [|reflexivity]]; cbn [fst forallb plain_self negb andb]; rewrite orb_true_r; reflexivity.
Qed.
