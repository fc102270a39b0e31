(** Proofs about the roles of sessions: histories. *)
From Verif Require Import Common Rep_Model Ob_Model Cred_Model Cred_Spec Cred_Proofs Rol_Model Rol_Spec Rol_Proofs.
From Verif Require Acl_Model.
From Coq Require Import String Lia.
Local Open Scope string_scope.
Local Open Scope list_scope.
Local Open Scope N_scope.

Record inv (t : st) : Prop := mk_inv {
  in_open : NoDup (map fst (t_open t));
  in_clients : NoDup (map r_client (t_clients t));
  in_rec : forall r, In r (t_clients t) -> exists x, In (r_client r, x) (t_open t) /\ ss_dev x = r_device r;
  in_ids : forall p, rids (roles_of t p) }.

Lemma session_some t p dev : session t p = Some dev -> is_open t p dev.
Proof.
  unfold session, is_open. destruct (find _ (t_open t)) as [[q d]|] eqn:F; [|discriminate]. cbn [option_map snd]. intros H. assert (d = dev) by congruence. subst d.
  apply find_some in F. destruct F as [F E]. apply Nat.eqb_eq in E. cbn [fst] in E. subst q. exact F.
Qed.
Lemma session_none t p dev : session t p = None -> ~ is_open t p dev.
Proof. unfold session, is_open. destruct (find _ (t_open t)) as [[q d]|] eqn:F; [discriminate|]. intros _ I. pose proof (find_none _ _ F _ I) as H. cbn [fst] in H. rewrite Nat.eqb_refl in H. discriminate H. Qed.
Lemma open_fun (l : list (nat * ses)) p a b : NoDup (map fst l) -> In (p, a) l -> In (p, b) l -> a = b.
Proof.
  induction l as [|x t IH]; intros D A B; [destruct A|]. inversion D as [|? ? D1 D2]; subst. destruct A as [A|A], B as [B|B]; [congruence| | |apply IH; assumption].
  - exfalso. apply D1. subst x. cbn [fst]. change p with (fst (p, b)). apply in_map. exact B.
  - exfalso. apply D1. subst x. cbn [fst]. change p with (fst (p, a)). apply in_map. exact A.
Qed.
Lemma session_open t p dev : inv t -> is_open t p dev -> session t p = Some dev.
Proof. intros V O. destruct (session t p) as [d|] eqn:S; [|exfalso; exact (session_none _ _ _ S O)]. apply session_some in S. f_equal. apply (open_fun _ _ _ _ (in_open _ V) S O). Qed.

Lemma close_in p l x : In x (close p l) -> In x l.
Proof. induction l as [|y t IH]; cbn [close]; intros I; [destruct I|]. destruct (Nat.eqb (fst y) p); [right; exact I|]. destruct I as [<-|I]; [left; reflexivity|right; auto]. Qed.
Lemma close_other p l x : In x l -> fst x <> p -> In x (close p l).
Proof. induction l as [|y t IH]; cbn [close]; intros I H; [destruct I|]. destruct (Nat.eqb_spec (fst y) p) as [E|E]; destruct I as [<-|I]; [congruence|exact I|left; reflexivity|right; auto]. Qed.
Lemma close_nodup p l : NoDup (map fst l) -> NoDup (map fst (close p l)) /\ ~ In p (map fst (close p l)).
Proof.
  induction l as [|y t IH]; cbn [close]; intros D; [split; [constructor|intros []]|]. inversion D as [|? ? D1 D2]; subst.
  destruct (Nat.eqb_spec (fst y) p) as [E|E].
  - split; [exact D2|rewrite <- E; exact D1].
  - destruct (IH D2) as [A B]. cbn [map]. split.
    + constructor; [|exact A]. intros I. apply in_map_iff in I. destruct I as [z [F I]]. apply D1. rewrite <- F. apply in_map. apply (close_in _ _ _ I).
    + intros [F|I]; [exact (E F)|exact (B I)].
Qed.

Lemma closed_none t p : inv t -> (forall dev, ~ is_open t p dev) -> roles_of t p = [].
Proof.
  intros V H. unfold roles_of, roles_get. destruct (get_for p (t_clients t)) as [r|] eqn:G; [|reflexivity]. apply get_some in G. destruct G as [I E].
  destruct (in_rec _ V r I) as [x [X _]].
  exfalso. apply (H x). unfold is_open. rewrite <- E. exact X.
Qed.

Lemma rids_nil : rids [].
Proof. split; [constructor|intros []]. Qed.
Lemma rids_remove i l : rids l -> rids (remove_id i l).
Proof. intros [A B]. rewrite (remove_without _ _ A). split; [apply nodup_filter; exact A|]. intros I. apply B. apply (ids_without _ _ _ I). Qed.
Lemma walk_in v l c : In c (walk v l) -> In c l.
Proof. induction l as [|x t IH]; cbn [walk]; intros I; [destruct I|]. destruct (negb (v x)); [right; auto|]. destruct (list_eqb _ _); [exact I|]. destruct I as [<-|I]; [left; reflexivity|right; auto]. Qed.
Lemma rids_walk v l : rids l -> rids (walk v l).
Proof.
  intros [A B]. split; [|intros I; unfold ids in *; apply in_map_iff in I; destruct I as [c [E I]]; apply B; rewrite <- E; apply in_map; apply (walk_in _ _ _ I)].
  clear B. induction l as [|x t IH]; cbn [walk]; [constructor|]. unfold ids in *. cbn [map] in A. inversion A as [|? ? A1 A2]; subst.
  destruct (negb (v x)); [auto|]. destruct (list_eqb _ _); [exact A|]. cbn [map]. constructor; [|auto].
  intros I. apply A1. apply in_map_iff in I. destruct I as [c [E I]]. rewrite <- E. apply in_map. apply (walk_in _ _ _ I).
Qed.

Lemma inv_set t p x l f : inv t -> is_open t p x -> rids l -> inv (mk_st (set_roles p (ss_dev x) l (t_clients t)) (t_open t) f).
Proof.
  intros V O R. constructor; cbn [t_open t_clients].
  - exact (in_open _ V).
  - apply set_nodup. exact (in_clients _ V).
  - intros r I. destruct (set_clients _ _ _ _ _ I) as [[A B]|[r' [A [B C]]]]; [exists x; rewrite A, B; split; [exact O|reflexivity]|]. rewrite <- B, <- C. apply (in_rec _ V). exact A.
  - intros q. unfold roles_of. cbn [t_clients]. rewrite get_set. destruct (Nat.eqb p q); [exact R|]. exact (in_ids _ V q).
Qed.

Lemma get_for_roles t q : roles_of t q = match get_for q (t_clients t) with Some r => r_creds r | None => [] end.
Proof. reflexivity. Qed.

Lemma inv_less t l o f : inv t -> NoDup (map r_client l) -> NoDup (map fst o) -> (forall r, In r l -> In r (t_clients t) /\ exists x, In (r_client r, x) o /\ ss_dev x = r_device r) -> inv (mk_st l o f).
Proof.
  intros V D O H. constructor; cbn [t_open t_clients]; [exact O|exact D|intros r I; apply H; exact I|].
  intros p. rewrite get_for_roles. cbn [t_clients]. destruct (get_for p l) as [r|] eqn:G; [|apply rids_nil]. apply get_some in G. destruct G as [I E].
  pose proof (in_ids _ V p) as R. rewrite get_for_roles in R. rewrite (get_in p _ r (in_clients _ V) (proj1 (H r I)) E) in R. exact R.
Qed.

(** What one request of a session does to its roles. *)
Lemma post_some t p x dev E cn l t' ok : post (Some (p, x)) dev E cn l t = Some (t', ok) ->
  exists s', grows (env_of (Some x) cn E) (fun x => in_request x l) (with_roles (t_dev t dev) (roles_of t p)) s' /\
    t' = mk_st (set_roles p dev (s_roles s') (t_clients t)) (t_open t) (set_dev dev (with_roles s' []) (t_dev t)).
Proof.
  unfold post. cbn [option_map snd]. destruct (overruns (Some x) cn E l); [discriminate|]. pose proof (apply_grows (env_of (Some x) cn E) l (with_roles (t_dev t dev) (roles_get p (t_clients t)))) as A.
  destruct (apply_cred _ true l _) as [s'|s'| |]; intros H; try discriminate H; (exists s'; split; [exact A|congruence]).
Qed.
Lemma post_none t dev E cn l t' ok : post None dev E cn l t = Some (t', ok) -> t_clients t' = t_clients t /\ t_open t' = t_open t.
Proof. unfold post. destruct (overruns _ cn E l); [discriminate|]. destruct (apply_cred _ true l _) as [s'|s'| |]; intros H; try discriminate H; (assert (Ht : t' = mk_st (t_clients t) (t_open t) (set_dev dev (with_roles s' []) (t_dev t))) by congruence; subst t'; split; reflexivity). Qed.

Lemma inv_same t t' : inv t -> t_clients t' = t_clients t -> t_open t' = t_open t -> inv t'.
Proof. intros [A B C D] E F. constructor; [rewrite F; exact A|rewrite E; exact B|rewrite E, F; exact C|]. intros p. unfold roles_of. rewrite E. apply D. Qed.

Lemma in_snoc_nodup (l : list (nat * ses)) p dev : NoDup (map fst l) -> (forall d, ~ In (p, d) l) -> NoDup (map fst (l ++ [(p, dev)])).
Proof.
  intros D H. rewrite map_app. cbn [map fst].
  assert (N : ~ In p (map fst l)). { intros I. apply in_map_iff in I. destruct I as [[q d] [E I]]. cbn [fst] in E. subst q. exact (H d I). }
  clear H. induction l as [|x t IH]; cbn [map app]; [constructor; [intros []|constructor]|].
  cbn [map] in D, N. inversion D as [|? ? D1 D2]; subst. constructor.
  - intros I. apply in_app_iff in I. destruct I as [I|[I|[]]]; [exact (D1 I)|]. apply N. left. congruence.
  - apply IH; [exact D2|]. intros I. apply N. right. exact I.
Qed.

Ltac done_step H := injection H as <- <-.

Lemma step_inv t o t' a : inv t -> step t o = Some (t', a) -> inv t'.
Proof.
  intros V H. destruct o as [p dev|p|w E cn l|w|w q|p v|dev E o|dev]; cbn [step] in H.
  - destruct (session t p) as [d|] eqn:S; [done_step H; exact V|]. done_step H. constructor; cbn [t_open t_clients].
    + apply in_snoc_nodup; [exact (in_open _ V)|]. intros d. exact (session_none _ _ _ S).
    + exact (in_clients _ V).
    + intros r I. destruct (in_rec _ V r I) as [x [X Y]]. exists x. split; [apply in_app_iff; left; exact X|exact Y].
    + exact (in_ids _ V).
  - done_step H. destruct (free_nodup p _ (in_clients _ V)) as [A B]. apply (inv_less t); [exact V|exact A|apply close_nodup; exact (in_open _ V)|].
    intros r I. split; [apply (free_in p); exact I|]. destruct (in_rec _ V r (free_in p _ _ I)) as [x [X Y]]. exists x. split; [|exact Y]. apply close_other; [exact X|]. cbn [fst]. intros F. apply B. apply in_map_iff. exists r. split; [exact F|exact I].
  - destruct w as [p|dev]; cbn [device_of client_of] in H.
    + destruct (session t p) as [x|] eqn:S; cbn [option_map] in H; [|done_step H; exact V]. destruct (post (Some (p, x)) (ss_dev x) E cn l t) as [[t1 ok]|] eqn:P; [|discriminate H]. done_step H.
      apply post_some in P. destruct P as [s' [[_ [new [_ [G _]]]] ->]]. apply inv_set; [exact V|apply session_some; exact S|]. apply G. exact (in_ids _ V p).
    + destruct (post None dev E cn l t) as [[t1 ok]|] eqn:P; [|discriminate H]. done_step H. apply post_none in P. destruct P as [P1 P2]. apply (inv_same t); assumption.
  - destruct (device_of t w); done_step H; exact V.
  - destruct w as [p|dev]; cbn [device_of client_of] in H.
    + destruct (session t p) as [dev|] eqn:S; cbn [option_map] in H; [|done_step H; exact V]. destruct q as [i|].
      * destruct (delete_role (Some i) _) as [b s1] eqn:Hd. cbn [fst snd] in H. cbv zeta in H. done_step H. destruct b; [|exact V].
        apply inv_set; [exact V|apply session_some; exact S|]. unfold delete_role in Hd. destruct (_ || _)%bool in Hd; [discriminate Hd|].
        cbn [with_roles s_roles] in Hd. destruct (by_id i _) in Hd; [|discriminate Hd]. injection Hd as <-. cbn [s_roles]. apply rids_remove. exact (in_ids _ V p).
      * done_step H. destruct (free_nodup p _ (in_clients _ V)) as [A B]. apply (inv_less t); [exact V|exact A|exact (in_open _ V)|].
        intros r I. split; [apply (free_in p); exact I|]. apply (in_rec _ V). apply (free_in p). exact I.
    + done_step H. exact V.
  - destruct (session t p) as [dev|] eqn:S; [|done_step H; exact V]. done_step H. apply inv_set; [exact V|apply session_some; exact S|]. apply rids_walk. exact (in_ids _ V p).
  - destruct o; try (done_step H; exact V); (destruct (cstep E _ _) as [s|]; [|discriminate H]); done_step H; (apply (inv_same t); [exact V|reflexivity|reflexivity]).
  - done_step H. destruct (device_gone dev _ (in_clients _ V)) as [A [B _]]. apply (inv_less t); [exact V|exact A|exact (in_open _ V)|].
    intros r I. split; [apply B; exact I|]. apply (in_rec _ V). apply B. exact I.
Qed.

Lemma run_app t a b : run t (a ++ b) = match run t a with Some t' => run t' b | None => None end.
Proof. revert t. induction a as [|o k IH]; intros t; [reflexivity|]. cbn [app run]. destruct (step t o) as [[t' x]|]; [apply IH|reflexivity]. Qed.
Lemma run_inv ops : forall t t', inv t -> run t ops = Some t' -> inv t'.
Proof. induction ops as [|o k IH]; intros t t' V H; cbn [run] in H; [congruence|]. destruct (step t o) as [[t1 x]|] eqn:S; [|discriminate H]. apply (IH t1); [apply (step_inv _ _ _ _ V S)|exact H]. Qed.
Lemma start_inv f : inv (start f).
Proof. constructor; cbn [start t_open t_clients map]; [constructor|constructor|intros r []|]. intros p. apply rids_nil. Qed.
Lemma reach_inv f ops t : reachable f ops t -> inv t.
Proof. apply run_inv. apply start_inv. Qed.

(** What one step does to the roles of a session. *)
Lemma step_roles t o t' a p : inv t -> step t o = Some (t', a) ->
  (roles_of t' p = roles_of t p \/ (exists dev, is_open t p dev /\ concerns p dev o)) /\
  (forall c, In c (roles_of t' p) ->
     (In c (roles_of t p) /\ forall dev, is_open t p dev -> ~ ends p dev o) \/
     exists E cn l dev x, o = Post (Session p) E cn l /\ is_open t p dev /\ in_request x l /\ vouched dev E cn (anchors (s_creds (t_dev t (ss_dev dev)))) x c).
Proof.
  intros V H.
  assert (Same : t_clients t' = t_clients t -> (forall dev, ~ ends p dev o) -> (roles_of t' p = roles_of t p \/ (exists dev, is_open t p dev /\ concerns p dev o)) /\
    (forall c, In c (roles_of t' p) -> (In c (roles_of t p) /\ forall dev, is_open t p dev -> ~ ends p dev o) \/
     exists E cn l dev x, o = Post (Session p) E cn l /\ is_open t p dev /\ in_request x l /\ vouched dev E cn (anchors (s_creds (t_dev t (ss_dev dev)))) x c)).
  { intros F N. unfold roles_of. rewrite F. split; [left; reflexivity|]. intros c I. left. split; [exact I|]. intros dev _. apply N. }
  destruct o as [q dev|q|w E cn l|w|w n|q v|dev E o|dev]; cbn [step] in H.
  - apply Same; [|intros d []]. destruct (session t q); done_step H; reflexivity.
  - done_step H. clear Same. rewrite !get_for_roles. cbn [t_clients]. destruct (Nat.eq_dec p q) as [->|N].
    + rewrite (free_self _ _ (in_clients _ V)). split; [|intros c []]. destruct (get_for q (t_clients t)) as [r|] eqn:G; [|left; reflexivity].
      apply get_some in G. destruct G as [I F]. destruct (in_rec _ V r I) as [x [X _]]. right. exists x. split; [unfold is_open; rewrite <- F; exact X|reflexivity].
    + rewrite free_other by exact N. split; [left; reflexivity|]. intros c I. left. split; [exact I|]. intros d _ F. cbn [ends] in F. congruence.
  - destruct w as [q|dev]; cbn [device_of client_of] in H.
    + destruct (session t q) as [dev|] eqn:S; cbn [option_map] in H; [|apply Same; [done_step H; reflexivity|intros d []]].
      destruct (post (Some (q, dev)) (ss_dev dev) E cn l t) as [[t1 ok]|] eqn:P; [|discriminate H]. done_step H. clear Same.
      apply post_some in P. destruct P as [s' [[G1 [new [G2 [_ G3]]]] ->]]. unfold roles_of. cbn [t_clients]. rewrite get_set.
      cbn [with_roles s_roles s_creds] in G2, G3. destruct (Nat.eqb_spec q p) as [->|N].
      * split; [right; exists dev; split; [apply session_some; exact S|reflexivity]|]. intros c I. rewrite G2 in I. apply in_app_iff in I. destruct I as [I|I].
        -- left. split; [exact I|intros d _ []].
        -- right. destruct (G3 c I) as [x [X Y]]. exists E, cn, l, dev, x. split; [reflexivity|]. split; [apply session_some; exact S|]. split; [exact X|apply vouchedE_of; exact Y].
      * split; [left; reflexivity|]. intros c I. left. split; [exact I|intros d _ []].
    + destruct (post None dev E cn l t) as [[t1 ok]|] eqn:P; [|discriminate H]. done_step H. apply Same; [apply (proj1 (post_none _ _ _ _ _ _ _ P))|intros d []].
  - apply Same; [|intros d []]. destruct (device_of t w); done_step H; reflexivity.
  - destruct w as [q|dev]; cbn [device_of client_of] in H.
    + destruct (session t q) as [dev|] eqn:S; cbn [option_map] in H.
      2: { done_step H. rewrite !get_for_roles. split; [left; reflexivity|]. intros c I. left. split; [exact I|]. intros d O F. destruct n as [i|]; [exact F|]. cbn [ends] in F. subst q. exact (session_none _ _ _ S O). }
      destruct n as [i|].
      * clear Same. destruct (delete_role (Some i) _) as [b s1] eqn:Hd. cbn [fst snd] in H. cbv zeta in H. done_step H.
        destruct b; [|split; [left; reflexivity|intros c I; left; split; [exact I|intros d _ []]]].
        unfold roles_of at 1 3. cbn [with_clients t_clients]. rewrite get_set. destruct (Nat.eqb_spec q p) as [->|N].
        2: { split; [left; reflexivity|]. intros c I. left. split; [exact I|intros d _ []]. }
        split; [right; exists dev; split; [apply session_some; exact S|reflexivity]|]. intros c I. left. split; [|intros d _ []].
        unfold delete_role in Hd. destruct (_ || _)%bool in Hd; [discriminate Hd|]. cbn [with_roles s_roles] in Hd. destruct (by_id i _) in Hd; [|discriminate Hd].
        injection Hd as <-. cbn [s_roles] in I. fold (roles_of t p) in I. rewrite remove_without in I by apply (in_ids _ V p). apply without_in in I. apply I.
      * clear Same. done_step H. rewrite !get_for_roles. cbn [with_clients t_clients]. destruct (Nat.eq_dec p q) as [->|N].
        -- rewrite (free_self _ _ (in_clients _ V)). split; [|intros c []]. right. exists dev. split; [apply session_some; exact S|reflexivity].
        -- rewrite free_other by exact N. split; [left; reflexivity|]. intros c I. left. split; [exact I|]. intros d _ F. cbn [ends] in F. congruence.
    + apply Same; [done_step H; reflexivity|]. intros d F. destruct n; exact F.
  - destruct (session t q) as [dev|] eqn:S; [|apply Same; [done_step H; reflexivity|intros d []]]. clear Same. done_step H.
    unfold roles_of. cbn [with_clients t_clients]. rewrite get_set. destruct (Nat.eqb_spec q p) as [->|N].
    + split; [right; exists dev; split; [apply session_some; exact S|reflexivity]|]. intros c I. left. split; [apply (walk_in _ _ _ I)|intros d _ []].
    + split; [left; reflexivity|]. intros c I. left. split; [exact I|intros d _ []].
  - apply Same; [|intros d []]. destruct o; try (done_step H; reflexivity); (destruct (cstep E _ _) as [s|]; [|discriminate H]); done_step H; reflexivity.
  - clear Same. done_step H. rewrite !get_for_roles. cbn [t_clients]. destruct (device_gone dev _ (in_clients _ V)) as [_ [_ [C D]]].
    destruct (get_for p (t_clients t)) as [r|] eqn:G.
    + rewrite (C _ _ G). apply get_some in G. destruct G as [I F]. destruct (in_rec _ V r I) as [y [O Y]]. rewrite F in O.
      destruct (Nat.eqb_spec (r_device r) dev) as [X|X].
      * split; [|intros c []]. right. exists y. split; [exact O|]. cbn [concerns]. congruence.
      * split; [left; reflexivity|]. intros c J. left. split; [exact J|]. intros d Od Fd. cbn [ends] in Fd. apply X. rewrite (open_fun _ _ _ _ (in_open _ V) O Od) in Y. congruence.
    + rewrite (D _ G). split; [left; reflexivity|intros c []].
Qed.

(** Sessions stay on their device. *)
Lemma step_open t o t' a p dev : step t o = Some (t', a) -> is_open t p dev -> o <> Close p -> is_open t' p dev.
Proof.
  intros H O N. unfold is_open in *. destruct o as [q d|q|w E cn l|w|w n|q v|d E o|d]; cbn [step] in H.
  - destruct (session t q); done_step H; [exact O|]. cbn [t_open]. apply in_app_iff. left. exact O.
  - done_step H. cbn [t_open]. apply close_other; [exact O|]. cbn [fst]. congruence.
  - destruct (device_of t w) as [d|]; [|done_step H; exact O]. destruct (post (client_of t w) d E cn l t) as [[t1 ok]|] eqn:P; [|discriminate H]. done_step H.
    destruct (client_of t w) as [[q y]|]; [destruct (post_some _ _ _ _ _ _ _ _ _ P) as [s' [_ ->]]; exact O|]. rewrite (proj2 (post_none _ _ _ _ _ _ _ P)). exact O.
  - destruct (device_of t w); done_step H; exact O.
  - destruct (device_of t w) as [d|]; [|done_step H; exact O]. destruct (client_of t w) as [[q y]|]; [|done_step H; exact O]. destruct n as [i|].
    + destruct (delete_role (Some i) _) as [b s1]. cbn [fst snd] in H. cbv zeta in H. done_step H. destruct b; exact O.
    + done_step H. exact O.
  - destruct (session t q) as [d|]; done_step H; exact O.
  - destruct o; try (done_step H; exact O); (destruct (cstep E _ _) as [s|]; [|discriminate H]); done_step H; exact O.
  - done_step H. exact O.
Qed.

Lemma origin f ops : forall t p c, reachable f ops t -> In c (roles_of t p) ->
  exists pre E cn l post t0 dev x, ops = pre ++ Post (Session p) E cn l :: post /\ reachable f pre t0 /\ is_open t0 p dev /\ is_open t p dev /\
    Forall (fun o => ~ ends p dev o) post /\ in_request x l /\ vouched dev E cn (anchors (s_creds (t_dev t0 (ss_dev dev)))) x c.
Proof.
  induction ops as [|o ops IH] using rev_ind; intros t p c R I.
  - unfold reachable in R. cbn [run] in R. assert (t = start f) by congruence. subst t. destruct I.
  - unfold reachable in R. rewrite run_app in R. destruct (run (start f) ops) as [t1|] eqn:R1; [|discriminate R]. cbn [run] in R.
    destruct (step t1 o) as [[t2 a]|] eqn:S; [|discriminate R]. assert (t2 = t) by congruence. subst t2. pose proof (reach_inv f ops t1 R1) as V.
    destruct (proj2 (step_roles _ _ _ _ p V S) c I) as [[J N]|[E [cn [l [dev [x [-> [O [X Y]]]]]]]]].
    + destruct (IH t1 p c R1 J) as [pre [E [cn [l [post [t0 [dev [x [-> [A [B [C [D X]]]]]]]]]]]]]. exists pre, E, cn, l, (post ++ [o]), t0, dev, x.
      split; [rewrite <- app_assoc; reflexivity|]. split; [exact A|]. split; [exact B|]. pose proof (N dev C) as No. split.
      { apply (step_open _ _ _ _ _ _ S C). intros ->. apply No. reflexivity. }
      split; [apply Forall_app; split; [exact D|constructor; [exact No|constructor]]|exact X].
    + exists ops, E, cn, l, [], t1, dev, x. split; [reflexivity|]. split; [exact R1|]. split; [exact O|]. split; [apply (step_open _ _ _ _ _ _ S O); discriminate|].
      split; [constructor|]. split; [exact X|exact Y].
Qed.
