(** C87: a software update is accepted when it is in order, and done when it is due.  C88: its progress is told and kept.
    C89: an update can be looked at without taking it. *)
From Verif Require Import Common Rep_Model Repd_Model Acl_Model Ael_Model Ael_Spec Ael_Proofs Ts_Model Ts_Spec Ts3_Proofs Ts4_Proofs Pt_Spec Pt_Proofs Sd_Proofs Swu_Model Swu_Spec Swu_Proofs Swu2_Proofs Swu3_Proofs Swu4_Proofs Ael3_Proofs.
From Verif Require Sd_Spec.
From Coq Require Import String ZArith.
Notation rep := Rep_Model.rep.
Local Open Scope string_scope.
Local Open Scope list_scope.
Local Open Scope Z_scope.

(** * C87 *)

(** A request that is not in order is refused, and nothing is changed. *)
Theorem C87_refused :
  forall hz d i l w, 0 < hz -> bytes_in l -> plain_urls l -> modern hz l -> ~ in_order hz (d_now d) (d_impl d) (has_url d) l ->
    step hz d (Post i l w) = (d, NotAcceptable).
Proof.
  intros hz d i l w H B P M N. cbn [step]. destruct (request_iff hz (d_impl d) (d_now d) (has_url d) None l H B P M) as [[_ O]|[E _]]; [contradiction|].
  destruct (decode_request hz (d_impl d) (d_now d) (has_url d) None l) as [o t]. cbn [fst] in E. subst o. reflexivity.
Qed.
Print Assumptions C87_refused.

Lemma post_taken hz d i l w : 0 < hz -> bytes_in l -> plain_urls l -> modern hz l -> in_order hz (d_now d) (d_impl d) (has_url d) l ->
  let d0 := execute (with_swu d (copy (d_now d) (applied hz l nothing) (d_swu d))) in
  step hz d (Post i l w) = (dump hz d0 w, Changed (match encode_answer hz (d_swu d0) i with Content l' => Some l' | _ => None end)).
Proof.
  intros H B P M O. cbn [step]. destruct (request_iff hz (d_impl d) (d_now d) (has_url d) None l H B P M) as [[E _]|[_ N]]; [|contradiction].
  destruct (decode_request hz (d_impl d) (d_now d) (has_url d) None l) as [o t]. cbn [fst] in E. subst o. reflexivity.
Qed.
(** One in order is accepted: what it names is taken over, the rest stays; nothing is done yet. The answer is what GET tells. *)
Theorem C87_accepted :
  forall hz d i l w, 0 < hz -> bytes_in l -> plain_urls l -> modern hz l -> in_order hz (d_now d) (d_impl d) (has_url d) l ->
    exists d' o, step hz d (Post i l w) = (d', Changed o) /\ updated hz (d_now d) l (d_swu d) (d_swu d') /\ d_calls d' = d_calls d /\ d_impl d' = d_impl d /\
      forall l', o = Some l' <-> step hz d' (Get i) = (d', Content l').
Proof.
  intros hz d i l w H B P M O. rewrite (post_taken hz d i l w H B P M O). cbv zeta. set (d0 := execute _). destruct (dump_keeps hz d0 w) as (K1 & K2 & K3 & K4 & K5 & K6).
  do 2 eexists. split; [reflexivity|]. rewrite K1, K3, K4. split; [exact (copy_updated hz _ _ _ l (d_swu d) H B M O)|]. split; [reflexivity|]. split; [reflexivity|].
  intros l'. cbn [step]. rewrite K1. destruct (encode_answer hz (d_swu d0) i); split; intros E; try discriminate E; try (inversion E; fail).
  - assert (l0 = l') by congruence. subst. reflexivity.
  - assert (l0 = l') by congruence. subst. reflexivity.
Qed.
Print Assumptions C87_accepted.

(** When the time has come the application is made to do what was asked for with the package URL of the request: not before, and once. *)
Lemma new_action_det l old a b : new_action l old a -> new_action l old b -> a = b.
Proof.
  intros [[N ->]|(s & L & A)] [[N' ->]|(s' & L' & A')]; [reflexivity|destruct (text_not _ _ _ L' N)|destruct (text_not _ _ _ L N')|].
  rewrite (text_det _ _ _ _ L L') in A. exact (action_det _ _ _ A A').
Qed.
Lemma update_time_det hz now l t t' : update_time hz now l t -> update_time hz now l t' -> t = t'.
Proof.
  intros (s & L & X) (s' & L' & Y). rewrite (text_det _ _ _ _ L' L) in Y. destruct X as [[-> ->]|[[-> ->]|(x & W & ->)]]; destruct Y as [[E ->]|[[E ->]|(y & W' & ->)]]; try reflexivity; try discriminate E;
    try (destruct (not_written _ _ W') as [N1 N2]; contradiction); try (destruct (not_written _ _ W) as [N1 N2]; congruence).
  apply written_parse in W, W'. assert (x = y) by congruence. subst. reflexivity.
Qed.
Lemma update_time_ge hz now im has l t : in_order hz now im has l -> update_time hz now l t -> t = 0 \/ now <= t.
Proof.
  intros (_ & (s & L & T) & _) (s' & L' & X). rewrite (text_det _ _ _ _ L' L) in X. destruct X as [[-> ->]|[[-> ->]|(x & W & ->)]]; [left; reflexivity|right; lia|]. right.
  destruct (not_written _ _ W) as [N1 N2]. destruct T as [->|[->|(y & W' & Le)]]; [contradiction|contradiction|]. apply written_parse in W, W'. assert (x = y) by congruence. subst. exact Le.
Qed.
Lemma action_range l old a : 0 <= old <= 3 -> new_action l old a -> 0 <= a <= 3.
Proof. intros H [[_ ->]|(s & _ & [[-> _]|[[-> _]|[[-> _]|[-> _]]]])]; lia. Qed.
Lemma done_det im a url nv c c' : done_for im a url nv c -> done_for im a url nv c' -> c = c'.
Proof. intros [[-> ->]|[[-> ->]|[[-> ->]|[-> ->]]]] [[E ->]|[[E ->]|[[E ->]|[E ->]]]]; try discriminate E; reflexivity. Qed.
Lemma post_state hz d i l w a t u : 0 < hz -> bytes_in l -> plain_urls l -> modern hz l -> in_order hz (d_now d) (d_impl d) (has_url d) l ->
  new_action l (s_action (d_swu d)) a -> update_time hz (d_now d) l t -> Sd_Spec.last_text l (str "purl") u ->
  let d' := fst (step hz d (Post i l w)) in
  s_action (d_swu d') = a /\ s_time (d_swu d') = t /\ s_purl (d_swu d') = Some u /\ plain_text u /\ s_nv (d_swu d') = s_nv (d_swu d) /\ d_alarm d' = alarm_for (d_now d) (d_swu d') /\
  d_impl d' = d_impl d /\ d_calls d' = d_calls d /\ d_mode d' = d_mode d /\ (frequency hz -> w = true -> sound hz (d_swu d') -> filed hz d').
Proof.
  intros H B P M O A T L. rewrite (post_taken hz d i l w H B P M O). cbv zeta. set (d0 := execute _). cbn [fst]. destruct (dump_keeps hz d0 w) as (K1 & K2 & K3 & K4 & K5 & K6).
  pose proof (copy_updated hz _ _ _ l (d_swu d) H B M O) as U. change (updated hz (d_now d) l (d_swu d) (d_swu d0)) in U. destruct U as ((u' & Lu & U1) & U2 & U3 & U4 & _).
  rewrite K1, K2, K3, K4, K5. split; [exact (new_action_det _ _ _ _ U2 A)|]. split; [exact (update_time_det _ _ _ _ _ U3 T)|]. split; [rewrite U1, (text_det _ _ _ _ Lu L); reflexivity|].
  split; [exact (P u (last_in_list _ _ _ L))|]. split; [exact U4|]. split; [exact (execute_alarm (with_swu d (copy (d_now d) (applied hz l nothing) (d_swu d))))|]. split; [reflexivity|]. split; [reflexivity|]. split; [reflexivity|].
  intros F -> S. apply dump_file; assumption.
Qed.
Theorem C87_on_time :
  forall hz d i l w a t u c, 0 < hz -> bytes_in l -> plain_urls l -> modern hz l -> in_order hz (d_now d) (d_impl d) (has_url d) l -> 0 <= s_action (d_swu d) <= 3 ->
    new_action l (s_action (d_swu d)) a -> update_time hz (d_now d) l t -> Sd_Spec.last_text l (str "purl") u -> a <> 0 -> t <> 0 ->
    done_for (d_impl d) a (Some u) (ctext (s_nv (d_swu d))) c -> will_do hz (fst (step hz d (Post i l w))) (t - d_now d) c.
Proof.
  intros hz d i l w a t u c H B P M O R A T L A0 T0 D ops Q. destruct (post_state hz d i l w a t u H B P M O A T L) as (E1 & E2 & E3 & E4 & E5 & E6 & E7 & E8 & _).
  set (d' := fst (step hz d (Post i l w))) in *. unfold alarm_for in E6. rewrite E1, E2 in E6. destruct (Z.eqb_spec a 0); [contradiction|]. destruct (Z.eqb_spec t 0); [contradiction|]. cbn [orb] in E6.
  destruct (update_time_ge _ _ _ _ _ _ O T); [contradiction|]. rewrite Z.max_r in E6 by lia. destruct (quiet_some hz ops H Q d' _ E6) as (_ & C & _). rewrite C, E7, E1.
  replace (calls_for (d_impl d) a (d_swu d')) with c; [reflexivity|]. pose proof (calls_done (d_impl d) a (d_swu d') (action_range _ _ _ R A)) as D'.
  rewrite E3, E5 in D'. cbn [ctext option_map] in D'. rewrite (cstr_id u E4) in D'. exact (done_det _ _ _ _ _ _ D D').
Qed.
Print Assumptions C87_on_time.
(** With no time, or nothing to do, nothing is done, whatever was planned before. *)
Theorem C87_rest :
  forall hz d i l w a t, 0 < hz -> bytes_in l -> plain_urls l -> modern hz l -> in_order hz (d_now d) (d_impl d) (has_url d) l ->
    new_action l (s_action (d_swu d)) a -> update_time hz (d_now d) l t -> a = 0 \/ t = 0 -> will_rest hz (fst (step hz d (Post i l w))).
Proof.
  intros hz d i l w a t H B P M O A T X ops Q. destruct O as (F & OT & (u & L & OU)). assert (O : in_order hz (d_now d) (d_impl d) (has_url d) l) by (split; [exact F|split; [exact OT|exists u; auto]]).
  destruct (post_state hz d i l w a t u H B P M O A T L) as (E1 & E2 & E3 & E4 & E5 & E6 & E7 & E8 & _). unfold alarm_for in E6. rewrite E1, E2 in E6.
  assert (Z : (a =? 0) || (t =? 0) = true) by (destruct X as [-> | ->]; [reflexivity|apply orb_true_r]). rewrite Z in E6. exact (proj1 (proj2 (quiet_none hz ops H Q _ E6))).
Qed.
Print Assumptions C87_rest.

(** Restarts: what was accepted and stored is kept, and done when it is due by the clock after the last start, at once if that is past;
    what was done before the restart but not reported as finished is done again. *)
Definition life : Type := (list op * (Z * impl * bool))%type.
Definition ops_of (r : life) : list op := fst r ++ [Start (fst (fst (snd r))) (snd (fst (snd r))) (snd (snd r))].
Lemma run_app hz a b : forall d, run hz d (a ++ b) = run hz (run hz d a) b.
Proof. induction a as [|o a IH]; intros d; [reflexivity|]. cbn [app run]. apply IH. Qed.
Lemma quiet_still hz ops d : 0 < hz -> Forall quiet ops -> still hz d (run hz d ops).
Proof.
  intros H Q. destruct (d_alarm d) as [k|] eqn:A; [exact (proj1 (quiet_some hz ops H Q d k A))|exact (proj1 (quiet_none hz ops H Q d A))].
Qed.
(** After a start: the data of [s], kept. *)
Definition restarted (hz : Z) (s : swu) (now : Z) (im : impl) (d : dev) : Prop := d_swu d = kept s /\ d_alarm d = alarm_for now s /\ d_impl d = im /\ filed hz d.
Lemma kept_kept hz s : sound hz s -> kept (kept s) = kept s.
Proof.
  intros (_ & _ & _ & _ & _ & A & B & C). unfold kept. cbn [s_purl s_nv s_signed s_action s_state s_result s_last s_time shown].
  assert (X : forall o, Ael_Spec.opt_plain o -> cstr (shown o) = shown o) by (intros [t|] P; cbn; [rewrite !(cstr_id t P); reflexivity|reflexivity]). rewrite !X by assumption. reflexivity.
Qed.
Lemma one_life hz s d ops now im w : frequency hz -> sound hz s -> filed hz d -> d_swu d = s \/ d_swu d = kept s -> Forall quiet ops -> restarted hz s now im (run hz d (ops ++ [Start now im w])).
Proof.
  intros F S Fl E Q. pose proof (quiet_still hz ops d (proj1 F) Q) as (E1 & E2 & E3 & E4). rewrite run_app. set (d1 := run hz d ops) in *. specialize (E4 Fl).
  assert (S1 : sound hz (d_swu d1)) by (rewrite E1; destruct E as [-> | ->]; [exact S|apply kept_sound, S]).
  assert (K : kept (d_swu d1) = kept s) by (rewrite E1; destruct E as [-> | ->]; [reflexivity|exact (kept_kept hz s S)]).
  assert (Al : alarm_for now (d_swu d1) = alarm_for now s) by (rewrite E1; destruct E as [-> | ->]; reflexivity).
  cbn [run]. destruct (start_filed hz d1 now im w F E4 S1) as (X1 & X2 & X3 & X4 & X5 & X6 & X7). unfold restarted. rewrite X1, X2, X4, K, Al. split; [reflexivity|]. split; [reflexivity|]. split; [reflexivity|].
  destruct E4 as (l & El & Ef). exists l. rewrite X1, X5, (encode_kept hz _ F S1). split; assumption.
Qed.
Lemma lives hz s l : frequency hz -> sound hz s -> Forall (fun r : life => Forall quiet (fst r)) l -> forall d r, Forall quiet (fst r) -> filed hz d -> d_swu d = s \/ d_swu d = kept s ->
  restarted hz s (fst (fst (snd (last l r)))) (snd (fst (snd (last l r)))) (run hz d (List.concat (map ops_of (r :: l)))).
Proof.
  intros F S. induction 1 as [|r' l Q _ IH]; intros d [ops [[now im] w]] Qr Fl E.
  - cbn [map List.concat last fst snd]. rewrite app_nil_r. unfold ops_of. cbn [fst snd]. apply one_life; assumption.
  - replace (last (r' :: l) (ops, (now, im, w))) with (last l r') by (clear; revert r'; induction l as [|x l IH]; intros r'; [reflexivity|]; cbn [last] in *; destruct l; [reflexivity|apply IH]).
    change (List.concat (map ops_of ((ops, (now, im, w)) :: r' :: l))) with (ops_of (ops, (now, im, w)) ++ List.concat (map ops_of (r' :: l))). rewrite run_app.
    destruct (one_life hz s d ops now im w F S Fl E Qr) as (X1 & X2 & X3 & X4). apply (IH _ r' Q); [exact X4|right; exact X1].
Qed.
Theorem C87_restart :
  forall hz d i l a t u c s r rs, frequency hz -> bytes_in l -> plain_urls l -> modern hz l -> in_order hz (d_now d) (d_impl d) (has_url d) l -> 0 <= s_action (d_swu d) <= 3 ->
    new_action l (s_action (d_swu d)) a -> update_time hz (d_now d) l t -> Sd_Spec.last_text l (str "purl") u ->
    let d1 := fst (step hz d (Post i l true)) in s = d_swu d1 -> sound hz s -> Forall (fun x : life => Forall quiet (fst x)) (r :: rs) ->
    let d2 := run hz d1 (List.concat (map ops_of (r :: rs))) in
    let now := fst (fst (snd (last rs r))) in let im := snd (fst (snd (last rs r))) in
    same s (d_swu d2) /\
    (a = 0 \/ t = 0 -> will_rest hz d2) /\
    (a <> 0 -> t <> 0 -> done_for im a (Some u) (Some (match s_nv (d_swu d) with Some v => v | None => [] end)) c -> will_do hz d2 (Z.max 0 (t - now)) c).
Proof.
  intros hz d i l a t u c s r rs F B P M O R A T L d1 Es S Q d2 now im. pose proof (proj1 F) as H.
  destruct (post_state hz d i l true a t u H B P M O A T L) as (E1 & E2 & E3 & E4 & E5 & E6 & E7 & E8 & _ & E9). fold d1 in E1, E2, E3, E5, E6, E7, E8, E9. rewrite <- Es in *.
  pose proof (Forall_inv Q) as Q1. pose proof (Forall_inv_tail Q) as Q2. destruct (lives hz s rs F S Q2 d1 r Q1 (E9 F eq_refl S) (or_introl (eq_sym Es))) as (X1 & X2 & X3 & X4).
  change (d_swu d2 = kept s) in X1. change (d_alarm d2 = alarm_for now s) in X2. change (d_impl d2 = im) in X3. clearbody d2 now im. split; [rewrite X1; exact (kept_same hz s S)|]. unfold alarm_for in X2. rewrite E1, E2 in X2. split.
  - intros Z ops Qo. assert (Y : (a =? 0) || (t =? 0) = true) by (destruct Z as [-> | ->]; [reflexivity|apply orb_true_r]). rewrite Y in X2. exact (proj1 (proj2 (quiet_none hz ops H Qo d2 X2))).
  - intros A0 T0 D ops Qo. destruct (Z.eqb_spec a 0); [contradiction|]. destruct (Z.eqb_spec t 0); [contradiction|]. cbn [orb] in X2.
    destruct (quiet_some hz ops H Qo d2 _ X2) as (_ & C & _). rewrite C, X3, X1. replace (s_action (kept s)) with a by (symmetry; exact E1).
    replace (calls_for im a (kept s)) with c; [reflexivity|]. pose proof (calls_done im a (kept s) (action_range _ _ _ R A)) as D'. set (cc := calls_for im a (kept s)) in *. clearbody cc. unfold kept in D'. cbn [s_purl s_nv] in D'. rewrite E3, E5 in D'.
    cbn [ctext option_map] in D'. change (shown (Some u)) with (cstr u) in D'. rewrite !(cstr_id u E4) in D'. replace (cstr (shown (s_nv (d_swu d)))) with (match s_nv (d_swu d) with Some v => v | None => [] end) in D'; [exact (done_det _ _ _ _ _ _ D D')|].
    destruct S as (_ & _ & _ & _ & _ & _ & S2 & _). rewrite E5 in S2. destruct (s_nv (d_swu d)) as [v|]; [|reflexivity]. cbn in S2. cbn [shown]. rewrite !(cstr_id v S2). reflexivity.
Qed.
Print Assumptions C87_restart.

Definition HZ : Z := 1000.
Definition app_of (ok : text -> bool) : impl := mkImpl (Some ok) true true true.
Definition url : text := str "https://x.y/fw".
Definition request (a t u : text) : list rep := [(str "swupdateaction", RStr a); (str "updatetime", RStr t); (str "purl", RStr u)].
Definition plan : list rep := request (str "upgrade") (str "2024-02-29T18:29:59.5Z") url.
Definition T0 : Z := 1709231390000.
Definition booted : dev := run HZ new [Start T0 (app_of (fun u => list_eqb u url)) true].
Example C87_hypotheses : frequency HZ /\ bytes_in plan /\ plain_urls plan /\ modern HZ plan /\ in_order HZ T0 (d_impl booted) (has_url booted) plan /\ update_time HZ T0 plan (T0 + 9500).
Proof.
  assert (W : exists x, written (str "2024-02-29T18:29:59.5Z") x /\ instant x = 1709231399500000000).
  { destruct (timestamp_parse (str "2024-02-29T18:29:59.5Z")) as [x|] eqn:E; [|vm_compute in E; discriminate]. exists x. assert (Bt : bytes_ok (str "2024-02-29T18:29:59.5Z")) by (apply bytes_okb_spec; reflexivity).
    split; [exact (proj1 (parse_iff _ _ Bt) E)|]. assert (x = mk_ts 1709231399 500000000 0) by (vm_compute in E; congruence). subst. reflexivity. }
  destruct W as (x & W & I). assert (L : Sd_Spec.last_text plan (str "updatetime") (str "2024-02-29T18:29:59.5Z")).
  { exists [(str "swupdateaction", RStr (str "upgrade"))], [(str "purl", RStr url)]. split; [reflexivity|]. intros s [E|[]]. discriminate E. }
  split; [split; [reflexivity|exists 1000000; reflexivity]|]. split.
  { intros n s [E|[E|[E|[]]]]; inversion E; apply bytes_okb_spec; reflexivity. }
  split; [intros s [E|[E|[E|[]]]]; inversion E; intros X; repeat (destruct X as [X|X]; [discriminate X|]); exact X|].
  split.
  { intros s y [E|[E|[E|[]]]] Wy; [discriminate E| |discriminate E]. inversion E; subst s. apply written_parse in W, Wy. assert (y = x) by congruence. subst y. rewrite I. vm_compute. split; [discriminate|reflexivity]. }
  split.
  { split; [|split].
    - constructor; [left; exists (str "upgrade"), 3; split; [reflexivity|unfold action_name; auto 6]|]. constructor; [right; left; eexists; split; [reflexivity|right; right; exists x; exact W]|].
      constructor; [right; right; exists url; reflexivity|constructor].
    - eexists. split; [exact L|]. right. right. exists x. split; [exact W|]. rewrite I. vm_compute. discriminate.
    - exists url. split; [|left; eexists; split; reflexivity]. exists [(str "swupdateaction", RStr (str "upgrade")); (str "updatetime", RStr (str "2024-02-29T18:29:59.5Z"))], []. split; [reflexivity|intros s []]. }
  eexists. split; [exact L|]. right. right. exists x. split; [exact W|]. rewrite I. reflexivity.
Qed.
Definition wait : list op := [Elapse 4000 true; Post 2 (request (str "isac") (str "soon") url) true; ClockSet 5; Elapse 5000 true; Get 2].
Example C87_quiet : Forall quiet wait.
Proof.
  constructor; [cbn; lia|]. constructor; [|constructor; [exact I|constructor; [cbn; lia|constructor; [exact I|constructor]]]]. left. exists (str "updatetime", RStr (str "soon")).
  split; [right; left; reflexivity|]. split; [apply bytes_okb_spec; reflexivity|]. assert (B : bytes_ok (str "soon")) by (apply bytes_okb_spec; reflexivity).
  intros [(s & a & E & _)|[(s & E & T)|(s & E)]]; try (vm_compute in E; discriminate E). assert (X : s = str "soon") by congruence. subst s.
  destruct T as [T|[T|(x & W)]]; [vm_compute in T; discriminate T|vm_compute in T; discriminate T|]. apply (parse_iff _ _ B) in W. vm_compute in W. discriminate W.
Qed.
Example C87_case :
  let d := run HZ booted (Post 32 plan true :: wait) in d_calls d = [] /\ d_calls (run HZ d [Elapse 499 true]) = [] /\ d_calls (run HZ d [Elapse 499 true; Elapse 1 true; Elapse 9999 true]) = [Upgrade (Some url)] /\
  d_calls (run HZ d [Start (T0 + 60000) (app_of (fun _ => false)) true; Elapse 0 true]) = [Upgrade (Some url)].
Proof. vm_compute. repeat split. Qed.

(** The package URL is lost by a request with an empty one, though the empty one is accepted so that the last is kept. *)
Theorem C87_keeps_url_refuted :
  exists ops d, ops = [Post 32 (request (str "isac") (str "none") url) true; Post 32 (request (str "upgrade") (str "now") []) true; Elapse 0 true] /\ d = run HZ booted ops /\
    s_purl (d_swu (run HZ booted (firstn 1 ops))) = Some url /\ s_purl (d_swu d) = Some [] /\ d_calls d = [Upgrade (Some [])].
Proof. do 2 eexists. split; [reflexivity|]. split; [reflexivity|]. vm_compute. repeat split. Qed.
Print Assumptions C87_keeps_url_refuted.
(** After a restart a device that was never given a package URL accepts an empty one without asking the application. *)
Theorem C87_unchecked_url_refuted :
  exists ops d im, im = app_of (fun _ => false) /\ ops = [Start T0 im true; Start T0 im true; Post 32 (request (str "upgrade") (str "now") []) true; Elapse 0 true] /\ d = run HZ new ops /\ d_calls d = [Upgrade (Some [])].
Proof. do 3 eexists. split; [reflexivity|]. split; [reflexivity|]. split; [reflexivity|]. vm_compute. reflexivity. Qed.
Print Assumptions C87_unchecked_url_refuted.
(** A time before 1970 is accepted, as one far in the future. *)
Theorem C87_past_refuted :
  exists l d, l = request (str "upgrade") (str "1969-12-31T23:59:59Z") url /\ d = fst (step HZ booted (Post 32 l true)) /\ snd (step HZ booted (Post 32 l true)) <> NotAcceptable /\ s_time (d_swu d) = 2 ^ 64 - 1000.
Proof. do 2 eexists. split; [reflexivity|]. split; [reflexivity|]. split; [vm_compute; discriminate|vm_compute; reflexivity]. Qed.
Print Assumptions C87_past_refuted.
(** When the clock is set past the time of the update, the update is still done only after the time that was left. *)
Theorem C87_clock_refuted :
  exists d, d = run HZ booted [Post 32 plan true; ClockSet (T0 + 3600000); Elapse 9499 true] /\ s_time (d_swu d) < d_now d /\ d_calls d = [].
Proof. eexists. split; [reflexivity|]. split; vm_compute; reflexivity. Qed.
Print Assumptions C87_clock_refuted.

(** * C88 *)

(** GET tells the data: the names of the action and of the state, the times exactly (no time of update as the start of 1970, and no
    time of the last update if there was none). *)
Theorem C88_told :
  forall hz d i, frequency hz -> sound hz (d_swu d) -> i = 2%N \/ i = 32%N ->
    let s := d_swu d in let text o := match o with Some t => t | None => [] end in
    exists l a st u, step hz d (Get i) = (d, Content l) /\ NoDup (map fst l) /\ action_name (s_action s) a /\ state_name (s_state s) st /\ exact_text hz u (s_time s) /\
      (forall n v, In (n, v) l <->
         (i = 2%N /\ In (n, v) [(str "rt", RStrArr [str "oic.r.softwareupdate"]); (str "if", RStrArr [str "oic.if.rw"; str "oic.if.baseline"])]) \/
         In (n, v) [(str "purl", RStr (text (s_purl s))); (str "nv", RStr (text (s_nv s))); (str "signed", RStr (text (s_signed s))); (str "swupdateaction", RStr a);
                    (str "swupdatestate", RStr st); (str "swupdateresult", RInt (s_result s)); (str "updatetime", RStr u)] \/
         (0 < s_last s /\ n = str "lastupdate" /\ exists t, v = RStr t /\ exact_text hz t (s_last s) /\ In (str "lastupdate", RStr t) l)).
Proof.
  intros hz d i F S I s text. destruct (get_pieces hz s (i =? 2)%N F S) as (a & u & E & Xu & Xa). destruct S as (SA & SS & SR & _ & _ & P1 & P2 & P3).
  set (l := (if (i =? 2)%N then baseline else []) ++ texts s ++ a ++ [(str "updatetime", RStr u)]) in *. exists l, (action_str (s_action s)), (state_str (s_state s)), u.
  split. { cbn [step]. unfold encode_answer. fold s. rewrite E. destruct I as [-> | ->]; reflexivity. }
  split. { unfold l. destruct I as [-> | ->]; cbn [N.eqb Pos.eqb]; destruct Xa as [[_ ->]|(_ & t & -> & _)]; unfold baseline, texts; cbn [app map fst]; nodup_names. }
  split; [apply action_str_name, SA|]. split; [apply state_str_name, SS|]. split; [exact Xu|].
  assert (T : texts s = [(str "purl", RStr (text (s_purl s))); (str "nv", RStr (text (s_nv s))); (str "signed", RStr (text (s_signed s))); (str "swupdateaction", RStr (action_str (s_action s)));
                    (str "swupdatestate", RStr (state_str (s_state s))); (str "swupdateresult", RInt (s_result s))]).
  { assert (X : forall o, Ael_Spec.opt_plain o -> shown o = text o) by (intros [t|] P; [exact (cstr_id t P)|reflexivity]). unfold texts. rewrite !X by assumption. reflexivity. }
  intros n v. unfold l at 1. rewrite T, !in_app_iff. split.
  - intros [H|[H|[H|[H|[]]]]].
    + left. destruct I as [-> | ->]; cbn [N.eqb Pos.eqb] in H; [split; [reflexivity|exact H]|destruct H].
    + right. left. repeat (destruct H as [H|H]; [rewrite <- H; repeat (first [left; reflexivity|right])|]). destruct H.
    + right. right. destruct Xa as [[_ ->]|(P & t & Ea & Xt)]; [destruct H|]. subst a. destruct H as [H|[]]. assert (n = str "lastupdate" /\ v = RStr t) as [-> ->] by (split; congruence).
      split; [exact P|]. split; [reflexivity|]. exists t. split; [reflexivity|]. split; [exact Xt|]. unfold l. rewrite !in_app_iff. right. right. left. left. reflexivity.
    + right. left. rewrite <- H. do 6 right. left. reflexivity.
  - intros [[-> H]|[H|(P & -> & t & -> & Xt & H)]].
    + left. exact H.
    + do 6 (destruct H as [H|H]; [right; left; rewrite <- H; repeat (first [left; reflexivity|right])|]). destruct H as [H|[]]. do 3 right. left. exact H.
    + unfold l in H. rewrite !in_app_iff in H. rewrite T in H. exact H.
Qed.
Print Assumptions C88_told.

(** What the notifications of the application do to the data: [moved s o s']. Only success leads on. *)
Definition moved (s : swu) (o : op) (s' : swu) : Prop :=
  s_purl s' = s_purl s /\ s_signed s' = s_signed s /\ s_time s' = s_time s /\
  match o with
  | Available v r => s_state s' = 1 /\ s_nv s' = Some v /\ s_result s' = r /\ s_last s' = s_last s /\ ((r = 1 /\ s_action s' = 2) \/ (r <> 1 /\ s_action s' = 0))
  | Downloaded r => s_state s' = 3 /\ s_nv s' = s_nv s /\ s_result s' = r /\ s_last s' = s_last s /\ ((r = 1 /\ s_action s' = 3) \/ (r <> 1 /\ s_action s' = 0))
  | Upgrading v t r => s_state s' = 4 /\ s_nv s' = Some v /\ s_result s' = r /\ s_last s' = t /\ s_action s' = s_action s
  | Finished r => s_state s' = 0 /\ s_nv s' = None /\ s_result s' = r /\ s_last s' = s_last s /\ s_action s' = 0
  | _ => False
  end.
(** and the calls that are made at once *)
Definition next_calls (im : impl) (u : option text) (o : op) (c : list call) : Prop :=
  match o with
  | Available _ r => (r = 1 /\ i_down im = true /\ c = [Download u]) \/ ((r <> 1 \/ i_down im = false) /\ c = [])
  | Downloaded r => (r = 1 /\ i_up im = true /\ c = [Upgrade u]) \/ ((r <> 1 \/ i_up im = false) /\ c = [])
  | _ => c = []
  end.
(** The mode of provisioning: new software is available (256), verified as well (64), being installed as well (128). *)
Definition next_mode (o : op) : Z := match o with Available _ _ => 256 | Downloaded _ => 256 + 64 | Upgrading _ _ _ => 256 + 64 + 128 | _ => 0 end.
Definition notification (hz : Z) (o : op) : Prop :=
  match o with
  | Available v r => plain_text v /\ 0 <= r < 2 ^ 31
  | Downloaded r | Finished r => 0 <= r < 2 ^ 31
  | Upgrading v t r => plain_text v /\ time_ok hz t /\ 0 <= r < 2 ^ 31
  | _ => False
  end.
Lemma notified_spec hz d o : notification hz o -> let d' := fst (step hz d o) in
  moved (d_swu d) o (d_swu d') /\ d_mode d' = next_mode o /\ d_dump d' = true /\ d_alarm d' = d_alarm d /\ d_impl d' = d_impl d /\ exists c, next_calls (d_impl d) (ctext (s_purl (d_swu d))) o c /\ d_calls d' = c ++ d_calls d.
Proof.
  intros X. destruct o; cbn [notification] in X; try contradiction; cbn [step fst].
  - unfold notified. destruct (Z.eqb_spec r SUCCESS) as [->|N]; unfold perform, calls_for; cbn.
    + destruct (i_down (d_impl d)) eqn:E; repeat split; auto; eexists; (split; [|reflexivity]); auto.
    + repeat split; auto. exists []. split; [|reflexivity]. right. auto.
  - unfold notified. destruct (Z.eqb_spec r SUCCESS) as [->|N]; unfold perform, calls_for; cbn.
    + destruct (i_up (d_impl d)) eqn:E; repeat split; auto; eexists; (split; [|reflexivity]); auto.
    + repeat split; auto. exists []. split; [|reflexivity]. right. auto.
  - cbn. repeat split. exists []. split; reflexivity.
  - cbn. repeat split. exists []. split; reflexivity.
Qed.
Theorem C88_notified :
  forall hz d o, notification hz o -> let d' := fst (step hz d o) in
    moved (d_swu d) o (d_swu d') /\ d_mode d' = next_mode o /\ exists c, next_calls (d_impl d) (ctext (s_purl (d_swu d))) o c /\ d_calls d' = c ++ d_calls d.
Proof. intros hz d o X d'. destruct (notified_spec hz d o X) as (M & A & _ & _ & _ & B). auto. Qed.
Print Assumptions C88_notified.

(** The whole story: asked to check, the application is made to check, download and upgrade, one after the other as it reports success,
    each once. *)
Lemma quiet_calls hz d ops : 0 < hz -> Forall quiet ops -> d_alarm d = None -> let d' := run hz d ops in d_swu d' = d_swu d /\ d_impl d' = d_impl d /\ d_mode d' = d_mode d /\ d_calls d' = d_calls d /\ d_alarm d' = None.
Proof. intros H Q A d'. destruct (quiet_none hz ops H Q d A) as ((X1 & X2 & X3 & _) & X4 & X5). auto. Qed.
Theorem C88_story :
  forall hz d i l w u t v v' t' r r' q0 q1 q2 q3 q4, 0 < hz -> bytes_in l -> plain_urls l -> modern hz l -> in_order hz (d_now d) (d_impl d) (has_url d) l ->
    Sd_Spec.last_text l (str "swupdateaction") (str "isac") -> Sd_Spec.last_text l (str "purl") u -> update_time hz (d_now d) l t -> t <> 0 ->
    i_check (d_impl d) = true -> i_down (d_impl d) = true -> i_up (d_impl d) = true -> Forall quiet (q0 ++ q1 ++ q2 ++ q3 ++ q4) -> looked q0 = true -> t - d_now d <= passed q0 ->
    let d1 := run hz d (Post i l w :: q0) in let d2 := run hz d1 (Available v 1 :: q1) in let d3 := run hz d2 (Downloaded 1 :: q2) in
    let d4 := run hz d3 (Upgrading v' t' r :: q3) in let d5 := run hz d4 (Finished r' :: q4) in
    d_calls d1 = Check (Some u) (ctext (s_nv (d_swu d))) :: d_calls d /\
    d_calls d2 = Download (Some u) :: d_calls d1 /\ d_mode d2 = 256 /\ s_state (d_swu d2) = 1 /\ s_nv (d_swu d2) = Some v /\
    d_calls d3 = Upgrade (Some u) :: d_calls d2 /\ d_mode d3 = 320 /\ s_state (d_swu d3) = 3 /\
    d_calls d4 = d_calls d3 /\ d_mode d4 = 448 /\ s_state (d_swu d4) = 4 /\ s_last (d_swu d4) = t' /\ s_nv (d_swu d4) = Some v' /\
    d_calls d5 = d_calls d4 /\ d_mode d5 = 0 /\ s_state (d_swu d5) = 0 /\ s_action (d_swu d5) = 0 /\ s_result (d_swu d5) = r'.
Proof.
  intros hz d i l w u t v v' t' r r' q0 q1 q2 q3 q4 H B P M O La Lu T T0 I1 I2 I3 Q Lk Ps d1 d2 d3 d4 d5. rewrite !Forall_app in Q. destruct Q as (Q0 & Q1 & Q2 & Q3 & Q4).
  assert (A : new_action l (s_action (d_swu d)) 1) by (right; exists (str "isac"); split; [exact La|unfold action_name; auto]).
  destruct (post_state hz d i l w 1 t u H B P M O A T Lu) as (E1 & E2 & E3 & E4 & E5 & E6 & E7 & E8 & _). unfold alarm_for in E6. rewrite E1, E2 in E6. destruct (Z.eqb_spec t 0); [contradiction|]. cbn [Z.eqb orb] in E6.
  destruct (quiet_some hz q0 H Q0 _ _ E6) as ((X1 & X2 & X3 & _) & X4 & X5). change (run hz (fst (step hz d (Post i l w))) q0) with d1 in *. set (p := fst (step hz d (Post i l w))) in *.
  rewrite Lk in X4, X5. destruct (Z.leb_spec (Z.max 0 (t - d_now d)) (passed q0)) as [_|Bad]; [|pose proof (passed_pos q0 Q0); lia]. cbn [andb] in X4, X5. rewrite E1, E7 in X4. unfold calls_for in X4. cbn [Z.eqb Pos.eqb ISAC] in X4. rewrite I1, E3, E5, E8 in X4. cbn [ctext option_map] in X4. rewrite (cstr_id u E4) in X4.
  assert (U1 : s_purl (d_swu d1) = Some u) by (rewrite X1; exact E3). assert (J1 : d_impl d1 = d_impl d) by (rewrite X2; exact E7).
  clearbody d1. clear X1 X2 X3 E1 E2 E3 E5 E6 E7 E8 p.
  set (n2 := fst (step hz d1 (Available v 1))). assert (A2 : d_alarm n2 = None) by exact X5. destruct (quiet_calls hz n2 q1 H Q1 A2) as (Y1 & Y2 & Y3 & Y4 & Y5). change (run hz n2 q1) with d2 in *.
  assert (C2 : d_calls n2 = Download (Some u) :: d_calls d1) by (unfold n2; cbn [step fst]; unfold notified, perform, calls_for; cbn; rewrite J1, I2, U1; cbn [ctext option_map]; rewrite (cstr_id u E4); reflexivity).
  assert (U2 : s_purl (d_swu d2) = Some u) by (rewrite Y1; exact U1). assert (J2 : d_impl d2 = d_impl d) by (rewrite Y2; exact J1).
  assert (Z2 : d_mode d2 = 256 /\ s_state (d_swu d2) = 1 /\ s_nv (d_swu d2) = Some v) by (rewrite Y1, Y3; repeat split). rewrite C2 in Y4. clearbody d2. clear Y1 Y2 Y3.
  set (n3 := fst (step hz d2 (Downloaded 1))). assert (A3 : d_alarm n3 = None) by exact Y5. destruct (quiet_calls hz n3 q2 H Q2 A3) as (W1 & W2 & W3 & W4 & W5). change (run hz n3 q2) with d3 in *.
  assert (C3 : d_calls n3 = Upgrade (Some u) :: d_calls d2) by (unfold n3; cbn [step fst]; unfold notified, perform, calls_for; cbn; rewrite J2, I3, U2; cbn [ctext option_map]; rewrite (cstr_id u E4); reflexivity).
  assert (Z3 : d_mode d3 = 320 /\ s_state (d_swu d3) = 3) by (rewrite W1, W3; repeat split). rewrite C3 in W4. clearbody d3. clear W1 W2 W3.
  set (n4 := fst (step hz d3 (Upgrading v' t' r))). assert (A4 : d_alarm n4 = None) by exact W5. destruct (quiet_calls hz n4 q3 H Q3 A4) as (V1 & V2 & V3 & V4 & V5). change (run hz n4 q3) with d4 in *.
  assert (Z4 : d_mode d4 = 448 /\ s_state (d_swu d4) = 4 /\ s_last (d_swu d4) = t' /\ s_nv (d_swu d4) = Some v') by (rewrite V1, V3; repeat split). change (d_calls n4) with (d_calls d3) in V4. clearbody d4. clear V1 V2 V3.
  set (n5 := fst (step hz d4 (Finished r'))). assert (A5 : d_alarm n5 = None) by exact V5. destruct (quiet_calls hz n5 q4 H Q4 A5) as (K1 & K2 & K3 & K4 & K5). change (run hz n5 q4) with d5 in *.
  assert (Z5 : d_mode d5 = 0 /\ s_state (d_swu d5) = 0 /\ s_action (d_swu d5) = 0 /\ s_result (d_swu d5) = r') by (rewrite K1, K3; repeat split). change (d_calls n5) with (d_calls d4) in K4. clearbody d5.
  cbn [app] in X4. tauto.
Qed.
Print Assumptions C88_story.

(** A failure, or the end, stops it all, also what was planned. *)
Theorem C88_stops :
  forall hz d o, 0 < hz -> notification hz o -> (match o with Available _ r | Downloaded r => r <> 1 | Finished _ => True | _ => False end) -> will_rest hz (fst (step hz d o)) /\ d_calls (fst (step hz d o)) = d_calls d.
Proof.
  intros hz d o H N X. destruct (notified_spec hz d o N) as ((_ & _ & _ & M) & _ & _ & A & I & c & C & D).
  assert (A0 : s_action (d_swu (fst (step hz d o))) = 0) by (destruct o; try contradiction; [destruct M as (_ & _ & _ & _ & [[E _]|[_ E]])|destruct M as (_ & _ & _ & _ & [[E _]|[_ E]])|destruct M as (_ & _ & _ & _ & E)]; try contradiction; exact E).
  assert (c = []) by (destruct o; try contradiction; [destruct C as [[E _]|[_ E]]|destruct C as [[E _]|[_ E]]|]; try contradiction; assumption). subst c. split; [|exact D].
  set (e := fst (step hz d o)) in *. clearbody e. intros ops Q. destruct (d_alarm e) as [k|] eqn:Ae.
  - destruct (quiet_some hz ops H Q e k Ae) as (_ & E & _). rewrite E, A0. destruct (_ && _); reflexivity.
  - exact (proj1 (proj2 (quiet_none hz ops H Q e Ae))).
Qed.
Print Assumptions C88_stops.

(** What was reported is kept over restarts once the event loop has run and stored it; the step reached is done again. *)
Theorem C88_restart :
  forall hz d o dt r rs c, frequency hz -> sound hz (d_swu d) -> notification hz o -> 0 <= dt -> Forall (fun x : life => Forall quiet (fst x)) (r :: rs) ->
    let d1 := fst (step hz d o) in let s := d_swu d1 in let d2 := run hz d1 (Elapse dt true :: List.concat (map ops_of (r :: rs))) in
    let now := fst (fst (snd (last rs r))) in let im := snd (fst (snd (last rs r))) in let text o := match o with Some t => t | None => [] end in
    same s (d_swu d2) /\
    (s_action s = 0 \/ s_time s = 0 -> will_rest hz d2) /\
    (s_action s <> 0 -> s_time s <> 0 -> done_for im (s_action s) (Some (text (s_purl s))) (Some (text (s_nv s))) c -> will_do hz d2 (Z.max 0 (s_time s - now)) c).
Proof.
  intros hz d o dt r rs c F S N Dt Q d1 s d2 now im text. pose proof (proj1 F) as H. destruct (notified_spec hz d o N) as (M & _ & Dd & _ & _ & _). fold d1 in M, Dd. fold s in M.
  assert (S' : sound hz s).
  { destruct S as (S1 & S2 & S3 & S4 & S5 & S6 & S7 & S8). destruct M as (M1 & M2 & M3 & M4). unfold sound. rewrite M1, M2, M3. destruct o; cbn [notification] in N; try contradiction.
    - destruct M4 as (-> & -> & -> & -> & [[_ ->]|[_ ->]]); destruct N; repeat (split; [first [assumption|lia]|]); assumption.
    - destruct M4 as (-> & -> & -> & -> & [[_ ->]|[_ ->]]); repeat (split; [first [assumption|lia]|]); assumption.
    - destruct M4 as (-> & -> & -> & -> & ->). destruct N as (N1 & N2 & N3). repeat (split; [first [assumption|lia]|]); assumption.
    - destruct M4 as (-> & -> & -> & -> & ->). repeat (split; [first [assumption|lia|exact I]|]); assumption. }
  pose proof (Forall_inv Q) as Q1. pose proof (Forall_inv_tail Q) as Q2. set (d1' := elapse hz d1 dt true).
  assert (Fl : filed hz d1') by (apply elapse_files; assumption). assert (E : d_swu d1' = s) by (apply elapse_spec).
  destruct (lives hz s rs F S' Q2 d1' r Q1 Fl (or_introl E)) as (X1 & X2 & X3 & X4). change (d_swu d2 = kept s) in X1. change (d_alarm d2 = alarm_for now s) in X2. change (d_impl d2 = im) in X3.
  clearbody d2 now im. split; [rewrite X1; exact (kept_same hz s S')|]. unfold alarm_for in X2. split.
  - intros Z ops Qo. assert (Y : (s_action s =? 0) || (s_time s =? 0) = true) by (destruct Z as [-> | ->]; [reflexivity|apply orb_true_r]). rewrite Y in X2. exact (proj1 (proj2 (quiet_none hz ops H Qo d2 X2))).
  - intros A0 T0' D ops Qo. destruct (Z.eqb_spec (s_action s) 0); [contradiction|]. destruct (Z.eqb_spec (s_time s) 0); [contradiction|]. cbn [orb] in X2.
    destruct (quiet_some hz ops H Qo d2 _ X2) as (_ & C & _). rewrite C, X3, X1. replace (s_action (kept s)) with (s_action s) by reflexivity.
    pose proof (calls_done im (s_action s) (kept s) (proj1 S')) as D'. unfold kept in D' at 1 2. cbn [s_purl s_nv ctext option_map] in D'.
    assert (Y : forall o, Ael_Spec.opt_plain o -> cstr (shown o) = text o) by (intros [x|] P; [cbn in P |- *; rewrite !(cstr_id x P); reflexivity|reflexivity]).
    destruct S' as (_ & _ & _ & _ & _ & P1 & P2 & _). rewrite (Y _ P1), (Y _ P2) in D'. rewrite (done_det _ _ _ _ _ _ D D'). reflexivity.
Qed.
Print Assumptions C88_restart.
Definition isac : list rep := request (str "isac") (str "now") url.
Definition story : list op := [Post 32 isac true; Elapse 0 true; Available (str "2.0") 1; Elapse 5 true; Downloaded 1; Elapse 5 true].
Example C88_case :
  let d := run HZ booted story in let im := app_of (fun u => list_eqb u url) in
  d_calls d = [Upgrade (Some url); Download (Some url); Check (Some url) None] /\ d_mode d = 320 /\ sound HZ (d_swu d) /\
  d_calls (run HZ d [Start (T0 + 100) im true; Elapse 0 true]) = Upgrade (Some url) :: d_calls d /\
  d_calls (run HZ d [Upgrading (str "2.0") (T0 + 50) 1; Elapse 1 true; Finished 1; Elapse 1 true; Start (T0 + 100) im true; Elapse 0 true]) = d_calls d.
Proof.
  split; [vm_compute; reflexivity|]. split; [vm_compute; reflexivity|]. split; [|split; vm_compute; reflexivity]. unfold sound. set (s := d_swu _). vm_compute in s. subst s. cbn [s_purl s_nv s_signed s_action s_state s_result s_last s_time].
  assert (P : forall x, existsb (fun b => (b =? 0)%N) x = false -> plain_text x) by (intros x E H; assert (T : existsb (fun b => (b =? 0)%N) x = true) by (apply existsb_exists; exists 0%N; split; [exact H|reflexivity]); congruence).
  split; [lia|]. split; [lia|]. split; [lia|]. split; [left; reflexivity|]. split; [right; split; [reflexivity|split; [reflexivity|vm_compute; discriminate]]|]. split; [apply P; reflexivity|]. split; apply P; reflexivity.
Qed.

(** * C89 *)

(** oc_swupdate_validate_update leaves all as it is and says whether the request would be accepted, whoever listens. *)
Theorem C89_agrees :
  forall hz d l f, exists ok told, step hz d (Validate l f) = (d, Verdict ok told) /\
    (forall i w, (ok = true <-> exists o, snd (step hz d (Post i l w)) = Changed o) /\ (ok = false <-> snd (step hz d (Post i l w)) = NotAcceptable)) /\
    (0 < hz -> bytes_in l -> plain_urls l -> modern hz l -> (ok = true <-> in_order hz (d_now d) (d_impl d) (has_url d) l)).
Proof.
  intros hz d l f. cbn [step]. pose proof (request_any hz (d_impl d) (d_now d) (has_url d) f None l) as E. pose proof (fun H B P M => request_iff hz (d_impl d) (d_now d) (has_url d) None l H B P M) as R.
  destruct (decode_request hz (d_impl d) (d_now d) (has_url d) f l) as [c told]. destruct (decode_request hz (d_impl d) (d_now d) (has_url d) None l) as [c' t']. cbn [fst] in E, R. subst c'.
  do 2 eexists. split; [reflexivity|]. split.
  - intros i w. destruct c as [c|]; cbn [snd]; (split; split; intros X; try reflexivity; try discriminate X; try (eexists; reflexivity)). destruct X as [o X]. discriminate X.
  - intros H B P M. destruct (R H B P M) as [[-> O]|[-> O]]; [tauto|]. split; [discriminate|contradiction].
Qed.
Print Assumptions C89_agrees.
(** A listener that always goes on is told all that is wrong and no more; one that stops, the first of it; nothing is told of a request that is
    in order. *)
Theorem C89_reports :
  forall hz d l, 0 < hz -> bytes_in l -> plain_urls l -> modern hz l ->
    exists ok told, step hz d (Validate l (Some (fun _ => true))) = (d, Verdict ok told) /\ all_faults hz (d_now d) (d_impl d) (has_url d) l told /\ (ok = true <-> told = []) /\
      forall g, exists told' rest, step hz d (Validate l (Some g)) = (d, Verdict ok told') /\ told = told' ++ rest.
Proof.
  intros hz d l H B P M. pose proof (request_faults hz (d_impl d) (d_now d) (has_url d) l H B P M) as A. pose proof (fun g => request_prefix hz (d_impl d) (d_now d) (has_url d) g l) as Pr.
  pose proof (fun g => request_any hz (d_impl d) (d_now d) (has_url d) (Some g) all l) as Y. pose proof (request_any hz (d_impl d) (d_now d) (has_url d) all None l) as Y0.
  pose proof (request_iff hz (d_impl d) (d_now d) (has_url d) None l H B P M) as R. rewrite <- Y0 in R. cbn [step].
  pose proof (request_told hz (d_impl d) (d_now d) (has_url d) l H B) as Tl. change (Some (fun _ : list report => true)) with all. destruct (decode_request hz (d_impl d) (d_now d) (has_url d) all l) as [c told]. cbn [fst snd] in *.
  do 2 eexists. split; [reflexivity|]. split; [exact A|]. split.
  - exact Tl.
  - intros g. specialize (Pr g). specialize (Y g). destruct (decode_request hz (d_impl d) (d_now d) (has_url d) (Some g) l) as [c' told']. cbn [fst snd] in *. subst c'. destruct Pr as [rest ->]. exists told', rest. split; reflexivity.
Qed.
Print Assumptions C89_reports.
Example C89_case :
  let l := [(str "nv", RStr (str "3")); (str "swupdateaction", RStr (str "upgrade")); (str "color", RBool true); (str "updatetime", RStr (str "soon")); (str "purl", RStr url)] in
  snd (step HZ booted (Validate l (Some (fun _ => true)))) = Verdict false [(Some (str "nv", RStr (str "3")), -9); (Some (str "color", RBool true), -8); (Some (str "updatetime", RStr (str "soon")), -10)] /\
  snd (step HZ booted (Validate l (Some (fun t => Nat.ltb (List.length t) 2)))) = Verdict false [(Some (str "nv", RStr (str "3")), -9); (Some (str "color", RBool true), -8)] /\
  snd (step HZ booted (Validate (request (str "upgrade") (str "2024-01-01T00:00:00Z") (str "x")) (Some (fun _ => true)))) = Verdict false [(None, -17); (None, -19)] /\
  snd (step HZ booted (Validate plan (Some (fun _ => true)))) = Verdict true [].
Proof. vm_compute. repeat split. Qed.
