From Verif Require Import Common Cli_Model Cli_Spec Cli_Proofs Cli2_Proofs Cli3_Proofs Cli4_Proofs Cli5_Proofs.
From Coq Require Import Lia.
Local Open Scope N_scope.

Section Build.
Variables oscore tcp : bool.

(* ---------- a cancelling loop reaches everything ---------- *)
Lemma finish_stack s i d r stop s' t : finish tcp i d r stop s = Some (s', t) -> s_stack s' = s_stack s \/ exists f, s_stack s' = f :: s_stack s.
Proof.
  unfold finish. destruct (find (is_id i) (s_cbs s)) as [c|]; [|destruct (tcp || d && stop); [discriminate|intros [= <- _]; left; reflexivity]].
  destruct (c_disc c && _ && stop).
  { intros [= He]. destruct (cancel_stack _ _ _ _ _ He) as [[H _]|[e [_ [H _]]]]; [left; exact H|right; eexists; exact H]. }
  set (s1 := if tcp && list_eqb (c_uri c) ping_uri then drop_timer i TPing s else s). assert (H1 : s_stack s1 = s_stack s) by (unfold s1; destruct (tcp && _); reflexivity).
  destruct ((a_obs r =? NOT_SET)%Z && _ && _).
  - destruct (c_multi c).
    + destruct (c_stop c).
      * intros [= He]. destruct (cancel_stack _ _ _ _ _ He) as [[H _]|[e [_ [H _]]]]; cbn [update set_cbs s_stack] in H; rewrite H1 in H; [left; exact H|right; eexists; exact H].
      * intros [= <- _]. left. exact H1.
    + intros [= <- _]. left. exact H1.
  - intros [= <- _]. left. unfold set_observe. destruct (a_obs r =? REGISTER)%Z; [|exact H1]. destruct (find _ _); exact H1.
Qed.

Lemma step_stack s o s' t : s_stack s <> [] -> may s o = true -> step oscore tcp s o = Some (s', t) ->
  s_stack s' = s_stack s \/ (exists f, s_stack s' = f :: s_stack s) \/
  exists stop f k, o = Return stop /\ s_stack s = f :: k /\ (s_stack s' = k \/ exists g, s_stack s' = g :: k).
Proof.
  intros Hne Hm. destruct o as [q r|q ok|tm ok|u e m r|i|x code|stop|r|i r|i tm]; cbn [step].
  - intros [= <- _]. left. unfold request, arm. destruct (q_kind q), r, (q_timeout q); reflexivity.
  - intros [= <- _]. left. unfold init_request. destruct ok; reflexivity.
  - unfold do_request. destruct (s_pend s) as [i|].
    + destruct (find (is_id i) (s_cbs s)) as [c|]; [|discriminate]. destruct ok; cbn [option_map]; intros [= <- _]; left; [|reflexivity].
      unfold arm. destruct (c_obs c =? NOT_SET)%Z, tm; reflexivity.
    + destruct tm; [|discriminate]. intros [= <- _]. left. reflexivity.
  - intros [= <- _]. left. unfold stop_observe. destruct (find (same_get u e) (s_cbs s)); [|reflexivity]. destruct r; reflexivity.
  - intros [= <- _]. left. reflexivity.
  - intros [= He]. destruct (cancel_stack _ _ _ _ _ He) as [[H _]|[c [_ [H _]]]]; [left; exact H|right; left; eexists; exact H].
  - destruct (s_stack s) as [|f k] eqn:Hk; [destruct (Hne eq_refl)|]. intros Hs. right. right. exists stop, f, k. split; [reflexivity|]. split; [reflexivity|].
    destruct f as [i d r|[[x code]|]|i].
    + exact (finish_stack _ _ _ _ _ _ _ Hs).
    + injection Hs as He. destruct (cancel_stack _ _ _ _ _ He) as [[H _]|[c [_ [H _]]]]; [left; exact H|right; eexists; exact H].
    + injection Hs as <- _. left. reflexivity.
    + destruct (live _ i); [|discriminate]. injection Hs as <- _. left. reflexivity.
  - cbn [may] in Hm. unfold main_loop in Hm. destruct (s_stack s); [destruct (Hne eq_refl)|discriminate].
  - cbn [may] in Hm. unfold main_loop in Hm. destruct (s_stack s); [destruct (Hne eq_refl)|discriminate].
  - cbn [may] in Hm. unfold main_loop in Hm. destruct (s_stack s); [destruct (Hne eq_refl)|discriminate].
Qed.

Lemma all_told s x c : find (cancellable x) (s_cbs s) = None -> In c (s_cbs s) -> unicast (c_kind c) = true -> concerns x c = true -> c_busy c = true.
Proof.
  intros Hf Hc Hu Hx. pose proof (List.find_none _ _ Hf c Hc) as Hn. rewrite cancellable_spec, Hu, Hx in Hn. destruct (c_busy c); [reflexivity|discriminate].
Qed.

(* the frame of the loop stays where it is *)
Lemma in_loop k x code s o s' t : (exists a, s_stack s = a ++ FCancel (Some (x, code)) :: k) -> may s o = true -> step oscore tcp s o = Some (s', t) ->
  (exists a, s_stack s' = a ++ FCancel (Some (x, code)) :: k) \/
  (s_stack s' = k /\ find (cancellable x) (s_cbs s') = None).
Proof.
  intros [a Ha] Hm Hs. assert (Hne : s_stack s <> []) by (rewrite Ha; destruct a; discriminate).
  destruct (step_stack s o s' t Hne Hm Hs) as [H|[[f H]|[stop [f [k0 [-> [Hk H]]]]]]].
  - left. exists a. congruence.
  - left. exists (f :: a). rewrite H, Ha. reflexivity.
  - rewrite Ha in Hk. destruct a as [|g a]; cbn [app] in Hk.
    + injection Hk as <- <-. cbn [step] in Hs. rewrite Ha in Hs. cbn [app] in Hs. injection Hs as He. unfold cancel in He. cbn [s_cbs] in He.
      destruct (find (cancellable x) (s_cbs s)) as [c|] eqn:Hf; injection He as <- _.
      * left. exists []. reflexivity.
      * right. split; [reflexivity|exact Hf].
    + injection Hk as <- <-. left. destruct H as [H|[h H]]; [exists a; exact H|exists (h :: a); exact H].
Qed.

Lemma inside_loop k x code s1 l s2 : inside oscore tcp k s1 l s2 -> (exists a, s_stack s1 = a ++ FCancel (Some (x, code)) :: k) ->
  exists a, s_stack s2 = a ++ FCancel (Some (x, code)) :: k.
Proof.
  induction 1 as [s Hd|s o s1 t l s2 Hd Hm Hs Hi IH]; intros Ha; [exact Ha|]. apply IH.
  destruct (in_loop k x code s o s1 t Ha Hm Hs) as [H|[H _]]; [exact H|].
  exfalso. assert (Hd1 : (List.length k < List.length (s_stack s1))%nat) by (inversion Hi; subst; assumption). rewrite H in Hd1. lia.
Qed.

Lemma cancel_reaches_all s x code s1 t1 l s2 o s3 t3 c :
  step oscore tcp s (Cancel x code) = Some (s1, t1) -> inside oscore tcp (s_stack s) s1 l s2 -> may s2 o = true -> step oscore tcp s2 o = Some (s3, t3) ->
  s_stack s3 = s_stack s -> In c (s_cbs s3) -> unicast (c_kind c) = true -> concerns x c = true -> c_busy c = true.
Proof.
  intros Hs1 Hi Hm Hs3 Hk Hc Hu Hx. cbn [step] in Hs1. injection Hs1 as Hs1.
  assert (Ha : exists a, s_stack s1 = a ++ FCancel (Some (x, code)) :: s_stack s).
  { destruct (cancel_stack _ _ _ _ _ Hs1) as [[H _]|[d [_ [H _]]]].
    - assert (Hd : (List.length (s_stack s) < List.length (s_stack s1))%nat) by (inversion Hi; subst; assumption). rewrite H in Hd. lia.
    - exists []. exact H. }
  pose proof (inside_loop _ _ _ _ _ _ Hi Ha) as Ha2.
  destruct (in_loop _ _ _ _ _ _ _ Ha2 Hm Hs3) as [[a H]|[_ H]]; [|exact (all_told s3 x c H Hc Hu Hx)].
  rewrite Hk in H. exfalso. assert (Hl : List.length (s_stack s) = List.length (a ++ FCancel (Some (x, code)) :: s_stack s)) by congruence.
  rewrite app_length in Hl. cbn [List.length] in Hl. lia.
Qed.

Lemma cancel_nobody s x code s1 t1 c : step oscore tcp s (Cancel x code) = Some (s1, t1) -> s_stack s1 = s_stack s ->
  t1 = [] /\ s1 = s /\ (In c (s_cbs s) -> unicast (c_kind c) = true -> concerns x c = true -> c_busy c = true).
Proof.
  cbn [step]. intros [= Hs] Hk. unfold cancel in Hs. destruct (find (cancellable x) (s_cbs s)) as [d|] eqn:Hf; injection Hs as <- <-.
  - exfalso. cbn [push remove s_stack] in Hk. assert (Hl : List.length (FCancel (Some (x, code)) :: s_stack s) = List.length (s_stack s)) by congruence. cbn [List.length] in Hl. lia.
  - split; [reflexivity|]. split; [reflexivity|]. exact (all_told s x c Hf).
Qed.

(* ---------- handlers that return at once ---------- *)
Definition hit (x : select) (c : cb) : bool := unicast (c_kind c) && negb (c_busy c) && concerns x c.

Lemma hit_cancellable x : forall l, find (cancellable x) l = find (hit x) l.
Proof. induction l as [|c l IH]; [reflexivity|]. cbn [find]. rewrite cancellable_spec, IH. reflexivity. Qed.

Lemma filter_not_found {A} (p : A -> bool) l : find p l = None -> filter p l = [] /\ filter (fun c => negb (p c)) l = l.
Proof.
  induction l as [|c l IH]; [split; reflexivity|]. cbn [find filter]. destruct (p c); [discriminate|]. intros H. destruct (IH H) as [H1 H2]. cbn [negb]. rewrite H2. auto.
Qed.

Lemma first_hit (p : cb -> bool) l c : NoDup (map c_id l) -> find p l = Some c ->
  filter p l = c :: filter p (filter (fun d => negb (is_id (c_id c) d)) l) /\
  filter (fun d => negb (p d)) (filter (fun d => negb (is_id (c_id c) d)) l) = filter (fun d => negb (p d)) l.
Proof.
  induction l as [|d l IH]; [discriminate|]. cbn [find map]. intros Hn. apply NoDup_cons_iff in Hn as [Hd Hn].
  assert (Hout : forall l', ~ In (c_id d) (map c_id l') -> filter (fun e => negb (is_id (c_id d) e)) l' = l').
  { induction l' as [|e l' IH']; [reflexivity|]. cbn [map filter In]. intros Hi. rewrite is_id_eq. destruct (N.eqb_spec (c_id e) (c_id d)) as [He|He]; [destruct Hi; left; exact He|].
    cbn [negb]. rewrite IH'; [reflexivity|]. intros Hx. apply Hi. right. exact Hx. }
  destruct (p d) eqn:Hp.
  - intros [= ->]. cbn [filter]. rewrite is_id_eq, N.eqb_refl, Hp. cbn [negb]. rewrite (Hout l Hd). split; reflexivity.
  - intros Hf. destruct (IH Hn Hf) as [H1 H2]. assert (Hne : c_id d <> c_id c).
    { intros He. apply Hd. rewrite He. apply find_some in Hf as [Hc _]. apply in_map, Hc. }
    cbn [filter]. rewrite is_id_eq. destruct (N.eqb_spec (c_id d) (c_id c)); [contradiction|]. cbn [negb filter]. rewrite Hp. cbn [negb]. rewrite H1 at 1. rewrite H2. split; reflexivity.
Qed.

Lemma returns_at_once n : forall s x code, base s -> List.length (filter (hit x) (s_cbs s)) = n ->
  exists s1 t1 s' t2, cancel x code s = (s1, t1) /\ run oscore tcp s1 (repeat (Return false) n) = Some (s', t2) /\
    t1 ++ t2 = told x code (s_cbs s) /\ s_cbs s' = rest x (s_cbs s) /\ s_stack s' = s_stack s /\ s_pend s' = s_pend s /\
    forall i tm, In (i, tm) (s_tm s') <-> In (i, tm) (s_tm s) /\ ~ In i (map c_id (filter (hit x) (s_cbs s))).
Proof.
  induction n as [|n IH]; intros s x code Hb Hlen.
  - assert (Hf : find (hit x) (s_cbs s) = None).
    { destruct (find (hit x) (s_cbs s)) as [c|] eqn:Hf; [|reflexivity]. destruct (first_hit _ _ c (proj1 Hb) Hf) as [He _]. rewrite He in Hlen. discriminate. }
    destruct (filter_not_found _ _ Hf) as [H1 H2]. exists s, [], s, []. unfold cancel. rewrite hit_cancellable, Hf. split; [reflexivity|]. split; [reflexivity|].
    unfold told, rest. change (fun c => unicast (c_kind c) && negb (c_busy c) && concerns x c) with (hit x). rewrite H1. change (fun c => negb (unicast (c_kind c) && negb (c_busy c) && concerns x c)) with (fun c => negb (hit x c)). rewrite H2.
    split; [reflexivity|]. split; [reflexivity|]. split; [reflexivity|]. split; [reflexivity|]. intros i tm. cbn [map]. split; [intros Hi; split; [exact Hi|exact (fun h => h)]|tauto].
  - destruct (find (hit x) (s_cbs s)) as [c|] eqn:Hf.
    2:{ destruct (filter_not_found _ _ Hf) as [H1 _]. rewrite H1 in Hlen. discriminate. }
    destruct (first_hit _ _ c (proj1 Hb) Hf) as [H1 H2].
    set (s0 := remove (c_id c) s). assert (Hb0 : base s0).
    { destruct (shrinks_grows s s0 Hb (shrinks_remove s (c_id c))) as [H _]. exact H. }
    assert (Hl0 : List.length (filter (hit x) (s_cbs s0)) = n).
    { rewrite H1 in Hlen. cbn [List.length] in Hlen. injection Hlen as Hlen. exact Hlen. }
    destruct (IH s0 x code Hb0 Hl0) as [s1 [t1 [s' [t2 [Hc1 [Hr [Ht [Hcb [Hk [Hp Htm]]]]]]]]]].
    exists (push s0 (FCancel (Some (x, code)))), [tell c (Cancelled code)], s', (t1 ++ t2).
    unfold cancel. rewrite hit_cancellable, Hf. split; [reflexivity|]. split.
    + cbn [repeat run may main_loop push s_stack negb step]. change (mk_st (s_cbs (push s0 (FCancel (Some (x, code))))) (s_tm (push s0 (FCancel (Some (x, code))))) (s_next (push s0 (FCancel (Some (x, code))))) (s_pend (push s0 (FCancel (Some (x, code))))) (s_stack s0)) with s0.
      replace (mk_st _ _ _ _ (s_stack s0)) with s0 by reflexivity. rewrite Hc1, Hr. reflexivity.
    + split; [|split; [|split; [exact Hk|split; [exact Hp|]]]].
      * rewrite Ht. unfold told. change (fun c => unicast (c_kind c) && negb (c_busy c) && concerns x c) with (hit x). rewrite H1. reflexivity.
      * rewrite Hcb. exact H2.
      * intros i tm. rewrite Htm, H1. cbn [map In]. unfold s0 at 1. cbn [remove s_tm]. rewrite filter_In. cbn [fst]. destruct (N.eqb_spec i (c_id c)) as [->|Hne]; cbn [negb].
        -- split; [intros [[_ H] _]; discriminate|]. intros [_ H]. destruct H. left. reflexivity.
        -- split.
           ++ intros [[Ha _] Hb']. split; [exact Ha|]. intros [He|Hi]; [congruence|exact (Hb' Hi)].
           ++ intros [Ha Hb']. split; [split; [exact Ha|reflexivity]|]. intros Hi. apply Hb'. right. exact Hi.
Qed.

Lemma tells_exactly ok s t x code : history oscore tcp ok s t ->
  exists s', run oscore tcp s (Cancel x code :: repeat (Return false) (List.length (told x code (s_cbs s)))) = Some (s', told x code (s_cbs s)) /\
    s_cbs s' = rest x (s_cbs s) /\ s_stack s' = s_stack s /\
    forall i tm, In (i, tm) (s_tm s') <-> In (i, tm) (s_tm s) /\ ~ In i (map k_id (told x code (s_cbs s))).
Proof.
  intros Hh. assert (Hb : base s) by exact (proj1 (history_hist oscore tcp ok s t Hh)).
  assert (Hlen : List.length (told x code (s_cbs s)) = List.length (filter (hit x) (s_cbs s))) by (unfold told; rewrite map_length; reflexivity).
  destruct (returns_at_once _ s x code Hb eq_refl) as [s1 [t1 [s' [t2 [Hc [Hr [Ht [Hcb [Hk [_ Htm]]]]]]]]]].
  exists s'. rewrite Hlen. cbn [run may step]. rewrite Hc, Hr, Ht. split; [reflexivity|]. split; [exact Hcb|]. split; [exact Hk|].
  intros i tm. rewrite Htm. unfold told. rewrite map_map. cbn [k_id]. reflexivity.
Qed.

Lemma nobody_busy s t c : oscore = false -> history oscore tcp careful s t -> s_stack s = [] -> In c (s_cbs s) -> c_busy c = false.
Proof.
  intros Ho Hh Hk Hc. destruct (history_inv oscore tcp careful s t (fun _ _ h => h) Hh) as [H _]. destruct (c_busy c) eqn:Hb; [|reflexivity].
  destruct (i_busy _ s H _ c (in_lookup _ s c H Hc) Hb) as [He|[d [r Hi]]]; [congruence|]. rewrite Hk in Hi. destruct Hi.
Qed.

(* ---------- who is called for a response ---------- *)
Lemma finish_only_cancels s i d r stop s' t x : finish tcp i d r stop s = Some (s', t) -> In x t -> exists code, k_why x = Cancelled code.
Proof.
  unfold finish. destruct (find (is_id i) (s_cbs s)) as [c|]; [|destruct (tcp || d && stop); [discriminate|intros [= _ <-] []]].
  assert (Hc : forall s0 m code, Some (cancel (SMid m) code s0) = Some (s', t) -> In x t -> exists code, k_why x = Cancelled code).
  { intros s0 m code [= He] Hx. destruct (cancel_stack _ _ _ _ _ He) as [[_ ->]|[e [_ [_ ->]]]]; [destruct Hx|]. destruct Hx as [<-|[]]. exists code. reflexivity. }
  destruct (c_disc c && _ && stop); [apply Hc|]. destruct ((a_obs r =? NOT_SET)%Z && _ && _); [|intros [= _ <-] []].
  destruct (c_multi c); [|intros [= _ <-] []]. destruct (c_stop c); [apply Hc|intros [= _ <-] []].
Qed.

Lemma answer_to_owner s r s' t x : step oscore tcp s (Deliver r) = Some (s', t) -> In x t -> k_why x = Answered ->
  exists l1 c l2, s_cbs s = l1 ++ c :: l2 /\ c_id c = k_id x /\ c_tok c = a_tok r /\ forall d, In d l1 -> c_tok d <> a_tok r.
Proof.
  cbn [step]. assert (Hsplit : forall l c, find (fun c => list_eqb (c_tok c) (a_tok r)) l = Some c -> exists l1 l2, l = l1 ++ c :: l2 /\ c_tok c = a_tok r /\ forall d, In d l1 -> c_tok d <> a_tok r).
  { induction l as [|d l IH]; [discriminate|]. intros c. cbn [find]. destruct (list_eqb (c_tok d) (a_tok r)) eqn:He.
    - intros [= ->]. exists [], l. apply list_eqb_spec in He. split; [reflexivity|]. split; [exact He|]. intros e [].
    - intros Hc. destruct (IH c Hc) as [l1 [l2 [-> [Ht Hl]]]]. exists (d :: l1), l2. split; [reflexivity|]. split; [exact Ht|]. intros e [<-|Hi]; [|exact (Hl e Hi)].
      intros Hx. rewrite <- Hx, list_eqb_refl in He. discriminate. }
  destruct (find (fun c => list_eqb (c_tok c) (a_tok r)) (s_cbs s)) as [c|] eqn:Hf; [|intros [= _ <-] []].
  intros Hi Hx Hw. destruct (Hsplit _ c Hf) as [l1 [l2 [Hl [Ht Hn]]]].
  destruct (invoke_cases oscore tcp s c r s' t Hi) as [[-> _]|[[s2 [_ [_ Hfin]]]|[_ [-> _]]]].
  - destruct Hx.
  - destruct (finish_only_cancels _ _ _ _ _ _ _ x Hfin Hx) as [code Hc]. congruence.
  - destruct Hx as [<-|[]]. exists l1, c, l2. split; [exact Hl|]. split; [reflexivity|]. split; [exact Ht|exact Hn].
Qed.
End Build.
