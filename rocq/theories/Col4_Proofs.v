(** Proofs about the filter by resource type. *)
From Verif Require Import Common Query_Model Query_Spec Query_Proofs Query2_Proofs Ri_Model Col_Model Col_Spec.
Local Open Scope list_scope.
Local Open Scope N_scope.

Lemma kv_more ps it p rest : Forall wf_pair ps -> skipn it ps = p :: rest ->
  exists kv, nth_key_value (render ps) (S it) = Some kv /\ key kv = fst p /\ value kv = snd p /\
    (rest <> [] -> (next_pos kv < List.length (render ps))%nat).
Proof.
  intros Hw Hsk. destruct (nth_skip ps it p rest Hsk) as [En _].
  assert (Hlt : (it < List.length ps)%nat) by (apply nth_error_Some; congruence).
  assert (Hp : wf_pair p) by (rewrite Forall_forall in Hw; eapply Hw, nth_error_In; eassumption).
  unfold nth_key_value. replace (S it - 1)%nat with it by lia.
  assert (Hne : render ps <> []).
  { destruct ps as [|q ps]; [destruct it; discriminate|]. inversion Hw; subst. apply render_nonempty; assumption. }
  destruct (render ps) as [|c r] eqn:Er; [congruence|]. rewrite <- Er in *. rewrite skip_pairs_render by assumption. rewrite Hsk.
  eexists. split; [reflexivity|]. match goal with |- key (mk_kv ?o ?s) = _ /\ _ => destruct (mk_kv_render o p rest Hp) as [Hk Hv] end.
  split; [exact Hk|]. split; [exact Hv|]. intros Hr. unfold mk_kv. rewrite pair_at_render by exact Hp. cbn [next_pos].
  destruct rest as [|q rest]; [contradiction|].
  assert (Hq : wf_pair q).
  { rewrite Forall_forall in Hw. apply Hw. rewrite <- (firstn_skipn it ps), Hsk. apply in_app_iff. right. right. left. reflexivity. }
  assert (Hle : (List.length (render (p :: q :: rest)) <= List.length (render ps))%nat).
  { rewrite <- Hsk. clear. revert it. induction ps as [|x ps IH]; intros [|n]; cbn [skipn]; try (cbn [List.length render]; lia).
    specialize (IH n). rewrite (render_cons x), app_length. destruct ps as [|y ps]; [rewrite skipn_nil; cbn; lia|]. unfold tail_text. cbn [List.length]. lia. }
  assert (Hlen : List.length (render (p :: q :: rest)) = (List.length (render_pair p) + 1 + List.length (render (q :: rest)))%nat).
  { rewrite (render_cons p). unfold tail_text. rewrite app_length. cbn [List.length]. lia. }
  pose proof (render_nonempty q rest Hq) as Hqn. destruct (render (q :: rest)) as [|d t] eqn:Eq; [contradiction|]. cbn [List.length] in Hlen.
  unfold render_pair in Hlen. destruct (snd p) as [v|]; cbn [option_map].
  - rewrite !app_length in Hlen. cbn [List.length] in Hlen. lia.
  - lia.
Qed.

Lemma gv ps k : Forall wf_pair ps -> forall rest it fuel, skipn it ps = rest -> (List.length rest < fuel)%nat ->
  exists it' r more, get_values fuel (render ps) k it = Some (it', r, more) /\
    ((r = None /\ more = false /\ (forall p, In p rest -> fst p <> k)) \/
     (exists a p b, rest = a ++ p :: b /\ (forall x, In x a -> fst x <> k) /\ fst p = k /\ r = Some (snd p) /\
        skipn it' ps = b /\ (b <> [] -> more = true))).
Proof.
  intros Hw. induction rest as [|p rest IH]; intros it fuel Hsk Hf; destruct fuel as [|fuel]; try (cbn [List.length] in Hf; lia); cbn [get_values]; unfold iterate.
  - pose proof (nth_key_value_spec ps it Hw) as Hi. rewrite (nth_skip_nil ps it Hsk) in Hi. rewrite Hi.
    do 3 eexists. split; [reflexivity|]. left. repeat split. intros p [].
  - destruct (kv_more ps it p rest Hw Hsk) as (kv & Hkv & Hk & Hv & Hm). rewrite Hkv. destruct (nth_skip ps it p rest Hsk) as [_ Hsk'].
    destruct (Nat.eqb (List.length k) (List.length (key kv)) && list_eqb k (key kv)) eqn:Hc.
    + apply exact_cond in Hc. do 3 eexists. split; [reflexivity|]. right. exists [], p, rest. repeat split.
      * intros x [].
      * congruence.
      * rewrite Hv. reflexivity.
      * exact Hsk'.
      * intros Hne. apply Nat.ltb_lt. exact (Hm Hne).
    + assert (Hkp : fst p <> k). { intros E. rewrite <- E, <- Hk in Hc. rewrite (proj2 (exact_cond (key kv) (key kv)) eq_refl) in Hc. discriminate. }
      destruct (IH (S it) fuel Hsk' ltac:(cbn [List.length] in Hf; lia)) as (it' & r & more & Hg & Hcase). rewrite Hg.
      do 3 eexists. split; [reflexivity|]. destruct Hcase as [(-> & -> & Hno)|(a & q & b & -> & Ha & Hq & -> & Hs & Hmore)].
      * left. repeat split. intros x [<-|Hx]; [exact Hkp|exact (Hno x Hx)].
      * right. exists (p :: a), q, b. repeat split; try assumption. intros x [<-|Hx]; [exact Hkp|exact (Ha x Hx)].
Qed.

Definition RT : list N := [114; 116].

Lemma values_app a b : rt_values (a ++ b) = rt_values a ++ rt_values b.
Proof. induction a as [|[k v] a IH]; [reflexivity|]. cbn [app rt_values]. rewrite IH, app_assoc. reflexivity. Qed.
Lemma values_none a : (forall p, In p a -> fst p <> RT) -> rt_values a = [].
Proof.
  induction a as [|[k v] a IH]; intros H; [reflexivity|]. cbn [rt_values]. destruct (list_eqb k [114; 116]) eqn:E.
  - apply list_eqb_spec in E. exfalso. exact (H (k, v) (or_introl eq_refl) E).
  - apply IH. intros p Hp. apply H. right. exact Hp.
Qed.

Lemma existsb_in v types : existsb (list_eqb v) types = true <-> In v types.
Proof.
  rewrite existsb_exists. split.
  - intros (t & Ht & E). apply list_eqb_spec in E. subst. exact Ht.
  - intros H. exists v. split; [exact H|apply list_eqb_refl].
Qed.

Lemma rt_loop_spec ps types : Forall wf_pair ps -> forall n rest it fuel matched, (List.length rest <= n)%nat ->
  skipn it ps = rest -> (List.length rest < fuel)%nat ->
  exists b, rt_loop fuel types (render ps) it matched = Some b /\
    (b = true <-> (rt_values rest = [] /\ matched = true) \/ exists v, In v (rt_values rest) /\ In v types).
Proof.
  intros Hw. induction n as [|n IH]; intros rest it fuel matched Hn Hsk Hf; (destruct fuel as [|fuel]; [lia|]); cbn [rt_loop].
  - destruct rest; [|cbn [List.length] in Hn; lia].
    pose proof (render_length ps Hw) as Hl.
    destruct (gv ps RT Hw [] it (S (List.length (render ps))) Hsk ltac:(cbn [List.length]; lia)) as (it' & r & more & Hg & [(-> & -> & _)|(a & p & b & E & _)]).
    + unfold RT in Hg. rewrite Hg. exists matched. split; [reflexivity|]. cbn [rt_values]. split; [auto|]. intros [[_ H]|(v & [] & _)]. exact H.
    + destruct a; discriminate.
  - pose proof (render_length ps Hw) as Hl. assert (Hrl : (List.length rest <= List.length ps)%nat) by (rewrite <- Hsk, skipn_length; lia).
    destruct (gv ps RT Hw rest it (S (List.length (render ps))) Hsk ltac:(lia)) as (it' & r & more & Hg & Hc).
    unfold RT in Hg. rewrite Hg. destruct Hc as [(-> & -> & Hno)|(a & [k v] & b & -> & Ha & Hk & -> & Hs & Hm)].
    + exists matched. split; [reflexivity|]. rewrite (values_none rest Hno). split; [auto|]. intros [[_ H]|(v & [] & _)]. exact H.
    + cbn [fst snd] in *. subst k. rewrite values_app, (values_none a Ha). cbn [app rt_values]. change (list_eqb RT [114; 116]) with true. cbv iota.
      rewrite app_length in Hn, Hf. cbn [List.length] in Hn, Hf.
      assert (Hend : more = false -> b = []). { intros E. destruct b; [reflexivity|]. specialize (Hm ltac:(discriminate)). congruence. }
      destruct v as [[|c v]|].
      * cbn [app]. destruct more.
        -- apply IH; [lia|exact Hs|lia].
        -- rewrite (Hend eq_refl). exists matched. split; [reflexivity|]. cbn [rt_values]. split; [auto|]. intros [[_ H]|(v & [] & _)]. exact H.
      * destruct (existsb (list_eqb (c :: v)) types) eqn:E.
        -- exists true. split; [reflexivity|]. split; [|reflexivity]. intros _. right. exists (c :: v). split; [left; reflexivity|apply existsb_in; exact E].
        -- assert (Hnot : ~ In (c :: v) types) by (intros H; apply existsb_in in H; congruence). destruct more.
           ++ destruct (IH b it' fuel false ltac:(lia) Hs ltac:(lia)) as (x & -> & Hx). exists x. split; [reflexivity|]. rewrite Hx. cbn [app]. split.
              ** intros [[_ H]|(w & H1 & H2)]; [discriminate|]. right. exists w. split; [right; exact H1|exact H2].
              ** intros [[H _]|(w & [<-|H1] & H2)]; [discriminate|contradiction|]. right. exists w. auto.
           ++ rewrite (Hend eq_refl). exists false. split; [reflexivity|]. cbn [rt_values app]. split; [discriminate|].
              intros [[H _]|(w & [<-|[]] & H2)]; [discriminate|contradiction].
      * cbn [app]. destruct more.
        -- apply IH; [lia|exact Hs|lia].
        -- rewrite (Hend eq_refl). exists matched. split; [reflexivity|]. cbn [rt_values]. split; [auto|]. intros [[_ H]|(v & [] & _)]. exact H.
Qed.

Lemma filter_rt_spec ps types : Forall wf_pair ps -> exists b, filter_rt types (render ps) = Some b /\ (b = true <-> wanted types ps).
Proof.
  intros Hw. unfold filter_rt, wanted. pose proof (render_length ps Hw).
  destruct (rt_loop_spec ps types Hw (List.length ps) ps 0%nat (S (List.length (render ps))) true (le_n _) eq_refl ltac:(lia)) as (b & Hb & Hx).
  exists b. split; [exact Hb|]. rewrite Hx. intuition.
Qed.
