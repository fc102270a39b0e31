From Verif Require Import Common Rep_Model Hex_Model Hex_Spec Hex_Proofs Acl_Model Acl_Spec Acl_Proofs.
From Coq Require Import String.
Local Open Scope string_scope.
Local Open Scope list_scope.
Local Open Scope N_scope.

(** * Identifiers *)

Lemma upd_first_ids p f l : (forall a, match f a with Some a' => a_id a' = a_id a | None => False end) -> map a_id (upd_first p f l) = map a_id l.
Proof.
  intros H. induction l as [|a t IH]; [reflexivity|]. cbn [upd_first]. destruct (p a).
  - specialize (H a). destruct (f a) as [a'|]; [|contradiction]. cbn [map]. rewrite H. reflexivity.
  - cbn [map]. rewrite IH. reflexivity.
Qed.

Lemma upd_first_rm p l : forall a, In a (upd_first p (fun _ => None) l) -> In a l.
Proof. induction l as [|b t IH]; cbn [upd_first]; intros a H; [contradiction|]. destruct (p b); [right; exact H|]. destruct H as [<-|H]; [left; reflexivity|right; apply IH; exact H]. Qed.

Lemma upd_first_rm_nodup p l : NoDup (map a_id l) -> NoDup (map a_id (upd_first p (fun _ => None) l)).
Proof.
  induction l as [|b t IH]; cbn [upd_first map]; intros H; [constructor|]. apply NoDup_cons_iff in H. destruct H as [H1 H2].
  destruct (p b); [exact H2|]. cbn [map]. constructor; [|apply IH; exact H2].
  intros K. apply H1. apply in_map_iff in K. destruct K as (a & E & Hin). apply in_map_iff. exists a. split; [exact E|]. apply (upd_first_rm p). exact Hin.
Qed.

Lemma unique_aceid_spec l i : unique_aceid l i = true <-> ~ In i (map a_id l).
Proof.
  unfold unique_aceid. rewrite negb_true_iff. split.
  - intros H K. apply in_map_iff in K. destruct K as (a & E & Hin).
    assert (X : existsb (fun a => (a_id a =? i)%Z) l = true) by (apply existsb_exists; exists a; split; [exact Hin|apply Z.eqb_eq; exact E]). congruence.
  - intros H. destruct (existsb _ l) eqn:E; [|reflexivity]. apply existsb_exists in E. destruct E as (a & Hin & E).
    destruct H. apply in_map_iff. exists a. split; [apply Z.eqb_eq; exact E|exact Hin].
Qed.

Lemma new_aceid_fresh l : forall rnd i r, new_aceid l rnd = Some (i, r) -> ~ In i (map a_id l) /\ (0 <= i)%Z.
Proof.
  induction rnd as [|v t IH]; cbn [new_aceid]; intros i r H; [discriminate|].
  destruct (unique_aceid l (Z.of_N (v / 2))) eqn:E; [|exact (IH _ _ H)]. injection H as <- <-. split; [apply unique_aceid_spec; exact E|lia].
Qed.

Lemma match_tag_refl i s p t r : match_tag (mk_ace i s p t r) t = true.
Proof. unfold match_tag. cbn [a_tag]. destruct t; [apply list_eqb_refl|reflexivity]. Qed.

Lemma match_subject_refl i s p t r : match_subject (mk_ace i s p t r) s = true.
Proof. unfold match_subject. cbn [a_subj]. destruct s as [u|ro au|c]; rewrite ?list_eqb_refl; [reflexivity| |destruct c; reflexivity]. apply orb_true_r. Qed.

Lemma subj_sel_new i s p t r aceid : aceid = (-1)%Z \/ aceid = i -> subj_sel s aceid p t (mk_ace i s p t r) = true.
Proof.
  intros H. unfold subj_sel. rewrite match_tag_refl, match_subject_refl. cbn [a_id a_perm]. rewrite N.eqb_refl, orb_true_r, !andb_true_r.
  destruct H as [->| ->]; [reflexivity|]. rewrite Z.eqb_refl. apply orb_true_r.
Qed.

Lemma subj_sel_res s i p t a rs : subj_sel s i p t (mk_ace (a_id a) (a_subj a) (a_perm a) (a_tag a) rs) = subj_sel s i p t a.
Proof. reflexivity. Qed.

Lemma find_none_all {A} (p : A -> bool) l : find p l = None -> forall x, In x l -> p x = false.
Proof. apply find_none. Qed.

(** [K]: the ACE that carries the explicit identifier of an update is the one the update selects. *)
Definition K (s : subject) (aceid : Z) (perm : N) (tag : option (list N)) (l : list ace) : Prop :=
  aceid = (-1)%Z \/ forall a, In a l -> a_id a = aceid -> subj_sel s aceid perm tag a = true.

Lemma upd_first_in p f l a : In a (upd_first p f l) -> In a l \/ exists b, In b l /\ p b = true /\ f b = Some a.
Proof.
  induction l as [|b t IH]; cbn [upd_first]; [contradiction|]. destruct (p b) eqn:E.
  - destruct (f b) as [b'|] eqn:Ef; [|intros H; left; right; exact H]. intros [<-|H]; [right; exists b; repeat split; [left; reflexivity|exact E|exact Ef]|left; right; exact H].
  - intros [<-|H]; [left; left; reflexivity|]. destruct (IH H) as [H1|(b' & H1 & H2)]; [left; right; exact H1|right; exists b'; split; [right; exact H1|exact H2]].
Qed.

Lemma update_res_inv l rnd s aceid perm tag href w :
  unique_ids l -> K s aceid perm tag l ->
  match update_res l rnd s aceid perm tag href w with
  | UOk l' _ | UFail l' _ => unique_ids l' /\ K s aceid perm tag l' /\ (~ In (-1)%Z (map a_id l) -> ~ In (-1)%Z (map a_id l'))
  | UStuck => True
  end.
Proof.
  unfold unique_ids. intros Hu Hk. unfold update_res. destruct (find (subj_sel s aceid perm tag) l) as [a|] eqn:Ef.
  - destruct (get_or_add_res (a_res a) href w) as [rs|].
    + split; [rewrite upd_first_ids by (intros b; reflexivity); exact Hu|].
      split; [|rewrite upd_first_ids by (intros b; reflexivity); auto].
      destruct Hk as [Hk|Hk]; [left; exact Hk|right]. intros b Hb Ei.
      destruct (upd_first_in _ _ _ _ Hb) as [H|(c & Hc & Hs & [= <-])]; [apply Hk; assumption|].
      rewrite subj_sel_res. exact Hs.
    + split; [apply upd_first_rm_nodup; exact Hu|]. split.
      * destruct Hk as [Hk|Hk]; [left; exact Hk|right]. intros b Hb Ei. apply Hk; [apply (upd_first_rm _ _ _ Hb)|exact Ei].
      * intros Hn H. apply Hn. apply in_map_iff in H. destruct H as (b & E & Hin). apply in_map_iff. exists b. split; [exact E|apply (upd_first_rm _ _ _ Hin)].
  - destruct (if (aceid =? -1)%Z then new_aceid l rnd else Some (aceid, rnd)) as [[i rnd']|] eqn:Ei; [|exact I].
    assert (Fresh : ~ In i (map a_id l) /\ (aceid = (-1)%Z \/ aceid = i) /\ i <> (-1)%Z).
    { destruct (Z.eqb_spec aceid (-1)) as [E|E].
      - destruct (new_aceid_fresh _ _ _ _ Ei). split; [assumption|]. split; [left; exact E|lia].
      - injection Ei as <- <-. split; [|auto]. intros H. apply in_map_iff in H. destruct H as (a & Ea & Hin).
        destruct Hk as [Hk|Hk]; [contradiction|]. pose proof (Hk a Hin Ea) as H1. rewrite (find_none_all _ _ Ef a Hin) in H1. discriminate. }
    destruct Fresh as (F1 & F2 & F3).
    destruct (get_or_add_res [] href w) as [rs|].
    + split; [|split].
      * rewrite map_app. cbn [map a_id]. apply NoDup_app_snoc; assumption.
      * destruct Hk as [Hk|Hk]; [left; exact Hk|right]. intros b Hb Eb. apply in_app_iff in Hb. destruct Hb as [Hb|[<-|[]]]; [apply Hk; assumption|].
        apply subj_sel_new. exact F2.
      * intros Hn H. rewrite map_app in H. apply in_app_iff in H. destruct H as [H|[H|[]]]; [contradiction|]. cbn [a_id] in H. congruence.
    + auto.
Qed.

Lemma decode_resources_inv d : forall rs l rnd, unique_ids l -> K (ad_subj d) (ad_id d) (ad_perm d) (ad_tag d) l ->
  match decode_resources l rnd d rs with
  | DOk l' _ | DErr l' _ => unique_ids l' /\ (~ In (-1)%Z (map a_id l) -> ~ In (-1)%Z (map a_id l'))
  | DStuck => True
  end.
Proof.
  induction rs as [|o t IH]; intros l rnd Hu Hk; cbn [decode_resources]; [auto|].
  destruct (decode_res o None NoWc) as [[href w]|]; [|auto].
  pose proof (update_res_inv l rnd (ad_subj d) (ad_id d) (ad_perm d) (ad_tag d) href w Hu Hk) as H.
  destruct (update_res l rnd (ad_subj d) (ad_id d) (ad_perm d) (ad_tag d) href w) as [l' r'|l' r'|]; [| |exact I];
  destruct H as (H1 & H2 & H3); specialize (IH l' r' H1 H2); destruct (decode_resources l' r' d t); intuition.
Qed.

Lemma remove_id_gone l i : unique_ids l -> ~ In i (map a_id (remove_id l i)).
Proof.
  unfold unique_ids, remove_id. induction l as [|a t IH]; cbn [upd_first map]; intros H; [intros []|].
  apply NoDup_cons_iff in H. destruct H as [H1 H2]. destruct (Z.eqb_spec (a_id a) i) as [<-|Hne]; [exact H1|].
  cbn [map]. intros [K1|K1]; [contradiction|]. exact (IH H2 K1).
Qed.

Lemma decode_aces_inv : forall aces l rnd, unique_ids l ->
  match decode_aces l rnd aces with
  | DOk l' _ | DErr l' _ => unique_ids l' /\ (~ In (-1)%Z (map a_id l) -> ~ In (-1)%Z (map a_id l'))
  | DStuck => True
  end.
Proof.
  induction aces as [|o t IH]; intros l rnd Hu; cbn [decode_aces]; [auto|].
  destruct (decode_ace dec0 o) as [d|]; [|auto].
  set (l1 := if negb (ad_id d =? -1)%Z && negb (unique_aceid l (ad_id d)) then remove_id l (ad_id d) else l).
  assert (U1 : unique_ids l1) by (unfold l1; destruct (_ && _); [apply upd_first_rm_nodup; exact Hu|exact Hu]).
  assert (S1 : forall a, In a l1 -> In a l) by (unfold l1; intros a; destruct (_ && _); [apply upd_first_rm|auto]).
  assert (K1 : K (ad_subj d) (ad_id d) (ad_perm d) (ad_tag d) l1).
  { destruct (Z.eqb_spec (ad_id d) (-1)) as [E|E]; [left; exact E|right]. intros a Ha Ei. exfalso. revert Ha.
    unfold l1. destruct (Z.eqb_spec (ad_id d) (-1)) as [E'|_]; [contradiction|]. cbn [negb andb].
    destruct (unique_aceid l (ad_id d)) eqn:Eu; cbn [negb]; intros Ha.
    - apply unique_aceid_spec in Eu. apply Eu. apply in_map_iff. exists a. auto.
    - apply (remove_id_gone l (ad_id d) Hu). apply in_map_iff. exists a. auto. }
  pose proof (decode_resources_inv d (ad_res d) l1 rnd U1 K1) as H.
  assert (M : ~ In (-1)%Z (map a_id l) -> ~ In (-1)%Z (map a_id l1)).
  { intros Hn Hi. apply Hn. apply in_map_iff in Hi. destruct Hi as (a & E & Hin). apply in_map_iff. exists a. auto. }
  destruct (decode_resources l1 rnd d (ad_res d)) as [l2 r2|l2 r2|]; [|intuition|exact I].
  destruct H as [H1 H2]. specialize (IH l2 r2 H1). destruct (decode_aces l2 r2 t); intuition.
Qed.

Lemma decode_props_inv : forall o a rnd, unique_ids (l_aces a) ->
  match decode_props a rnd o with
  | AOk a' _ | AErr a' _ => unique_ids (l_aces a') /\ (~ In (-1)%Z (map a_id (l_aces a)) -> ~ In (-1)%Z (map a_id (l_aces a')))
  | AStuck => True
  end.
Proof.
  induction o as [|r t IH]; intros a rnd Hu; cbn [decode_props]; [auto|].
  destruct (snd r); try (exact (IH a rnd Hu)).
  - destruct (is_prop r (str "rowneruuid")); [|exact (IH a rnd Hu)].
    match goal with |- context[mk_acl (l_aces a) ?x] => exact (IH (mk_acl (l_aces a) x) rnd Hu) end.
  - pose proof (decode_aces_inv l (l_aces a) rnd Hu) as H.
    destruct (decode_aces (l_aces a) rnd l) as [l' r'|l' r'|]; [|exact H|exact I].
    destruct H as [H1 H2]. specialize (IH (mk_acl l' (l_owner a)) r' H1). destruct (decode_props _ r' t); intuition.
Qed.

Lemma astep_inv a rnd o a' rnd' : astep a rnd o = Some (a', rnd') -> unique_ids (l_aces a) ->
  unique_ids (l_aces a') /\ (~ In (-1)%Z (map a_id (l_aces a)) -> ~ In (-1)%Z (map a_id (l_aces a'))).
Proof.
  intros E Hu. destruct o as [d fs pl|s perm href|i|keep|]; cbn [astep] in E.
  - unfold decode_acl in E. destruct (precheck d fs pl).
    + pose proof (decode_props_inv pl a rnd Hu) as H. destruct (decode_props a rnd pl); [| |discriminate]; injection E as <- <-; exact H.
    + injection E as <- <-. auto.
  - pose proof (update_res_inv (l_aces a) rnd s (-1) perm None (Some href) NoWc Hu (or_introl eq_refl)) as H.
    destruct (update_res (l_aces a) rnd s (-1) perm None (Some href) NoWc); [| |discriminate]; injection E as <- <-; cbn [l_aces]; tauto.
  - injection E as <- <-. cbn [l_aces]. split; [apply upd_first_rm_nodup; exact Hu|].
    intros Hn Hi. apply Hn. apply in_map_iff in Hi. destruct Hi as (x & E & Hin). apply in_map_iff. exists x. split; [exact E|apply (upd_first_rm _ _ _ Hin)].
  - injection E as <- <-. cbn [l_aces]. split.
    + unfold unique_ids in *. induction (l_aces a) as [|x t IH]; [constructor|]. cbn [map] in Hu. apply NoDup_cons_iff in Hu. destruct Hu as [H1 H2].
      cbn [filter]. destruct (keep x); [|apply IH; exact H2]. cbn [map]. constructor; [|apply IH; exact H2].
      intros Hi. apply H1. apply in_map_iff in Hi. destruct Hi as (y & E & Hin). apply filter_In in Hin. apply in_map_iff. exists y. tauto.
    + intros Hn Hi. apply Hn. apply in_map_iff in Hi. destruct Hi as (x & E & Hin). apply filter_In in Hin. apply in_map_iff. exists x. tauto.
  - injection E as <- <-. split; [constructor|intros _ []].
Qed.

Lemma arun_inv : forall os a rnd a' rnd', arun a rnd os = Some (a', rnd') -> unique_ids (l_aces a) -> ~ In (-1)%Z (map a_id (l_aces a)) ->
  unique_ids (l_aces a') /\ ~ In (-1)%Z (map a_id (l_aces a')).
Proof.
  induction os as [|o t IH]; intros a rnd a' rnd' E Hu Hn; cbn [arun] in E.
  - injection E as <- <-. auto.
  - destruct (astep a rnd o) as [[a1 r1]|] eqn:E1; [|discriminate]. destruct (astep_inv _ _ _ _ _ E1 Hu). apply (IH a1 r1 a' rnd'); auto.
Qed.

(** * Frame: entries an update does not select stay as they are *)

Lemma upd_first_frame (p : ace -> bool) f l a : p a = false -> (forall b b', f b = Some b' -> p b = true -> p b' = true) -> In a (upd_first p f l) <-> In a l.
Proof.
  intros Hp Hf. induction l as [|b t IH]; cbn [upd_first]; [tauto|]. destruct (p b) eqn:Eb.
  - assert (b <> a) by congruence. destruct (f b) as [b'|] eqn:Ef; cbn [In]; [|tauto].
    pose proof (Hf _ _ Ef Eb). assert (b' <> a) by congruence. tauto.
  - cbn [In]. rewrite IH. tauto.
Qed.

Lemma update_res_frame l rnd s aceid perm tag href w a : subj_sel s aceid perm tag a = false ->
  match update_res l rnd s aceid perm tag href w with UOk l' _ | UFail l' _ => In a l' <-> In a l | UStuck => True end.
Proof.
  intros Hs. unfold update_res. destruct (find (subj_sel s aceid perm tag) l) as [b|].
  - destruct (get_or_add_res (a_res b) href w) as [rs|]; apply upd_first_frame; try exact Hs.
    + intros c c' [= <-] Hc. rewrite subj_sel_res. exact Hc.
    + intros c c' [=].
  - destruct (if (aceid =? -1)%Z then new_aceid l rnd else Some (aceid, rnd)) as [[i rnd']|] eqn:Ei; [|exact I].
    assert (Hi : aceid = (-1)%Z \/ aceid = i) by (destruct (Z.eqb_spec aceid (-1)); [left; assumption|injection Ei; auto]).
    destruct (get_or_add_res [] href w) as [rs|]; [|tauto]. rewrite in_app_iff. cbn [In].
    assert (mk_ace i s perm tag rs <> a) by (intros <-; rewrite (subj_sel_new i s perm tag rs aceid Hi) in Hs; discriminate). tauto.
Qed.

Lemma decode_resources_frame d a : subj_sel (ad_subj d) (ad_id d) (ad_perm d) (ad_tag d) a = false -> forall rs l rnd,
  match decode_resources l rnd d rs with DOk l' _ | DErr l' _ => In a l' <-> In a l | DStuck => True end.
Proof.
  intros Hs. induction rs as [|o t IH]; intros l rnd; cbn [decode_resources]; [tauto|].
  destruct (decode_res o None NoWc) as [[href w]|]; [|tauto].
  pose proof (update_res_frame l rnd (ad_subj d) (ad_id d) (ad_perm d) (ad_tag d) href w a Hs) as H.
  destruct (update_res l rnd (ad_subj d) (ad_id d) (ad_perm d) (ad_tag d) href w) as [l' r'|l' r'|]; [| |exact I];
  specialize (IH l' r'); destruct (decode_resources l' r' d t); tauto.
Qed.

Lemma decode_aces_frame a : forall aces l rnd,
  (forall o d, In o aces -> decode_ace dec0 o = Some d -> subj_sel (ad_subj d) (ad_id d) (ad_perm d) (ad_tag d) a = false /\ a_id a <> ad_id d) ->
  match decode_aces l rnd aces with DOk l' _ | DErr l' _ => In a l' <-> In a l | DStuck => True end.
Proof.
  induction aces as [|o t IH]; intros l rnd H; cbn [decode_aces]; [tauto|].
  destruct (decode_ace dec0 o) as [d|] eqn:Ed; [|tauto].
  destruct (H o d (or_introl eq_refl) Ed) as [Hs Hi].
  set (l1 := if negb (ad_id d =? -1)%Z && negb (unique_aceid l (ad_id d)) then remove_id l (ad_id d) else l).
  assert (E1 : In a l1 <-> In a l).
  { unfold l1. destruct (_ && _); [|tauto]. unfold remove_id. apply upd_first_frame; [apply Z.eqb_neq; exact Hi|intros b b' [=]]. }
  pose proof (decode_resources_frame d a Hs (ad_res d) l1 rnd) as H1.
  destruct (decode_resources l1 rnd d (ad_res d)) as [l2 r2|l2 r2|]; [|tauto|exact I].
  specialize (IH l2 r2 (fun o' d' Hin => H o' d' (or_intror Hin))). destruct (decode_aces l2 r2 t); tauto.
Qed.

(** * Normal operation *)

Lemma decode_rfnop_unchanged a rnd o : match decode_acl RFNOP false a rnd o with AOk a' r | AErr a' r => a' = a /\ r = rnd | AStuck => False end.
Proof.
  unfold decode_acl. destruct (precheck RFNOP false o) eqn:E; [|auto]. revert E. induction o as [|r t IH]; [cbn; auto|].
  unfold precheck. cbn [forallb decode_props]. rewrite andb_true_iff. fold (precheck RFNOP false t). intros [E1 E2].
  destruct (snd r); try (exact (IH E2)).
  - destruct (is_prop r (str "rowneruuid")); [discriminate E1|exact (IH E2)].
  - discriminate E1.
Qed.

Lemma precheck_rejects d a rnd o : precheck d false o = false -> decode_acl d false a rnd o = AErr a rnd.
Proof. intros H. unfold decode_acl. rewrite H. reflexivity. Qed.

(** * Storage *)

Lemma uuid_print_nz : forall u i n s, uuid_print i u n = Some s -> Forall (fun c => c <> 0) s.
Proof.
  assert (Hh : forall d, hexchar d <> 0) by (intros d; unfold hexchar; destruct (N.ltb_spec d 10); lia).
  induction u as [|b r IH]; intros i n s H; cbn [uuid_print] in H; [injection H as <-; constructor|].
  destruct (Nat.eqb i 4 || Nat.eqb i 6 || Nat.eqb i 8 || Nat.eqb i 10)%bool.
  - destruct (Nat.leb n 1); [discriminate|]. destruct (Nat.leb (n - 1) 2); [discriminate|].
    destruct (uuid_print (S i) r (n - 1 - 2)) eqn:E; [|discriminate]. injection H as <-. unfold hex2. cbn [app].
    repeat constructor; try discriminate; try apply Hh. exact (IH _ _ _ E).
  - destruct (Nat.leb n 2); [discriminate|].
    destruct (uuid_print (S i) r (n - 2)) eqn:E; [|discriminate]. injection H as <-. unfold hex2. cbn [app].
    repeat constructor; try apply Hh. exact (IH _ _ _ E).
Qed.

Lemma cstr_nz s : Forall (fun c => c <> 0) s -> cstr s = s.
Proof. induction 1 as [|c t H _ IH]; [reflexivity|]. cbn [cstr]. destruct (N.eqb_spec c 0); [contradiction|]. rewrite IH. reflexivity. Qed.

Lemma uuid_text_exists u : typed_uuid u -> exists s, uuid_to_str u 37 = Some s /\ Forall (fun c => c <> 0) s /\ (List.length s < 37)%nat /\
  snd (str_to_uuid_v1 s) = Some u /\ (fst (str_to_uuid_v1 s) > 0)%Z.
Proof.
  intros [Hb Hl]. destruct (list_eqb u wildcard) eqn:E.
  - unfold uuid_to_str. rewrite E. exists [42]. split; [reflexivity|]. split; [repeat constructor; discriminate|]. split; [cbn [List.length]; lia|].
    apply (uuid_roundtrip u 37); try assumption. unfold uuid_to_str. rewrite E. reflexivity.
  - destruct (uuid_to_str_spec u 37 Hb Hl) as (s & Es & _ & _); [intros ->; rewrite list_eqb_refl in E; discriminate|lia|].
    exists s. split; [exact Es|]. pose proof (uuid_roundtrip u 37 s Hb Hl Es) as R. unfold uuid_to_str in Es. rewrite E in Es.
    split; [exact (uuid_print_nz _ _ _ _ Es)|]. split; [|exact R]. destruct (uuid_print_fits _ _ _ _ Es) as [->|H]; [discriminate Hl|exact H].
Qed.

Lemma decode_encode_subject s : match s with SUuid u => typed_uuid u | _ => True end -> decode_subject (encode_subject s) = Some s.
Proof.
  destruct s as [u|r a|c]; intros H.
  - destruct (uuid_text_exists u H) as (t & Et & _ & _ & E1 & E2). unfold encode_subject. rewrite Et. unfold decode_subject.
    change (subject_strings [(str "uuid", RStr t)] None None None None) with (Some (Some t, @None (list N), @None (list N), @None (list N))). cbv iota beta.
    destruct (str_to_uuid_v1 t) as [n o]. cbn [fst snd] in *. rewrite E1. destruct (Z.ltb_spec n 0); [lia|reflexivity].
  - destruct a; reflexivity.
  - destruct c; reflexivity.
Qed.

Lemma to_int_id z : (-2147483648 <= z <= 2147483647)%Z -> to_int z = z.
Proof.
  intros H. unfold to_int. change (2 ^ 32)%Z with 4294967296%Z. change (2 ^ 31)%Z with 2147483648%Z.
  destruct (Z.ltb_spec (z mod 4294967296) 2147483648); lia.
Qed.

Lemma to_u16_id p : p < 65536 -> to_u16 (Z.of_N p) = p.
Proof. intros H. unfold to_u16. rewrite Z.mod_small by lia. apply N2Z.id. Qed.

Lemma decode_encode_ace a : storable a -> a_res a <> [] ->
  decode_ace dec0 (encode_ace a true) = Some (mk_dec (a_subj a) (a_perm a) (a_id a) (a_tag a) (map encode_res (a_res a))).
Proof.
  intros ((Hi & Hp & Hs) & Ht & _) Hr. unfold encode_ace. cbn [app].
  assert (P1 : forall d o, decode_ace_prop d (str "subject", RObj o) = match decode_subject o with Some s => Some (mk_dec s (ad_perm d) (ad_id d) (ad_tag d) (ad_res d)) | None => None end) by reflexivity.
  assert (P2 : forall d l, decode_ace_prop d (str "resources", RObjArr l) = Some (mk_dec (ad_subj d) (ad_perm d) (ad_id d) (ad_tag d) l)) by reflexivity.
  assert (P3 : forall d z, decode_ace_prop d (str "permission", RInt z) = if (z >? 65535)%Z then None else Some (mk_dec (ad_subj d) (to_u16 z) (ad_id d) (ad_tag d) (ad_res d))) by reflexivity.
  assert (P4 : forall d z, decode_ace_prop d (str "aceid", RInt z) = if (z >? 2147483647)%Z then None else Some (mk_dec (ad_subj d) (ad_perm d) (to_int z) (ad_tag d) (ad_res d))) by reflexivity.
  assert (P5 : forall d s, decode_ace_prop d (str "tag", RStr s) = Some (mk_dec (ad_subj d) (ad_perm d) (ad_id d) (Some s) (ad_res d))) by reflexivity.
  cbn [decode_ace]. rewrite P1, (decode_encode_subject _ Hs).
  destruct (a_res a) as [|r rs] eqn:Er; [contradiction|]. rewrite <- Er. cbn [app]. cbn [decode_ace]. rewrite P2. cbn [decode_ace]. rewrite P3.
  destruct (Z.gtb_spec (Z.of_N (a_perm a)) 65535); [lia|]. cbn [decode_ace]. rewrite P4.
  destruct (Z.gtb_spec (a_id a) 2147483647); [lia|]. rewrite (to_u16_id _ Hp), (to_int_id _ Hi).
  destruct (a_tag a) as [[|c t]|]; [congruence| |]; cbn [decode_ace]; rewrite ?P5; reflexivity.
Qed.

(** How a resource list built by the code relates to reloading it. *)
Definition key (e : ace_res) : option (list N) := match ar_href e with [] => None | h => Some h end.
Definition built (l : list ace_res) : Prop :=
  forall l1 e l2, l = l1 ++ e :: l2 -> exists h, find_res l1 h (wc_code (ar_wc e)) = None /\ new_res h (ar_wc e) = Some e.
Definition irredundant (l : list ace_res) : Prop :=
  forall l1 e l2, l = l1 ++ e :: l2 -> find_res l1 (key e) (wc_code (ar_wc e)) = None.

Lemma find_res_ext l h h' w : (forall e, In e l -> res_match e h w = res_match e h' w) -> find_res l h w = None -> find_res l h' w = None.
Proof.
  intros H. induction l as [|e t IH]; [reflexivity|]. cbn [find_res]. rewrite <- (H e (or_introl eq_refl)).
  destruct (res_match e h w); [discriminate|]. apply IH. intros x Hx. apply H. right. exact Hx.
Qed.

Lemma built_irredundant l : Forall one_kind l -> built l -> irredundant l.
Proof.
  intros Ho Hb l1 e l2 E. destruct (Hb l1 e l2 E) as (h & Hf & Hn). unfold key.
  destruct h as [h|].
  - assert (Ee : e = mk_res h (ar_wc e)) by (destruct (ar_wc e) eqn:Ew; cbn [new_res] in Hn; injection Hn as <-; reflexivity).
    assert (Eh : ar_href e = h) by (rewrite Ee; reflexivity). rewrite Eh. destruct h as [|c h]; [|exact Hf].
    revert Hf. apply find_res_ext. intros x Hx.
    rewrite Forall_forall in Ho. assert (Hk : one_kind x) by (apply Ho; rewrite E; apply in_or_app; left; exact Hx).
    unfold res_match. destruct Hk as [[Hk1 Hk2]|[Hk1 Hk2]].
    + destruct (ar_href x) as [|b hx]; [contradiction|]. rewrite Hk2. cbn [wc_code]. change (0 =? 0) with true. rewrite andb_false_r.
      cbn [match_uri]. reflexivity.
    + rewrite Hk1. reflexivity.
  - destruct (ar_wc e) eqn:Ew; cbn [new_res] in Hn; [discriminate| | |]; injection Hn as <-; cbn [ar_href]; exact Hf.
Qed.

Lemma get_or_add_built l h w l' : get_or_add_res l h w = Some l' -> built l -> built l' /\ l' <> [].
Proof.
  unfold get_or_add_res. destruct (find_res l h (wc_code w)) as [[e t]|] eqn:Ef.
  - intros [= <-] Hb. split; [exact Hb|]. intros ->. discriminate Ef.
  - destruct (new_res h w) as [r|] eqn:En; [|discriminate]. intros [= <-] Hb. split; [|destruct l; discriminate].
    assert (Ew : ar_wc r = w) by (destruct h, w; cbn [new_res] in En; try discriminate; injection En as <-; reflexivity).
    intros l1 e l2 E. destruct (exists_last (l := e :: l2)) as (m & x & Em); [discriminate|]. rewrite Em, app_assoc in E.
    apply app_inj_tail in E. destruct E as [E <-]. destruct m as [|y m].
    + cbn [app] in Em. injection Em as <- ->. rewrite app_nil_r in E. subst l1. exists h. rewrite Ew. auto.
    + cbn [app] in Em. injection Em as <- ->. apply (Hb l1 e m). exact E.
Qed.

Definition all_built (l : list ace) : Prop := Forall (fun a => built (a_res a) /\ a_res a <> []) l.

Lemma update_res_built l rnd s aceid perm tag href w : all_built l ->
  match update_res l rnd s aceid perm tag href w with UOk l' _ | UFail l' _ => all_built l' | UStuck => True end.
Proof.
  intros H. unfold update_res, all_built in *. rewrite Forall_forall in H. destruct (find (subj_sel s aceid perm tag) l) as [a|] eqn:Ef.
  - assert (Ha : In a l) by (apply find_some in Ef; tauto).
    destruct (get_or_add_res (a_res a) href w) as [rs|] eqn:Eg; rewrite Forall_forall.
    + intros b Hb. apply upd_first_in in Hb. destruct Hb as [Hb|(c & Hc & _ & [= <-])]; [apply H; exact Hb|].
      cbn [a_res]. apply (get_or_add_built _ _ _ _ Eg). apply H. exact Ha.
    + intros b Hb. apply H. apply (upd_first_rm _ _ _ Hb).
  - destruct (if (aceid =? -1)%Z then new_aceid l rnd else Some (aceid, rnd)) as [[i rnd']|]; [|exact I].
    destruct (get_or_add_res [] href w) as [rs|] eqn:Eg; rewrite Forall_forall.
    + intros b Hb. apply in_app_iff in Hb. destruct Hb as [Hb|[<-|[]]]; [apply H; exact Hb|]. cbn [a_res]. apply (get_or_add_built _ _ _ _ Eg).
      intros l1 e l2 E. destruct l1; discriminate E.
    + exact H.
Qed.

Lemma decode_resources_built d : forall rs l rnd, all_built l ->
  match decode_resources l rnd d rs with DOk l' _ | DErr l' _ => all_built l' | DStuck => True end.
Proof.
  induction rs as [|o t IH]; intros l rnd H; cbn [decode_resources]; [exact H|].
  destruct (decode_res o None NoWc) as [[href w]|]; [|exact H].
  pose proof (update_res_built l rnd (ad_subj d) (ad_id d) (ad_perm d) (ad_tag d) href w H) as H1.
  destruct (update_res l rnd (ad_subj d) (ad_id d) (ad_perm d) (ad_tag d) href w) as [l' r'|l' r'|]; [| |exact I]; apply IH; exact H1.
Qed.

Lemma Forall_upd_first_rm (P : ace -> Prop) p l : Forall P l -> Forall P (upd_first p (fun _ => None) l).
Proof. rewrite !Forall_forall. intros H b Hb. apply H. apply (upd_first_rm _ _ _ Hb). Qed.

Lemma decode_aces_built : forall aces l rnd, all_built l ->
  match decode_aces l rnd aces with DOk l' _ | DErr l' _ => all_built l' | DStuck => True end.
Proof.
  induction aces as [|o t IH]; intros l rnd H; cbn [decode_aces]; [exact H|].
  destruct (decode_ace dec0 o) as [d|]; [|exact H].
  set (l1 := if negb (ad_id d =? -1)%Z && negb (unique_aceid l (ad_id d)) then remove_id l (ad_id d) else l).
  assert (H1 : all_built l1) by (unfold l1; destruct (_ && _); [apply Forall_upd_first_rm; exact H|exact H]).
  pose proof (decode_resources_built d (ad_res d) l1 rnd H1) as H2.
  destruct (decode_resources l1 rnd d (ad_res d)) as [l2 r2|l2 r2|]; [apply IH; exact H2|exact H2|exact I].
Qed.

Lemma decode_props_built : forall o a rnd, all_built (l_aces a) ->
  match decode_props a rnd o with AOk a' _ | AErr a' _ => all_built (l_aces a') | AStuck => True end.
Proof.
  induction o as [|r t IH]; intros a rnd H; cbn [decode_props]; [exact H|].
  destruct (snd r); try (exact (IH a rnd H)).
  - destruct (is_prop r (str "rowneruuid")); [|exact (IH a rnd H)].
    match goal with |- context[mk_acl (l_aces a) ?x] => exact (IH (mk_acl (l_aces a) x) rnd H) end.
  - pose proof (decode_aces_built l (l_aces a) rnd H) as H1.
    destruct (decode_aces (l_aces a) rnd l) as [l' r'|l' r'|]; [|exact H1|exact I]. apply (IH (mk_acl l' (l_owner a)) r' H1).
Qed.

Lemma astep_built a rnd o a' rnd' : astep a rnd o = Some (a', rnd') -> all_built (l_aces a) -> all_built (l_aces a').
Proof.
  intros E H. destruct o as [d fs pl|s perm href|i|keep|]; cbn [astep] in E.
  - unfold decode_acl in E. destruct (precheck d fs pl).
    + pose proof (decode_props_built pl a rnd H) as H1. destruct (decode_props a rnd pl); [| |discriminate]; injection E as <- <-; exact H1.
    + injection E as <- <-. exact H.
  - pose proof (update_res_built (l_aces a) rnd s (-1) perm None (Some href) NoWc H) as H1.
    destruct (update_res (l_aces a) rnd s (-1) perm None (Some href) NoWc); [| |discriminate]; injection E as <- <-; exact H1.
  - injection E as <- <-. apply Forall_upd_first_rm. exact H.
  - injection E as <- <-. cbn [l_aces]. unfold all_built in *. rewrite Forall_forall in *. intros x Hx. apply filter_In in Hx. apply H. tauto.
  - injection E as <- <-. constructor.
Qed.

Lemma arun_built : forall os a rnd a' rnd', arun a rnd os = Some (a', rnd') -> all_built (l_aces a) -> all_built (l_aces a').
Proof.
  induction os as [|o t IH]; intros a rnd a' rnd' E H; cbn [arun] in E.
  - injection E as <- <-. exact H.
  - destruct (astep a rnd o) as [[a1 r1]|] eqn:E1; [|discriminate]. apply (IH a1 r1 a' rnd' E). apply (astep_built _ _ _ _ _ E1 H).
Qed.

Lemma decode_encode_res e : one_kind e -> decode_res (encode_res e) None NoWc = Some (key e, ar_wc e).
Proof.
  destruct e as [h w]. unfold one_kind, key. cbn [ar_href ar_wc encode_res]. intros [[H1 ->]|[-> H2]].
  - destruct h as [|c h]; [contradiction|]. reflexivity.
  - destruct w; [contradiction| | |]; reflexivity.
Qed.

Lemma find_app_skip {A} (p : A -> bool) l x t : (forall y, In y l -> p y = false) -> p x = true -> find p (l ++ x :: t) = Some x.
Proof. intros H Hx. induction l as [|y l IH]; cbn [app find]; [rewrite Hx; reflexivity|]. rewrite (H y (or_introl eq_refl)). apply IH. intros z Hz. apply H. right. exact Hz. Qed.

Lemma upd_first_skip p f l x t : (forall y, In y l -> p y = false) -> p x = true ->
  upd_first p f (l ++ x :: t) = l ++ (match f x with Some x' => x' :: t | None => t end).
Proof. intros H Hx. induction l as [|y l IH]; cbn [app upd_first]; [rewrite Hx; reflexivity|]. rewrite (H y (or_introl eq_refl)). rewrite IH; [reflexivity|]. intros z Hz. apply H. right. exact Hz. Qed.

Lemma new_res_key e : one_kind e -> new_res (key e) (ar_wc e) = Some e.
Proof. destruct e as [h w]. unfold one_kind, key. cbn [ar_href ar_wc]. intros [[H1 ->]|[-> H2]]; [destruct h; [contradiction|reflexivity]|destruct w; [contradiction| | |]; reflexivity]. Qed.

Lemma reload_rest i s p t rs0 l : i <> (-1)%Z -> ~ In i (map a_id l) -> forall rs2 rs1 rnd, Forall one_kind rs2 -> irredundant (rs1 ++ rs2) ->
  decode_resources (l ++ [mk_ace i s p t rs1]) rnd (mk_dec s p i t rs0) (map encode_res rs2) = DOk (l ++ [mk_ace i s p t (rs1 ++ rs2)]) rnd.
Proof.
  intros Hi Hn. induction rs2 as [|e rs2 IH]; intros rs1 rnd Ho Hr; cbn [map decode_resources]; [rewrite app_nil_r; reflexivity|].
  inversion Ho; subst. rewrite decode_encode_res by assumption. cbn [ad_subj ad_id ad_perm ad_tag].
  assert (Sk : forall y, In y l -> subj_sel s i p t y = false).
  { intros y Hy. unfold subj_sel. destruct (Z.eqb_spec i (-1)); [contradiction|]. destruct (Z.eqb_spec (a_id y) i) as [E|]; [|reflexivity].
    exfalso. apply Hn. apply in_map_iff. exists y. auto. }
  assert (Sx : subj_sel s i p t (mk_ace i s p t rs1) = true) by (apply subj_sel_new; right; reflexivity).
  unfold update_res. rewrite (find_app_skip _ _ _ _ Sk Sx). cbn [a_res]. unfold get_or_add_res. rewrite (Hr rs1 e rs2 eq_refl), new_res_key by assumption.
  rewrite (upd_first_skip _ _ _ _ _ Sk Sx). cbn [a_id a_subj a_perm a_tag].
  replace (rs1 ++ e :: rs2) with ((rs1 ++ [e]) ++ rs2) in Hr |- * by (rewrite <- app_assoc; reflexivity). apply IH; assumption.
Qed.

Lemma reload_one l rnd a : storable a -> a_id a <> (-1)%Z -> ~ In (a_id a) (map a_id l) -> a_res a <> [] -> irredundant (a_res a) ->
  decode_aces l rnd [encode_ace a true] = DOk (l ++ [a]) rnd.
Proof.
  intros Hs Hi Hn Hr Hir. cbn [decode_aces]. rewrite (decode_encode_ace a Hs Hr). cbn [ad_id ad_res].
  apply unique_aceid_spec in Hn as Hn'. rewrite Hn'. rewrite andb_false_r.
  destruct Hs as (_ & _ & Ho). destruct a as [i s p t rs]. cbn [a_id a_subj a_perm a_tag a_res] in *.
  destruct rs as [|e rs]; [contradiction|]. cbn [map decode_resources]. inversion Ho; subst. rewrite decode_encode_res by assumption.
  cbn [ad_subj ad_id ad_perm ad_tag]. unfold update_res.
  replace (find (subj_sel s i p t) l) with (@None ace).
  2:{ symmetry. destruct (find (subj_sel s i p t) l) as [b|] eqn:Ef; [|reflexivity]. apply find_some in Ef. destruct Ef as [Hin Hb]. exfalso.
      unfold subj_sel in Hb. destruct (Z.eqb_spec i (-1)); [contradiction|]. destruct (Z.eqb_spec (a_id b) i) as [E|]; [|discriminate Hb].
      apply Hn. apply in_map_iff. exists b. auto. }
  destruct (Z.eqb_spec i (-1)); [contradiction|]. unfold get_or_add_res. cbn [find_res]. rewrite new_res_key by assumption. cbn [app].
  rewrite (reload_rest i s p t _ l Hi Hn rs [e] rnd) by assumption. reflexivity.
Qed.

Lemma decode_aces_app : forall x l rnd y l' r', decode_aces l rnd x = DOk l' r' -> decode_aces l rnd (x ++ y) = decode_aces l' r' y.
Proof.
  induction x as [|o x IH]; intros l rnd y l' r' E; cbn [decode_aces app] in *; [injection E as <- <-; reflexivity|].
  destruct (decode_ace dec0 o) as [d|]; [|discriminate]. destruct (decode_resources _ rnd d (ad_res d)); [|discriminate|discriminate].
  apply IH. exact E.
Qed.

Lemma reload_all : forall l2 l1 rnd, NoDup (map a_id (l1 ++ l2)) -> ~ In (-1)%Z (map a_id l2) -> Forall storable l2 -> all_built l2 ->
  decode_aces l1 rnd (map (fun x => encode_ace x true) l2) = DOk (l1 ++ l2) rnd.
Proof.
  induction l2 as [|a l2 IH]; intros l1 rnd Hn Hm Hs Hb; [rewrite app_nil_r; reflexivity|].
  inversion Hs; subst. unfold all_built in Hb. inversion Hb; subst. cbn [map In] in Hm.
  change (map (fun x => encode_ace x true) (a :: l2)) with ([encode_ace a true] ++ map (fun x => encode_ace x true) l2).
  rewrite (decode_aces_app _ _ _ _ (l1 ++ [a]) rnd).
  - replace (l1 ++ a :: l2) with ((l1 ++ [a]) ++ l2) in Hn |- * by (rewrite <- app_assoc; reflexivity). apply IH; auto.
  - apply reload_one; auto; try tauto.
    + rewrite map_app in Hn. cbn [map] in Hn. apply NoDup_remove_2 in Hn. intros K. apply Hn. apply in_or_app. left. exact K.
    + apply built_irredundant; [|tauto]. destruct H1 as (_ & _ & Ho). exact Ho.
Qed.

Lemma reload a a0 rnd rnd' os d : arun (mk_acl [] nil_uuid) rnd os = Some (a, rnd') -> Forall storable (l_aces a) -> typed_uuid (l_owner a) ->
  l_aces a0 = [] -> decode_acl d true a0 rnd' (encode_acl a true) = AOk a rnd'.
Proof.
  intros E Hs Ho H0.
  destruct (arun_inv os _ _ _ _ E (NoDup_nil _) (fun x => x)) as [Hu Hm].
  pose proof (arun_built os _ _ _ _ E (Forall_nil _)) as Hb.
  destruct (uuid_text_exists _ Ho) as (t & Et & Hz & Hlen & E1 & _).
  unfold encode_acl. rewrite Et.
  assert (R : forall x, decode_props (mk_acl (l_aces a) x) rnd' [(str "rowneruuid", RStr t)] = AOk a rnd').
  { intros x. cbn [decode_props snd]. change (is_prop (str "rowneruuid", RStr t) (str "rowneruuid")) with true. cbv iota.
    rewrite (cstr_nz _ Hz), firstn_all2 by lia. rewrite E1. destruct a; reflexivity. }
  unfold decode_acl.
  replace (precheck d true _) with true by (unfold precheck; destruct (l_aces a); reflexivity).
  destruct a0 as [l0 o0]. cbn [l_aces] in H0. subst l0.
  destruct (l_aces a) as [|x l] eqn:El.
  - cbn [decode_props snd]. apply R.
  - rewrite <- El in *. assert (Ea : decode_aces [] rnd' (map (fun x => encode_ace x true) (l_aces a)) = DOk (l_aces a) rnd') by (apply (reload_all (l_aces a) [] rnd'); assumption).
    change (match decode_aces [] rnd' (map (fun x0 => encode_ace x0 true) (l_aces a)) with
      | DOk l' r' => decode_props (mk_acl l' o0) r' [(str "rowneruuid", RStr t)] | DErr l' r' => AErr (mk_acl l' o0) r' | DStuck => AStuck end = AOk a rnd').
    rewrite Ea. apply R.
Qed.
