From Verif Require Import Common Rep_Model Acl_Model Acl_Spec.
From Coq Require Import String.
Local Open Scope string_scope.
Local Open Scope list_scope.
Local Open Scope N_scope.

(** * Bits *)

Lemma bit_testbit p k : bit p (2 ^ k) = N.testbit p k.
Proof.
  unfold bit. destruct (N.testbit p k) eqn:E.
  - apply negb_true_iff, N.eqb_neq. intros H.
    assert (H' : N.testbit (N.land p (2 ^ k)) k = false) by (rewrite H; apply N.bits_0).
    rewrite N.land_spec, E, N.pow2_bits_true in H'. discriminate.
  - apply negb_false_iff, N.eqb_eq, N.bits_inj. intros j.
    rewrite N.land_spec, N.bits_0, N.pow2_bits_eqb. destruct (N.eqb_spec k j) as [<-|]; [rewrite E; reflexivity|apply andb_false_r].
Qed.

Lemma eval_access_spec m p : eval_access m p = true <-> permits m p.
Proof.
  unfold eval_access. destruct (N.eqb_spec p 0) as [->|Hne].
  - split; [discriminate|]. destruct m; cbn [permits]; rewrite ?N.bits_0; intuition discriminate.
  - destruct m; cbn [permits];
    change PERM_RETRIEVE with (2 ^ 1); change PERM_NOTIFY with (2 ^ 4); change PERM_CREATE with (2 ^ 0);
    change PERM_UPDATE with (2 ^ 2); change PERM_DELETE with (2 ^ 3); rewrite ?bit_testbit, ?orb_true_iff; intuition discriminate.
Qed.

(** * Classes of resources *)

Lemma is_DCR_spec r : is_DCR r = true <-> dcr r.
Proof.
  unfold is_DCR, is_platform, dcr. destruct (r_core r) as [c|]; split.
  - intros H. exists c. split; [reflexivity|]. destruct c; cbn [In]; auto 20; exfalso; vm_compute in H; discriminate.
  - intros (c' & [= <-] & Hin). destruct c; try (vm_compute; reflexivity); exfalso; cbn [In] in Hin; intuition discriminate.
  - discriminate.
  - intros (c & [=] & _).
Qed.

Lemma is_SVR_spec r : is_SVR r = true <-> svr r.
Proof.
  unfold is_SVR, svr. destruct (r_core r) as [c|]; split.
  - intros H. exists c. split; [reflexivity|]. destruct c; cbn [In]; auto 20; exfalso; vm_compute in H; discriminate.
  - intros (c' & [= <-] & Hin). destruct c; try (vm_compute; reflexivity); exfalso; cbn [In] in Hin; intuition discriminate.
  - discriminate.
  - intros (c & [=] & _).
Qed.

Lemma is_vertical_spec r : negb (is_DCR r) && is_vertical r = true <-> application r.
Proof.
  unfold application, is_DCR, is_vertical, is_platform. destruct (r_core r) as [c|].
  - split; [|discriminate]. destruct c; vm_compute; discriminate.
  - split; reflexivity.
Qed.

Lemma match_uri_rooted h u : rooted u -> match_uri h u = true <-> u = h.
Proof. intros (t & ->). unfold match_uri. change (47 =? 47) with true. cbv iota. apply list_eqb_spec. Qed.

(** * Coverage *)

Lemma entry_match e r : rooted (r_uri r) ->
  res_match e (Some (r_uri r)) (wc_of r (is_DCR r) (negb (r_secure r))) = true <-> entry_covers e r.
Proof.
  intros Hr. unfold entry_covers, res_match, wc_of. pose proof (is_DCR_spec r) as Hd.
  destruct e as [h w]. cbn [ar_href ar_wc].
  destruct (is_DCR r) eqn:Ed.
  - assert (D : dcr r) by (apply Hd; reflexivity). change (0 =? 0) with true. cbn [negb andb].
    destruct h as [|c h].
    + split; [discriminate|]. intros [[_ H]|[H _]]; [|contradiction]. destruct Hr as (t & Ht). congruence.
    + destruct (match_uri (c :: h) (r_uri r)) eqn:Em.
      * apply match_uri_rooted in Em; [|exact Hr]. split; [|reflexivity]. intros _. left. auto.
      * split; [discriminate|]. intros [[_ H]|[H _]]; [|contradiction]. symmetry in H.
        apply (match_uri_rooted _ _ Hr) in H. congruence.
  - assert (D : ~ dcr r) by (intros H; apply Hd in H; discriminate).
    set (pub := negb (r_secure r)).
    assert (Hne : forall x : N, (if r_discoverable r then if pub then N.lor 1 16 else 1 else 273) =? 0 = false)
      by (intros _; destruct (r_discoverable r), pub; vm_compute; reflexivity).
    rewrite (Hne 0). cbn [negb andb].
    assert (W : (if negb (wc_code w =? 0) then match_wildcard (if r_discoverable r then if pub then N.lor 1 16 else 1 else 273) (wc_code w) else true) = true
                <-> (w = NoWc \/ wildcard_covers w r)).
    { unfold wildcard_covers, pub. destruct w, (r_discoverable r), (r_secure r); cbn [negb wc_code];
        match goal with |- ?b = true <-> _ => let v := eval vm_compute in b in change b with v end; intuition (try discriminate; auto). }
    destruct h as [|c h].
    + assert (W2 : (if negb (wc_code w =? 0) then match_wildcard (if r_discoverable r then if pub then N.lor 1 16 else 1 else 273) (wc_code w) else false) = true
                <-> ((w = NoWc \/ wildcard_covers w r) /\ w <> NoWc)).
      { rewrite <- W. destruct w; cbn [wc_code]; try (change (0 =? 0) with true); cbn [negb]; intuition (try discriminate; auto). }
      rewrite W2. split.
      * intros [A B]. right. repeat split; auto. intros [_ Hb]. contradiction.
      * intros [[Hc _]|(_ & _ & A & B)]; [contradiction|]. split; [exact A|]. intros ->. apply B. auto.
    + destruct (match_uri (c :: h) (r_uri r)) eqn:Em.
      * apply match_uri_rooted in Em; [|exact Hr]. rewrite W. split.
        -- intros A. right. repeat split; auto. intros [Hc _]. discriminate.
        -- intros [[Hc _]|(_ & _ & A & _)]; [contradiction|exact A].
      * split; [discriminate|]. intros [[Hc _]|(_ & [H|H] & _)]; [contradiction| |discriminate].
        symmetry in H. apply (match_uri_rooted _ _ Hr) in H. congruence.
Qed.

Definition coversb (a : ace) (r : resource) : bool :=
  existsb (fun e => res_match e (Some (r_uri r)) (wc_of r (is_DCR r) (negb (r_secure r)))) (a_res a).

Lemma coversb_spec a r : rooted (r_uri r) -> coversb a r = true <-> exists e, In e (a_res a) /\ entry_covers e r.
Proof.
  intros Hr. unfold coversb. rewrite existsb_exists. split; intros (e & Hin & H); exists e; (split; [exact Hin|]); apply (entry_match e r Hr); exact H.
Qed.

Lemma find_res_none l h w : find_res l h w = None <-> existsb (fun e => res_match e h w) l = false.
Proof.
  induction l as [|e t IH]; [split; reflexivity|]. cbn [find_res existsb]. destruct (res_match e h w); cbn [orb]; [split; discriminate|exact IH].
Qed.

Lemma find_res_some l h w e t : find_res l h w = Some (e, t) -> existsb (fun e => res_match e h w) l = true /\ (List.length t < List.length l)%nat.
Proof.
  induction l as [|e0 l IH]; [discriminate|]. cbn [find_res existsb List.length]. destruct (res_match e0 h w); cbn [orb].
  - intros [= <- <-]. split; [reflexivity|lia].
  - intros H. destruct (IH H). split; [assumption|lia].
Qed.

Lemma get_perm_loop_ok h w perm : forall fuel l acc, (List.length l < fuel)%nat ->
  get_perm_loop fuel l perm acc h w = Some (if existsb (fun e => res_match e h w) l then N.lor acc perm else acc).
Proof.
  induction fuel as [|k IH]; intros l acc Hl; [lia|]. cbn [get_perm_loop].
  destruct (find_res l h w) as [[e t]|] eqn:E.
  - destruct (find_res_some _ _ _ _ _ E) as [E1 E2]. rewrite E1, IH by lia.
    destruct (existsb _ t); [|reflexivity]. rewrite <- N.lor_assoc, N.lor_diag. reflexivity.
  - apply find_res_none in E. rewrite E. reflexivity.
Qed.

Lemma get_permission_ok a r : get_permission a r (is_DCR r) (negb (r_secure r)) = Some (if coversb a r then a_perm a else 0).
Proof. unfold get_permission. rewrite get_perm_loop_ok by lia. fold (coversb a r). destruct (coversb a r); rewrite ?N.lor_0_l; reflexivity. Qed.

Lemma find_subject_any l s : find_subject l s (-1) 0 None = None <-> existsb (fun a => match_subject a s) l = false.
Proof.
  induction l as [|a t IH]; [split; reflexivity|]. cbn [find_subject existsb].
  change (-1 =? -1)%Z with true. change (0 =? 0) with true. cbn [negb andb].
  destruct (match_subject a s); cbn [orb]; [split; discriminate|exact IH].
Qed.

Lemma find_subject_some l s a t : find_subject l s (-1) 0 None = Some (a, t) ->
  exists l1, l = l1 ++ a :: t /\ match_subject a s = true /\ existsb (fun a => match_subject a s) l1 = false.
Proof.
  induction l as [|a0 l IH]; [discriminate|]. cbn [find_subject].
  change (-1 =? -1)%Z with true. change (0 =? 0) with true. cbn [negb andb].
  destruct (match_subject a0 s) eqn:E.
  - intros [= <- <-]. exists []. auto.
  - intros H. destruct (IH H) as (l1 & -> & A & B). exists (a0 :: l1). cbn [existsb app]. rewrite E. auto.
Qed.

Definition grantb (s : subject) (r : resource) (k : N) (a : ace) : bool := match_subject a s && coversb a r && N.testbit (a_perm a) k.

Lemma existsb_none {A} (p q : A -> bool) l : existsb p l = false -> (forall x, q x = true -> p x = true) -> existsb q l = false.
Proof.
  intros H Hi. destruct (existsb q l) eqn:E; [|reflexivity]. apply existsb_exists in E. destruct E as (x & Hin & Hq).
  rewrite <- H. symmetry. apply existsb_exists. exists x. auto.
Qed.

Lemma subject_perms_ok s r : forall fuel l acc, (List.length l < fuel)%nat ->
  exists p, subject_perms fuel l s acc r (is_DCR r) (negb (r_secure r)) = Some p /\
  forall k, N.testbit p k = N.testbit acc k || existsb (grantb s r k) l.
Proof.
  induction fuel as [|n IH]; intros l acc Hl; [lia|]. cbn [subject_perms].
  destruct (find_subject l s (-1) 0 None) as [[a t]|] eqn:E.
  - destruct (find_subject_some _ _ _ _ E) as (l1 & -> & M & B). rewrite get_permission_ok.
    destruct (IH t (N.lor acc (if coversb a r then a_perm a else 0))) as (p & Ep & Hp).
    { rewrite app_length in Hl. cbn [List.length] in Hl. lia. }
    exists p. split; [exact Ep|]. intros k. rewrite Hp, N.lor_spec, existsb_app. cbn [existsb].
    rewrite (existsb_none (fun a => match_subject a s) (grantb s r k) l1 B); [|unfold grantb; intros x Hx; destruct (match_subject x s); [reflexivity|discriminate]].
    unfold grantb at 2. rewrite M. cbn [orb andb]. rewrite <- orb_assoc. f_equal. f_equal. destruct (coversb a r); [reflexivity|apply N.bits_0].
  - apply find_subject_any in E. exists acc. split; [reflexivity|]. intros k.
    rewrite (existsb_none (fun a => match_subject a s) (grantb s r k) l E); [rewrite orb_false_r; reflexivity|].
    unfold grantb; intros x Hx; destruct (match_subject x s); [reflexivity|discriminate].
Qed.

Lemma perms_of_ok l s acc r : exists p, perms_of l s acc r (is_DCR r) (negb (r_secure r)) = Some p /\
  forall k, N.testbit p k = N.testbit acc k || existsb (grantb s r k) l.
Proof. apply subject_perms_ok. lia. Qed.

(** * Roles *)

Definition psk_held (u : list N) (c : cred) : bool := c_psk c && c_usage_null c && list_eqb (c_subj c) u && negb (list_eqb (c_role c) []).

Lemma find_psk_some l u c t : find_psk l u = Some (c, t) ->
  exists l1, l = l1 ++ c :: t /\ (c_psk c && c_usage_null c && list_eqb (c_subj c) u = true) /\ existsb (psk_held u) l1 = false.
Proof.
  induction l as [|c0 l IH]; [discriminate|]. cbn [find_psk]. destruct (c_psk c0 && c_usage_null c0 && list_eqb (c_subj c0) u) eqn:E.
  - intros [= <- <-]. exists []. auto.
  - intros H. destruct (IH H) as (l1 & -> & A & B). exists (c0 :: l1). cbn [existsb app]. unfold psk_held at 1. rewrite E. auto.
Qed.

Lemma find_psk_none l u : find_psk l u = None -> existsb (psk_held u) l = false.
Proof.
  induction l as [|c l IH]; [reflexivity|]. cbn [find_psk existsb]. unfold psk_held at 1.
  destruct (c_psk c && c_usage_null c && list_eqb (c_subj c) u) eqn:E; [discriminate|]. exact IH.
Qed.

Definition role_grantb (acl : list ace) (r : resource) (k : N) (role auth : list N) : bool := existsb (grantb (SRole role auth) r k) acl.

Lemma psk_perms_ok u acl r : forall fuel l acc, (List.length l < fuel)%nat ->
  exists p, psk_perms fuel l u acl acc r (is_DCR r) (negb (r_secure r)) = Some p /\
  forall k, N.testbit p k = N.testbit acc k || existsb (fun c => psk_held u c && role_grantb acl r k (c_role c) (c_auth c)) l.
Proof.
  assert (Z : forall l, existsb (psk_held u) l = false -> forall k, existsb (fun c => psk_held u c && role_grantb acl r k (c_role c) (c_auth c)) l = false).
  { intros l H k. apply (existsb_none (psk_held u)); [exact H|]. intros x Hx. destruct (psk_held u x); [reflexivity|discriminate]. }
  induction fuel as [|n IH]; intros l acc Hl; [lia|]. cbn [psk_perms].
  destruct (find_psk l u) as [[c t]|] eqn:E.
  - destruct (find_psk_some _ _ _ _ E) as (l1 & -> & M & B).
    rewrite app_length in Hl. cbn [List.length] in Hl.
    assert (X : exists acc', (if list_eqb (c_role c) [] then Some acc
                 else match perms_of acl (SRole (c_role c) (c_auth c)) 0 r (is_DCR r) (negb (r_secure r)) with
                      | Some p => Some (N.lor acc p) | None => None end) = Some acc' /\
                forall k, N.testbit acc' k = N.testbit acc k || (psk_held u c && role_grantb acl r k (c_role c) (c_auth c))).
    { unfold psk_held. rewrite M. destruct (list_eqb (c_role c) []) eqn:Er.
      - exists acc. split; [reflexivity|]. intros k. cbn [negb andb]. rewrite orb_false_r. reflexivity.
      - destruct (perms_of_ok acl (SRole (c_role c) (c_auth c)) 0 r) as (q & -> & Hq). exists (N.lor acc q). split; [reflexivity|].
        intros k. rewrite N.lor_spec, Hq, N.bits_0. reflexivity. }
    destruct X as (acc' & -> & Hacc).
    destruct t as [|c2 t].
    + exists acc'. split; [reflexivity|]. intros k. rewrite existsb_app, (Z l1 B). cbn [existsb orb]. rewrite orb_false_r. apply Hacc.
    + destruct (IH (c2 :: t) acc') as (p & Ep & Hp); [lia|]. exists p. split; [exact Ep|].
      intros k. rewrite Hp, Hacc, existsb_app, (Z l1 B). cbn [existsb orb]. rewrite <- orb_assoc. reflexivity.
  - exists acc. split; [reflexivity|]. intros k. rewrite (Z _ (find_psk_none _ _ E)), orb_false_r. reflexivity.
Qed.

Definition owner_cert (c : role_cert) : bool := rc_valid c && list_eqb (rc_role c) (str "oic.role.owner").

Lemma pki_perms_ok acl r : forall l acc,
  exists p, pki_perms l acl acc r (is_DCR r) (negb (r_secure r)) = Some p /\
  ((existsb owner_cert l = true /\ p = PERM_ALL) \/
   (existsb owner_cert l = false /\
    forall k, N.testbit p k = N.testbit acc k || existsb (fun c => rc_valid c && role_grantb acl r k (rc_role c) (rc_auth c)) l)).
Proof.
  induction l as [|c t IH]; intros acc; cbn [pki_perms existsb].
  - exists acc. split; [reflexivity|]. right. split; [reflexivity|]. intros k. rewrite orb_false_r. reflexivity.
  - unfold owner_cert at 1 3. destruct (rc_valid c); cbn [negb andb].
    + destruct (list_eqb (rc_role c) (str "oic.role.owner")).
      * exists PERM_ALL. split; [reflexivity|]. left. auto.
      * destruct (perms_of_ok acl (SRole (rc_role c) (rc_auth c)) 0 r) as (q & -> & Hq).
        destruct (IH (N.lor acc q)) as (p & Ep & Hp). exists p. split; [exact Ep|].
        destruct Hp as [Hp|[Ho Hp]]; [left; exact Hp|right]. split; [exact Ho|].
        intros k. rewrite Hp, N.lor_spec, Hq, N.bits_0, <- orb_assoc. reflexivity.
    + destruct (IH acc) as (p & Ep & Hp). exists p. split; [exact Ep|exact Hp].
Qed.

Lemma permits_or m p q : permits m (N.lor p q) <-> permits m p \/ permits m q.
Proof. destruct m; cbn [permits]; rewrite ?N.lor_spec, ?orb_true_iff; tauto. Qed.

Lemma permits_all m : permits m PERM_ALL <-> m <> FETCH.
Proof. destruct m; cbn [permits]; vm_compute; intuition congruence. Qed.

Lemma permits_0 m : ~ permits m 0.
Proof. destruct m; cbn [permits]; rewrite ?N.bits_0; intuition discriminate. Qed.

(** Permission bits given by a set of permissions: permitted iff one of them permits. *)
Lemma permits_ex {A} m p (f : A -> bool) (g : A -> N) (l : list A) :
  (forall k, N.testbit p k = existsb (fun x => f x && N.testbit (g x) k) l) ->
  permits m p <-> exists x, In x l /\ f x = true /\ permits m (g x).
Proof.
  intros H.
  assert (K : forall k, N.testbit p k = true <-> exists x, In x l /\ f x = true /\ N.testbit (g x) k = true).
  { intros k. rewrite H, existsb_exists. split; intros (x & Hin & Hx); exists x; (split; [exact Hin|]); apply andb_true_iff; exact Hx. }
  destruct m; cbn [permits]; rewrite ?K; split; try (intros []); try (intros (x & ? & ? & ?)); firstorder.
Qed.

(** The subject the ACE search is made with, and the ACE's subject. *)
Lemma match_subject_uuid a u : match_subject a (SUuid u) = true <-> a_subj a = SUuid u.
Proof.
  unfold match_subject. destruct (a_subj a); [rewrite list_eqb_spec; split; congruence| |]; split; discriminate.
Qed.
Lemma match_subject_conn a c : match_subject a (SConn c) = true <-> a_subj a = SConn c.
Proof. unfold match_subject. destruct (a_subj a) as [| |c']; try (split; discriminate). destruct c, c'; split; cbn; congruence. Qed.
Lemma match_subject_role a r au : match_subject a (SRole r au) = true <-> exists au', a_subj a = SRole r au' /\ (au' = [] \/ au' = au).
Proof.
  unfold match_subject. destruct (a_subj a) as [|r' au'|]; [split; [discriminate|intros (? & [=] & _)]| |split; [discriminate|intros (? & [=] & _)]].
  rewrite andb_true_iff, orb_true_iff, !list_eqb_spec. split.
  - intros [<- H]. exists au'. split; [reflexivity|]. destruct H; [left|right]; congruence.
  - intros (x & [= <- <-] & H). split; [reflexivity|]. destruct H; [left|right]; congruence.
Qed.

(** What the ACL alone contributes for one searched subject. *)
Lemma perms_permit l s r : rooted (r_uri r) -> exists p, perms_of l s 0 r (is_DCR r) (negb (r_secure r)) = Some p /\
  forall m, permits m p <-> exists a, In a l /\ match_subject a s = true /\ (exists e, In e (a_res a) /\ entry_covers e r) /\ permits m (a_perm a).
Proof.
  intros Hr. destruct (perms_of_ok l s 0 r) as (p & Ep & Hp). exists p. split; [exact Ep|]. intros m.
  rewrite (permits_ex m p (fun a => match_subject a s && coversb a r) a_perm l).
  - split; intros (a & Hin & H1 & H2); exists a; (split; [exact Hin|]).
    + apply andb_true_iff in H1. destruct H1 as [H1 Hc]. repeat split; auto. apply coversb_spec; assumption.
    + destruct H2 as [H2 H3]. split; [|exact H3]. rewrite H1. apply coversb_spec; assumption.
  - intros k. rewrite Hp, N.bits_0. reflexivity.
Qed.

Lemma perms_of_acc l s acc r p0 : perms_of l s 0 r (is_DCR r) (negb (r_secure r)) = Some p0 ->
  perms_of l s acc r (is_DCR r) (negb (r_secure r)) = Some (N.lor acc p0).
Proof.
  intros H. destruct (perms_of_ok l s 0 r) as (p & Ep & Hp). rewrite H in Ep. injection Ep as <-.
  destruct (perms_of_ok l s acc r) as (q & -> & Hq). f_equal. apply N.bits_inj. intros k. rewrite Hq, N.lor_spec, Hp, N.bits_0. reflexivity.
Qed.

Lemma role_bits acl r {A} m p (f : A -> bool) (role auth : A -> list N) (l : list A) : rooted (r_uri r) ->
  (forall k, N.testbit p k = existsb (fun c => f c && role_grantb acl r k (role c) (auth c)) l) ->
  permits m p <-> exists c, In c l /\ f c = true /\ exists a, In a acl /\ match_subject a (SRole (role c) (auth c)) = true /\ (exists e, In e (a_res a) /\ entry_covers e r) /\ permits m (a_perm a).
Proof.
  intros Hr H.
  rewrite (permits_ex m p (fun x : A * ace => f (fst x) && match_subject (snd x) (SRole (role (fst x)) (auth (fst x))) && coversb (snd x) r)
             (fun x => a_perm (snd x)) (list_prod l acl)).
  - split.
    + intros ((c & a) & Hin & Hx & Hm). apply in_prod_iff in Hin. cbn [fst snd] in *. apply andb_true_iff in Hx. destruct Hx as [Hx Hc].
      apply andb_true_iff in Hx. exists c. repeat split; try tauto. exists a. repeat split; try tauto. apply coversb_spec; assumption.
    + intros (c & Hin & Hf & a & Ha & Hs & He & Hm). exists (c, a). split; [apply in_prod_iff; auto|]. split; [|exact Hm].
      cbn [fst snd]. rewrite Hf, Hs. apply coversb_spec; assumption.
  - intros k. rewrite H. apply eq_true_iff_eq. rewrite !existsb_exists. split.
    + intros (c & Hin & Hc). apply andb_true_iff in Hc. destruct Hc as [Hf Hc]. apply existsb_exists in Hc. destruct Hc as (a & Ha & Hg).
      exists (c, a). split; [apply in_prod_iff; auto|]. cbn [fst snd]. rewrite Hf. unfold grantb in Hg. cbn [andb]. exact Hg.
    + intros ((c & a) & Hin & Hx). apply in_prod_iff in Hin. cbn [fst snd] in Hx. exists c. split; [tauto|].
      destruct (f c); [|discriminate]. cbn [andb] in *. apply existsb_exists. exists a. split; [tauto|exact Hx].
Qed.

Lemma peer_perms_ok d ep pr r : rooted (r_uri r) -> exists p, peer_perms d ep pr r (is_DCR r) (negb (r_secure r)) = Some p /\
  forall m, permits m p ->
    (owner_role (Some pr) /\ m <> FETCH) \/
    exists a role au, In a (d_acl d) /\ a_subj a = SRole role au /\ subject_applies (a_subj a) r d ep (Some pr) /\ (exists e, In e (a_res a) /\ entry_covers e r) /\ permits m (a_perm a).
Proof.
  intros Hr. unfold peer_perms. destruct (p_psk pr) eqn:Epsk.
  - destruct (psk_perms_ok (e_di ep) (d_acl d) r (S (List.length (d_creds d))) (d_creds d) 0) as (p & Ep & Hp); [lia|].
    exists p. split; [exact Ep|]. intros m Hm. right.
    apply (role_bits (d_acl d) r m p (psk_held (e_di ep)) c_role c_auth (d_creds d) Hr) in Hm.
    2:{ intros k. rewrite Hp, N.bits_0. reflexivity. }
    destruct Hm as (c & Hin & Hc & a & Ha & Hs & He & Hm). apply match_subject_role in Hs. destruct Hs as (au & Es & Hau).
    exists a, (c_role c), au. repeat split; try assumption. rewrite Es. cbn [subject_applies]. exists pr, (c_auth c). split; [reflexivity|]. split; [|exact Hau].
    unfold holds_role. rewrite Epsk. unfold psk_held in Hc. rewrite !andb_true_iff in Hc. destruct Hc as [[[H1 H2] H3] H4].
    apply list_eqb_spec in H3. apply negb_true_iff in H4. split.
    + intros E. rewrite E in H4. rewrite list_eqb_refl in H4. discriminate.
    + exists c. repeat split; assumption.
  - destruct (pki_perms_ok (d_acl d) r (p_roles pr) 0) as (p & Ep & Hp). exists p. split; [exact Ep|]. intros m Hm.
    destruct Hp as [[Ho ->]|[_ Hp]].
    + left. split; [|apply permits_all; exact Hm]. apply existsb_exists in Ho. destruct Ho as (c & Hin & Hc). apply andb_true_iff in Hc.
      exists pr, c. repeat split; try tauto. apply list_eqb_spec; tauto.
    + right. apply (role_bits (d_acl d) r m p rc_valid rc_role rc_auth (p_roles pr) Hr) in Hm.
      2:{ intros k. rewrite Hp, N.bits_0. reflexivity. }
      destruct Hm as (c & Hin & Hc & a & Ha & Hs & He & Hm). apply match_subject_role in Hs. destruct Hs as (au & Es & Hau).
      exists a, (rc_role c), au. repeat split; try assumption. rewrite Es. cbn [subject_applies]. exists pr, (rc_auth c). split; [reflexivity|]. split; [|exact Hau].
      unfold holds_role. rewrite Epsk. exists c. auto.
Qed.

Lemma peer_perms_complete d ep pr r p : rooted (r_uri r) -> peer_perms d ep pr r (is_DCR r) (negb (r_secure r)) = Some p ->
  forall m, (owner_role (Some pr) /\ m <> FETCH) \/
    (exists a role au, In a (d_acl d) /\ a_subj a = SRole role au /\ subject_applies (a_subj a) r d ep (Some pr) /\ (exists e, In e (a_res a) /\ entry_covers e r) /\ permits m (a_perm a)) ->
  permits m p.
Proof.
  intros Hr. unfold peer_perms. destruct (p_psk pr) eqn:Epsk.
  - destruct (psk_perms_ok (e_di ep) (d_acl d) r (S (List.length (d_creds d))) (d_creds d) 0) as (q & Eq & Hq); [lia|].
    intros E. rewrite E in Eq. injection Eq as <-. intros m [[(pr' & c & [= <-] & Hpsk & _) _]|(a & role & au & Ha & Es & Hap & He & Hm)]; [congruence|].
    apply (role_bits (d_acl d) r m p (psk_held (e_di ep)) c_role c_auth (d_creds d) Hr).
    { intros k. rewrite Hq, N.bits_0. reflexivity. }
    rewrite Es in Hap. cbn [subject_applies] in Hap. destruct Hap as (pr' & au' & [= <-] & Hh & Hau). unfold holds_role in Hh. rewrite Epsk in Hh.
    destruct Hh as (Hne & c & Hin & H1 & H2 & H3 & <- & <-). exists c. split; [exact Hin|]. split.
    + unfold psk_held. rewrite H1, H2, H3, list_eqb_refl. cbn [andb]. apply negb_true_iff. destruct (list_eqb (c_role c) []) eqn:E'; [|reflexivity].
      apply list_eqb_spec in E'. contradiction.
    + exists a. repeat split; try assumption. apply match_subject_role. exists au. auto.
  - destruct (pki_perms_ok (d_acl d) r (p_roles pr) 0) as (q & Eq & Hq). intros E. rewrite E in Eq. injection Eq as <-.
    intros m Hm. destruct Hq as [[Ho ->]|[Ho Hq]].
    + apply permits_all. destruct Hm as [[_ Hm]|(a & role & au & _ & _ & _ & _ & Hm)]; [exact Hm|]. intros ->. exact Hm.
    + destruct Hm as [[(pr' & c & [= <-] & _ & Hin & Hv & Hrole) _]|(a & role & au & Ha & Es & Hap & He & Hm)].
      * exfalso. assert (X : existsb owner_cert (p_roles pr) = true).
        { apply existsb_exists. exists c. split; [exact Hin|]. unfold owner_cert. rewrite Hv, Hrole, list_eqb_refl. reflexivity. }
        congruence.
      * apply (role_bits (d_acl d) r m p rc_valid rc_role rc_auth (p_roles pr) Hr).
        { intros k. rewrite Hq, N.bits_0. reflexivity. }
        rewrite Es in Hap. cbn [subject_applies] in Hap. destruct Hap as (pr' & au' & [= <-] & Hh & Hau). unfold holds_role in Hh. rewrite Epsk in Hh.
        destruct Hh as (c & Hin & Hv & <- & <-). exists c. split; [exact Hin|]. split; [exact Hv|].
        exists a. repeat split; try assumption. apply match_subject_role. exists au. auto.
Qed.

Lemma conn_perms_ok d ep r : rooted (r_uri r) -> exists p, conn_perms d ep r (is_DCR r) (negb (r_secure r)) = Some p /\
  forall m, permits m p <-> exists a c, In a (d_acl d) /\ a_subj a = SConn c /\ (c = AuthCrypt -> e_secured ep = true) /\ (exists e, In e (a_res a) /\ entry_covers e r) /\ permits m (a_perm a).
Proof.
  intros Hr. unfold conn_perms.
  destruct (perms_permit (d_acl d) (SConn AuthCrypt) r Hr) as (p1 & E1 & H1).
  destruct (perms_permit (d_acl d) (SConn AnonClear) r Hr) as (p2 & E2 & H2).
  destruct (e_secured ep) eqn:Es.
  - rewrite E1, (perms_of_acc _ _ p1 _ _ E2). exists (N.lor p1 p2). split; [reflexivity|]. intros m. rewrite permits_or, H1, H2. split.
    + intros [(a & Ha & Hs & He & Hm)|(a & Ha & Hs & He & Hm)]; apply match_subject_conn in Hs; exists a; eexists; repeat split; eauto.
    + intros (a & c & Ha & Hs & _ & He & Hm). destruct c; [left|right]; exists a; repeat split; try assumption; apply match_subject_conn; assumption.
  - rewrite (perms_of_acc _ _ 0 _ _ E2), N.lor_0_l. exists p2. split; [reflexivity|]. intros m. rewrite H2. split.
    + intros (a & Ha & Hs & He & Hm). apply match_subject_conn in Hs. exists a, AnonClear. repeat split; try assumption. discriminate.
    + intros (a & c & Ha & Hs & Hc & He & Hm). destruct c; [specialize (Hc eq_refl); discriminate|].
      exists a. repeat split; try assumption. apply match_subject_conn; assumption.
Qed.

Lemma check_by_permissions_ok m r d ep p : rooted (r_uri r) ->
  exists b, check_by_permissions m r (is_DCR r) (is_SVR r) d ep p = Some b /\
  (b = true <-> (owner_role p /\ m <> FETCH) \/ exists a, In a (d_acl d) /\ ace_grants a m r d ep p).
Proof.
  intros Hr. unfold check_by_permissions. destruct (perms_permit (d_acl d) (SUuid (e_di ep)) r Hr) as (p1 & E1 & H1). rewrite E1.
  assert (X2 : exists p2, match p with None => Some 0 | Some pr => peer_perms d ep pr r (is_DCR r) (negb (r_secure r)) end = Some p2 /\
    forall m, permits m p2 <-> (owner_role p /\ m <> FETCH) \/
    (exists a role au, In a (d_acl d) /\ a_subj a = SRole role au /\ subject_applies (a_subj a) r d ep p /\ (exists e, In e (a_res a) /\ entry_covers e r) /\ permits m (a_perm a))).
  { destruct p as [pr|].
    - destruct (peer_perms_ok d ep pr r Hr) as (p2 & E2 & H2). exists p2. split; [exact E2|]. intros m'. split; [apply H2|].
      apply (peer_perms_complete d ep pr r p2 Hr E2).
    - exists 0. split; [reflexivity|]. intros m'. split; [intros H; destruct (permits_0 _ H)|].
      intros [[(pr & c & [=] & _) _]|(a & role & au & _ & Es & Hap & _)]. rewrite Es in Hap. destruct Hap as (pr & au' & [=] & _). }
  destruct X2 as (p2 & -> & H2).
  assert (X3 : exists p3, (if is_SVR r then Some 0 else conn_perms d ep r (is_DCR r) (negb (r_secure r))) = Some p3 /\
    forall m, permits m p3 <-> ~ svr r /\ exists a c, In a (d_acl d) /\ a_subj a = SConn c /\ (c = AuthCrypt -> e_secured ep = true) /\ (exists e, In e (a_res a) /\ entry_covers e r) /\ permits m (a_perm a)).
  { pose proof (is_SVR_spec r) as Hs. destruct (is_SVR r).
    - exists 0. split; [reflexivity|]. intros m'. split; [intros H; destruct (permits_0 _ H)|]. intros [H _]. destruct H. apply Hs. reflexivity.
    - destruct (conn_perms_ok d ep r Hr) as (p3 & E3 & H3). exists p3. split; [exact E3|]. intros m'. rewrite H3. split; [|tauto].
      intros H. split; [|exact H]. intros K. apply Hs in K. discriminate. }
  destruct X3 as (p3 & -> & H3).
  eexists. split; [reflexivity|]. rewrite eval_access_spec, !permits_or, H1, H2, H3. unfold ace_grants. split.
  - intros [[(a & Ha & Hs & He & Hm)|[Ho|(a & role & au & Ha & Es & Hap & He & Hm)]]|(Hn & a & c & Ha & Es & Hc & He & Hm)].
    + right. exists a. apply match_subject_uuid in Hs. repeat split; try assumption. rewrite Hs. reflexivity.
    + left. exact Ho.
    + right. exists a. repeat split; assumption.
    + right. exists a. repeat split; try assumption. rewrite Es. destruct c; cbn [subject_applies]; auto.
  - intros [Ho|(a & Ha & Hap & He & Hm)]; [left; right; left; exact Ho|].
    destruct (a_subj a) as [u|role au|c] eqn:Es.
    + left; left. exists a. repeat split; try assumption. apply match_subject_uuid. cbn [subject_applies] in Hap. congruence.
    + left; right; right. exists a, role, au. rewrite Es. repeat split; try assumption.
    + right. destruct c; cbn [subject_applies] in Hap.
      * split; [tauto|]. exists a, AuthCrypt. repeat split; try assumption. intros _. tauto.
      * split; [tauto|]. exists a, AnonClear. repeat split; try assumption. discriminate.
Qed.

Lemma dos_eqb_spec a b : dos_eqb a b = true <-> a = b.
Proof. destruct a, b; cbn; split; congruence. Qed.
Lemma dos_eqb_false a b : dos_eqb a b = false <-> a <> b.
Proof. destruct a, b; cbn; split; congruence. Qed.

Lemma check_on_get_spec r o : rooted (r_uri r) -> check_on_get r o = true <->
  r_uri r = str "/x.plgd.dev/time" \/ r_uri r = str "/.well-known/core" \/
  (o = true /\ (r_uri r = str "/oic/res" \/ r_uri r = str "/oic/d" \/ r_uri r = str "/oic/p")).
Proof.
  intros Hr. unfold check_on_get. rewrite <- !(match_uri_rooted _ _ Hr).
  destruct o, (match_uri (str "/oic/res") (r_uri r)), (match_uri (str "/oic/d") (r_uri r)), (match_uri (str "/oic/p") (r_uri r)),
   (match_uri (str "/x.plgd.dev/time") (r_uri r)), (match_uri (str "/.well-known/core") (r_uri r)); cbn; intuition discriminate.
Qed.

Lemma check_by_uuid_spec d u r : rooted (r_uri r) -> check_by_uuid d u r = true <-> owner_of r d u.
Proof.
  intros Hr. unfold check_by_uuid, owner_of. rewrite <- !(match_uri_rooted _ _ Hr), <- !list_eqb_spec.
  destruct (match_uri (str "/oic/sec/acl2") (r_uri r)), (match_uri (str "/oic/sec/doxm") (r_uri r)), (match_uri (str "/oic/sec/pstat") (r_uri r)),
    (match_uri (str "/oic/sec/cred") (r_uri r)), (list_eqb (d_acl_owner d) u), (list_eqb (d_doxm_owner d) u), (list_eqb (d_pstat_owner d) u), (list_eqb (d_cred_owner d) u);
    cbn; intuition discriminate.
Qed.

Lemma provisioned_spec s : dos_eqb s RFPRO || dos_eqb s RFNOP || dos_eqb s SRESET = true <-> provisioned s.
Proof. unfold provisioned. destruct s; cbn; intuition discriminate. Qed.

Lemma check_acl_spec m r d ep p : rooted (r_uri r) ->
  exists b, check_acl m r d ep p = Some b /\ (b = true <-> allowed m r d ep p).
Proof.
  intros Hr. unfold check_acl.
  destruct (check_by_permissions_ok m r d ep p Hr) as (bp & Ebp & Hbp). rewrite Ebp.
  assert (Hper : m = FETCH -> ~ permits m (r_anon_perm r)) by (intros -> H; exact H).
  pose proof (eval_access_spec m (r_anon_perm r)) as Hev.
  pose proof (dos_eqb_spec (d_dos d) RFOTM) as Hot. pose proof (dos_eqb_spec (d_dos d) RFNOP) as Hnop.
  pose proof (is_DCR_spec r) as Hd. pose proof (is_SVR_spec r) as Hsv. pose proof (is_vertical_spec r) as Hv.
  pose proof (provisioned_spec (d_dos d)) as Hpn.
  pose proof (check_by_uuid_spec d (e_di ep) r Hr) as Hu.
  pose proof (check_on_get_spec r (dos_eqb (d_dos d) RFOTM) Hr) as Hg.
  pose proof (match_uri_rooted (str "/oic/sec/roles") _ Hr) as Hro.
  pose proof (N.eqb_eq (d_peers d) 1) as Hp1. pose proof (N.eqb_eq (d_peers d) 0) as Hp0.
  assert (Hdoc : match p with Some pr => p_doc pr | None => false end = true <-> exists pr, p = Some pr /\ p_doc pr = true).
  { destruct p as [pr|]; split; try discriminate; [intros H; exists pr; auto|intros (x & [= <-] & H); exact H|intros (x & [=] & _)]. }
  assert (Hgg : match m with GET => check_on_get r (dos_eqb (d_dos d) RFOTM) | _ => false end = true <-> m = GET /\ readable_by_anyone r (d_dos d)).
  { unfold readable_by_anyone. rewrite <- Hot. destruct m; [rewrite Hg; tauto| | | |]; split; try discriminate; intros [[=] _]. }
  assert (Hpd : check_prior_to_doc m r = true <-> (r_uri r = str "/oic/sec/doxm" \/ (m = GET /\ r_uri r = str "/oic/sec/pstat"))).
  { unfold check_prior_to_doc. rewrite <- !(match_uri_rooted _ _ Hr).
    destruct (match_uri (str "/oic/sec/doxm") (r_uri r)), m, (match_uri (str "/oic/sec/pstat") (r_uri r)); intuition discriminate. }
  unfold allowed, barred, reason.
  generalize dependent (match m with GET => check_on_get r (dos_eqb (d_dos d) RFOTM) | _ => false end). intros bg Hgg.
  generalize dependent (match p with Some pr => p_doc pr | None => false end). intros bd Hdoc.
  generalize dependent (check_prior_to_doc m r). intros bpd Hpd.
  generalize dependent (check_by_uuid d (e_di ep) r). intros bu Hu.
  generalize dependent (eval_access m (r_anon_perm r)). intros be Hev.
  generalize dependent (match_uri (str "/oic/sec/roles") (r_uri r)). intros bro Hro.
  generalize dependent (dos_eqb (d_dos d) RFPRO || dos_eqb (d_dos d) RFNOP || dos_eqb (d_dos d) SRESET). intros bpn Hpn.
  clear Hg Ebp.
  generalize dependent (dos_eqb (d_dos d) RFOTM). intros bot Hot.
  generalize dependent (dos_eqb (d_dos d) RFNOP). intros bnop Hnop.
  generalize dependent (d_peers d =? 1). intros b1 Hp1.
  generalize dependent (d_peers d =? 0). intros b0 Hp0.
  assert (Ex : bot = true -> bnop = true -> False) by (intros A B; apply Hot in A; apply Hnop in B; congruence).
  generalize dependent (is_DCR r). intros bdcr Hd Hv.
  generalize dependent (is_vertical r). intros bv Hv.
  generalize dependent (is_SVR r). intros bsv Hsv.
  setoid_rewrite <- Hot. setoid_rewrite <- Hnop. setoid_rewrite <- Hd. setoid_rewrite <- Hv. setoid_rewrite <- Hsv. setoid_rewrite <- Hpn. setoid_rewrite <- Hu. setoid_rewrite <- Hgg. setoid_rewrite <- Hro. setoid_rewrite <- Hp1. setoid_rewrite <- Hp0. setoid_rewrite <- Hdoc. setoid_rewrite <- Hpd. setoid_rewrite <- Hev. setoid_rewrite <- Hbp.
  clear Hot Hnop Hd Hv Hsv Hpn Hu Hgg Hro Hp1 Hp0 Hdoc Hpd Hev Hbp.
  generalize dependent (e_secured ep). intros bs. generalize dependent (r_rfotm r). intros brf.
  repeat (match goal with |- exists b, (if ?c then _ else _) = Some b /\ _ => match c with context[?x] => is_var x; destruct x end end; cbn [negb andb orb]);
  (eexists; split; [reflexivity|]);
  solve [intuition (try discriminate; auto)].
Qed.
