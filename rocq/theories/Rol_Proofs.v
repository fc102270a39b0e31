(** Proofs about the roles of sessions: the records, one request. *)
From Verif Require Import Common Rep_Model Ob_Model Cred_Model Cred_Spec Cred_Proofs Rol_Model Rol_Spec.
From Verif Require Acl_Model.
From Coq Require Import String Lia.
Local Open Scope string_scope.
Local Open Scope list_scope.
Local Open Scope N_scope.

(** * Records *)

Lemma get_set p dev cs l q : roles_get q (set_roles p dev cs l) = if Nat.eqb p q then cs else roles_get q l.
Proof.
  unfold roles_get, get_for. induction l as [|r t IH]; cbn [set_roles].
  - destruct cs as [|c k]; cbn [find].
    + destruct (Nat.eqb p q); reflexivity.
    + cbn [r_client]. destruct (Nat.eqb p q); reflexivity.
  - destruct (Nat.eqb_spec (r_client r) p) as [E|E]; cbn [find r_client].
    + destruct (Nat.eqb_spec (r_client r) q) as [F|F].
      * destruct (Nat.eqb_spec p q) as [G|G]; [reflexivity|congruence].
      * destruct (Nat.eqb_spec p q) as [G|G]; [congruence|reflexivity].
    + destruct (Nat.eqb_spec (r_client r) q) as [F|F].
      * destruct (Nat.eqb_spec p q) as [G|G]; [congruence|reflexivity].
      * exact IH.
Qed.

Lemma set_clients p dev cs l r : In r (set_roles p dev cs l) -> (r_client r = p /\ r_device r = dev) \/ exists r', In r' l /\ r_client r' = r_client r /\ r_device r' = r_device r.
Proof.
  induction l as [|x t IH]; cbn [set_roles]; intros I.
  - destruct cs as [|c k]; [destruct I|]. destruct I as [<-|[]]. left. split; reflexivity.
  - destruct (Nat.eqb_spec (r_client x) p) as [E|E].
    + destruct I as [<-|I].
      * right. exists x. split; [left; reflexivity|split; reflexivity].
      * right. exists r. split; [right; exact I|split; reflexivity].
    + destruct I as [<-|I].
      * right. exists x. split; [left; reflexivity|split; reflexivity].
      * destruct (IH I) as [H|[r' [H K]]]; [left; exact H|right; exists r'; split; [right; exact H|exact K]].
Qed.

Lemma set_nodup p dev cs l : NoDup (map r_client l) -> NoDup (map r_client (set_roles p dev cs l)).
Proof.
  induction l as [|x t IH]; cbn [set_roles]; intros D.
  - destruct cs as [|c k]; [constructor|]. cbn [map r_client]. constructor; [intros []|constructor].
  - inversion D as [|? ? D1 D2]; subst. destruct (Nat.eqb_spec (r_client x) p) as [E|E]; cbn [map r_client].
    + constructor; assumption.
    + constructor; [|apply IH; exact D2]. intros I. apply in_map_iff in I. destruct I as [r [E1 I]].
      destruct (set_clients _ _ _ _ _ I) as [[H _]|[r' [H [K _]]]]; [congruence|]. apply D1. apply in_map_iff. exists r'. split; [congruence|exact H].
Qed.

Lemma get_none p l : ~ In p (map r_client l) -> get_for p l = None.
Proof.
  unfold get_for. induction l as [|x t IH]; intros H; [reflexivity|]. cbn [find map] in *.
  destruct (Nat.eqb_spec (r_client x) p) as [E|E]; [exfalso; apply H; left; exact E|]. apply IH. intros I. apply H. right. exact I.
Qed.

Lemma get_in p l r : NoDup (map r_client l) -> In r l -> r_client r = p -> get_for p l = Some r.
Proof.
  unfold get_for. induction l as [|x t IH]; intros D I E; [destruct I|]. inversion D as [|? ? D1 D2]; subst. cbn [find].
  destruct I as [<-|I]; [rewrite Nat.eqb_refl; reflexivity|]. destruct (Nat.eqb_spec (r_client x) (r_client r)) as [F|F]; [|apply IH; auto].
  exfalso. apply D1. rewrite F. apply in_map. exact I.
Qed.

Lemma get_some p l r : get_for p l = Some r -> In r l /\ r_client r = p.
Proof. unfold get_for. intros H. apply find_some in H. destruct H as [I E]. apply Nat.eqb_eq in E. split; assumption. Qed.

Lemma free_in p l r : In r (free_roles p l) -> In r l.
Proof. induction l as [|x t IH]; cbn [free_roles]; intros I; [destruct I|]. destruct (Nat.eqb (r_client x) p); [right; exact I|]. destruct I as [<-|I]; [left; reflexivity|right; auto]. Qed.

Lemma free_nodup p l : NoDup (map r_client l) -> NoDup (map r_client (free_roles p l)) /\ ~ In p (map r_client (free_roles p l)).
Proof.
  induction l as [|x t IH]; cbn [free_roles]; intros D; [split; [constructor|intros []]|]. inversion D as [|? ? D1 D2]; subst.
  destruct (Nat.eqb_spec (r_client x) p) as [E|E].
  - split; [exact D2|rewrite <- E; exact D1].
  - destruct (IH D2) as [A B]. cbn [map]. split.
    + constructor; [|exact A]. intros I. apply in_map_iff in I. destruct I as [r [F I]]. apply D1. rewrite <- F. apply in_map. apply (free_in _ _ _ I).
    + intros [F|I]; [exact (E F)|exact (B I)].
Qed.

Lemma free_other p q l : q <> p -> get_for q (free_roles p l) = get_for q l.
Proof.
  intros N. unfold get_for. induction l as [|x t IH]; cbn [free_roles]; [reflexivity|].
  destruct (Nat.eqb_spec (r_client x) p) as [E|E]; cbn [find].
  - destruct (Nat.eqb_spec (r_client x) q) as [F|F]; [congruence|reflexivity].
  - destruct (Nat.eqb (r_client x) q); [reflexivity|exact IH].
Qed.

Lemma free_self p l : NoDup (map r_client l) -> get_for p (free_roles p l) = None.
Proof. intros D. apply get_none. apply free_nodup. exact D. Qed.

Lemma fold_device dev l2 : forall acc, NoDup (map r_client acc) ->
  let r := fold_left (fun acc r => if Nat.eqb (r_device r) dev then free_roles (r_client r) acc else acc) l2 acc in
  NoDup (map r_client r) /\ (forall x, In x r -> In x acc) /\
  forall p, get_for p r = if existsb (fun r => Nat.eqb (r_client r) p && Nat.eqb (r_device r) dev) l2 then None else get_for p acc.
Proof.
  induction l2 as [|x t IH]; intros acc D; cbn [fold_left existsb].
  - split; [exact D|split; [intros y I; exact I|intros p; reflexivity]].
  - destruct (Nat.eqb_spec (r_device x) dev) as [E|E].
    + destruct (IH (free_roles (r_client x) acc)) as [A [B C]]; [apply free_nodup; exact D|].
      split; [exact A|split; [intros y I; apply (free_in (r_client x)); apply B; exact I|]].
      intros p. rewrite C. destruct (Nat.eqb_spec (r_client x) p) as [F|F]; cbn [andb orb].
      * destruct (existsb _ t); [reflexivity|]. rewrite F. apply free_self. exact D.
      * destruct (existsb _ t); [reflexivity|]. apply free_other. congruence.
    + destruct (IH acc D) as [A [B C]]. split; [exact A|split; [exact B|]]. intros p. rewrite C. rewrite andb_false_r. cbn [orb]. reflexivity.
Qed.

Lemma device_gone dev l : NoDup (map r_client l) ->
  NoDup (map r_client (free_for_device dev l)) /\ (forall x, In x (free_for_device dev l) -> In x l /\ r_device x <> dev) /\
  (forall p r, get_for p l = Some r -> get_for p (free_for_device dev l) = if Nat.eqb (r_device r) dev then None else Some r) /\
  (forall p, get_for p l = None -> get_for p (free_for_device dev l) = None).
Proof.
  intros D. destruct (fold_device dev l l D) as [A [B C]]. fold (free_for_device dev l) in A, B, C.
  assert (S : forall p r, get_for p l = Some r -> get_for p (free_for_device dev l) = if Nat.eqb (r_device r) dev then None else Some r).
  { intros p r G. rewrite C. rewrite G. destruct (get_some _ _ _ G) as [I E]. destruct (existsb _ l) eqn:X.
    - apply existsb_exists in X. destruct X as [y [Iy Y]]. apply andb_true_iff in Y. destruct Y as [Y1 Y2]. apply Nat.eqb_eq in Y1.
      assert (Some y = Some r) by (rewrite <- G; symmetry; apply get_in; assumption). assert (y = r) by congruence. subst y. rewrite Y2. reflexivity.
    - destruct (Nat.eqb_spec (r_device r) dev) as [F|F]; [|reflexivity]. exfalso.
      assert (existsb (fun r => Nat.eqb (r_client r) p && Nat.eqb (r_device r) dev) l = true).
      { apply existsb_exists. exists r. split; [exact I|]. rewrite E, F, !Nat.eqb_refl. reflexivity. }
      congruence. }
  split; [exact A|split; [|split; [exact S|]]].
  - intros x I. split; [apply B; exact I|]. intros F. pose proof (get_in (r_client x) _ x A I eq_refl) as G.
    pose proof (S _ _ (get_in (r_client x) _ x D (B _ I) eq_refl)) as G2. rewrite F, Nat.eqb_refl in G2. congruence.
  - intros p G. rewrite C, G. destruct (existsb _ l); reflexivity.
Qed.

(** * One request *)

Definition vouchedE (E : cenv) (an : list (list N)) (x : list rep) (c : cred) : Prop :=
  exists it pub key r a, parse_props false item0 x = Some it /\ pub = od (sd_data (i_pub it)) /\ i_type it = CERT /\ i_usage it = ROLECERT /\
    ce_key E pub = Some key /\ ce_verify E key pub = true /\ ce_role E an pub = Some (r, a) /\ allowed_role r /\
    c_role c = Some r /\ c_auth c = Some a /\ od (cd_data (c_pub c)) = pub /\ c_type c = CERT /\ c_tag c = i_tag it.
Definition rids (l : list cred) : Prop := NoDup (ids l) /\ ~ In (-1)%Z (ids l).
(** From [s] to [s'], roles are added for the objects that satisfy [P]. *)
Definition grows (E : cenv) (P : list rep -> Prop) (s s' : cs) : Prop :=
  anchors (s_creds s') = anchors (s_creds s) /\
  exists new, s_roles s' = s_roles s ++ new /\ (rids (s_roles s) -> rids (s_roles s')) /\
    forall c, In c new -> exists x, P x /\ vouchedE E (anchors (s_creds s)) x c.

Lemma grows_refl E P s : grows E P s s.
Proof. split; [reflexivity|]. exists []. rewrite app_nil_r. split; [reflexivity|]. split; [auto|]. intros c []. Qed.
Lemma grows_trans E P a b c : grows E P a b -> grows E P b c -> grows E P a c.
Proof.
  intros [A [n [B [C D]]]] [A' [n' [B' [C' D']]]]. split; [congruence|]. exists (n ++ n'). split; [rewrite B', B, app_assoc; reflexivity|].
  split; [auto|]. intros x I. apply in_app_iff in I. destruct I as [I|I]; [apply D; exact I|]. rewrite <- A. apply D'. exact I.
Qed.
Lemma grows_weaken E (P Q : list rep -> Prop) s s' : (forall x, P x -> Q x) -> grows E P s s' -> grows E Q s s'.
Proof. intros H [A [n [B [C D]]]]. split; [exact A|]. exists n. split; [exact B|]. split; [exact C|]. intros c I. destruct (D c I) as [x [X Y]]. exists x. split; auto. Qed.

Lemma anchors_upd i f l : (forall c, c_type (f c) = c_type c /\ c_usage (f c) = c_usage c /\ c_pub (f c) = c_pub c) -> anchors (upd i f l) = anchors l.
Proof.
  intros H. unfold anchors. induction l as [|c t IH]; [reflexivity|]. cbn [upd]. destruct (c_id c =? i)%Z.
  - cbn [filter]. destruct (H c) as [A [B C]]. rewrite A, B. destruct (_ && _); [cbn [map]; rewrite C|]; reflexivity.
  - cbn [filter]. fold (upd i f). destruct (_ && _); [cbn [map]; f_equal|]; exact IH.
Qed.

Lemma role_ok_spec r : role_ok r = true -> allowed_role r.
Proof.
  unfold role_ok, allowed_role. intros H t E. destruct (list_eqb (firstn 9 r) (str "oic.role.")) eqn:F; [apply list_eqb_spec; exact H|].
  exfalso. subst r. replace (firstn 9 (str "oic.role." ++ t)) with (str "oic.role.") in F by reflexivity. rewrite list_eqb_refl in F. discriminate F.
Qed.

Lemma add_grows E x it s : parse_props false item0 x = Some it ->
  match add_cred E true it s with
  | AFail s' => s' = s
  | AOk _ s' _ _ => i_type it = CERT /\ s_creds s' = s_creds s /\ grows E (eq x) s s'
  | ALoop => True
  end.
Proof.
  intros Hp. unfold add_cred. destruct (if i_type it =? CERT then ce_key E (od (sd_data (i_pub it))) else Some []) as [key|] eqn:K; [|reflexivity].
  cbn [andb]. destruct (negb (i_type it =? CERT) || negb (i_usage it =? ROLECERT) || negb (ce_verify E key (od (sd_data (i_pub it))))) eqn:V; [reflexivity|].
  apply orb_false_iff in V. destruct V as [V V3]. apply orb_false_iff in V. destruct V as [V1 V2].
  apply negb_false_iff in V1, V2, V3. rewrite V1 in K. pose proof (proj1 (N.eqb_eq _ _) V1) as T. pose proof (proj1 (N.eqb_eq _ _) V2) as U.
  destruct (set_subject (i_subject it) (i_usage it)) as [subj|]; [|reflexivity].
  destruct (if (i_usage it =? IDENTITY) && negb (nonempty (sd_data (i_priv it))) then _ else _) as [kp|]; [|reflexivity].
  destruct (find _ (s_roles s)) as [d|].
  - split; [exact T|]. split; [reflexivity|apply grows_refl].
  - unfold create. destruct (negb (ce_alloc E (s_next s)) || _); [reflexivity|]. rewrite V2. rewrite app_nil_r.
    destruct (ce_role E (anchors (s_creds s)) (od (sd_data (i_pub it)))) as [[r a]|] eqn:R; [|reflexivity].
    cbn [andb od]. destruct (negb (role_ok r)) eqn:O; [reflexivity|]. apply negb_false_iff in O.
    set (gid := match by_id (i_id it) (s_roles s) with Some _ => (-1)%Z | None => i_id it end) in *.
    set (fresh := mk_cred (s_next s) 0 0 0 [] (mk_cd None 0) (mk_cd None 0) None None None false None).
    destruct (if (gid =? -1)%Z then new_id (s_roles s ++ [fresh]) (ce_rand E) else Some gid) as [cid|] eqn:G; [|exact I].
    destruct (if nonempty (sd_data (i_priv it)) then _ else _) as [pr|]; [|reflexivity].
    split; [exact T|]. split; [reflexivity|]. split; [reflexivity|]. eexists. split; [reflexivity|].
    assert (F : ~ In cid (ids (s_roles s)) /\ cid <> (-1)%Z).
    { destruct (gid =? -1)%Z eqn:M.
      - destruct (new_id_spec _ _ _ G) as [G1 G2]. split; [|lia]. intros Y. apply G1. unfold ids in *. rewrite map_app. apply in_app_iff. left. exact Y.
      - assert (cid = gid) by congruence. subst cid. apply Z.eqb_neq in M. split; [|exact M].
        unfold gid in *. destruct (by_id (i_id it) (s_roles s)) eqn:Y; [congruence|]. apply by_id_none. exact Y. }
    destruct F as [F1 F2]. split.
    + intros [D1 D2]. cbn [s_roles]. split; [apply nodup_snoc; [exact D1|exact F1]|]. unfold ids. rewrite map_app. intros Y. apply in_app_iff in Y.
      destruct Y as [Y|[Y|[]]]; [exact (D2 Y)|]. cbn [c_id] in Y. exact (F2 Y).
    + intros c [<-|[]]. exists x. split; [reflexivity|]. exists it, (od (sd_data (i_pub it))), key, r, a.
      split; [exact Hp|]. split; [reflexivity|]. split; [exact T|]. split; [exact U|]. split; [exact K|]. split; [exact V3|]. split; [exact R|].
      split; [apply role_ok_spec; exact O|]. cbn [c_role c_auth c_pub c_type c_tag andb negb]. split; [reflexivity|]. split; [reflexivity|].
      split; [|split; [exact T|reflexivity]]. destruct (nonempty (sd_data (i_pub it))) eqn:NE; [reflexivity|]. apply nonempty_false in NE. rewrite NE. reflexivity.
Qed.

Definition gres (E : cenv) (P : list rep -> Prop) (s : cs) (r : dres) : Prop :=
  match r with DFail s' o | DOk s' o => o = None /\ grows E P s s' | DLoop => True end.

Lemma item_grows E x it s : parse_props false item0 x = Some it -> gres E (eq x) s (apply_item E false true it s None).
Proof.
  intros Hp. unfold apply_item. pose proof (add_grows E x it s Hp) as A. destruct (add_cred E true it s) as [s'|id s' rp cr|]; [|destruct A as [T [A B]]|exact I].
  - subst s'. split; [reflexivity|apply grows_refl].
  - destruct (id =? -1)%Z; [split; [reflexivity|exact B]|]. destruct (by_id id (s_creds s')) as [c|]; [|split; [reflexivity|exact B]].
    cbv zeta. destruct (_ && negb (ce_octx E)); [split; [reflexivity|exact B]|]. rewrite T. cbn [negb andb]. change (CERT =? PSK) with false. cbn [andb].
    split; [reflexivity|]. apply (grows_trans _ _ _ _ _ B). split.
    + cbn [with_creds s_creds]. apply anchors_upd. intros d. split; [reflexivity|split; reflexivity].
    + exists []. cbn [with_creds s_roles]. rewrite app_nil_r. split; [reflexivity|]. split; [auto|]. intros d [].
Qed.

Lemma gres_trans E P s s' r : grows E P s s' -> gres E P s' r -> gres E P s r.
Proof. intros G H. destruct r as [t o|t o|]; [| |exact I]; destruct H as [A B]; (split; [exact A|apply (grows_trans _ _ _ _ _ G B)]). Qed.
Lemma gres_weaken E (P Q : list rep -> Prop) s r : (forall x, P x -> Q x) -> gres E P s r -> gres E Q s r.
Proof. intros H G. destruct r as [t o|t o|]; [| |exact I]; destruct G as [A B]; (split; [exact A|apply (grows_weaken _ _ _ _ _ H B)]). Qed.

Lemma items_grow E l : forall s, gres E (fun x => In x l) s (apply_items E false true l s None).
Proof.
  induction l as [|x t IH]; intros s; cbn [apply_items]; [split; [reflexivity|apply grows_refl]|].
  destruct (parse_props false item0 x) as [it|] eqn:Hp; [|split; [reflexivity|apply grows_refl]].
  destruct (osc_ok it); [|split; [reflexivity|apply grows_refl]]. destruct x as [|y k].
  - apply (gres_weaken _ _ _ _ _ (fun z H => or_intror H) (IH s)).
  - pose proof (item_grows E (y :: k) it s Hp) as A. destruct (apply_item E false true it s None) as [s' o|s' o|]; [| |exact I].
    + apply (gres_weaken _ _ _ _ _ (fun z H => or_introl H) A).
    + destruct A as [-> A]. apply (gres_trans _ _ _ s'); [apply (grows_weaken _ _ _ _ _ (fun z H => or_introl H) A)|].
      apply (gres_weaken _ _ _ _ _ (fun z H => or_intror H) (IH s')).
Qed.

Lemma props_grow E l : forall s, gres E (fun x => in_request x l) s (decode_props E false true l s None).
Proof.
  induction l as [|[n v] t IH]; intros s; cbn [decode_props]; [split; [reflexivity|apply grows_refl]|].
  assert (W : forall x, in_request x t -> in_request x ((n, v) :: t)). { intros x [m [a [A B]]]. exists m, a. split; [right; exact A|exact B]. }
  cbn [fst snd]. destruct v; try (apply (gres_weaken _ _ _ _ _ W (IH s))).
  - destruct (list_eqb n (str "rowneruuid")); [|apply (gres_weaken _ _ _ _ _ W (IH s))].
    eapply gres_trans; [|apply (gres_weaken _ _ _ _ _ W (IH _))]. split; [reflexivity|]. exists []. cbn [s_roles]. rewrite app_nil_r. split; [reflexivity|]. split; [auto|]. intros c [].
  - destruct (list_eqb n (str "creds") || list_eqb n (str "roles")) eqn:Hn; [|apply (gres_weaken _ _ _ _ _ W (IH s))].
    match goal with |- context [apply_items E false true ?a s None] => pose proof (items_grow E a s) as A; set (ll := a) in * end.
    assert (W2 : forall x, In x ll -> in_request x ((n, RObjArr ll) :: t)).
    { intros x Hx. exists n, ll. split; [left; reflexivity|]. split; [|exact Hx]. apply orb_true_iff in Hn. destruct Hn as [Hn|Hn]; apply list_eqb_spec in Hn; [left|right]; exact Hn. }
    destruct (apply_items E false true ll s None) as [s' o|s' o|]; [| |exact I].
    + apply (gres_weaken _ _ _ _ _ W2 A).
    + destruct A as [-> A]. apply (gres_trans _ _ _ s'); [apply (grows_weaken _ _ _ _ _ W2 A)|]. apply (gres_weaken _ _ _ _ _ W (IH s')).
Qed.

Lemma apply_grows E l s :
  match apply_cred E true l s with
  | PFail s' | POk s' => grows E (fun x => in_request x l) s s'
  | PLoop => True
  | PUB => False
  end.
Proof.
  unfold apply_cred, decode_cred. cbn [orb]. pose proof (props_grow E l s) as A. destruct (decode_props E false true l s None) as [s' o|s' o|]; [| |exact I];
    destruct A as [-> A]; exact A.
Qed.

Lemma verify_ok s cn key pub : verify (Some s) cn key pub = VOk -> (ss_key s <> [] -> has_key s key) /\ named s cn pub.
Proof.
  unfold verify, named, has_key. cbv zeta. intros H. assert (A : cn pub = Some (uuid_str (ss_uuid s)) \/ match cn pub with Some u => if list_eqb u (uuid_str (ss_uuid s)) then VOk else VNo | None => VNo end = VNo).
  { destruct (cn pub) as [u|]; [|right; reflexivity]. destruct (list_eqb u _) eqn:L; [|right; reflexivity]. left. apply list_eqb_spec in L. congruence. }
  destruct (ss_key s) as [|k0 ks] eqn:K.
  - split; [congruence|]. destruct A as [A|A]; [exact A|congruence].
  - rewrite <- K in *. clear K. destruct (_ <? _)%nat; [discriminate H|]. destruct (list_eqb key _) eqn:L; [|discriminate H]. apply list_eqb_spec in L. split.
    + intros _. eexists (firstn (List.length (ss_key s) - List.length key) (ss_key s)). rewrite L at 2. symmetry. apply firstn_skipn.
    + destruct A as [A|A]; [exact A|congruence].
Qed.

Lemma vouchedE_of s cn E an x c : vouchedE (env_of (Some s) cn E) an x c -> vouched s E cn an x c.
Proof.
  intros [it [pub [key [r [a [A1 [A2 [A3 [A4 [A5 [A6 A7]]]]]]]]]]]. cbn [env_of ce_key ce_verify ce_role] in *. exists it, pub, key, r, a.
  destruct (verify (Some s) cn key pub) eqn:V; try discriminate A6. destruct (verify_ok _ _ _ _ V) as [B1 B2].
  split; [exact A1|]. split; [exact A2|]. split; [exact A3|]. split; [exact A4|]. split; [exact A5|]. split; [exact B1|]. split; [exact B2|exact A7].
Qed.
