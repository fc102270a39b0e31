(** The resource of the cloud configuration. *)
From Verif Require Import Common Rep_Model Hex_Model Repd_Model Ea_Model Cloud_Model Cres_Model Cres_Spec.
From Coq Require Import String.
Local Open Scope list_scope.
Local Open Scope N_scope.

Definition key (k : string) : Prop := ((List.length (str k) =? 0) || (max_string <=? List.length (str k)))%nat = false.

Lemma first_spec (k : string) (p : list rep) :
  match find (fun r => (rtype (snd r) =? 5) && list_eqb (fst r) (str k)) p with
  | Some r => exists v, r = (str k, RStr v) /\ says p k v
  | None => silent p k
  end.
Proof.
  induction p as [|[n v] t IH]; [intros w []|]. cbn [find fst snd].
  destruct ((rtype v =? 5) && list_eqb n (str k)) eqn:E.
  - apply andb_true_iff in E. destruct E as [E1 E2]. apply list_eqb_spec in E2. subst n.
    destruct v; cbn [rtype] in E1; try discriminate E1. exists s. split; [reflexivity|]. exists [], t. split; [reflexivity|intros w []].
  - assert (Q : forall w, (n, v) <> (str k, RStr w)).
    { intros w H. injection H as -> ->. rewrite list_eqb_refl in E. discriminate E. }
    match goal with |- context[find ?f t] => destruct (find f t) as [r|] end.
    + destruct IH as (x & -> & l & r' & -> & H). exists x. split; [reflexivity|]. exists ((n, v) :: l), r'. split; [reflexivity|].
      intros w [K|K]; [exact (Q w K)|exact (H w K)].
    + intros w [K|K]; [exact (Q w K)|exact (IH w K)].
Qed.

Lemma says_fun p k v w : says p k v -> says p k w -> v = w.
Proof.
  intros (l & r & E & H) (l2 & r2 & E2 & H2). subst p. revert l2 E2 H2. induction l as [|x t IH]; intros l2 E2 H2.
  - destruct l2 as [|y t2]; cbn [app] in E2; [congruence|]. injection E2 as <- _. destruct (H2 v). left. reflexivity.
  - destruct l2 as [|y t2]; cbn [app] in E2.
    + injection E2 as -> _. destruct (H w). left. reflexivity.
    + injection E2 as <- E2. apply (IH (fun u K => H u (or_intror K)) t2 E2). intros u K. exact (H2 u (or_intror K)).
Qed.

Lemma says_silent p k v : says p k v -> silent p k -> False.
Proof. intros (l & r & -> & _) H. apply (H v). apply in_or_app. right. left. reflexivity. Qed.

Lemma get_some p k v : key k -> (get_s p (str k) = Some v <-> says p k v).
Proof.
  intros K. unfold get_s, get_by. rewrite K. pose proof (first_spec k p) as F. revert F; match goal with |- context[find ?f p] => destruct (find f p) as [r|] end; intros F; cbn [option_map].
  - destruct F as (w & -> & S0). cbn [snd]. split; [intros H; injection H as <-; exact S0|].
    intros S1. rewrite (says_fun _ _ _ _ S0 S1). reflexivity.
  - split; [intros H; discriminate H|]. intros S1. destruct (says_silent _ _ _ S1 F).
Qed.

Lemma get_none p k : key k -> (get_s p (str k) = None <-> silent p k).
Proof.
  intros K. unfold get_s, get_by. rewrite K. pose proof (first_spec k p) as F. revert F; match goal with |- context[find ?f p] => destruct (find f p) as [r|] end; intros F; cbn [option_map].
  - destruct F as (w & -> & S0). cbn [snd]. split; [intros H; discriminate H|]. intros S1. destruct (says_silent _ _ _ S0 S1).
  - split; auto.
Qed.

Lemma k_cps : key "cps". Proof. vm_compute. reflexivity. Qed.
Lemma k_cis : key "cis". Proof. vm_compute. reflexivity. Qed.
Lemma k_sid : key "sid". Proof. vm_compute. reflexivity. Qed.
Lemma k_at : key "at". Proof. vm_compute. reflexivity. Qed.
Lemma k_apn : key "apn". Proof. vm_compute. reflexivity. Qed.
Lemma k_uri : key "uri". Proof. vm_compute. reflexivity. Qed.
Lemma k_id : key "id". Proof. vm_compute. reflexivity. Qed.

Lemma full_some p k v : key k -> (get_full p (str k) = Some v <-> says p k v /\ v <> []).
Proof.
  intros K. unfold get_full. destruct (get_s p (str k)) as [[|c t]|] eqn:G.
  - apply (get_some _ _ _ K) in G. split; [intros H; discriminate H|]. intros [S1 N1]. destruct N1. exact (says_fun _ _ _ _ S1 G).
  - apply (get_some _ _ _ K) in G. split; [intros H; injection H as <-; split; [exact G|discriminate]|].
    intros [S1 _]. rewrite (says_fun _ _ _ _ G S1). reflexivity.
  - apply (get_none _ _ K) in G. split; [intros H; discriminate H|]. intros [S1 _]. destruct (says_silent _ _ _ S1 G).
Qed.

Lemma full_none p k : key k -> (get_full p (str k) = None <-> forall v, says p k v -> v = []).
Proof.
  intros K. unfold get_full. destruct (get_s p (str k)) as [[|c t]|] eqn:G.
  - apply (get_some _ _ _ K) in G. split; [|reflexivity]. intros _ v Hv. exact (says_fun _ _ _ _ Hv G).
  - apply (get_some _ _ _ K) in G. split; [intros H; discriminate H|]. intros H. specialize (H _ G). discriminate H.
  - apply (get_none _ _ K) in G. split; [|reflexivity]. intros _ v Hv. destruct (says_silent _ _ _ Hv G).
Qed.

Definition id_of (t : list N) : option (list N) :=
  match str_to_uuid_v1 t with (z, Some v) => if (z <? 0)%Z then None else Some v | (_, None) => None end.

Lemma id_of_spec t v : id_of t = Some v <-> id_text t v.
Proof.
  unfold id_of, id_text. destruct (str_to_uuid_v1 t) as [z [w|]].
  - destruct (Z.ltb_spec z 0); split.
    + intros H1; discriminate H1.
    + intros (z' & E & L). injection E as <- _. lia.
    + intros E. injection E as <-. exists z. split; [reflexivity|lia].
    + intros (z' & E & L). injection E as _ ->. reflexivity.
  - split; [intros H; discriminate H|]. intros (z' & E & _). discriminate E.
Qed.

Definition servers_of (p : list rep) : option (list (list rep)) :=
  match get_oa p (str "x.org.iotivity.servers") with Some [] => None | x => x end.

Definition request (p : list rep) (u v a : list N) : update := mk_up a (get_full p (str "apn")) u v (servers_of p).

Lemma free_open cps p : free cps -> open_to cps p = true.
Proof. intros [-> | [-> | [-> | ->]]]; reflexivity. Qed.

Lemma open_le cps p : open_to cps p = true -> cps <= 5 /\ (free cps \/ says p "cis" []).
Proof.
  unfold open_to, free. destruct (N.eqb_spec cps 0); [intros; split; [lia|auto]|]. destruct (N.eqb_spec cps 1); [intros; split; [lia|auto]|].
  destruct (N.eqb_spec cps 4); [intros; split; [lia|auto]|]. destruct (N.eqb_spec cps 5); [intros; split; [lia|auto]|]. cbn [orb].
  destruct ((cps =? 2) || (cps =? 3)) eqn:E; [|intros H; discriminate H].
  destruct (get_s p (str "cis")) as [[|c t]|] eqn:G; intros H; try discriminate H. apply (get_some _ _ _ k_cis) in G.
  apply orb_true_iff in E. rewrite !N.eqb_eq in E. split; [lia|auto].
Qed.

Lemma leave_open cps p : cps <= 5 -> says p "cis" [] -> open_to cps p = true.
Proof.
  intros L H. apply (get_some _ _ _ k_cis) in H. unfold open_to. rewrite H.
  destruct ((cps =? 0) || (cps =? 1) || (cps =? 4) || (cps =? 5)) eqn:E; [reflexivity|].
  rewrite !orb_false_iff, !N.eqb_neq in E. assert (Q : cps = 2 \/ cps = 3) by lia. destruct Q as [-> | ->]; reflexivity.
Qed.

Lemma read_leave p : says p "cis" [] -> (forall t, says p "sid" t -> t <> [] -> exists v, id_text t v) -> read_update p = Leave.
Proof.
  intros C I0. apply (get_some _ _ _ k_cis) in C. unfold read_update. rewrite C.
  destruct (get_full p (str "sid")) as [t|] eqn:G; [|reflexivity].
  apply (full_some _ _ _ k_sid) in G. destruct (I0 t (proj1 G) (proj2 G)) as (v & Hv). apply id_of_spec in Hv. unfold id_of in Hv. rewrite Hv. reflexivity.
Qed.

Lemma read_conf p u v a t : says p "cis" u -> u <> [] -> says p "at" a -> a <> [] -> says p "sid" t -> t <> [] -> id_text t v ->
  read_update p = Configure (request p u v a).
Proof.
  intros C Nu A Na Si Nt Iv. apply (get_some _ _ _ k_cis) in C. unfold read_update, request, servers_of.
  rewrite C, (proj2 (full_some _ _ _ k_sid) (conj Si Nt)), (proj2 (full_some _ _ _ k_at) (conj A Na)).
  apply id_of_spec in Iv. unfold id_of in Iv. rewrite Iv. destruct u; [destruct Nu; reflexivity|reflexivity].
Qed.

Lemma post_leave slot mem reset manager fits err p s : leaves (st_cps s) p ->
  post slot mem reset manager fits err p s = finish fits err (reset s) [ResetCloud].
Proof.
  intros (L & Q & C & I0). unfold post. rewrite (leave_open _ _ L C), (proj2 (get_none _ _ k_cps) Q), (read_leave _ C I0). reflexivity.
Qed.

Lemma post_conf slot mem reset manager fits err p s u v a : configures (st_cps s) p u v a ->
  post slot mem reset manager fits err p s = finish fits err (configure slot mem (request p u v a) s) (if manager then [Restarted] else []).
Proof.
  intros (F & Q & C & Nu & A & Na & t & Si & Nt & Iv). unfold post.
  rewrite (free_open _ p F), (proj2 (get_none _ _ k_cps) Q), (read_conf _ _ _ _ _ C Nu A Na Si Nt Iv). reflexivity.
Qed.

Lemma post_none slot mem reset manager fits err p s : ~ leaves (st_cps s) p -> (forall u v a, ~ configures (st_cps s) p u v a) ->
  post slot mem reset manager fits err p s = (BadRequest, s, []).
Proof.
  intros Nl Nc. unfold post. destruct (open_to (st_cps s) p) eqn:O; [|reflexivity]. cbn [negb].
  destruct (get_s p (str "cps")) as [x|] eqn:Q; [reflexivity|]. apply (get_none _ _ k_cps) in Q. apply open_le in O. destruct O as [L O].
  destruct (read_update p) as [| |u] eqn:R; [reflexivity| |]; exfalso; unfold read_update in R.
  - destruct (get_s p (str "cis")) as [[|c t]|] eqn:C.
    + apply Nl. apply (get_some _ _ _ k_cis) in C. repeat split; auto. intros t S1 N1.
      rewrite (proj2 (full_some _ _ _ k_sid) (conj S1 N1)) in R. fold (id_of t) in R.
      destruct (id_of t) as [v|] eqn:E; [|discriminate R]. exists v. apply id_of_spec. exact E.
    + destruct (match get_full p (str "sid") with Some _ => _ | None => _ end); [|discriminate R].
      destruct (get_full p (str "at")), (get_full p (str "sid")); discriminate R.
    + destruct (match get_full p (str "sid") with Some _ => _ | None => _ end); discriminate R.
  - destruct (get_full p (str "sid")) as [t|] eqn:Si.
    + fold (id_of t) in R. destruct (id_of t) as [v|] eqn:E; [|discriminate R].
      destruct (get_s p (str "cis")) as [[|c r]|] eqn:C; try discriminate R.
      destruct (get_full p (str "at")) as [a|] eqn:A; [|discriminate R].
      apply (get_some _ _ _ k_cis) in C. apply (full_some _ _ _ k_sid) in Si. apply (full_some _ _ _ k_at) in A. apply id_of_spec in E.
      apply (Nc (c :: r) v a). destruct A as [A1 A2], Si as [S1 S2]. split.
      * destruct O as [O|O]; [exact O|]. pose proof (says_fun _ _ _ _ C O) as X. discriminate X.
      * repeat split; auto; [discriminate|]. exists t. auto.
    + destruct (get_s p (str "cis")) as [[|c r]|]; try discriminate R. destruct (get_full p (str "at")); discriminate R.
Qed.

(** The servers. *)

Lemma add_cases s u m mem : (exists e, add s u m mem = (s, e) /\ e = None) \/
  exists q e, mem = Some q /\ e = mk_ea q u m /\ uri_valid u = true /\ contains s u = false /\
    add s u m mem = (mk_eas (l_items s ++ [e]) (match l_sel s with None => Some q | x => x end) (match l_sel s with None => l_log s ++ [Some u] | _ => l_log s end), Some e).
Proof.
  unfold add. destruct (uri_valid u) eqn:V; cbn [negb]; [|left; eauto]. destruct (contains s u) eqn:C; [left; eauto|].
  unfold alloc_add. rewrite V. cbn [negb]. destruct mem as [q|]; [|left; eauto]. right. exists q, (mk_ea q u m). repeat split.
  destruct s as [it [x|] lg]; cbn [l_sel l_items l_log set_items select_ opt_eqb option_map a_ptr a_uri fst]; reflexivity.
Qed.

Lemma find_ptr_app p l e : forall x, find_ptr p l = Some x -> find_ptr p (l ++ [e]) = Some x.
Proof.
  intros x. unfold find_ptr. induction l as [|y t IH]; [intros H; discriminate H|]. cbn [find app].
  destruct (a_ptr y =? p); [auto|exact IH].
Qed.

Lemma add_servers_selected mem l : forall k s x, selected s = Some x -> selected (fst (add_servers mem k s l)) = Some x.
Proof.
  induction l as [|o t IH]; intros k s x H; [exact H|]. cbn [add_servers].
  destruct (get_s o (str "uri")) as [u|]; [|apply IH; exact H]. destruct (get_s o (str "id")) as [i|]; [|apply IH; exact H].
  destruct (str_to_uuid_v1 i) as [z [v|]]; [|apply IH; exact H]. destruct (z <? 0)%Z; [apply IH; exact H|].
  destruct (contains s u) eqn:Cn; [apply IH; exact H|].
  destruct (add_cases s u (MUuid v) (mem k)) as [(e & -> & ->)|(q & e & _ & -> & _ & _ & ->)]; [exact H|].
  apply IH. unfold selected in *. cbn [l_sel l_items]. destruct (l_sel s) as [p|]; [|discriminate H]. apply find_ptr_app. exact H.
Qed.

Definition listed (l : list (list rep)) (u v : list N) : Prop := exists o t, In o l /\ says o "uri" u /\ says o "id" t /\ id_text t v.

Lemma add_servers_source mem l : forall k s e, In e (l_items (fst (add_servers mem k s l))) ->
  In e (l_items s) \/ exists v, a_meta e = MUuid v /\ listed l (a_uri e) v.
Proof.
  induction l as [|o t IH]; intros k s e H; [left; exact H|]. cbn [add_servers] in H.
  assert (Skip : forall k', In e (l_items (fst (add_servers mem k' s t))) -> In e (l_items s) \/ exists v, a_meta e = MUuid v /\ listed (o :: t) (a_uri e) v).
  { intros k' H'. destruct (IH k' s e H') as [A|(v & M & o' & i & Io & B)]; [left; exact A|right].
    exists v. split; [exact M|]. exists o', i. split; [right; exact Io|exact B]. }
  destruct (get_s o (str "uri")) as [u|] eqn:Gu; [|exact (Skip k H)]. destruct (get_s o (str "id")) as [i|] eqn:Gi; [|exact (Skip k H)].
  destruct (str_to_uuid_v1 i) as [z [v|]] eqn:Z0; [|exact (Skip k H)]. destruct (Z.ltb_spec z 0); [exact (Skip k H)|].
  destruct (contains s u) eqn:Cn; [exact (Skip k H)|].
  destruct (add_cases s u (MUuid v) (mem k)) as [(e0 & E & ->)|(q & e0 & _ & E0 & _ & _ & E)]; rewrite E in H; [left; exact H|].
  destruct (IH _ _ _ H) as [A|(w & M & o' & j & Io & B)].
  - cbn [l_items] in A. apply in_app_iff in A. destruct A as [A|[<-|[]]]; [left; exact A|right]. subst e0. cbn [a_meta a_uri].
    exists v. split; [reflexivity|]. exists o, i. split; [left; reflexivity|]. split; [apply (get_some _ _ _ k_uri); exact Gu|].
    split; [apply (get_some _ _ _ k_id); exact Gi|]. exists z. split; [exact Z0|exact H0].
  - right. exists w. split; [exact M|]. exists o', j. split; [right; exact Io|exact B].
Qed.

Lemma contains_in s u : contains s u = true <-> exists e, In e (l_items s) /\ a_uri e = u.
Proof. unfold contains. rewrite existsb_exists. split; intros (e & I0 & E); exists e; (split; [exact I0|apply list_eqb_spec; exact E]). Qed.

Lemma add_servers_grows mem l : forall k s e, In e (l_items s) -> In e (l_items (fst (add_servers mem k s l))).
Proof.
  induction l as [|o t IH]; intros k s e H; [exact H|]. cbn [add_servers].
  destruct (get_s o (str "uri")) as [u|]; [|apply IH; exact H]. destruct (get_s o (str "id")) as [i|]; [|apply IH; exact H].
  destruct (str_to_uuid_v1 i) as [z [v|]]; [|apply IH; exact H]. destruct (z <? 0)%Z; [apply IH; exact H|].
  destruct (contains s u) eqn:Cn; [apply IH; exact H|].
  destruct (add_cases s u (MUuid v) (mem k)) as [(e0 & -> & ->)|(q & e0 & _ & -> & _ & _ & ->)]; [exact H|].
  apply IH. cbn [l_items]. apply in_or_app. left. exact H.
Qed.

Lemma add_servers_all mem l : (forall k, mem k <> None) -> (forall u v, listed l u v -> uri_valid u = true) ->
  forall k s u v, listed l u v -> exists e, In e (l_items (fst (add_servers mem k s l))) /\ a_uri e = u.
Proof.
  intros Mm. induction l as [|o t IH]; intros V k s u v (o' & i & Io & Su & Si & Iv); [destruct Io|].
  assert (V' : forall u v, listed t u v -> uri_valid u = true).
  { intros a b (x & y & Ix & R). apply (V a b). exists x, y. split; [right; exact Ix|exact R]. }
  assert (Later : forall k' s', In o' t -> exists e, In e (l_items (fst (add_servers mem k' s' t))) /\ a_uri e = u).
  { intros k' s' It. apply (IH V' k' s' u v). exists o', i. auto. }
  cbn [add_servers]. destruct Io as [->|It].
  - destruct Iv as (z & Z0 & Zp). rewrite (proj2 (get_some _ _ _ k_uri) Su), (proj2 (get_some _ _ _ k_id) Si), Z0.
    destruct (Z.ltb_spec z 0); [lia|]. destruct (contains s u) eqn:Cn.
    + apply contains_in in Cn. destruct Cn as (e & Ie & Ee). exists e. split; [apply add_servers_grows; exact Ie|exact Ee].
    + destruct (add_cases s u (MUuid v) (mem k)) as [(e0 & E & ->)|(q & e0 & _ & E0 & _ & _ & E)].
      * exfalso. assert (Vu : uri_valid u = true).
        { apply (V u v). exists o', i. split; [left; reflexivity|]. split; [exact Su|]. split; [exact Si|]. exists z. auto. }
        unfold add, alloc_add in E. rewrite Vu, Cn in E. cbn [negb] in E. destruct (mem k) eqn:Mk; [discriminate E|exact (Mm k Mk)].
      * rewrite E. exists e0. split; [|subst e0; reflexivity]. apply add_servers_grows. cbn [l_items]. apply in_or_app. right. left. reflexivity.
  - destruct (get_s o (str "uri")) as [a|] eqn:Ga; [|apply Later; exact It]. destruct (get_s o (str "id")) as [j|] eqn:Gj; [|apply Later; exact It].
    destruct (str_to_uuid_v1 j) as [z [w|]] eqn:Z0; [|apply Later; exact It]. destruct (Z.ltb_spec z 0); [apply Later; exact It|].
    destruct (contains s a) eqn:Cn; [apply Later; exact It|].
    destruct (add_cases s a (MUuid w) (mem k)) as [(e0 & E & ->)|(q & e0 & _ & E0 & _ & _ & E)]; [|rewrite E; apply Later; exact It].
    exfalso. assert (Vu : uri_valid a = true).
    { apply (V a w). exists o, j. split; [left; reflexivity|]. split; [apply (get_some _ _ _ k_uri); exact Ga|].
      split; [apply (get_some _ _ _ k_id); exact Gj|]. exists z. auto. }
    unfold add, alloc_add in E. rewrite Vu, Cn in E. cbn [negb] in E. destruct (mem k) eqn:Mk; [discriminate E|exact (Mm k Mk)].
Qed.

Lemma oa_in p l : get_oa p (str "x.org.iotivity.servers") = Some l -> In (str "x.org.iotivity.servers", RObjArr l) p.
Proof.
  unfold get_oa, get_by. destruct (_ || _)%nat; [intros H; discriminate H|].
  match goal with |- context[find ?f p] => destruct (find f p) as [[n v]|] eqn:F end; cbn [option_map snd]; [|intros H; discriminate H].
  apply find_some in F. destruct F as [I0 E]. cbn [fst snd] in E. apply andb_true_iff in E. destruct E as [_ E]. apply list_eqb_spec in E.
  destruct v; intros H; try discriminate H. injection H as <-. rewrite <- E. exact I0.
Qed.

Lemma set_start mem s u v servers q : u <> [] -> uri_valid u = true -> mem 0%nat = Some q ->
  exists s1, l_items s1 = [mk_ea q u (MUuid v)] /\ selected s1 = Some (mk_ea q u (MUuid v)) /\
  addresses_set mem s u v servers = match servers with None => (s1, true) | Some l => add_servers mem 1%nat s1 l end.
Proof.
  intros Nu V M. exists (mk_eas [mk_ea q u (MUuid v)] (Some q) (l_log s ++ [Some u])). split; [reflexivity|]. split.
  - unfold selected, find_ptr. cbn [l_sel l_items find a_ptr]. rewrite N.eqb_refl. reflexivity.
  - unfold addresses_set, init, alloc_add. destruct u as [|c r]; [destruct Nu; reflexivity|]. rewrite V, M. cbn [negb].
    reflexivity.
Qed.

Lemma servers_further p l u v : servers_of p = Some l -> listed l u v -> further p u v.
Proof.
  unfold servers_of. destruct (get_oa p (str "x.org.iotivity.servers")) as [[|o t]|] eqn:G; intros H; try discriminate H. injection H as <-.
  apply oa_in in G. intros (o' & i & I0 & R). exists (o :: t), o', i. auto.
Qed.

Lemma set_source mem s p u v e : In e (l_items (fst (addresses_set mem s u v (servers_of p)))) ->
  (a_uri e = u /\ a_meta e = MUuid v) \/ exists w, a_meta e = MUuid w /\ further p (a_uri e) w.
Proof.
  intros H. unfold addresses_set in H.
  assert (B : forall e, In e (l_items (fst (init (l_log (deinit s)) u (MUuid v) (mem 0%nat)))) -> a_uri e = u /\ a_meta e = MUuid v).
  { intros x. unfold init, alloc_add. destruct u as [|c r]; [intros []|]. destruct (negb (uri_valid (c :: r))); [intros []|].
    destruct (mem 0%nat); [|intros []]. intros [<-|[]]. split; reflexivity. }
  destruct (init _ _ _ _) as [s1 [|]]; cbn [fst] in *; [|left; exact (B e H)].
  destruct (servers_of p) as [l|] eqn:Sv; [|left; exact (B e H)].
  destruct (add_servers_source mem l _ _ _ H) as [A|(w & M & L)]; [left; exact (B e A)|right].
  exists w. split; [exact M|exact (servers_further p l _ _ Sv L)].
Qed.
