(** C67 to C70: links of collections, URIs of created resources, the filter by type and batch requests
    (api/oc_collection.c, api/oc_link.c, api/oc_resource_factory.c, api/oc_core_res.c, api/oc_ri.c). *)
From Verif Require Import Common Query_Spec Rep_Model Ri_Model Ep_Model Col_Model Col_Spec Col_Proofs Col2_Proofs Col3_Proofs Col4_Proofs
  Col5_Proofs Col6_Proofs.
From Coq Require Import String ZArith Sorting.Sorted.
Local Open Scope string_scope.
Local Open Scope list_scope.
Local Open Scope N_scope.

(** * Small resources for the examples *)
Definition res_at (i dev def : N) (u : string) : res :=
  {| r_id := i; r_uri := str u; r_dev := dev; r_ifs := 255; r_def := def; r_get := true; r_post := true;
     r_put := false; r_del := false; r_observable := false; r_periodic := false; r_period := 0 |}.
Definition tr (i dev def : N) (u t : string) : tres := mkTres (res_at i dev def u) [str t].
Definition room := tr 10 0 IF_LL "/room" "oic.wk.col".
Definition lamp := tr 1 0 IF_RW "/lamp" "x.lamp".
Definition fan := tr 2 0 IF_RW "/fan" "x.fan".
Definition lamp2 := tr 3 1 IF_RW "/lamp" "x.lamp".
Definition far_room := tr 11 1 IF_LL "/room" "oic.wk.col".
Definition link_to (i : N) (t : tres) : link := mkLink i t.

(** * C67 *)

(** Whatever an application does, the links of every collection stay in order: short URIs before long ones, URIs of
    one length by their characters. *)
Theorem C67_links_in_order ops c : In c (w_cols (col_run ops)) -> in_order (cl_links c).
Proof. exact (run_in_order ops c). Qed.
Example C67_order_ex :
  map (fun c => map ln_uri (cl_links c)) (w_cols (col_run [NewCollection room; NewResource lamp; NewResource fan;
     AddLink 10 (link_to 1 lamp); AddLink 10 (link_to 2 room); AddLink 10 (link_to 3 fan)]))
  = [[str "/fan"; str "/lamp"; str "/room"]].
Proof. reflexivity. Qed.

(** Adding a link puts it after every link whose URI is not greater and before those with a greater URI, and leaves the
    others as they are.  A link to a resource without a URI is ignored. *)
Theorem C67_add_link l ls : ln_uri l <> [] -> in_order ls ->
  exists a b, ls = a ++ b /\ add_link l ls = a ++ [l] ++ b /\
    Forall (fun x => ~ href_lt (ln_uri l) (ln_uri x)) a /\ Forall (fun x => href_lt (ln_uri l) (ln_uri x)) b.
Proof. intros H Hs. unfold add_link. destruct (ln_uri l) eqn:E; [contradiction|]. rewrite <- E in *. exact (insert_link_spec l ls H Hs). Qed.
Theorem C67_add_no_uri l ls : ln_uri l = [] -> add_link l ls = ls.
Proof. intros H. unfold add_link. rewrite H. reflexivity. Qed.

(** Removing a link takes out that link only; a link that is not there changes nothing. *)
Theorem C67_remove_link a l b : (forall x, In x a -> ln_id x <> ln_id l) -> remove_link (ln_id l) (a ++ [l] ++ b) = a ++ b.
Proof. exact (remove_mid a l b). Qed.
Theorem C67_remove_absent i ls : (forall l, In l ls -> ln_id l <> i) -> remove_link i ls = ls.
Proof.
  intros H. destruct (remove_spec i ls) as [[E _]|(a & l & b & -> & Hl & _)]; [exact E|]. exfalso. apply (H l); [|exact Hl].
  apply in_app_iff. right. left. reflexivity.
Qed.
Example C67_remove_ex : remove_link 2 [link_to 1 fan; link_to 2 lamp; link_to 3 room] = [link_to 1 fan; link_to 3 room].
Proof. reflexivity. Qed.

(** The lookup by URI gives the first link whose URI is the one asked for, apart from leading slashes. *)
Theorem C67_link_by_uri u ls : u <> [] ->
  match link_by_uri u ls with
  | Some l => exists a b, ls = a ++ [l] ++ b /\ strip (ln_uri l) = strip u /\ forall x, In x a -> strip (ln_uri x) <> strip u
  | None => forall x, In x ls -> strip (ln_uri x) <> strip u
  end.
Proof. exact (link_by_uri_spec u ls). Qed.
Example C67_by_uri_ex : link_by_uri (str "lamp") [link_to 1 fan; link_to 2 lamp] = Some (link_to 2 lamp)
  /\ link_by_uri (str "//lamp") [link_to 1 fan; link_to 2 lamp] = Some (link_to 2 lamp)
  /\ link_by_uri (str "/la") [link_to 1 fan; link_to 2 lamp] = None.
Proof. repeat split; reflexivity. Qed.

(** An application that keeps the rules never sees a link to a freed resource. *)
Theorem C67_no_dangling_links ops w : ruled (mkWorld [] []) ops w -> w = col_run ops /\ no_dangling w.
Proof. intros H. split; [exact (ruled_run _ _ _ H)|exact (ruled_no_dangling ops w H)]. Qed.

(** Deleting a resource takes exactly the links to it out of every collection. *)
Theorem C67_delete_unlinks ops w t : ruled (mkWorld [] []) ops w -> In t (w_live w) ->
  w_cols (col_step w (DeleteResource t)) =
    map (fun c => mkColl (cl_res c) (filter (fun l => negb (ln_res l =? t_id t)) (cl_links c))) (w_cols w).
Proof. exact (ruled_delete ops w t). Qed.

Definition good_ops : list col_op := [NewCollection room; NewResource lamp; NewResource fan;
     AddLink 10 (link_to 1 lamp); AddLink 10 (link_to 2 room); AddLink 10 (link_to 3 fan); DeleteResource lamp].
Ltac decide_rules :=
  cbn [keeps_rules]; unfold is_new, same_place; vm_compute;
  repeat match goal with
  | |- _ /\ _ => split
  | |- forall _, _ => intro
  | H : _ \/ _ |- _ => destruct H
  | H : False |- _ => destruct H
  | H : _ = ?x |- _ => first [is_var x; subst x | discriminate H]
  end; try discriminate; try (intuition discriminate); auto 6.
Example C67_rules_ex : ruled (mkWorld [] []) good_ops (col_run good_ops) /\
  map (fun c => map ln_uri (cl_links c)) (w_cols (col_run good_ops)) = [[str "/fan"; str "/room"]].
Proof. split; [|reflexivity]. unfold good_ops. repeat (apply ruled_cons; [decide_rules|]). apply ruled_nil. Qed.

(** Outside the rules links to freed resources remain: two links to one resource in a collection. *)
Theorem C67_two_links_refuted : exists ops c l,
  ops = [NewCollection room; NewResource lamp; AddLink 10 (link_to 1 lamp); AddLink 10 (link_to 2 lamp); DeleteResource lamp] /\
  In c (w_cols (col_run ops)) /\ In l (cl_links c) /\
  ~ In (ln_to l) (w_live (col_run ops)).
Proof.
  do 3 eexists. split; [reflexivity|]. split; [left; reflexivity|]. split; [left; reflexivity|]. vm_compute. intuition discriminate.
Qed.
(** A collection of another device that links the resource. *)
Theorem C67_other_device_refuted : exists ops c l,
  ops = [NewCollection room; NewResource lamp2; AddLink 10 (link_to 1 lamp2); DeleteResource lamp2] /\
  In c (w_cols (col_run ops)) /\ In l (cl_links c) /\
  ~ In (ln_to l) (w_live (col_run ops)).
Proof.
  do 3 eexists. split; [reflexivity|]. split; [left; reflexivity|]. split; [left; reflexivity|]. vm_compute. intuition discriminate.
Qed.
(** Resources with the same URI on two devices linked in one collection: the link to the other one is taken out. *)
Theorem C67_same_uri_refuted : exists ops c,
  ops = [NewCollection room; NewResource lamp; NewResource lamp2; AddLink 10 (link_to 1 lamp2); AddLink 10 (link_to 2 lamp); DeleteResource lamp] /\
  In c (w_cols (col_run ops)) /\ map ln_to (cl_links c) = [lamp] /\ w_live (col_run ops) = [room; lamp2].
Proof. do 2 eexists. split; [reflexivity|]. split; [left; reflexivity|]. split; reflexivity. Qed.
(** A collection that another collection links. *)
Theorem C67_deleted_collection_refuted : exists ops c l,
  ops = [NewCollection room; NewCollection (tr 12 0 IF_LL "/house" "oic.wk.col"); AddLink 12 (link_to 1 room); DeleteCollection 10] /\
  In c (w_cols (col_run ops)) /\ In l (cl_links c) /\
  ~ In (ln_to l) (w_live (col_run ops)).
Proof.
  do 3 eexists. split; [reflexivity|]. split; [left; reflexivity|]. split; [left; reflexivity|]. vm_compute. intuition discriminate.
Qed.

(** * C68 *)

(** A resource created through a collection gets the URI of the collection, a slash and the smallest number from 1 on
    that no link of the collection has, when the links have distinct URIs and those that end in a number have it as the
    server writes it.  It fits the buffer of 64 bytes; only for collections with long URIs no such URI is made. *)
Theorem C68_created_uri ops c cu : In c (w_cols (col_run ops)) -> r_uri (cl_res c) = cu -> cu <> [] ->
  distinct_uris (cl_links c) -> tidy cu (cl_links c) -> N.of_nat (List.length (cl_links c)) < 2147483647 ->
  match instance_uri cu (cl_links c) with
  | Some u => exists s, plain_number s /\ u = child cu s /\ (List.length u < 64)%nat /\
      (forall l, In l (cl_links c) -> ln_uri l <> u) /\
      (forall t, plain_number t -> value_of t < value_of s -> exists l, In l (cl_links c) /\ ln_uri l = child cu t)
  | None => (53 <= List.length cu)%nat
  end.
Proof.
  intros Hc _ Hn Hd Ht Hb. pose proof (instance_uri_spec cu (cl_links c) Hn (run_in_order ops c Hc) Hd Ht Hb) as H.
  destruct (instance_uri cu (cl_links c)) as [u|]; [|exact H]. destruct H as (i & Hi & -> & Hl & Hf & Hs).
  destruct (dec_plain i ltac:(lia)) as [Hp Hv]. exists (dec i). repeat split; try apply Hp; [exact Hl|exact Hf|].
  intros t Pt Lt. rewrite Hv in Lt. pose proof (plain_pos t Pt). destruct (Hs (value_of t) ltac:(lia)) as (l & Hin & E). exists l. split; [exact Hin|].
  rewrite E. f_equal. destruct (dec_plain (value_of t) ltac:(lia)) as [Hp' Hv']. exact (plain_unique _ _ Hp' Pt Hv').
Qed.
Definition numbered (us : list string) : list col_op :=
  NewCollection room :: map (fun p => AddLink 10 (link_to (fst p) (tr (fst p) 0 IF_RW (snd p) "x"))) (combine (map N.of_nat (seq 20 (List.length us))) us).
Definition links_of (ops : list col_op) : list link := match w_cols (col_run ops) with c :: _ => cl_links c | [] => [] end.
Example C68_created_ex :
  instance_uri (str "/room") (links_of (numbered ["/room/10"; "/room/2"; "/room/1"; "/other/3"; "/room/x"])) = Some (str "/room/3") /\
  instance_uri (str "/room") (links_of (numbered ["/room/2"; "/room"])) = Some (str "/room/1") /\
  instance_uri (str "/room") (links_of (numbered ["/room/1"; "/room/2"; "/room/3"; "/room/4"; "/room/5"; "/room/6"; "/room/7"; "/room/8"; "/room/9"])) = Some (str "/room/10") /\
  instance_uri (repeat 97 62) [] = None.
Proof. vm_compute. repeat split. Qed.
Example C68_tidy_ex : tidy (str "/room") (links_of (numbered ["/room/2"; "/room/x"; "/lamp"])) /\ distinct_uris (links_of (numbered ["/room/2"; "/room/x"; "/lamp"])).
Proof.
  split.
  - intros l s H E. vm_compute in H. destruct H as [<-|[<-|[<-|[]]]]; vm_compute in E.
    + discriminate.
    + injection E as <-. right. split; [split; [discriminate|repeat constructor; lia]|vm_compute; discriminate].
    + injection E as <-. left. intros X. apply numeral_last in X. vm_compute in X. destruct X as [_ X]. apply X. reflexivity.
  - vm_compute. repeat (constructor; [cbn [In]; intuition discriminate|]). constructor.
Qed.

(** A link numbered 0, or one number linked twice, makes the server choose a URI that is in use. *)
Theorem C68_number_zero_refuted : exists ls l u, ls = links_of (numbered ["/room/0"; "/room/1"]) /\
  in_order ls /\ distinct_uris ls /\ instance_uri (str "/room") ls = Some u /\ In l ls /\ ln_uri l = u.
Proof.
  exists (links_of (numbered ["/room/0"; "/room/1"])). do 2 eexists. split; [reflexivity|].
  split; [eapply (C67_links_in_order (numbered ["/room/0"; "/room/1"])); left; reflexivity|].
  split; [vm_compute; repeat (constructor; [cbn [In]; intuition discriminate|]); constructor|]. split; [vm_compute; reflexivity|]. split; [right; left; reflexivity|vm_compute; reflexivity].
Qed.
Theorem C68_leading_zero_refuted : exists ls u,
  ls = links_of (numbered ["/room/1"; "/room/2"; "/room/3"; "/room/4"; "/room/5"; "/room/6"; "/room/7"; "/room/8"; "/room/9"; "/room/01"; "/room/10"]) /\
  distinct_uris ls /\ instance_uri (str "/room") ls = Some u /\ In u (map ln_uri ls).
Proof.
  do 2 eexists. split; [reflexivity|]. split; [vm_compute; repeat (constructor; [cbn [In]; intuition discriminate|]); constructor|].
  split; [vm_compute; reflexivity|]. vm_compute. do 10 right. left. reflexivity.
Qed.
Theorem C68_number_twice_refuted : exists ls u, ls = links_of (numbered ["/room/1"; "/room/1"; "/room/2"]) /\ tidy (str "/room") ls /\
  instance_uri (str "/room") ls = Some u /\ In u (map ln_uri ls).
Proof.
  do 2 eexists. split; [reflexivity|]. split.
  - intros l s H E. right. vm_compute in H. destruct H as [<-|[<-|[<-|[]]]]; vm_compute in E; injection E as <-;
      (split; [split; [discriminate|repeat constructor; lia]|vm_compute; discriminate]).
  - split; [vm_compute; reflexivity|]. vm_compute. auto.
Qed.

(** * C69 *)

(** The filter passes a resource exactly if the query names no type or names one of the types of the resource; empty
    values of rt do not count. *)
Theorem C69_type_filter ps types : Forall wf_pair ps -> exists b, filter_rt types (render ps) = Some b /\ (b = true <-> wanted types ps).
Proof. exact (filter_rt_spec ps types). Qed.
Example C69_filter_ex :
  filter_rt [str "x.a"; str "x.b"] (str "rt=x.c&if=oic.if.b&rt=x.b") = Some true /\ filter_rt [str "x.a"] (str "rt=x.c&rt=x") = Some false /\
  filter_rt [str "x.a"] (str "if=oic.if.b&rt=&rt") = Some true /\ filter_rt [str "x.a"] [] = Some true /\ filter_rt [] (str "rt=x.c") = Some false.
Proof. vm_compute. repeat split. Qed.

(** A link list and the baseline representation show exactly the links the query wants, in order, call no handler and
    succeed, on GET. *)
Theorem C69_links_shown e cols c ps es notify iface pick fuel : Forall wf_pair ps ->
  (forall l, pick l = true <-> wanted (t_types (ln_to l)) ps) -> iface = IF_LL \/ iface = IF_BASELINE ->
  handle (S fuel) e cols GET (render ps) es notify iface c =
    Answer 0 [] ((if iface =? IF_LL then RLinks else RBaseline) (map ln_to (filter pick (cl_links c)))).
Proof. exact (list_get e cols c ps es notify iface pick fuel). Qed.

Definition open_env : env := mkEnv (fun _ _ => true) (fun _ m _ _ => if m =? GET then (69, Some [1]) else (68, None)) (fun _ => Some true) (fun _ _ => true).
Definition room_c : coll := mkColl (t_res room) [link_to 1 fan; link_to 2 lamp; link_to 3 room].
Example C69_shown_ex : handle 1 open_env [room_c] GET (str "rt=x.lamp&rt=x.fan") [] None IF_LL room_c = Answer 0 [] (RLinks [fan; lamp]).
Proof. vm_compute. reflexivity. Qed.

(** An update of the collection's own properties that the application accepted is answered with 4.00. *)
Theorem C69_accepted_update_refuted : exists e c es st ev, e_props e (cl_res c) = Some true /\
  handle 1 e [c] POST [] es None IF_BASELINE c = Answer st ev RNone /\ st = 5 /\ ev = [SetProps (cl_res c) es].
Proof. exists open_env, room_c, [], 5, [SetProps (cl_res room_c) []]. repeat split. Qed.

(** * C70 *)

(** In a batch, directly or through linked collections, no handler and no update of a linked collection runs on a
    resource on which the origin may not use the method. *)
Theorem C70_access fuel e cols m query es notify c : (forall k, In k cols -> coherent cols k) -> coherent cols c ->
  match handle fuel e cols m query es notify IF_B c with
  | Fuel => True
  | Refused ev => Forall (allowed_event e m) ev
  | Answer _ ev _ => Forall (allowed_event e m) ev
  end.
Proof.
  intros Hco Hc. pose proof (handle_allowed fuel e cols m query es Hco notify IF_B c Hc (or_introl eq_refl)) as H.
  destruct (handle fuel e cols m query es notify IF_B c); [exact I|exact H|exact H].
Qed.

(** Reading or deleting: the handler of each link that the request is about runs once, in order, if the origin may and
    there is one; the answer has one item for each, an empty one where access is refused and none where there is no
    handler; it is a success exactly if a link succeeded and none failed. *)
Theorem C70_batch_read e cols c m ps es notify pick : flat cols c -> Forall wf_pair ps -> m = GET \/ m = DELETE -> picks m ps [] notify pick ->
  let sel := filter pick (cl_links c) in
  forall fuel, handle (S fuel) e cols m (render ps) es notify IF_B c =
    Answer (if existsb (fun l => good (fate_of e m c None l)) sel && forallb (fun l => good (fate_of e m c None l)) sel
            then (if m =? GET then 0 else 3) else 5)
           (flat_map (event_of e m c None) sel) (RBatch (flat_map (item_of e m c None) sel)).
Proof. exact (batch_get e cols c m ps es notify pick). Qed.

(** Updating with entries of one href and one representation: each entry reaches exactly the links with that href, in
    order, with its own representation; the last entry decides about success. *)
Theorem C70_batch_update e cols c m ps xs notify (pick : list N -> link -> bool) : flat cols c -> Forall wf_pair ps -> m = POST \/ m = PUT ->
  Forall (fun x => fst x <> []) xs -> (forall h, picks m ps h notify (pick h)) ->
  forall fuel, handle (S fuel) e cols m (render ps) (flat_map proper xs) notify IF_B c =
    Answer (match rev xs with
            | [] => 5
            | (h, p) :: _ =>
              if existsb (fun l => good (fate_of e m c (Some p) l)) (filter (pick h) (cl_links c)) &&
                 forallb (fun l => good (fate_of e m c (Some p) l)) (filter (pick h) (cl_links c)) then 2 else 5
            end)
           (flat_map (fun x => flat_map (event_of e m c (Some (snd x))) (filter (pick (fst x)) (cl_links c))) xs)
           (RBatch (flat_map (fun x => flat_map (item_of e m c (Some (snd x))) (filter (pick (fst x)) (cl_links c))) xs)).
Proof. exact (batch_post e cols c m ps xs notify pick). Qed.

(** An entry that names no resource makes the request a failure; what stands before it was done, nothing after it is. *)
Theorem C70_bad_entry e cols c m ps xs bad rest notify (pick : list N -> link -> bool) : flat cols c -> Forall wf_pair ps -> m = POST \/ m = PUT ->
  Forall (fun x => fst x <> []) xs -> (forall h, picks m ps h notify (pick h)) -> hopeless bad ->
  forall fuel, handle (S fuel) e cols m (render ps) (flat_map proper xs ++ bad :: rest) notify IF_B c =
    Answer 5
           (flat_map (fun x => flat_map (event_of e m c (Some (snd x))) (filter (pick (fst x)) (cl_links c))) xs)
           (RBatch (flat_map (fun x => flat_map (item_of e m c (Some (snd x))) (filter (pick (fst x)) (cl_links c))) xs)).
Proof. exact (batch_hopeless e cols c m ps xs bad rest notify pick). Qed.

(** Where linked collections do not link back, a request comes to an end. *)
Theorem C70_terminates e cols m query es rank notify iface c : ranked cols rank -> In c cols ->
  forall fuel, (rank (cl_id c) < fuel)%nat -> handle fuel e cols m query es notify iface c <> Fuel.
Proof. intros Hr Hc fuel Hf. exact (handle_terminates e cols m query es rank Hr fuel notify iface c Hc Hf). Qed.

Definition guarded : env := mkEnv (fun m r => negb (r_id r =? 2)) (e_app open_env) (e_props open_env) (e_create open_env).
Definition house : coll := mkColl (res_at 12 0 IF_LL "/house") [link_to 5 fan; link_to 4 room].
Example C70_read_ex :
  handle 1 open_env [room_c] GET (str "rt=x.lamp") [] None IF_B room_c
    = Answer 0 [Handler (t_res lamp) GET IF_RW None] (RBatch [(str "/lamp", RApp [1])]) /\
  handle 1 guarded [room_c] GET [] [] None IF_B room_c
    = Answer 5 [Handler (t_res lamp) GET IF_RW None; Handler (t_res room) GET IF_BASELINE None]
        (RBatch [(str "/fan", REmpty); (str "/lamp", RApp [1]); (str "/room", RApp [1])]) /\
  handle 2 open_env [room_c; house] GET [] [] None IF_B house
    = Answer 0 [Handler (t_res fan) GET IF_RW None] (RBatch [(str "/fan", RApp [1]); (str "/room", RLinks [fan; lamp; room])]).
Proof. vm_compute. repeat split. Qed.
Example C70_update_ex :
  handle 1 open_env [room_c] POST [] (flat_map proper [(str "/lamp", [7]); (str "/fan", [8])]) None IF_B room_c
    = Answer 2 [Handler (t_res lamp) POST IF_RW (Some [7]); Handler (t_res fan) POST IF_RW (Some [8])]
        (RBatch [(str "/lamp", REmpty); (str "/fan", REmpty)]).
Proof. vm_compute. reflexivity. Qed.
Example C70_bad_entry_ex :
  hopeless (EObject [AText HREF (str "/lamp"); AText HREF []; AObject REP [9]]) /\
  handle 1 open_env [room_c] POST []
    (flat_map proper [(str "/lamp", [7])] ++ EObject [AText HREF (str "/lamp"); AText HREF []; AObject REP [9]] :: flat_map proper [(str "/fan", [8])]) None IF_B room_c
    = Answer 5 [Handler (t_res lamp) POST IF_RW (Some [7])] (RBatch [(str "/lamp", REmpty)]).
Proof.
  split; [|vm_compute; reflexivity]. right. exists HREF, [AText HREF (str "/lamp")], [AObject REP [9]]. split; [reflexivity|].
  intros k s [H|[]]. discriminate H.
Qed.
Example C70_hyps_ex : flat [room_c] room_c /\ coherent [room_c; house] house /\ ranked [room_c; house] (fun i => if i =? 12 then 1%nat else 0%nat).
Proof.
  split; [|split].
  - intros l k Hl Hk. destruct Hk as [<-|[]]. auto.
  - intros l k Hl Hk. destruct Hl as [<-|[<-|[]]], Hk as [<-|[<-|[]]]; vm_compute; congruence.
  - intros c l k Hc Hl Hk. destruct Hc as [<-|[<-|[]]], Hk as [<-|[<-|[]]]; cbn [cl_links room_c house] in Hl;
      repeat (destruct Hl as [<-|Hl]; [vm_compute; try congruence; try lia|]); destruct Hl.
Qed.

(** Two collections with the batch interface as default that link each other: the request never ends. *)
Definition ping : coll := mkColl (res_at 1 0 IF_B "/ping") [link_to 1 (tr 2 0 IF_B "/pong" "oic.wk.col")].
Definition pong : coll := mkColl (res_at 2 0 IF_B "/pong") [link_to 2 (tr 1 0 IF_B "/ping" "oic.wk.col")].
Theorem C70_mutual_links_refuted : exists e cols c, In c cols /\ (forall k, In k cols -> coherent cols k) /\
  forall fuel, handle fuel e cols GET [] [] None IF_B c = Fuel.
Proof.
  exists open_env, [ping; pong], ping. split; [left; reflexivity|]. split.
  - intros k Hk l k' Hl Hk'. destruct Hk as [<-|[<-|[]]], Hl as [<-|[]], Hk' as [<-|[<-|[]]]; vm_compute; congruence.
  - assert (H : forall fuel, handle fuel open_env [ping; pong] GET [] [] None IF_B ping = Fuel /\ handle fuel open_env [ping; pong] GET [] [] None IF_B pong = Fuel).
    { induction fuel as [|fuel [IH1 IH2]]; [split; reflexivity|].
      split; cbn [handle]; change (IF_B =? IF_CREATE) with false; change (IF_B =? IF_BASELINE) with false; change (IF_B =? IF_LL) with false;
        change (IF_B =? IF_B) with true; change (is_get_delete GET) with true; cbv iota.
      - cbn [links_loop cl_links ping]. change (negb (selected GET [] [] None (link_to 1 (tr 2 0 IF_B "/pong" "oic.wk.col")))) with false. cbv iota.
        change (negb (e_acl open_env GET (t_res (ln_to (link_to 1 (tr 2 0 IF_B "/pong" "oic.wk.col")))))) with false. cbv iota.
        change (if r_id (t_res (ln_to (link_to 1 (tr 2 0 IF_B "/pong" "oic.wk.col")))) =? cl_id ping then None
                else find (fun c => cl_id c =? r_id (t_res (ln_to (link_to 1 (tr 2 0 IF_B "/pong" "oic.wk.col"))))) [ping; pong]) with (Some pong). cbv iota.
        change (r_def (cl_res pong)) with IF_B. rewrite IH2. reflexivity.
      - cbn [links_loop cl_links pong]. change (negb (selected GET [] [] None (link_to 2 (tr 1 0 IF_B "/ping" "oic.wk.col")))) with false. cbv iota.
        change (negb (e_acl open_env GET (t_res (ln_to (link_to 2 (tr 1 0 IF_B "/ping" "oic.wk.col")))))) with false. cbv iota.
        change (if r_id (t_res (ln_to (link_to 2 (tr 1 0 IF_B "/ping" "oic.wk.col")))) =? cl_id pong then None
                else find (fun c => cl_id c =? r_id (t_res (ln_to (link_to 2 (tr 1 0 IF_B "/ping" "oic.wk.col"))))) [ping; pong]) with (Some ping). cbv iota.
        change (r_def (cl_res ping)) with IF_B. rewrite IH1. reflexivity. }
    intros fuel. exact (proj1 (H fuel)).
Qed.

(** An entry without a representation is carried out with the one of the entry before it. *)
Theorem C70_missing_representation_refuted : exists e c es st ev out,
  es = [EObject [AText HREF (str "/lamp"); AObject REP [7]]; EObject [AText HREF (str "/fan")]] /\
  handle 1 e [c] POST [] es None IF_B c = Answer st ev out /\ In (Handler (t_res fan) POST IF_RW (Some [7])) ev /\ st = 2.
Proof. exists open_env, room_c. do 4 eexists. split; [reflexivity|]. split; [vm_compute; reflexivity|]. split; [right; left; reflexivity|reflexivity]. Qed.

(** The names of the attributes of an entry are not looked at. *)
Theorem C70_names_ignored_refuted : exists e c es st ev out,
  es = [EObject [AText (str "title") (str "/lamp"); AObject (str "x") [7]]] /\
  handle 1 e [c] POST [] es None IF_B c = Answer st ev out /\ ev = [Handler (t_res lamp) POST IF_RW (Some [7])] /\ st = 2.
Proof. exists open_env, room_c. do 4 eexists. split; [reflexivity|]. split; [vm_compute; reflexivity|]. split; reflexivity. Qed.

(** A refused entry before the last is not told. *)
Theorem C70_refused_entry_hidden_refuted : exists e c xs st ev out, handle 1 e [c] POST [] (flat_map proper xs) None IF_B c = Answer st ev out /\
  xs = [(str "/fan", [8]); (str "/lamp", [7])] /\ e_acl e POST (t_res fan) = false /\ st = 2.
Proof. exists guarded, room_c, [(str "/fan", [8]); (str "/lamp", [7])]. do 3 eexists. split; [vm_compute; reflexivity|]. repeat split. Qed.

(** What a linked collection answers does not count: it fails, the batch succeeds. *)
Theorem C70_nested_failure_hidden_refuted : exists e cols c st ev out inner, In inner cols /\
  handle 1 e cols GET [] [] None IF_B inner = Answer 5 [] (RBatch [(str "/fan", REmpty)]) /\
  handle 2 e cols GET [] [] None IF_B c = Answer st ev out /\ st = 0.
Proof.
  exists guarded, [mkColl (res_at 13 0 IF_B "/in") [link_to 1 fan]; mkColl (res_at 14 0 IF_B "/out") [link_to 2 (tr 13 0 IF_B "/in" "oic.wk.col")]],
    (mkColl (res_at 14 0 IF_B "/out") [link_to 2 (tr 13 0 IF_B "/in" "oic.wk.col")]). do 3 eexists. exists (mkColl (res_at 13 0 IF_B "/in") [link_to 1 fan]).
  split; [left; reflexivity|]. split; [vm_compute; reflexivity|]. split; [vm_compute; reflexivity|reflexivity].
Qed.

Print Assumptions C67_links_in_order.
Print Assumptions C67_add_link.
Print Assumptions C67_add_no_uri.
Print Assumptions C67_remove_link.
Print Assumptions C67_remove_absent.
Print Assumptions C67_link_by_uri.
Print Assumptions C67_no_dangling_links.
Print Assumptions C67_delete_unlinks.
Print Assumptions C67_two_links_refuted.
Print Assumptions C67_other_device_refuted.
Print Assumptions C67_same_uri_refuted.
Print Assumptions C67_deleted_collection_refuted.
Print Assumptions C68_created_uri.
Print Assumptions C68_number_zero_refuted.
Print Assumptions C68_leading_zero_refuted.
Print Assumptions C68_number_twice_refuted.
Print Assumptions C69_type_filter.
Print Assumptions C69_links_shown.
Print Assumptions C69_accepted_update_refuted.
Print Assumptions C70_access.
Print Assumptions C70_batch_read.
Print Assumptions C70_bad_entry.
Print Assumptions C70_batch_update.
Print Assumptions C70_terminates.
Print Assumptions C70_mutual_links_refuted.
Print Assumptions C70_missing_representation_refuted.
Print Assumptions C70_names_ignored_refuted.
Print Assumptions C70_refused_entry_hidden_refuted.
Print Assumptions C70_nested_failure_hidden_refuted.
