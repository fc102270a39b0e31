(** C55 to C58: the cloud configuration in storage, retries of the registration, redirection and tokens (api/cloud). *)
From Verif Require Import Common Rep_Model Hex_Model Repd_Model Acl_Spec Ea_Model Ea_Spec Ea2_Proofs Cloud_Model Cloud_Spec Cloud_Proofs Cloud2_Proofs Cloud3_Proofs.
From Coq Require Import String.
Local Open Scope string_scope.
Local Open Scope list_scope.
Local Open Scope N_scope.

(** * C55 *)

(** Saving and loading keeps every setting, every server with its id, and the selection; the selected server becomes the first. *)
Theorem C55_survives_restart mem slot st s0 l x r :
  pool_ok mem -> reach (st_servers st) -> shows (st_servers st) (Some (l, x, r)) ->
  uuid_servers (Some (l, x, r)) -> snd x <> MUuid wildcard -> st_status st < 256 -> st_cps st < 256 ->
  exists f st', encode st = Some f /\ load mem slot (Some f) s0 = Ok (true, st') /\ same_settings st' st /\
    reach (st_servers st') /\ shows (st_servers st') (Some ([], x, l ++ r)).
Proof. exact (store_roundtrip mem slot st s0 l x r). Qed.

(** Whatever the file contains, the server list that is loaded is a proper one: C43 applies to it. *)
Theorem C55_any_file_gives_a_proper_list mem slot file s b s' :
  pool_ok mem -> reach (st_servers s) -> load mem slot file s = Ok (b, s') -> reach (st_servers s').
Proof. exact (load_reach mem slot file s b s'). Qed.

(** A file that is missing or refused leaves the default configuration and nothing of the old one. *)
Theorem C55_failed_load_gives_defaults mem slot file s s' : load mem (Some slot) file s = Ok (false, s') ->
  shows (st_servers s') (Some ([], (str "coaps+tcp://127.0.0.1", MUuid (repeat 0 16)), [])) /\
  st_provider s' = [] /\ st_uid s' = [] /\ st_access s' = [] /\ st_refresh s' = [] /\ st_status s' = 0 /\ st_cps s' = 0 /\ st_expires s' = 0%Z.
Proof. exact (load_fails mem slot file s s'). Qed.

Definition heap : pool := fun k => Some (N.of_nat k).
Lemma heap_ok : pool_ok heap.
Proof. split; [intros k; exists (N.of_nat k); reflexivity|]. intros j k [= H]. lia. Qed.
Definition id (n : N) : list N := repeat n 16.
Definition three : eas := fold_left Ea_Model.step [Add [98] (MUuid (id 2)) (Some 2); Add [99] (MUuid (id 3)) (Some 3); SelectU [98]] (fst (init [] [97] (MUuid (id 1)) (Some 1))).
Definition st3 : store := mk_st three (str "plgd") (str "me") (str "secret") (str "more") 1 3 3600%Z.
Lemma three_reach : reach three.
Proof. unfold three. cbn [fold_left]. apply ReachS; [apply ReachS; [apply ReachS; [apply Reach0|]|]|exact I]; vm_compute; intuition discriminate. Qed.
Definition empty_store : store := initialize (Some 9) [].

Example C55_case : pool_ok heap /\ reach (st_servers st3) /\ shows (st_servers st3) (Some ([([97], MUuid (id 1))], ([98], MUuid (id 2)), [([99], MUuid (id 3))])) /\
  uuid_servers (Some ([([97], MUuid (id 1))], ([98], MUuid (id 2)), [([99], MUuid (id 3))])) /\ MUuid (id 2) <> MUuid wildcard /\
  (match encode st3 with Some f => match load heap None (Some f) empty_store with Ok (true, s) => Some (map a_uri (l_items (st_servers s)), selected_uri (st_servers s), st_access s) | _ => None end | None => None end)
    = Some ([[98]; [97]; [99]], Some [98], str "secret").
Proof.
  split; [exact heap_ok|]. split; [exact three_reach|]. split; [split; vm_compute; reflexivity|]. split.
  - intros a Ha. cbn [all app In] in Ha.
    assert (T : forall n, n < 256 -> typed_uuid (id n)) by (intros n Hn; split; [apply Forall_forall; intros y Hy; apply repeat_spec in Hy; subst; exact Hn|apply repeat_length]).
    destruct Ha as [<-|[<-|[<-|[]]]]; eexists; (split; [reflexivity|apply T; reflexivity]).
  - split; [discriminate|vm_compute; reflexivity].
Qed.

(** The order in which servers are tried is not kept. *)
Theorem C55_order_refuted : exists st s f, reach (st_servers st) /\ encode st = Some f /\ load heap None (Some f) empty_store = Ok (true, s) /\
  tour 3 (st_servers st) = [Some [99]; Some [97]; Some [98]] /\ tour 3 (st_servers s) = [Some [97]; Some [99]; Some [98]].
Proof.
  exists st3. eexists _, _. split; [exact three_reach|]. split; [vm_compute; reflexivity|]. split; [vm_compute; reflexivity|]. split; vm_compute; reflexivity.
Qed.

(** A list that was emptied comes back with the default server. *)
Theorem C55_emptied_list_refuted : exists st s f, reach (st_servers st) /\ l_items (st_servers st) = [] /\ encode st = Some f /\
  load heap None (Some f) empty_store = Ok (true, s) /\ selected_uri (st_servers s) = Some (str "coaps+tcp://127.0.0.1").
Proof.
  exists (mk_st (Ea_Model.step three Clear) [] [] [] [] 0 0 0%Z). eexists _, _. split; [exact (ReachS _ Clear three_reach I)|].
  split; [reflexivity|]. split; [vm_compute; reflexivity|]. split; vm_compute; reflexivity.
Qed.

(** So does a list whose selected server has the UUID written as an asterisk. *)
Theorem C55_wildcard_id_refuted : exists st s f, reach (st_servers st) /\ selected_uri (st_servers st) = Some [97] /\ encode st = Some f /\
  load heap None (Some f) empty_store = Ok (true, s) /\ map a_uri (l_items (st_servers s)) = [str "coaps+tcp://127.0.0.1"].
Proof.
  exists (mk_st (fst (init [] [97] (MUuid wildcard) (Some 1))) [] [] [] [] 0 0 0%Z). eexists _, _. split; [apply Reach0|].
  split; [vm_compute; reflexivity|]. split; [vm_compute; reflexivity|]. split; vm_compute; reflexivity.
Qed.

(** A number in the file that does not fit a byte fails an assertion instead of being refused. *)
Theorem C55_large_number_aborts_refuted : exists f, load heap None (Some f) empty_store = Abort_.
Proof. exists [(str "status", RInt 256%Z)]. vm_compute. reflexivity. Qed.

(** * C56 *)

(** The timeouts set are the ones got; refused ones change nothing. *)
Theorem C56_timeouts_kept t l size :
  ((List.length l <= 6)%nat /\ ~ In 0 l ->
     snd (set_timeouts t (Some l)) = true /\
     get_timeouts (fst (set_timeouts t (Some l))) size = if (size <? List.length l)%nat then None else Some l) /\
  (~ ((List.length l <= 6)%nat /\ ~ In 0 l) -> set_timeouts t (Some l) = (t, false)).
Proof.
  destruct (set_spec t l) as [A B]. split; [|exact B]. intros H. rewrite (A H). split; [reflexivity|]. exact (get_spec l size (proj1 H) (proj2 H)).
Qed.

(** The wait before attempt [c] lies between half of its timeout and the timeout, whatever the random number. *)
Theorem C56_wait_within_timeout checks t l c rnd : good_times l -> (c < List.length l)%nat ->
  exists d to, schedule checks (fst (set_timeouts t (Some l))) (N.of_nat c) rnd = Wait d to /\ nth c l 0 / 2 <= d < nth c l 0 /\ to = nth c l 0 / 1000 /\ 1 <= to.
Proof.
  intros [H1 H2] Hc. rewrite (proj1 (set_spec t l)); [|split; [lia|exact (good_nz l H2)]]. exact (schedule_wait checks l c rnd (proj2 H1) H2 Hc).
Qed.

(** Registration always comes to an end, after at most as many attempts as there are timeouts for each server. *)
Theorem C56_registration_ends checks t l s rnd answers : good_times l -> reach s -> (List.length (l_items s) <= 255)%nat ->
  let tt := fst (set_timeouts t (Some l)) in
  let g := run checks tt (begin checks tt s rnd) answers in
  (List.length (g_tries g) <= List.length l * Nat.max 1 (List.length (l_items s)))%nat /\ g_phase g <> Crashed /\
  ((S (List.length l) * Nat.max 1 (List.length (l_items s)) <= List.length answers)%nat -> ended (g_phase g)).
Proof.
  intros [H1 H2]. rewrite (proj1 (set_spec t l)); [|split; [lia|exact (good_nz l H2)]]. exact (gives_up checks l H1 H2 s rnd answers).
Qed.

(** When no server answers, each server of the list is tried once per timeout, in order from the selected one, before the
    registration is given up. *)
Theorem C56_every_server_tried checks t l s rnd rs a x b : good_times l -> reach s -> (List.length (l_items s) <= 255)%nat -> shows s (Some (a, x, b)) ->
  (S (List.length l) * List.length (l_items s) <= S (List.length rs))%nat ->
  let tt := fst (set_timeouts t (Some l)) in
  let g := run checks tt (begin checks tt s rnd) (map (pair Lost) rs) in
  g_phase g = Failed /\ g_tries g = List.concat (map (fun y => repeat (Some (fst y)) (List.length l)) (x :: b ++ a)).
Proof.
  intros [H1 H2]. rewrite (proj1 (set_spec t l)); [|split; [lia|exact (good_nz l H2)]]. exact (every_server_tried checks l H1 H2 s rnd rs a x b).
Qed.

(** No attempt goes to a server that is not in the list. *)
Theorem C56_only_configured_servers checks t s rnd answers u : reach s ->
  In (Some u) (g_tries (run checks t (begin checks t s rnd) answers)) -> In u (map a_uri (l_items s)).
Proof. exact (only_configured checks t s rnd answers u). Qed.

Example C56_case : good_times [2000; 4000] /\
  (let tt := fst (set_timeouts default_timeouts (Some [2000; 4000])) in
   let g := run true tt (begin true tt three 7) (map (pair Lost) (repeat 5 9)) in
   (g_phase g, g_tries g)) = (Failed, [Some [98]; Some [98]; Some [99]; Some [99]; Some [97]; Some [97]]) /\
  schedule true default_timeouts 2 1234567 = Wait 6567 8 /\ set_timeouts default_timeouts (Some [1; 0]) = (default_timeouts, false).
Proof. split; [split; [cbn; lia|repeat constructor; lia]|]. repeat split; vm_compute; reflexivity. Qed.
(** The device is registered exactly when an attempt was accepted; a denial ends the registration; nothing is tried after. *)
Theorem C56_registered_iff_accepted checks t s rnd answers :
  let st l := run checks t (begin checks t s rnd) l in
  (g_phase (st answers) = Registered <-> exists pre r rest, answers = pre ++ (Accepted, r) :: rest /\ g_phase (st pre) = Trying) /\
  (forall pre a r rest, answers = pre ++ (a, r) :: rest -> g_phase (st pre) = Trying -> a = Accepted \/ a = Denied ->
     g_phase (st answers) = (match a with Accepted => Registered | _ => Failed end) /\ g_tries (st answers) = g_tries (st pre) ++ [selected_uri (c_servers (g_ctx (st pre)))]).
Proof. exact (registered_iff checks t s rnd answers). Qed.
Example C56_recovers : (let tt := default_timeouts in let g := run true tt (begin true tt three 7) [(Lost, 1); (Lost, 2); (Accepted, 3); (Lost, 4)] in (g_phase g, List.length (g_tries g))) = (Registered, 3%nat).
Proof. vm_compute. reflexivity. Qed.

(** A server that cannot be contacted at all ends the registration, although others are left. *)
Theorem C56_unsent_stops_refuted : exists s answers, reach s /\
  let g := run true default_timeouts (begin true default_timeouts s 7) answers in
  g_phase g = Failed /\ g_tries g = repeat (Some [98]) 6 /\ In [99] (map a_uri (l_items s)).
Proof.
  exists three, (repeat (Unsent, 5) 6). split; [exact three_reach|]. split; [vm_compute; reflexivity|]. split; [vm_compute; reflexivity|]. vm_compute; auto.
Qed.

(** Timeouts below a second are accepted, and stop the program: by an assertion or, without those, a division by zero. *)
Theorem C56_short_timeouts_refuted :
  (exists l, snd (set_timeouts default_timeouts (Some l)) = true /\ g_phase (begin true (fst (set_timeouts default_timeouts (Some l))) three 7) = Crashed) /\
  (exists l, snd (set_timeouts default_timeouts (Some l)) = true /\ schedule false (fst (set_timeouts default_timeouts (Some l))) 0 7 = Div_zero).
Proof. split; [exists [500]|exists [1]]; split; vm_compute; reflexivity. Qed.

(** An empty list of timeouts is accepted too; the manager then reconnects for ever without a single attempt. *)
Theorem C56_no_timeouts_loops_refuted : exists l s, snd (set_timeouts default_timeouts (Some l)) = true /\ reach s /\ forall answers,
  let tt := fst (set_timeouts default_timeouts (Some l)) in
  let g := run true tt (begin true tt s 7) answers in g_phase g = Restarting /\ g_tries g = [].
Proof.
  exists [], three. split; [reflexivity|]. split; [exact three_reach|]. intros answers. cbv zeta.
  change (fst (set_timeouts default_timeouts (Some []))) with (table []).
  destruct (no_timeouts_loop true answers (begin true (table []) three 7)) as [A B]; [reflexivity|reflexivity|].
  split; [exact A|]. rewrite B. reflexivity.
Qed.

(** * C57 *)

(** A redirection replaces the selected server by the one named, which inherits the id when it is new; the other servers stay. *)
Theorem C57_redirect_replaces_selected s z payload u mem :
  reach s -> shows s z -> uuid_servers z -> op_ok s (Add u (MUuid []) mem) ->
  first_text payload (str "redirecturi") u -> u <> [] ->
  exists s' ok, redirect s payload mem = Some (s', ok) /\ reach s' /\
    (ok = true <-> known z u \/ ((List.length u < 128)%nat /\ mem <> None)) /\
    (ok = false -> s' = s) /\
    (ok = true -> exists z', shows s' z' /\ (option_map fst (cursor z) = Some u -> z' = z) /\ (option_map fst (cursor z) <> Some u -> redirected z z' u)).
Proof. exact (redirect_spec s z payload u mem). Qed.

(** Without a redirection nothing changes. *)
Theorem C57_no_redirect s payload mem : (forall u, first_text payload (str "redirecturi") u -> u = []) -> redirect s payload mem = Some (s, false).
Proof.
  intros H. unfold redirect. destruct (nonempty_s payload (str "redirecturi")) as [u|] eqn:E; [|reflexivity].
  destruct keys as (_ & _ & _ & _ & K). apply (nonempty_get payload _ u K) in E. destruct E as [E1 E2]. exfalso. exact (E2 (H u E1)).
Qed.

Definition to_d : list rep := [(str "uid", RStr [1]); (str "redirecturi", RStr [100])].
Example C57_case : first_text to_d (str "redirecturi") [100] /\ op_ok three (Add [100] (MUuid []) (Some 4)) /\
  (match redirect three to_d (Some 4) with Some (s, true) => Some (map a_uri (l_items s), option_map a_meta (selected s), selected_uri s) | _ => None end)
   = Some ([[97]; [99]; [100]], Some (MUuid (id 2)), Some [100]).
Proof.
  split.
  - exists [(str "uid", RStr [1])], []. split; [reflexivity|]. intros w [H|[]]. apply (f_equal fst) in H. vm_compute in H. discriminate.
  - split; [vm_compute; intuition discriminate|vm_compute; reflexivity].
Qed.

(** * C58 *)

(** An answer to the registration is taken over as a whole or not at all. *)
Theorem C58_register_all_or_nothing s l :
  (snd (register_response s l) = true <-> exists a r u e, first_text l (str "accesstoken") a /\ a <> [] /\ first_text l (str "refreshtoken") r /\ r <> [] /\
     first_text l (str "uid") u /\ u <> [] /\ first_int l (str "expiresin") e) /\
  (snd (register_response s l) = false -> fst (register_response s l) = s) /\
  (snd (register_response s l) = true -> let s' := fst (register_response s l) in
     first_text l (str "accesstoken") (st_access s') /\ first_text l (str "refreshtoken") (st_refresh s') /\ first_text l (str "uid") (st_uid s') /\ first_int l (str "expiresin") (st_expires s') /\
     st_servers s' = st_servers s /\ st_provider s' = st_provider s /\ st_cps s' = st_cps s /\ st_status s' = if (0 <? st_expires s')%Z then N.lor (st_status s) 4 else st_status s).
Proof. exact (register_spec s l). Qed.

(** So is an answer to the request for a new token. *)
Theorem C58_refresh_all_or_nothing s l :
  (snd (refresh_response s l) = true <-> exists a r e, first_text l (str "accesstoken") a /\ a <> [] /\ first_text l (str "refreshtoken") r /\ r <> [] /\ first_int l (str "expiresin") e) /\
  (snd (refresh_response s l) = false -> fst (refresh_response s l) = s) /\
  (snd (refresh_response s l) = true -> let s' := fst (refresh_response s l) in
     first_text l (str "accesstoken") (st_access s') /\ first_text l (str "refreshtoken") (st_refresh s') /\ first_int l (str "expiresin") (st_expires s') /\ st_uid s' = st_uid s /\
     st_servers s' = st_servers s /\ st_provider s' = st_provider s /\ st_cps s' = st_cps s /\ st_status s' = if (0 <? st_expires s')%Z then N.lor (st_status s) 4 else st_status s).
Proof. exact (refresh_spec s l). Qed.

(** The token is asked for anew in the second half of its lifetime, ten seconds or more before it expires if it lives for more
    than twenty, and ten minutes before if it lives for more than an hour. *)
Theorem C58_refreshed_in_time ms : 0 < ms -> let d := refresh_delay ms in
  0 < d <= ms /\ ms <= 2 * d /\ (20000 < ms -> d + 10000 <= ms) /\ (3600000 < ms -> d + 600000 = ms).
Proof. exact (delay_spec ms). Qed.

Definition full : list rep := [(str "accesstoken", RStr [1]); (str "refreshtoken", RStr [2]); (str "uid", RStr [3]); (str "expiresin", RInt 60%Z)].
Example C58_case : snd (register_response empty_store full) = true /\ st_access (fst (register_response empty_store full)) = [1] /\ st_status (fst (register_response empty_store full)) = 4 /\
  snd (register_response empty_store (tl full)) = false /\ snd (refresh_response st3 full) = true /\ st_uid (fst (refresh_response st3 full)) = str "me" /\ refresh_delay 60000 = 50000.
Proof. vm_compute. repeat split. Qed.

(** A token that lives for up to twenty seconds is asked for only when it has expired. *)
Theorem C58_short_lived_token_refuted : exists ms, 0 < ms /\ refresh_delay ms = ms.
Proof. exists 20000. split; [lia|reflexivity]. Qed.

(** A lifetime the answer can carry overflows when it is converted to milliseconds. *)
Theorem C58_lifetime_overflow_refuted : exists l, snd (register_response empty_store l) = true /\ expires_ms (st_expires (fst (register_response empty_store l))) = None.
Proof.
  exists [(str "accesstoken", RStr [1]); (str "refreshtoken", RStr [2]); (str "uid", RStr [3]); (str "expiresin", RInt 9223372036854776%Z)]. vm_compute. split; reflexivity.
Qed.

Print Assumptions C55_survives_restart.
Print Assumptions C55_any_file_gives_a_proper_list.
Print Assumptions C55_failed_load_gives_defaults.
Print Assumptions C56_timeouts_kept.
Print Assumptions C56_wait_within_timeout.
Print Assumptions C56_registration_ends.
Print Assumptions C56_every_server_tried.
Print Assumptions C56_only_configured_servers.
Print Assumptions C56_no_timeouts_loops_refuted.
Print Assumptions C56_registered_iff_accepted.
Print Assumptions C57_redirect_replaces_selected.
Print Assumptions C57_no_redirect.
Print Assumptions C58_register_all_or_nothing.
Print Assumptions C58_refresh_all_or_nothing.
Print Assumptions C58_refreshed_in_time.
