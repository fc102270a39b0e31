(** C79-C82: the auditable event list. *)
From Verif Require Import Common Rep_Model Repd_Model Repd_Spec Ts_Model Ts_Spec Ael_Model Ael_Spec Ael_Proofs Ael2_Proofs Ael3_Proofs.
From Coq Require Import Lia String.
Local Open Scope string_scope.
Local Open Scope list_scope.
Local Open Scope N_scope.

(** A platform with pointers of 8 bytes; events of 88 bytes. *)
Definition px : plat := mkPlat 88 8.
Definition ex_entry (c pr : N) (t : Z) (s : list N) : entry := mkEntry c pr t (Some (str "AC-1")) (Some s) [str "a"; str "bc"].

(** * C79 *)

(** The accounted size is the size of the events, and within the limit: from any contents of the storage, after any
    additions, updates, resets and restarts, whatever memory there is. *)
Theorem C79_accounted :
  forall hz p store ops d, Forall dynamic_op ops -> run hz p (mkDev fresh store) ops = Ok d -> sound (dv_log d).
Proof. intros hz p store ops d F. apply run_sound; [exact fresh_sound|exact F]. Qed.
Print Assumptions C79_accounted.

(** An entry that passes the filters and fits is logged as the last event; of the others only the oldest go, and only as
    many as needed. *)
Theorem C79_add :
  forall p a x, plain_entry x -> sound a -> passes (a_cat a) (a_pri a) (en_cat x) (en_pri x) -> ev_size (as_event p x) <= a_max a ->
    exists a', add_entry p enough a x = (a', true) /\ latest (a_max a) (a_events a ++ [as_event p x]) (a_events a') /\
      (exists k, a_events a' = k ++ [as_event p x]) /\
      a_cat a' = a_cat a /\ a_pri a' = a_pri a /\ a_max a' = a_max a /\ a_unit a' = a_unit a /\ sound a'.
Proof. exact add_accepted. Qed.
Print Assumptions C79_add.

(** Any other entry is refused and changes nothing. *)
Theorem C79_refuse :
  forall p m a x, plain_entry x -> ~ (passes (a_cat a) (a_pri a) (en_cat x) (en_pri x) /\ ev_size (as_event p x) <= a_max a) ->
    add_entry p m a x = (a, false).
Proof. exact add_rejected. Qed.
Print Assumptions C79_refuse.

(** After any sequence of entries the list holds the latest that fit, of what it held and what was logged since. *)
Theorem C79_history :
  forall p l a, Forall plain_entry l -> sound a ->
    exists new, logged p (a_cat a) (a_pri a) (a_max a) l new /\ latest (a_max a) (a_events a ++ new) (a_events (add_all p a l)) /\ sound (add_all p a l) /\
      a_cat (add_all p a l) = a_cat a /\ a_pri (add_all p a l) = a_pri a /\ a_max (add_all p a l) = a_max a /\ a_unit (add_all p a l) = a_unit a.
Proof. exact add_all_latest. Qed.
Print Assumptions C79_history.

Definition small : ael := mkAel 255 2 250 0 0 [].
Example C79_ex :
  let l := [ex_entry 1 2 10 (str "one"); ex_entry 1 3 11 (str "less important"); ex_entry 4 0 12 (str "two"); ex_entry 8 1 13 (str "three")] in
  sound small /\ Forall plain_entry l /\
  map (fun e => (ev_msg e, ev_size e)) (a_events (add_all px small l)) = [(str "two", 118); (str "three", 120)] /\ a_used (add_all px small l) = 238.
Proof.
  split; [unfold sound; cbn; lia|]. split; [|split; vm_compute; reflexivity].
  repeat constructor; cbn [en_aeid en_msg en_aux ex_entry opt_plain]; lit.
Qed.

(** Without memory for the event nothing is logged, but older events are gone all the same. *)
Theorem C79_no_memory_refuted :
  exists a x, sound a /\ plain_entry x /\ snd (add_entry px (mkMem false (fun _ => true)) a x) = false /\
    a_events a <> [] /\ a_events (fst (add_entry px (mkMem false (fun _ => true)) a x)) = [].
Proof.
  exists (add_all px (mkAel 255 2 130 0 0 []) [ex_entry 1 2 10 (str "one")]), (ex_entry 1 2 11 (str "two")).
  split; [unfold sound; vm_compute; split; [reflexivity|split; [discriminate|reflexivity]]|].
  split; [repeat constructor; cbn [en_aeid en_msg en_aux ex_entry opt_plain]; lit|]. vm_compute. split; [reflexivity|]. split; [discriminate|reflexivity].
Qed.
Print Assumptions C79_no_memory_refuted.

(** In a build without dynamic allocation a restart keeps the accounted size of events that are gone. *)
Theorem C79_static_restart_refuted :
  exists ops d, ops = [ODefault true; OAdd enough true 1 2 10 None None []; OBoot false enough] /\
    run 1 px (mkDev fresh None) ops = Ok d /\ a_used (dv_log d) = 176 /\ total (a_events (dv_log d)) = 88.
Proof. eexists. eexists. split; [reflexivity|]. vm_compute. split; [reflexivity|]. split; reflexivity. Qed.
Print Assumptions C79_static_restart_refuted.

(** * C80 *)

(** Every change of the list is written to the storage as the list then is. *)
Theorem C80_written :
  forall hz p d d' r,
    (forall m cat pri time aeid msg aux, snd (add_event p m (dv_log d) cat pri time aeid msg aux) = true ->
       step hz p d (OAdd m true cat pri time aeid msg aux) = Ok (d', r) -> dv_store d' = Some (dump hz (dv_log d'))) /\
    (forall rf i l, step hz p d (OPost true rf i l) = Ok (d', r) -> r = Changed_ -> dv_store d' = Some (dump hz (dv_log d'))) /\
    (step hz p d (ODefault true) = Ok (d', r) -> dv_store d' = Some (dump hz (dv_log d'))).
Proof.
  intros hz p d d' r. split; [|split].
  - intros m cat pri time aeid msg aux. cbn [step]. destruct (add_event _ _ _ _ _ _ _ _ _) as [a ok]. cbn [snd]. intros -> E.
    assert (d' = save hz true a d) by congruence. subst. reflexivity.
  - intros rf i l. cbn [step]. destruct rf; [intros E ->; discriminate|]. destruct (_ || _)%bool; [|intros E ->; discriminate].
    unfold decode. cbn [bind]. intros E _. assert (d' = save hz true (fold_left (decode_filter false) l (dv_log d)) d) by congruence. subst. reflexivity.
  - cbn [step]. intros E. assert (d' = save hz true ael_default d) by congruence. subst. reflexivity.
Qed.
Print Assumptions C80_written.

(** Whatever was done before: a restart that finds the list in the storage as it was restores the filters, the limit, and
    of the events exactly those that pass the filters, unchanged and in order. *)
Theorem C80_restart :
  forall hz p ops, Forall keepable_op ops ->
    exists d, run hz p (mkDev fresh None) ops = Ok d /\
      (dv_store d = Some (dump hz (dv_log d)) ->
       exists d' r ans, step hz p d (OBoot true enough) = Ok (d', ans) /\
         a_cat (dv_log d') = a_cat (dv_log d) /\ a_pri (dv_log d') = a_pri (dv_log d) /\
         a_max (dv_log d') = a_max (dv_log d) /\ a_unit (dv_log d') = a_unit (dv_log d) /\
         passing (a_cat (dv_log d)) (a_pri (dv_log d)) (a_events (dv_log d)) r /\ map said (a_events (dv_log d')) = map said r).
Proof.
  intros hz p ops F. destruct (run_keep hz p ops (mkDev fresh None)) as (d & E & K).
  { split; [apply fresh_keep|now left]. }
  { exact F. }
  exists d. split; [exact E|]. intros S. destruct (reload p hz (dv_log d) (proj1 K)) as (a' & r & El & A1 & A2 & A3 & A4 & P & M).
  exists (mkDev a' (dv_store d)), r, Silent. cbn [step restart]. rewrite S, El. cbn [bind]. split; [reflexivity|]. cbn [dv_log].
  split; [exact A1|]. split; [exact A2|]. split; [exact A3|]. split; [exact A4|]. split; [exact P|exact M].
Qed.
Print Assumptions C80_restart.

Definition ops_ex : list op :=
  [ODefault true; OAdd enough true 1 2 10 (Some (str "AC-1")) (Some (str "Access Denied")) [str "x"; str "yy"]; OAdd enough true 64 2 11 (Some (str "COMM-1")) None []].
Example C80_ex :
  Forall keepable_op ops_ex /\
  exists d d', run 1 px (mkDev fresh None) ops_ex = Ok d /\ dv_store d = Some (dump 1 (dv_log d)) /\ step 1 px d (OBoot true enough) = Ok (d', Silent) /\
    dv_log d' = dv_log d /\ List.length (a_events (dv_log d')) = 2%nat.
Proof.
  split.
  - repeat constructor; cbn [keepable_op keepable en_cat en_pri en_time en_aeid en_msg en_aux plain_entry opt_plain]; try lia; try lit; vm_compute; lia.
  - eexists. eexists. split; [vm_compute; reflexivity|]. split; [vm_compute; reflexivity|]. split; [vm_compute; reflexivity|]. split; reflexivity.
Qed.

(** Events logged before the filters were narrowed are lost at the next restart. *)
Theorem C80_narrowed_filter_refuted :
  exists ops d d', ops = ops_ex ++ [OPost true false 2 [(str "categoryfilter", RInt 64)]] /\
    run 1 px (mkDev fresh None) ops = Ok d /\ step 1 px d (OBoot true enough) = Ok (d', Silent) /\
    List.length (a_events (dv_log d)) = 2%nat /\ List.length (a_events (dv_log d')) = 1%nat.
Proof. eexists. eexists. eexists. split; [reflexivity|]. split; [vm_compute; reflexivity|]. split; [vm_compute; reflexivity|]. split; reflexivity. Qed.
Print Assumptions C80_narrowed_filter_refuted.

(** An item of 128 bytes makes the stored list unreadable: after a restart it is empty and nothing is logged any more. *)
Theorem C80_long_item_refuted :
  exists ops d d', ops = [ODefault true; OAdd enough true 1 2 10 None None [repeat 65 128]] /\
    run 1 px (mkDev fresh None) ops = Ok d /\ step 1 px d (OBoot true enough) = Ok (d', Silent) /\ List.length (a_events (dv_log d)) = 1%nat /\
    dv_log d' = fresh /\ forall cat pri time aeid msg aux, snd (add_event px enough (dv_log d') cat pri time aeid msg aux) = false.
Proof. eexists. eexists. eexists. split; [reflexivity|]. split; [vm_compute; reflexivity|]. split; [vm_compute; reflexivity|]. split; [reflexivity|]. split; [reflexivity|]. intros. reflexivity. Qed.
Print Assumptions C80_long_item_refuted.

(** 257 items are accepted and written; reading them back writes beyond an array on the stack. *)
Theorem C80_many_items_refuted :
  exists ops d, ops = [OAdd enough true 1 2 10 None None (repeat [] (N.to_nat 257))] /\
    run 1 px (mkDev (mkAel 255 4 8192 0 0 []) None) ops = Ok d /\ List.length (a_events (dv_log d)) = 1%nat /\ step 1 px d (OBoot true enough) = Crash.
Proof. eexists. eexists. split; [reflexivity|]. split; [vm_compute; reflexivity|]. split; vm_compute; reflexivity. Qed.
Print Assumptions C80_many_items_refuted.

(** * C81 *)

(** A request for the resource tells the filters, the limit, the space used, and every event in order with all it says;
    the time of an event is an RFC 3339 text of that instant. *)
Theorem C81_get :
  forall hz a i, (0 < hz)%Z -> (hz | 10 ^ 9)%Z -> sound a -> a_unit a = 0 -> i = 2 \/ i = 32 ->
    exists l objs, get_ael hz 0 a i = Content l /\ NoDup (map fst l) /\
      In (str "categoryfilter", RInt (Z.of_N (a_cat a))) l /\ In (str "priorityfilter", RInt (Z.of_N (a_pri a))) l /\
      In (str "maxspace", RInt (Z.of_N (a_max a))) l /\ In (str "usedspace", RInt (Z.of_N (total (a_events a)))) l /\
      In (str "events", RObjArr objs) l /\ Forall2 (tells hz) (a_events a) objs.
Proof. exact get_tells. Qed.
Print Assumptions C81_get.

(** An update in normal operation is refused and changes nothing. *)
Theorem C81_post_refused :
  forall hz p d w i l, step hz p d (OPost w true i l) = Ok (d, Forbidden_).
Proof. reflexivity. Qed.
Print Assumptions C81_post_refused.

(** Otherwise it changes the two filters it names, and nothing else: neither events nor limit. *)
Theorem C81_post :
  forall hz p d w i l, i = 2 \/ i = 32 ->
    exists a, step hz p d (OPost w false i l) = Ok (mkDev a (if w then Some (dump hz a) else dv_store d), Changed_) /\
      a_max a = a_max (dv_log d) /\ a_unit a = a_unit (dv_log d) /\ a_used a = a_used (dv_log d) /\ a_events a = a_events (dv_log d) /\
      (no_int l (str "categoryfilter") -> a_cat a = a_cat (dv_log d)) /\ (forall z, last_int l (str "categoryfilter") z -> a_cat a = Z.to_N (z mod 256)) /\
      (no_int l (str "priorityfilter") -> a_pri a = a_pri (dv_log d)) /\ (forall z, last_int l (str "priorityfilter") z -> a_pri a = Z.to_N (z mod 256)).
Proof. exact post_changes. Qed.
Print Assumptions C81_post.

Example C81_ex :
  last_int [(str "categoryfilter", RInt 3); (str "events", RNil)] (str "categoryfilter") 3 /\
  a_cat (dv_log (match step 1 px (mkDev ael_default None) (OPost true false 32 [(str "categoryfilter", RInt 3); (str "maxspace", RInt 1)]) with Ok (d, _) => d | _ => mkDev fresh None end)) = 3 /\
  sound ael_default /\ (1000000 | 10 ^ 9)%Z.
Proof.
  split; [exists [], [(str "events", RNil)]; split; [reflexivity|intros z [H|[]]; discriminate H]|]. split; [vm_compute; reflexivity|].
  split; [unfold sound, ael_default, default_max; cbn; lia|exists 1000%Z; reflexivity].
Qed.

(** A filter out of range is not refused: 256 switches the list off. *)
Theorem C81_filter_wraps_refuted :
  exists d d', step 1 px d (OPost true false 2 [(str "categoryfilter", RInt 256)]) = Ok (d', Changed_) /\ a_cat (dv_log d) = 255 /\
    forall m cat pri time aeid msg aux, snd (add_event px m (dv_log d') cat pri time aeid msg aux) = false.
Proof. exists (mkDev ael_default None). eexists. split; [vm_compute; reflexivity|]. split; [reflexivity|]. intros. reflexivity. Qed.
Print Assumptions C81_filter_wraps_refuted.

(** The space used is told in the unit of the first device, the limit in the unit of the device asked. *)
Theorem C81_unit_refuted :
  exists a l, sound a /\ get_ael 1 1 a 32 = Content l /\ In (str "maxspace", RInt 2048) l /\ In (str "usedspace", RInt 1) l /\ a_used a = 1500.
Proof.
  exists (mkAel 255 4 2048 0 1500 [mkEvent 1500 1 2 10 [] [] []]). eexists. split; [unfold sound; cbn; lia|]. split; [vm_compute; reflexivity|].
  split; [vm_compute; tauto|]. split; [vm_compute; tauto|reflexivity].
Qed.
Print Assumptions C81_unit_refuted.

(** * C82 *)

(** The entry of a denied request names the address of the peer, its identity if it is authenticated, the resource, the
    operation, the state of the device and the roles of the peer. *)
Theorem C82_denied :
  forall ip peer uri m s, plain_text ip -> (List.length ip < 80)%nat -> peer_plain peer -> plain_text uri -> (List.length uri < 80)%nat -> (m <= 4)%nat -> (s <= 4)%nat ->
    denied_entry ip peer uri (N.of_nat m) (N.of_nat s) = Ok (denied_lines ip peer uri m s).
Proof. exact denied_text. Qed.
Print Assumptions C82_denied.

(** Such an entry survives a restart. *)
Theorem C82_denied_keeps :
  forall ip peer uri m s l, plain_text ip -> (List.length ip < 80)%nat -> peer_plain peer -> plain_text uri -> (List.length uri < 80)%nat -> (m <= 4)%nat -> (s <= 4)%nat ->
    denied_entry ip peer uri (N.of_nat m) (N.of_nat s) = Ok l ->
    forall t, (0 <= t < 2 ^ 63)%Z -> keepable (mkEntry 1 2 t (Some (str "AC-1")) (Some (str "Access Denied")) l).
Proof.
  intros ip peer uri m s l A B C D E F G H t Ht. rewrite denied_text in H by assumption. assert (l = denied_lines ip peer uri m s) by congruence. subst l. clear H.
  destruct (verb_spec m F) as (_ & Lv & Pv). destruct (mode_spec s G) as (_ & Lm & Pm).
  assert (Rp : forall r, Forall plain_text r -> plain_text (roles_line r) /\ (List.length (roles_line r) <= 127)%nat).
  { intros r Hr. destruct r as [|x r]; [split; [cbn [roles_line]; lit|vm_compute; lia]|]. cbn [roles_line]. split.
    - intros I. assert (J : In 0 (List.concat (map (fun r => r ++ [32]) (x :: r)))) by (rewrite <- (firstn_skipn 78); apply in_or_app; now left).
      apply in_concat in J. destruct J as (y & J1 & J2). apply in_map_iff in J1. destruct J1 as (z & <- & J1). rewrite Forall_forall in Hr.
      apply in_app_or in J2. destruct J2 as [J2|[J2|[]]]; [now apply (Hr z J1)|discriminate J2].
    - rewrite firstn_length. lia. }
  assert (V : plain_text (str "attempt to " ++ verb m ++ str " the resource") /\ (List.length (str "attempt to " ++ verb m ++ str " the resource") <= 127)%nat).
  { split; [apply plain_app; [lit|apply plain_app; [exact Pv|lit]]|rewrite !app_length; cbn [str List.length]; lia]. }
  assert (W : plain_text (str "device is in " ++ mode s) /\ (List.length (str "device is in " ++ mode s) <= 127)%nat).
  { split; [apply plain_app; [lit|exact Pm]|rewrite !app_length; cbn [str List.length]; lia]. }
  assert (Z : Forall (fun x => plain_text x /\ (List.length x <= 127)%nat) (denied_lines ip peer uri m s) /\ (List.length (denied_lines ip peer uri m s) <= 6)%nat).
  { unfold denied_lines. destruct peer as [[u roles]|]; cbn [app].
    - destruct C as (C1 & C2 & C3). split; [|cbn [List.length]; lia]. constructor; [split; [exact A|lia]|]. constructor; [split; [exact C1|lia]|].
      constructor; [split; [exact D|lia]|]. constructor; [exact V|]. constructor; [exact W|]. constructor; [now apply Rp|constructor].
    - split; [|cbn [List.length]; lia]. constructor; [split; [exact A|lia]|]. constructor; [split; [exact D|lia]|]. constructor; [exact V|]. constructor; [exact W|].
      constructor; [apply Rp; constructor|constructor]. }
  destruct Z as [Z1 Z2]. unfold keepable, plain_entry. cbn [en_cat en_pri en_time en_aeid en_msg en_aux opt_plain]. split; [lia|]. split; [lia|]. split; [exact Ht|].
  split; [split; [lit|split; [lit|]]|split; [lia|]]; rewrite Forall_forall in *; intros x I; apply (Z1 x I).
Qed.
Print Assumptions C82_denied_keeps.

(** The entry of an unexpected message shows its first 42 bytes, in a text short enough to survive a restart. *)
Theorem C82_message :
  forall data, bytes_ok data -> data <> [] -> message_line data = Some (colons (firstn 42 data)) /\ (List.length (colons (firstn 42 data)) <= 125)%nat.
Proof.
  intros data B H. split; [now apply message_text|]. rewrite colons_len by (destruct data; [contradiction|discriminate]). rewrite firstn_length. lia.
Qed.
Print Assumptions C82_message.

Example C82_ex :
  denied_entry (str "coaps://[fe80::1]:5684") (Some (str "3f3a0a08-5dbb-4e8c-a1ec-0d9b2b6a5a11", [str "admin"; str "user"])) (str "/light") 2 3 =
  Ok [str "coaps://[fe80::1]:5684"; str "3f3a0a08-5dbb-4e8c-a1ec-0d9b2b6a5a11"; str "/light"; str "attempt to UPDATE the resource"; str "device is in RFNOP"; str "admin user "] /\
  message_line [64; 1; 255] = Some (str "40:01:ff") /\ head_line [64; 1; 255; 16; 9] = str "[40:01:ff:10]".
Proof. vm_compute. split; [reflexivity|]. split; reflexivity. Qed.

(** A resource whose URI has 80 bytes: the entry runs into the next line. *)
Theorem C82_uri_of_80_refuted :
  exists uri l, plain_text uri /\ List.length uri = 80%nat /\ denied_entry (str "coap://1.2.3.4:5683") None uri 1 3 = Ok l /\
    nth 1 l [] = uri ++ str "attempt to RETRIEVE the resource".
Proof.
  exists (47 :: repeat 97 79). eexists. split; [lit|]. split; [vm_compute; reflexivity|]. split; vm_compute; reflexivity.
Qed.
Print Assumptions C82_uri_of_80_refuted.

(** With a URI of 401 bytes the copy leaves the buffer on the stack. *)
Theorem C82_long_uri_refuted :
  exists uri, plain_text uri /\ List.length uri = N.to_nat 401 /\ denied_entry (str "coap://1.2.3.4:5683") None uri 1 3 = Crash.
Proof. exists (47 :: repeat 97 400). split; [lit|]. split; vm_compute; reflexivity. Qed.
Print Assumptions C82_long_uri_refuted.
