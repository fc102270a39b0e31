(** C85: the synchronised time runs on from where it was set.  C86: who learns it, who sets it, and how it is fetched. *)
From Verif Require Import Common Rep_Model Repd_Model Repd_Spec Repd_Proofs Ael_Model Ts_Model Ts_Spec Ts3_Proofs Ts4_Proofs Ts_Props Pt_Model Pt_Spec Pt_Proofs.
From Verif Require Sd_Spec.
From Coq Require Import String ZArith.
Notation rep := Rep_Model.rep.
Local Open Scope string_scope.
Local Open Scope list_scope.
Local Open Scope Z_scope.

(** * C85 *)

(** The application sets the time: it runs on from there, is in sync, and the system's time is set to it. *)
Theorem C85_set :
  forall hz d t m w, frequency hz -> 0 < t < 2 ^ 64 -> 0 <= m < 2 ^ 63 ->
    exists d', step hz d (SetTime t (Some m) w) = Some (d', Done) /\ keeps_time hz d' t m /\ step hz d' Status = Some (d', Ticks 2) /\
      d_calls d' = (if p_cb (d_pt d) then t :: d_calls d else d_calls d).
Proof.
  intros hz d t m w F T M. destruct (set_good d t m (p_cb (d_pt d)) eq_refl T M) as (d1 & E & G & E1 & E2 & E3). cbn [step]. rewrite E. eexists. split; [reflexivity|].
  destruct (dump_same hz d1 w) as [S1 S2]. split; [apply good_keeps; [exact F|lia|lia|apply dump_good; exact G]|]. rewrite S1, S2, E1. split; [reflexivity|exact E2].
Qed.
Print Assumptions C85_set.

(** A client sets the time with its text, and is told the result. *)
Theorem C85_post :
  forall hz d l s t m w, frequency hz -> names l s -> text_of hz s t -> sensible hz t -> 0 <= m < 2 ^ 63 ->
    exists d' l', step hz d (Post l (Some m) w) = Some (d', ChangedTo l') /\ keeps_time hz d' t m /\ step hz d' Status = Some (d', Ticks 2) /\
      d_calls d' = (if p_cb (d_pt d) then t :: d_calls d else d_calls d) /\ step hz d' (Get true 32 (Some m)) = Some (d', Content l').
Proof.
  intros hz d l s t m w F Nm Tx Sn M. assert (T : 0 < t < 2 ^ 64) by (destruct Sn as (A & B & _); lia).
  destruct (set_good d t m (p_cb (d_pt d)) eq_refl T M) as (d1 & E & G & E1 & E2 & E3).
  cbn [step]. rewrite (decode_text hz l s t F Nm Tx Sn), E. destruct (dump_same hz d1 w) as [S1 S2].
  assert (X : exists l', encode hz (d_pt d1) 32 true (Some m) = Encoded l').
  { unfold encode. cbn [N.eqb Pos.eqb orb negb]. destruct (time_ok hz (d_pt d1) t m m F) as (s1 & -> & _); [rewrite E1; reflexivity|rewrite E1; reflexivity|lia|lia|lia|replace (t + (m - m)) with t by lia; exact Sn|].
    destruct (lst_ok hz (d_pt d1) t F) as (s2 & -> & _); [rewrite E1; reflexivity|exact Sn|]. unfold encode_status. rewrite E1. cbn [p_status]. unfold active. cbn [p_lst].
    destruct (0 <? t); eexists; reflexivity. }
  destruct X as (l' & X). rewrite X. exists (dump hz d1 w), l'. split; [reflexivity|].
  split; [apply good_keeps; [exact F|lia|lia|apply dump_good; exact G]|]. rewrite S1, S2, X, E1. split; [reflexivity|]. split; [exact E2|reflexivity].
Qed.
Print Assumptions C85_post.

(** Set to zero, and before it is first set, there is no time. *)
Theorem C85_off :
  forall hz d w c, frequency hz ->
    (exists d', step hz d (SetTime 0 c w) = Some (d', Done) /\ keeps_off hz d') /\
    (exists d', step hz new (Start false c) = Some (d', Done) /\ keeps_off hz d').
Proof.
  intros hz d w c F. split.
  - cbn [step]. unfold set_time. cbn [Z.eqb]. assert (X : exists d1, set d 0 0 c = Some d1 /\ good d1 0 0).
    { unfold set. cbn [p_cb]. destruct (p_cb (d_pt d)); [rewrite read_off by reflexivity|]; eexists; (split; [reflexivity|]); (split; [reflexivity|]); (split; [now left|cbn; unfold IN_SYNC; lia]). }
    destruct X as (d1 & -> & G). eexists. split; [reflexivity|]. apply good_off; [exact F|]. apply dump_good. exact G.
  - eexists. split; [reflexivity|]. apply good_off; [exact F|]. split; [reflexivity|]. split; [now left|cbn; lia].
Qed.
Print Assumptions C85_off.

(** Without a clock the time is not set, and what was set stays. *)
Theorem C85_no_clock :
  forall hz d t w l s, frequency hz -> t <> 0 -> step hz d (SetTime t None w) = Some (d, NotDone) /\ step hz d (Now None) = Some (d, Ticks (2 ^ 64 - 1)) /\
    (forall t', names l s -> text_of hz s t' -> sensible hz t' -> step hz d (Post l None w) = Some (d, ServerError)).
Proof.
  intros hz d t w l s F T. split; [|split].
  - cbn [step]. unfold set_time. destruct (Z.eqb_spec t 0); [contradiction|reflexivity].
  - cbn [step]. unfold dev_plgd_time. destruct (negb (active (d_pt d))); reflexivity.
  - intros t' Nm Tx Sn. cbn [step]. rewrite (decode_text hz l s t' F Nm Tx Sn). unfold set_time. destruct (Z.eqb_spec t' 0); [destruct Sn; lia|reflexivity].
Qed.
Print Assumptions C85_no_clock.

(** A restart continues from the time last set, however often, and says so. *)
Theorem C85_restart :
  forall hz d t m ops cb m2 ops2 cb3 m3, frequency hz -> sensible hz t -> 0 <= m < 2 ^ 63 -> 0 <= m2 < 2 ^ 63 -> 0 <= m3 < 2 ^ 63 ->
    Forall (quiet hz m) ops -> Forall (quiet hz m2) ops2 ->
    exists d1 d2 d3 d4 d5, step hz d (SetTime t (Some m) true) = Some (d1, Done) /\ run hz d1 ops = Some d2 /\
      step hz d2 (Start cb (Some m2)) = Some (d3, Done) /\ keeps_time hz d3 t m2 /\ step hz d3 Status = Some (d3, Ticks 3) /\
      run hz d3 ops2 = Some d4 /\ step hz d4 (Start cb3 (Some m3)) = Some (d5, Done) /\ keeps_time hz d5 t m3.
Proof.
  intros hz d t m ops cb m2 ops2 cb3 m3 F Sn M M2 M3 Q Q2. assert (T : 0 < t < 2 ^ 64) by (destruct Sn as (A & B & _); lia).
  destruct (set_good d t m (p_cb (d_pt d)) eq_refl T M) as (d0 & E & G & E1 & E2 & E3). set (d1 := dump hz d0 true).
  assert (S1 : step hz d (SetTime t (Some m) true) = Some (d1, Done)) by (cbn [step]; rewrite E; reflexivity).
  assert (F1 : file_of hz d1 t) by (apply dump_file; [exact F|rewrite E1; reflexivity|right; exact Sn]).
  destruct (quiet_run hz t m F (proj1 M) ops d1) as (d2 & R2 & G2 & H2); [apply dump_good; exact G|exact Q|].
  assert (F2 : file_of hz d2 t) by (unfold file_of in *; rewrite H2; exact F1).
  destruct (load_on hz d2 t m2 cb F F2 Sn M2) as (d3 & S3 & G3 & St3 & C3 & F3).
  destruct (quiet_run hz t m2 F (proj1 M2) ops2 d3 G3 Q2) as (d4 & R4 & G4 & H4).
  assert (F4 : file_of hz d4 t) by (unfold file_of in *; rewrite H4; exact F3).
  destruct (load_on hz d4 t m3 cb3 F F4 Sn M3) as (d5 & S5 & G5 & St5 & C5 & F5).
  exists d1, d2, d3, d4, d5. split; [exact S1|]. split; [exact R2|]. split; [exact S3|]. split; [apply good_keeps; [exact F|lia|lia|exact G3]|].
  split; [cbn [step]; rewrite St3; reflexivity|]. split; [exact R4|]. split; [exact S5|]. apply good_keeps; [exact F|lia|lia|exact G5].
Qed.
Print Assumptions C85_restart.

(** Also the time set by a client; and a time set to zero stays off. *)
Theorem C85_restart_post :
  forall hz d l s t m ops cb m2, frequency hz -> names l s -> text_of hz s t -> sensible hz t -> 0 <= m < 2 ^ 63 -> 0 <= m2 < 2 ^ 63 -> Forall (quiet hz m) ops ->
    exists d1 l1 d2 d3, step hz d (Post l (Some m) true) = Some (d1, ChangedTo l1) /\ run hz d1 ops = Some d2 /\
      step hz d2 (Start cb (Some m2)) = Some (d3, Done) /\ keeps_time hz d3 t m2.
Proof.
  intros hz d l s t m ops cb m2 F Nm Tx Sn M M2 Q. assert (T : 0 < t < 2 ^ 64) by (destruct Sn as (A & B & _); lia).
  destruct (C85_post hz d l s t m true F Nm Tx Sn M) as (d1 & l1 & S1 & _). pose proof S1 as S1'. cbn [step] in S1'. rewrite (decode_text hz l s t F Nm Tx Sn) in S1'.
  destruct (set_good d t m (p_cb (d_pt d)) eq_refl T M) as (d0 & E & G & E1 & E2 & E3). rewrite E in S1'. destruct (encode hz (d_pt d0) 32 true (Some m)); [discriminate|discriminate|].
  assert (D1 : d1 = dump hz d0 true) by congruence.
  assert (F1 : file_of hz d1 t) by (rewrite D1; apply dump_file; [exact F|rewrite E1; reflexivity|right; exact Sn]).
  destruct (quiet_run hz t m F (proj1 M) ops d1) as (d2 & R2 & G2 & H2); [rewrite D1; apply dump_good; exact G|exact Q|].
  assert (F2 : file_of hz d2 t) by (unfold file_of in *; rewrite H2; exact F1).
  destruct (load_on hz d2 t m2 cb F F2 Sn M2) as (d3 & S3 & G3 & St3 & C3 & F3).
  exists d1, l1, d2, d3. split; [exact S1|]. split; [exact R2|]. split; [exact S3|]. apply good_keeps; [exact F|lia|lia|exact G3].
Qed.
Print Assumptions C85_restart_post.
Theorem C85_restart_off :
  forall hz d c cb c2, frequency hz -> p_cb (d_pt d) = false ->
    exists d1 d2, step hz d (SetTime 0 c true) = Some (d1, Done) /\ step hz d1 (Start cb c2) = Some (d2, Done) /\ keeps_off hz d2 /\ d_calls d2 = d_calls d.
Proof.
  intros hz d c cb c2 F C. cbn [step]. unfold set_time, set. cbn [Z.eqb p_cb]. rewrite C. eexists. set (d1 := dump hz _ true).
  assert (F1 : file_of hz d1 0) by (apply dump_file; [exact F|reflexivity|now left]).
  destruct (load_off hz d1 c2 cb (or_introl F1)) as (d2 & S2 & P2 & C2 & _). exists d2. split; [reflexivity|]. split; [exact S2|]. split; [|exact C2].
  apply good_off; [exact F|]. split; [rewrite P2; reflexivity|]. split; [now left|rewrite P2; cbn; lia].
Qed.
Print Assumptions C85_restart_off.

Definition HZ : Z := 1000000.
Example C85_frequency : frequency HZ. Proof. split; [reflexivity|]. exists 1000. reflexivity. Qed.
Example C85_sensible : sensible HZ 1709231399500000. Proof. split; [reflexivity|]. split; [reflexivity|discriminate]. Qed.
Definition day_ops : list op := [Get false 2 (Some 7000000); SetStatus 1; SetTime 5 None true; Post [(str "lastSyncedTime", RStr (str "noon"))] (Some 7000001) true; Now None].
Example C85_quiet : Forall (quiet HZ 5000000) day_ops.
Proof.
  constructor; [cbn; lia|]. constructor; [cbn; lia|]. constructor; [split; [discriminate|reflexivity]|]. constructor; [|constructor; [exact I|constructor]].
  left. right. exists (str "noon"). split; [apply one_name|]. split; [apply bytes_okb_spec; reflexivity|]. intros x W. apply parse_iff in W; [|apply bytes_okb_spec; reflexivity]. discriminate W.
Qed.
Example C85_case :
  match run HZ new ([Start true (Some 0); SetTime 1709231399500000 (Some 5000000) true] ++ day_ops ++ [Start true (Some 100)]) with
  | Some d => step HZ d (Now (Some 250100)) = Some (d, Ticks 1709231399750000) /\ d_calls d = [1709231399500000; 1709231399500000]
  | None => False
  end.
Proof. vm_compute. split; reflexivity. Qed.

(** Setting the time to zero, which takes it back, sets the time of the system to the end of all ticks. *)
Theorem C85_zero_sets_system_refuted :
  exists d d', d = mkDev (mkPt 1709231399500000 5 2 true) [] None /\ step HZ d (SetTime 0 (Some 10) true) = Some (d', Done) /\ d_calls d' = [2 ^ 64 - 1].
Proof. do 2 eexists. split; [reflexivity|]. split; vm_compute; reflexivity. Qed.
Print Assumptions C85_zero_sets_system_refuted.

(** * C86 *)

(** Over a secured connection: the time, when it was set, and the status. *)
Theorem C86_get :
  forall hz d t m i m', frequency hz -> p_lst (d_pt d) = t -> p_upd (d_pt d) = m -> 1 <= p_status (d_pt d) <= 3 -> i = 2%N \/ i = 32%N ->
    sensible hz t -> 0 <= m <= m' -> m' < 2 ^ 63 -> sensible hz (t + (m' - m)) ->
    exists l s1 s2 n, step hz d (Get true i (Some m')) = Some (d, Content l) /\ NoDup (map fst l) /\
      In (str "time", RStr s1) l /\ exact_text hz s1 (t + (m' - m)) /\ In (str "lastSyncedTime", RStr s2) l /\ exact_text hz s2 t /\
      In (str "status", RStr n) l /\ status_name (p_status (d_pt d)) n.
Proof.
  intros hz d t m i m' F L U St Hi Sn M M' Sn'. destruct (time_ok hz (d_pt d) t m m' F L U (proj1 Sn)) as (s1 & E1 & X1 & _); [lia|lia|exact Sn'|].
  destruct (lst_ok hz (d_pt d) t F L Sn) as (s2 & E2 & X2). destruct (status_names _ St) as (n & E3 & X3).
  assert (E4 : encode_status (d_pt d) true = Encoded [(str "status", RStr n)]).
  { unfold encode_status. destruct (Z.eqb_spec (p_status (d_pt d)) 0); [lia|]. cbn [orb negb]. unfold active. rewrite L. destruct (Z.ltb_spec 0 t); [|destruct Sn; lia]. rewrite E3. reflexivity. }
  exists ((if (i =? 2)%N then baseline else []) ++ [(str "time", RStr s1); (str "status", RStr n); (str "lastSyncedTime", RStr s2)]), s1, s2, n.
  split; [cbn [step]; unfold encode; rewrite E1, E4, E2; destruct Hi as [-> | ->]; reflexivity|].
  split; [destruct Hi as [-> | ->]; cbn; repeat constructor; cbn [In]; intros H; repeat (destruct H as [H|H]; [discriminate|]); destruct H|].
  split; [apply in_or_app; right; now left|]. split; [exact X1|]. split; [apply in_or_app; right; right; right; now left|]. split; [exact X2|].
  split; [apply in_or_app; right; right; now left|exact X3].
Qed.
Print Assumptions C86_get.

(** Over an open connection: the time, and nothing about the synchronisation, in any state. *)
Theorem C86_get_open :
  forall hz d i c a d', step hz d (Get false i c) = Some (d', a) ->
    d' = d /\ (a = ServerError \/ exists l, a = Content l /\ forall n v, In (n, v) l -> In n [str "time"; str "rt"; str "if"]).
Proof.
  intros hz d i c a d' H. cbn [step] in H. destruct (encode hz (d_pt d) i false c) as [| |l] eqn:E; [discriminate| |]; (split; [congruence|]).
  - left. congruence.
  - right. exists l. split; [congruence|]. intros n v I. unfold encode in E. destruct (negb _); [discriminate|]. unfold encode_status, encode_lst in E. rewrite orb_comm in E. cbn [negb orb] in E.
    unfold encode_time in E. assert (X : exists s, l = (if (i =? 2)%N then baseline else []) ++ [(str "time", RStr s)]).
    { destruct (active (d_pt d)); [|exists []; cbn [both app] in E; inversion E; reflexivity]. destruct (dev_plgd_time (d_pt d) c) as [z|]; [|discriminate]. destruct (z =? FAIL); [discriminate|].
      destruct (clock_encode hz z 64) as [s|]; [|discriminate]. exists s. cbn [both app] in E. inversion E. reflexivity. }
    destruct X as (s & ->). apply in_app_or in I. destruct I as [I|[I|[]]]; [|left; congruence]. destruct (i =? 2)%N; [|destruct I].
    destruct I as [I|[I|[]]]; right; [left|right; left]; congruence.
Qed.
Print Assumptions C86_get_open.
Theorem C86_get_open_time :
  forall hz d t m i m', frequency hz -> p_lst (d_pt d) = t -> p_upd (d_pt d) = m -> i = 2%N \/ i = 32%N -> 0 < t -> 0 <= m <= m' -> m' < 2 ^ 63 -> sensible hz (t + (m' - m)) ->
    exists l s, step hz d (Get false i (Some m')) = Some (d, Content l) /\ In (str "time", RStr s) l /\ exact_text hz s (t + (m' - m)).
Proof.
  intros hz d t m i m' F L U Hi T M M' Sn. destruct (time_ok hz (d_pt d) t m m' F L U T) as (s1 & E1 & X1 & _); [lia|lia|exact Sn|].
  exists ((if (i =? 2)%N then baseline else []) ++ [(str "time", RStr s1)]), s1.
  split; [|split; [apply in_or_app; right; now left|exact X1]]. cbn [step]. unfold encode. rewrite E1. unfold encode_status, encode_lst. rewrite (orb_comm (p_status (d_pt d) =? 0)). destruct Hi as [-> | ->]; reflexivity.
Qed.
Print Assumptions C86_get_open_time.

(** Without a time its text is empty. *)
Theorem C86_get_off :
  forall hz d i sec c, p_lst (d_pt d) = 0 -> i = 2%N \/ i = 32%N -> exists l, step hz d (Get sec i c) = Some (d, Content l) /\ forall s, In (str "time", RStr s) l <-> s = [].
Proof.
  intros hz d i sec c L Hi. cbn [step]. unfold encode, encode_time, encode_status, encode_lst, active. rewrite L. cbn [Z.ltb Z.compare].
  destruct Hi as [-> | ->]; destruct (p_status (d_pt d) =? 0); destruct sec; cbn [N.eqb Pos.eqb negb orb both app]; eexists; (split; [reflexivity|]);
    intros s; cbn [In baseline app]; split; intros H; repeat (destruct H as [H|H]; [first [discriminate H|congruence]|]); try contradiction; subst s; repeat (first [left; reflexivity|right]).
Qed.
Print Assumptions C86_get_off.

(** A request without a time in it changes nothing. *)
Theorem C86_post_refused : forall hz d l c w, names_nothing l -> step hz d (Post l c w) = Some (d, BadRequest).
Proof. intros hz d l c w H. cbn [step]. rewrite (decode_nothing hz l H). reflexivity. Qed.
Print Assumptions C86_post_refused.

(** A client that fetches the time of another device learns the time that device has. *)
Theorem C86_fetch :
  forall hz d t m i sec m' err, frequency hz -> p_lst (d_pt d) = t -> p_upd (d_pt d) = m -> 1 <= p_status (d_pt d) <= 3 -> i = 2%N \/ i = 32%N ->
    sensible hz t -> 0 <= m <= m' -> m' < 2 ^ 63 -> sensible hz (t + (m' - m)) ->
    exists l, step hz d (Get sec i (Some m')) = Some (d, Content l) /\ on_fetch hz err 0 l = (0, t + (m' - m)).
Proof.
  intros hz d t m i sec m' err F L U St Hi Sn M M' Sn'. destruct (time_ok hz (d_pt d) t m m' F L U (proj1 Sn)) as (s1 & E1 & X1 & P1); [lia|lia|exact Sn'|].
  destruct (lst_ok hz (d_pt d) t F L Sn) as (s2 & E2 & X2). destruct (status_names _ St) as (n & E3 & X3).
  assert (G : exists l, encode hz (d_pt d) i sec (Some m') = Encoded l /\ get_s l (str "time") = Some s1).
  { unfold encode, encode_status. rewrite E1. destruct (Z.eqb_spec (p_status (d_pt d)) 0); [lia|]. unfold active. rewrite L. destruct (Z.ltb_spec 0 t); [|destruct Sn; lia]. rewrite E3.
    destruct sec; [rewrite E2|unfold encode_lst]; destruct Hi as [-> | ->]; cbn [orb negb both app N.eqb Pos.eqb]; eexists; (split; [reflexivity|]); reflexivity. }
  destruct G as (l & E & X). exists l. cbn [step]. rewrite E. split; [reflexivity|]. unfold on_fetch. cbn [Z.eqb]. rewrite X, P1. reflexivity.
Qed.
Print Assumptions C86_fetch.
(** An answer without a time, or a failed request, is not taken for one. *)
Theorem C86_fetch_failed :
  forall hz err code l, (code <> 0 -> on_fetch hz err code l = (code, 0)) /\
    ((forall s, In (str "time", RStr s) l -> bytes_ok s /\ forall x, ~ written s x) -> on_fetch hz err 0 l = (err, 0)).
Proof.
  intros hz err code l. split.
  - intros H. unfold on_fetch. destruct (Z.eqb_spec code 0); [contradiction|reflexivity].
  - intros H. unfold on_fetch. cbn [Z.eqb]. unfold get_s. destruct (get_by l 5 (str "time")) as [v|] eqn:E; [|reflexivity]. destruct v; try reflexivity.
    destruct (H s) as [B W]; [|rewrite (C66_parse_refuses hz s B W); reflexivity]. rewrite get_by_some in E by (split; [discriminate|reflexivity]). destruct E as (a & b & -> & _). apply in_or_app. right. now left.
Qed.
Print Assumptions C86_fetch_failed.

Example C86_case :
  let d := mkDev (mkPt 1709231399500000 5000000 2 false) [] None in
  step HZ d (Get true 32 (Some 5500000)) =
    Some (d, Content [(str "time", RStr (str "2024-02-29T18:30:00Z")); (str "status", RStr (str "in-sync")); (str "lastSyncedTime", RStr (str "2024-02-29T18:29:59.500Z"))]) /\
  step HZ d (Get false 32 (Some 5500000)) = Some (d, Content [(str "time", RStr (str "2024-02-29T18:30:00Z"))]) /\
  on_fetch HZ 18 0 [(str "time", RStr (str "2024-02-29T18:30:00Z"))] = (0, 1709231400000000) /\ on_fetch HZ 18 0 [(str "time", RInt 5)] = (18, 0) /\
  names_nothing [(str "time", RStr (str "2024-02-29T18:30:00Z"))].
Proof.
  split; [vm_compute; reflexivity|]. split; [vm_compute; reflexivity|]. split; [vm_compute; reflexivity|]. split; [vm_compute; reflexivity|].
  left. intros s [H|[]]. discriminate H.
Qed.

(** A time before 1970 is answered with an error, but has been taken over, and the system's time was set to nonsense. *)
Theorem C86_before_1970_refuted :
  exists d d' l, d = mkDev (mkPt 1709231399500000 5 2 true) [] None /\ l = [(str "lastSyncedTime", RStr (str "1969-12-31T23:59:59Z"))] /\
    step HZ d (Post l (Some 10) true) = Some (d', ServerError) /\ step HZ d' LastSynced = Some (d', Ticks (2 ^ 64 - 1000000)) /\ d_calls d' = [2 ^ 64 - 1000000].
Proof. do 3 eexists. split; [reflexivity|]. split; [reflexivity|]. split; [vm_compute; reflexivity|]. split; vm_compute; reflexivity. Qed.
Print Assumptions C86_before_1970_refuted.
