From Verif Require Import Common Rep_Model Repd_Model Repd_Proofs Ael_Model Ael2_Proofs Ael3_Proofs Ts_Model Ts_Spec Ts4_Proofs Ts_Props Pt_Model Pt_Spec.
From Verif Require Sd_Model Sd_Spec.
From Coq Require Import String ZArith.
Notation rep := Rep_Model.rep.
Local Open Scope string_scope.
Local Open Scope list_scope.
Local Open Scope Z_scope.

(** * Requests *)
Lemma find_lst_acc l : forall acc, find_lst acc l = match find_lst None l with Some s => Some s | None => acc end.
Proof.
  induction l as [|[n v] t IH]; intros acc; [reflexivity|]. destruct v; cbn [find_lst]; try apply IH.
  rewrite IH, (IH (if list_eqb n (str "lastSyncedTime") then _ else None)). destruct (find_lst None t); [reflexivity|]. destruct (list_eqb n (str "lastSyncedTime")); reflexivity.
Qed.
Lemma find_none l acc : Sd_Spec.no_text l (str "lastSyncedTime") -> find_lst acc l = acc.
Proof.
  revert acc. induction l as [|[n v] t IH]; intros acc H; [reflexivity|]. assert (H' : Sd_Spec.no_text t (str "lastSyncedTime")) by (intros s I; apply (H s); right; exact I).
  destruct v; cbn [find_lst]; try (apply IH; exact H'). destruct (list_eqb n (str "lastSyncedTime")) eqn:E; [|apply IH; exact H'].
  apply list_eqb_spec in E. subst n. elim (H _ (or_introl eq_refl)).
Qed.
Lemma find_last l s acc : names l s -> find_lst acc l = Some s.
Proof.
  intros (a & b & -> & H). revert acc. induction a as [|[n v] t IH]; intros acc; cbn [app].
  - cbn [find_lst]. rewrite list_eqb_refl. apply find_none. exact H.
  - destruct v; cbn [find_lst]; apply IH.
Qed.
Lemma decode_names hz l s : names l s -> decode hz l = clock_parse hz s.
Proof. intros H. unfold decode. rewrite (find_last _ _ _ H). reflexivity. Qed.
Lemma decode_nothing hz l : names_nothing l -> decode hz l = None.
Proof.
  intros [H|(s & H & B & W)].
  - unfold decode. rewrite (find_none _ _ H). reflexivity.
  - rewrite (decode_names _ _ _ H). exact (C66_parse_refuses hz s B W).
Qed.
Lemma decode_text hz l s t : frequency hz -> names l s -> text_of hz s t -> sensible hz t -> decode hz l = Some t.
Proof.
  intros [Hh Hd] H (x & W & I0 & I) (S1 & S2 & S3). rewrite (decode_names _ _ _ H), (clock_parse_written hz s x Hh W), I, Z.mod_small by lia. reflexivity.
Qed.

(** * Reading the time *)
Lemma signed_pos z : 0 <= z < 2 ^ 63 -> signed z = z.
Proof. intros H. unfold signed. rewrite Z.mod_small by lia. destruct (Z.ltb_spec z (2 ^ 63)); [reflexivity|lia]. Qed.
Lemma read_time p t m m' : p_lst p = t -> p_upd p = m -> 0 < t -> 0 <= m -> m <= m' < 2 ^ 63 -> dev_plgd_time p (Some m') = Some ((t + (m' - m)) mod 2 ^ 64).
Proof.
  intros <- <- T M H. unfold dev_plgd_time, active. destruct (Z.ltb_spec 0 (p_lst p)); [|lia]. cbn [negb]. rewrite signed_pos by lia.
  destruct (Z.ltb_spec (m' - p_upd p) 0); [lia|reflexivity].
Qed.
Lemma read_off p c : p_lst p = 0 -> dev_plgd_time p c = Some FAIL.
Proof. intros E. unfold dev_plgd_time, active. rewrite E. reflexivity. Qed.
Lemma read_runs p m c : 0 <= m -> p_lst p = 0 \/ (0 < p_lst p /\ p_upd p = m) -> from m c -> exists z, dev_plgd_time p c = Some z.
Proof.
  intros M [E|[L U]] F; [exists FAIL; apply read_off; exact E|]. destruct c as [x|].
  - eexists. apply (read_time p (p_lst p) m x); [reflexivity|exact U|exact L|exact M|exact F].
  - exists FAIL. unfold dev_plgd_time. destruct (negb (active p)); reflexivity.
Qed.

Lemma status_names s : 1 <= s <= 3 -> exists n, status_str s = Some n /\ status_name s n.
Proof.
  intros H. assert (s = 1 \/ s = 2 \/ s = 3) as [-> | [-> | ->]] by lia; eexists; (split; [reflexivity|]); unfold status_name; tauto.
Qed.

Lemma encode_runs hz p i sec c m : 0 <= m -> p_lst p = 0 \/ (0 < p_lst p /\ p_upd p = m) -> 0 <= p_status p <= 3 -> from m c -> encode hz p i sec c <> Crashed.
Proof.
  intros M L S F. unfold encode. destruct (negb _); [discriminate|].
  assert (A : encode_time hz p c <> Crashed).
  { unfold encode_time. destruct (active p); [|discriminate]. destruct (read_runs p m c M L F) as (z & ->). destruct (z =? FAIL); [discriminate|]. destruct (clock_encode hz z 64); discriminate. }
  assert (B : encode_status p sec <> Crashed).
  { unfold encode_status. destruct (Z.eqb_spec (p_status p) 0); [discriminate|]. destruct sec; [|discriminate]. cbn [orb negb]. destruct (active p); [|discriminate].
    destruct (status_names (p_status p)) as (n' & -> & _); [lia|discriminate]. }
  assert (C : encode_lst hz p sec <> Crashed).
  { unfold encode_lst. destruct sec; [|discriminate]. cbn [negb]. destruct (active p); [|discriminate]. destruct (clock_encode hz (p_lst p) 64); discriminate. }
  destruct (encode_time hz p c); [contradiction|discriminate|]. destruct (encode_status p sec); [contradiction|discriminate|]. destruct (encode_lst hz p sec); [contradiction|discriminate|]. discriminate.
Qed.

(** * Quiet operations *)
Definition good (d : dev) (t m : Z) : Prop := p_lst (d_pt d) = t /\ (t = 0 \/ 0 < t /\ p_upd (d_pt d) = m) /\ 0 <= p_status (d_pt d) <= 3.
Lemma quiet_step hz d o t m : frequency hz -> 0 <= m -> good d t m -> quiet hz m o -> exists d' a, step hz d o = Some (d', a) /\ good d' t m /\ d_file d' = d_file d.
Proof.
  intros F M (L & U & S) Q. assert (G : good d t m) by (repeat split; try assumption; lia).
  assert (L' : p_lst (d_pt d) = 0 \/ 0 < p_lst (d_pt d) /\ p_upd (d_pt d) = m) by (rewrite L; exact U).
  destruct o as [z c w|s|cb|c| | |sec i c|l c w|cb c]; cbn [quiet] in Q; cbn [step].
  - destruct Q as [Z0 ->]. unfold set_time. destruct (Z.eqb_spec z 0); [contradiction|]. do 2 eexists. split; [reflexivity|]. split; [exact G|reflexivity].
  - do 2 eexists. split; [reflexivity|]. split; [|reflexivity]. split; [exact L|]. split; [exact U|]. cbn [d_pt p_status]. lia.
  - do 2 eexists. split; [reflexivity|]. split; [|reflexivity]. split; [exact L|]. split; [exact U|exact S].
  - destruct (read_runs (d_pt d) m c M L' Q) as (z & ->). do 2 eexists. split; [reflexivity|]. split; [exact G|reflexivity].
  - do 2 eexists. split; [reflexivity|]. split; [exact G|reflexivity].
  - do 2 eexists. split; [reflexivity|]. split; [exact G|reflexivity].
  - pose proof (encode_runs hz (d_pt d) i sec c m M L' S Q) as E. destruct (encode hz (d_pt d) i sec c); [contradiction| |]; do 2 eexists; (split; [reflexivity|]); (split; [exact G|reflexivity]).
  - destruct Q as [Q|(-> & s & z & N & T & Sn)].
    + rewrite (decode_nothing hz l Q). do 2 eexists. split; [reflexivity|]. split; [exact G|reflexivity].
    + rewrite (decode_text hz l s z F N T Sn). unfold set_time. destruct Sn as (Z0 & _). destruct (Z.eqb_spec z 0); [lia|]. do 2 eexists. split; [reflexivity|]. split; [exact G|reflexivity].
  - contradiction.
Qed.
Lemma quiet_run hz t m : frequency hz -> 0 <= m -> forall ops d, good d t m -> Forall (quiet hz m) ops -> exists d', run hz d ops = Some d' /\ good d' t m /\ d_file d' = d_file d.
Proof.
  intros F M. induction ops as [|o ops IH]; intros d G Q; [exists d; split; [reflexivity|]; split; [exact G|reflexivity]|]. inversion Q as [|? ? Q1 Q2]; subst.
  destruct (quiet_step hz d o t m F M G Q1) as (d1 & a & E & G1 & F1). destruct (IH d1 G1 Q2) as (d2 & E2 & G2 & F2). exists d2. cbn [run]. rewrite E.
  split; [exact E2|]. split; [exact G2|congruence].
Qed.
Lemma good_keeps hz d t m : frequency hz -> 0 <= m -> 0 < t -> good d t m -> keeps_time hz d t m.
Proof.
  intros F M T G ops m' Q Hm Ht. destruct (quiet_run hz t m F M ops d G Q) as (d' & E & (L & U & S) & _). exists d'. split; [exact E|]. cbn [step].
  destruct U as [U|[_ U]]; [lia|]. rewrite (read_time (d_pt d') t m m' L U T M Hm), Z.mod_small by lia. split; [reflexivity|]. rewrite L. reflexivity.
Qed.
Lemma good_off hz d : frequency hz -> good d 0 0 -> keeps_off hz d.
Proof.
  intros F G ops c Q. destruct (quiet_run hz 0 0 F (Z.le_refl 0) ops d G Q) as (d' & E & (L & U & S) & _). exists d'. split; [exact E|]. cbn [step].
  rewrite (read_off _ c L), L. split; reflexivity.
Qed.

(** * Setting *)
Lemma set_good d t m cb : p_cb (d_pt d) = cb -> 0 < t < 2 ^ 64 -> 0 <= m < 2 ^ 63 ->
  exists d', set_time d t (Some m) = Some (d', true) /\ good d' t m /\ d_pt d' = mkPt t m 2 cb /\ d_calls d' = (if cb then t :: d_calls d else d_calls d) /\ d_file d' = d_file d.
Proof.
  intros C T M. unfold set_time. destruct (Z.eqb_spec t 0); [lia|]. unfold set. cbn [p_cb]. rewrite C. destruct cb.
  - rewrite (read_time _ t m m); [|reflexivity|reflexivity|lia|lia|lia]. rewrite Z.mod_small by lia. replace (t + (m - m)) with t by lia. eexists. split; [reflexivity|].
    split; [split; [reflexivity|]; split; [right; split; [lia|reflexivity]|cbn; unfold IN_SYNC; lia]|]. repeat split.
  - eexists. split; [reflexivity|]. split; [split; [reflexivity|]; split; [right; split; [lia|reflexivity]|cbn; unfold IN_SYNC; lia]|]. repeat split.
Qed.
Lemma dump_good hz d w t m : good d t m -> good (dump hz d w) t m.
Proof. intros G. unfold dump. destruct (encode_store hz (d_pt d)); try exact G. destruct w; exact G. Qed.
Lemma dump_same hz d w : d_pt (dump hz d w) = d_pt d /\ d_calls (dump hz d w) = d_calls d.
Proof. unfold dump. destruct (encode_store hz (d_pt d)); [split; reflexivity| |]; [split; reflexivity|]. destruct w; split; reflexivity. Qed.

(** * Storage *)
Lemma store_parse s : parse (enc_root [(str "lastSyncedTime", RStr s)]) = Ok (PRep [(str "lastSyncedTime", RStr s)]).
Proof. unfold enc_root. cbn [parse]. rewrite (members_reads _ [(str "lastSyncedTime", RStr s)]); [reflexivity|]. constructor; [apply reads_writable; constructor|constructor]. Qed.
Lemma store_stored s : Sd_Model.stored (Some (enc_root [(str "lastSyncedTime", RStr s)])) = Some (Some [(str "lastSyncedTime", RStr s)]).
Proof. unfold Sd_Model.stored. rewrite store_parse. reflexivity. Qed.
Lemma one_name s : names [(str "lastSyncedTime", RStr s)] s.
Proof. exists [], []. split; [reflexivity|]. intros t []. Qed.

(** What is stored is the text of [t]. *)
Definition file_of (hz : Z) (d : dev) (t : Z) : Prop :=
  exists s, d_file d = Some (enc_root [(str "lastSyncedTime", RStr s)]) /\ if t =? 0 then s = [] else clock_parse hz s = Some t.
Lemma dump_file hz d t : frequency hz -> p_lst (d_pt d) = t -> t = 0 \/ sensible hz t -> file_of hz (dump hz d true) t.
Proof.
  intros [Hh Hd] L H. unfold dump, encode_store, encode_lst, active. cbn [negb]. rewrite L. destruct H as [->|(A & B & C)].
  - cbn. exists []. split; reflexivity.
  - destruct (Z.ltb_spec 0 t); [|lia]. destruct (clock_roundtrip hz t Hh Hd) as (s & x & W & I & _ & E & P); [lia|exact C|]. rewrite E.
    pose proof (written_len s x W) as Ln. destruct (Nat.ltb_spec (List.length s) 64); [|lia]. exists s. split; [reflexivity|]. destruct (Z.eqb_spec t 0); [lia|exact P].
Qed.
Lemma load_on hz d t m cb : frequency hz -> file_of hz d t -> sensible hz t -> 0 <= m < 2 ^ 63 ->
  exists d', step hz d (Start cb (Some m)) = Some (d', Done) /\ good d' t m /\ p_status (d_pt d') = 3 /\ d_calls d' = (if cb then t :: d_calls d else d_calls d) /\ file_of hz d' t.
Proof.
  intros F (s & E & P) (A & B & C) M. destruct (Z.eqb_spec t 0); [lia|]. cbn [step]. unfold load. cbn [d_file]. rewrite E, store_stored.
  rewrite (decode_names hz _ s (one_name s)), P. destruct (set_good (mkDev (blank_pt cb) (d_calls d) (Some (enc_root [(str "lastSyncedTime", RStr s)]))) t m cb eq_refl) as (d' & E' & G & E1 & E2 & E3); [lia|exact M|].
  rewrite E'. eexists. split; [reflexivity|]. split; [|split; [reflexivity|split; [exact E2|]]].
  - destruct G as (G1 & G2 & G3). split; [exact G1|]. split; [exact G2|]. cbn [d_pt p_status]. unfold FROM_STORAGE. lia.
  - exists s. split; [exact E3|]. destruct (Z.eqb_spec t 0); [lia|exact P].
Qed.
Lemma parse_empty hz : clock_parse hz [] = None.
Proof. reflexivity. Qed.
Lemma load_off hz d c cb : file_of hz d 0 \/ d_file d = None -> exists d', step hz d (Start cb c) = Some (d', Done) /\ d_pt d' = blank_pt cb /\ d_calls d' = d_calls d /\ d_file d' = d_file d.
Proof.
  intros [(s & E & P)|E]; cbn [step]; unfold load; cbn [d_file]; rewrite E.
  - cbn in P. subst s. rewrite store_stored, (decode_names hz _ [] (one_name [])), parse_empty. eexists. split; [reflexivity|]. repeat split.
  - eexists. split; [reflexivity|]. repeat split.
Qed.

(** * The resource *)
Lemma encode_ok hz t : frequency hz -> sensible hz t -> exists s, clock_encode hz t 64 = Some s /\ exact_text hz s t /\ clock_parse hz s = Some t.
Proof.
  intros [Hh Hd] (A & B & C). destruct (clock_roundtrip hz t Hh Hd) as (s & x & W & I & _ & E & P); [lia|exact C|]. exists s. rewrite E.
  pose proof (written_len s x W) as Ln. destruct (Nat.ltb_spec (List.length s) 64); [|lia]. split; [reflexivity|]. split; [|exact P]. exists x. split; assumption.
Qed.
Lemma time_ok hz p t m m' : frequency hz -> p_lst p = t -> p_upd p = m -> 0 < t -> 0 <= m -> m <= m' < 2 ^ 63 -> sensible hz (t + (m' - m)) ->
  exists s, encode_time hz p (Some m') = Encoded [(str "time", RStr s)] /\ exact_text hz s (t + (m' - m)) /\ clock_parse hz s = Some (t + (m' - m)).
Proof.
  intros F L U T M Hm S. unfold encode_time, active. rewrite L. destruct (Z.ltb_spec 0 t); [|lia]. rewrite (read_time p t m m' L U T M Hm), Z.mod_small by (destruct S; lia).
  destruct (Z.eqb_spec (t + (m' - m)) FAIL) as [E|_]; [unfold FAIL in E; destruct S; lia|]. destruct (encode_ok hz _ F S) as (s & E & X & P). rewrite E. exists s.
  split; [reflexivity|]. split; assumption.
Qed.
Lemma lst_ok hz p t : frequency hz -> p_lst p = t -> sensible hz t -> exists s, encode_lst hz p true = Encoded [(str "lastSyncedTime", RStr s)] /\ exact_text hz s t.
Proof.
  intros F L S. unfold encode_lst, active. rewrite L. destruct (Z.ltb_spec 0 t); [|destruct S; lia]. destruct (encode_ok hz t F S) as (s & E & X & _). cbn [negb]. rewrite E. exists s. split; [reflexivity|exact X].
Qed.
