From Coq Require Import Sorting.Sorted.
From Verif Require Import Common Net_Model Net_Spec Net_Proofs Net2_Proofs.
Local Open Scope nat_scope.

Definition one (d ep : nat) : list op := [Look d; Ready d 1 false; Receive d ep true; AddList d; CheckState d; SetNeed d; SetPoll d; Done d].
Definition loop_once : list op := [Run; Take; Copy; Signal; Post; Post].
Definition many (n d ep : nat) : list op := List.concat (repeat (one d ep) n).

(** * C92: no message is lost, repeated or left waiting between the network threads and the event loop *)

(** Exactly the messages with a valid header that were read while the process ran are added to the list (or are about to be). *)
Theorem C92_received : forall ops t m, reachable ops t -> (In m (arr t) \/ in_hand t m <-> In m (reads 0 true ops)).
Proof.
  intros ops t m R. pose proof (has_run ops start t R m) as H. unfold has in H. rewrite H. cbn [arr start next running].
  split; [|tauto]. intros [[[]|(d & k & E)]|E]; [discriminate E|exact E].
Qed.
Print Assumptions C92_received.

(** Whatever the interleaving, the messages that were added and not dropped are the ones posted to the event loop, then those it has taken, then those
    in the list: each once, in the order in which they were added. *)
Theorem C92_once : forall ops t, reachable ops t -> del t ++ loc t ++ q t = kept t /\ NoDup (map m_name (arr t)) /\ (forall m, In m (gone t) -> In m (arr t)).
Proof. intros ops t R. destruct (reach_order ops t R) as (_ & _ & N & _ & _ & K & I & _). split; [now symmetry|]. split; [exact N|exact I]. Qed.
Print Assumptions C92_once.

(** For each device that is the order in which they were read from the network. *)
Theorem C92_order : forall ops t d, reachable ops t -> StronglySorted lt (map m_name (filter (fun m => m_dev m =? d) (arr t))).
Proof. intros ops t d R. destruct (reach_order ops t R) as (_ & _ & _ & _ & S & _). apply S. Qed.
Print Assumptions C92_order.

(** The wake-up is never lost: when no thread is in the middle of handing over a message and the event loop is idle, waiting messages have their
    process marked and a poll requested. *)
Theorem C92_wakeup : forall ops t, reachable ops t -> running t = true -> quiet t -> q t <> [] -> need t = true /\ poll t = true.
Proof. exact quiet_flags. Qed.
Print Assumptions C92_wakeup.

(** Nor is that of another process: a request for a poll stays until the event loop sees it, whatever the threads and the loop do meanwhile. *)
Theorem C92_poll : forall l t t', poll t = true -> run t l = Some t' -> ~ In Run l -> poll t' = true.
Proof. exact poll_stays. Qed.
Print Assumptions C92_poll.

(** So the event loop, wherever it is, delivers everything by the time it has nothing to do ... *)
Theorem C92_delivered : forall ops t l t', reachable ops t -> running t = true -> (forall d, between (thr t d)) -> Forall of_loop l -> run t l = Some t' ->
  (forall o, of_loop o -> step t' o = None) -> q t' = [] /\ loc t' = [] /\ del t' = kept t'.
Proof. exact all_delivered. Qed.
Print Assumptions C92_delivered.

(** ... which it reaches after boundedly many steps. *)
Theorem C92_finite : forall t, exists n, forall l t', Forall of_loop l -> run t l = Some t' -> List.length l <= n.
Proof. intros t. exists (measure t). intros l t'. apply loop_bound. Qed.
Print Assumptions C92_finite.

(** Two threads interleaved with the loop: the second message arrives after the loop has taken the list. *)
Definition interleaved : list op :=
  [Look 0; Ready 0 2 false; Look 1; Ready 1 1 false; Receive 0 7 true; Receive 1 8 true; AddList 0; CheckState 0; SetNeed 0; SetPoll 0; Run; Take; Copy;
   AddList 1; CheckState 1; SetNeed 1; Signal; Post; Receive 0 7 false; SetPoll 1; Post].
Example C92_example :
  exists t, run start interleaved = Some t /\ quiet t /\ map m_name (del t) = [0] /\ map m_name (q t) = [1] /\ poll t = true /\ need t = true /\ running t = true /\
    exists t', run t [Run; Take; Copy; Signal; Post; Post] = Some t' /\ map m_name (del t') = [0; 1] /\ (forall o, of_loop o -> step t' o = None).
Proof.
  destruct (run start interleaved) as [t|] eqn:E; [|vm_compute in E; discriminate E].
  exists t. split; [reflexivity|]. vm_compute in E. injection E as <-.
  split; [split; [reflexivity|]; intros [|[|d]]; exact Logic.I|]. split; [reflexivity|]. split; [reflexivity|]. split; [reflexivity|]. split; [reflexivity|]. split; [reflexivity|].
  eexists. split; [vm_compute; reflexivity|]. split; [reflexivity|]. intros o L. destruct o; try destruct L; reflexivity.
Qed.

(** Not so when the process ends: a thread that has seen it running still adds its message, which nobody will take or free. *)
Theorem C92_exit_refuted : exists ops t m, ops = [Look 0; Ready 0 1 false; Receive 0 7 true; Exit; AddList 0; CheckState 0; Done 0] /\
  reachable ops t /\ In m (q t) /\ m_valid m = true /\ forall l t', run t l = Some t' -> In m (q t') \/ In m (gone t').
Proof.
  exists [Look 0; Ready 0 1 false; Receive 0 7 true; Exit; AddList 0; CheckState 0; Done 0].
  destruct (run start [Look 0; Ready 0 1 false; Receive 0 7 true; Exit; AddList 0; CheckState 0; Done 0]) as [t|] eqn:E; [|vm_compute in E; discriminate E].
  exists t, (mk_msg 0 0 7 true). split; [reflexivity|]. split; [exact E|]. vm_compute in E. injection E as <-. split; [now left|]. split; [reflexivity|].
  intros l t' R. refine (dead_run l _ t' _ _ _ _ R); [reflexivity|discriminate|now left].
Qed.
Print Assumptions C92_exit_refuted.

(** * C93: a full queue stops a device from reading, and only a full one *)

(** Looking for the devices to wake ends, and finds each device with a full queue, once, and no other. *)
Theorem C93_exact : forall l, exists w, wake l = Some w /\ NoDup w /\ forall d, In d w <-> MAX <= count d l.
Proof. exact wake_exact. Qed.
Print Assumptions C93_exact.

(** No device ever has more than 32 messages waiting. *)
Theorem C93_bound : forall ops t d, reachable ops t -> count d (q t) <= MAX.
Proof. intros ops t d R. destruct (reach_flow ops t R) as (B & _). specialize (B d). lia. Qed.
Print Assumptions C93_bound.

(** A thread that reads nothing more has a full queue, or its wake-up is in the pipe, or the event loop is about to write it. *)
Theorem C93_waiting : forall ops t d, reachable ops t -> thr t d = TFull ->
  MAX <= count d (q t) \/ 0 < sig t d \/ In d (pend t) \/ exists w, cons t = CSig w /\ In d w.
Proof. intros ops t d R. destruct (reach_flow ops t R) as (_ & _ & W). apply W. Qed.
Print Assumptions C93_waiting.

(** So once the event loop has nothing to do and no wake-up is under way, no thread is left waiting. *)
Theorem C93_no_stall : forall ops t d, reachable ops t -> running t = true -> (forall e, between (thr t e)) -> (forall o, of_loop o -> step t o = None) -> pend t = [] ->
  ~ stalled t d.
Proof. exact no_stall. Qed.
Print Assumptions C93_no_stall.

(** Device 1 fills its queue, stops, and is woken when the loop takes the list; device 0 is not. *)
Example C93_example :
  exists t, run start (one 0 9 ++ many 32 1 7 ++ [Look 1; Look 0]) = Some t /\ thr t 1 = TFull /\ thr t 0 = TSelect /\ count 1 (q t) = MAX /\ stalled t 1 /\
    exists t', run t ([Run; Take; Copy; Signal; Signal] ++ repeat Post 34) = Some t' /\ sig t' 1 = 1 /\ sig t' 0 = 0 /\ step t' (Woken 1) <> None /\
      (forall o, of_loop o -> step t' o = None) /\ pend t' = [] /\ running t' = true.
Proof.
  destruct (run start (one 0 9 ++ many 32 1 7 ++ [Look 1; Look 0])) as [t|] eqn:E; [|vm_compute in E; discriminate E].
  exists t. split; [reflexivity|]. vm_compute in E. injection E as <-. split; [reflexivity|]. split; [reflexivity|]. split; [vm_compute; reflexivity|].
  split; [split; reflexivity|]. eexists. split; [vm_compute; reflexivity|]. split; [reflexivity|]. split; [reflexivity|]. split; [vm_compute; discriminate|].
  split; [|split; reflexivity]. intros o L. destruct o; try destruct L; reflexivity.
Qed.
(** Messages dropped from a full queue wake its device, too. *)
Example C93_drop :
  exists t, run start (many 32 1 7 ++ [Look 1; Drop 1 7; DropSignal]) = Some t /\ thr t 1 = TFull /\ q t = [] /\ sig t 1 = 1.
Proof.
  eexists. split; [vm_compute; reflexivity|]. split; [reflexivity|]. split; reflexivity.
Qed.
