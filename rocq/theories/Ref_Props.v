From Verif Require Import Common Ref_Model Ref_Proofs.
Local Open Scope nat_scope.

(** * C94: a message is freed once, when its last reference is given up, and never touched afterwards *)

(** No thread that has a reference, and none that frees the message, ever touches it after it was freed. *)
Theorem C94_safe : forall t0 ops s o, rrun (fresh t0) ops = Next s -> peak s <= 255 -> rstep s o <> UB.
Proof. intros t0 ops s o R P. apply safe; [exact (inv_run ops _ s (inv_fresh t0) R)|exact P]. Qed.
Print Assumptions C94_safe.

(** No increment or decrement is lost. *)
Theorem C94_counts : forall t0 ops s, rrun (fresh t0) ops = Next s -> peak s <= 255 -> cnt s = List.length (refs s).
Proof. intros t0 ops s R P. exact (proj1 (proj2 (inv_run ops _ s (inv_fresh t0) R) P)). Qed.
Print Assumptions C94_counts.

(** It is freed at most once, not while there is a reference; and once there is none, it has been freed or one thread is about to. *)
Theorem C94_freed : forall t0 ops s, rrun (fresh t0) ops = Next s -> peak s <= 255 ->
  freed s <= 1 /\ (refs s <> [] -> freed s = 0) /\ (refs s = [] -> freed s = 1 \/ exists t, pc s t = RFree /\ forall u, pc s u = RFree -> u = t) /\
  (refs s = [] -> (forall t, pc s t <> RFree) -> freed s = 1).
Proof.
  intros t0 ops s R P. destruct (proj2 (inv_run ops _ s (inv_fresh t0) R) P) as (_ & _ & _ & A & D).
  assert (DEC : refs s = [] \/ refs s <> []) by (destruct (refs s); [now left|right; discriminate]).
  split; [|split; [|split]].
  - destruct DEC as [E|E]; [destruct (D E) as [[F _]|[F _]]; lia|destruct (A E); lia].
  - intros N. now apply A.
  - intros E. destruct (D E) as [[_ X]|[F _]]; [now right|now left].
  - intros E N. destruct (D E) as [[_ (t & T & _)]|[F _]]; [elim (N t T)|exact F].
Qed.
Print Assumptions C94_freed.

(** A thread that is left alone ends its operation with the second attempt at the latest. *)
Theorem C94_alone : forall t0 ops s t c, rrun (fresh t0) ops = Next s -> peak s <= 255 ->
  (pc s t = RAdd c -> exists s', (rrun s [AddCas t] = Next s' \/ rrun s [AddCas t; AddCas t] = Next s') /\ pc s' t = RIdle /\ refs s' = t :: refs s) /\
  (pc s t = RUnref c -> exists s', (rrun s [UnrefCas t] = Next s' \/ rrun s [UnrefCas t; UnrefCas t] = Next s') /\ refs s' = drop t (refs s) /\
     (pc s' t = RIdle \/ pc s' t = RFree /\ refs s' = [])).
Proof.
  intros t0 ops s t c R P. pose proof (inv_run ops _ s (inv_fresh t0) R) as J. destruct (proj2 J P) as (C & B & U & A & D). split; intros T.
  - assert (I : In t (refs s)) by (apply B; now rewrite T). pose proof (inv_alive s t J P I) as F. destruct (Nat.eq_dec c (cnt s)) as [E|E].
    + eexists. split; [left; cbn [rrun rstep]; unfold alive; rewrite T, F; destruct (Nat.eqb_spec c (cnt s)); [reflexivity|contradiction]|]. cbn [pc refs]. split; [apply upd_same|reflexivity].
    + eexists. split; [right; cbn [rrun rstep]; unfold alive; rewrite T, F; destruct (Nat.eqb_spec c (cnt s)); [contradiction|]; cbn [pc freed cnt refs]; rewrite upd_same, Nat.eqb_refl; reflexivity|].
      cbn [pc refs]. split; [apply upd_same|reflexivity].
  - assert (I : In t (refs s)) by (apply B; now rewrite T). pose proof (inv_alive s t J P I) as F. pose proof (drop_len t (refs s) I) as DL.
    assert (Z : cnt s <> 0) by lia.
    assert (X : forall p, upd t (if cnt s - 1 =? 0 then RFree else RIdle) p t = RIdle \/ upd t (if cnt s - 1 =? 0 then RFree else RIdle) p t = RFree /\ drop t (refs s) = []).
    { intros p. rewrite upd_same. destruct (Nat.eqb_spec (cnt s - 1) 0) as [Y|Y]; [right|now left]. split; [reflexivity|]. destruct (drop t (refs s)); [reflexivity|cbn [List.length] in DL; lia]. }
    destruct (Nat.eq_dec c (cnt s)) as [E|E].
    + eexists. split; [left; cbn [rrun rstep]; unfold alive; rewrite T, F; destruct (Nat.eqb_spec c (cnt s)); [reflexivity|contradiction]|]. cbn [pc refs]. split; [reflexivity|]. rewrite E. apply X.
    + eexists. split; [right; cbn [rrun rstep]; unfold alive; rewrite T, F; destruct (Nat.eqb_spec c (cnt s)); [contradiction|]; destruct (Nat.eqb_spec (cnt s) 0); [contradiction|];
        cbn [pc freed cnt refs]; rewrite upd_same, Nat.eqb_refl; reflexivity|].
      cbn [pc refs]. split; [reflexivity|]. apply X.
Qed.
Print Assumptions C94_alone.

(** A transaction keeps a message, sends it from another thread, and both give it up at the same time: the one whose swap fails tries again and frees it. *)
Example C94_example :
  exists s, rrun (fresh 0) [Add 0; AddCas 0; Give 0 1; Use 1; Unref 0; Unref 1; UnrefCas 0; UnrefCas 1] = Next s /\ cnt s = 1 /\ refs s = [1] /\ pc s 1 = RUnref 1 /\ peak s = 2 /\
    exists s', rrun s [UnrefCas 1] = Next s' /\ refs s' = [] /\ freed s' = 0 /\ pc s' 1 = RFree /\
      exists s'', rrun s' [Free 1] = Next s'' /\ freed s'' = 1.
Proof.
  eexists. split; [vm_compute; reflexivity|]. split; [reflexivity|]. split; [reflexivity|]. split; [reflexivity|]. split; [reflexivity|].
  eexists. split; [vm_compute; reflexivity|]. split; [reflexivity|]. split; [reflexivity|]. split; [reflexivity|]. eexists. split; [vm_compute; reflexivity|reflexivity].
Qed.

(** Not so with more than 255 references: the count wraps, and the message is freed while it is used. *)
Theorem C94_wrap_refuted : exists ops s, ops = List.concat (repeat [Add 0; AddCas 0] 256) ++ [Unref 0; UnrefCas 0; Free 0] /\
  rrun (fresh 0) ops = Next s /\ List.length (refs s) = 256 /\ freed s = 1 /\ rstep s (Use 0) = UB.
Proof.
  exists (List.concat (repeat [Add 0; AddCas 0] 256) ++ [Unref 0; UnrefCas 0; Free 0]).
  destruct (rrun (fresh 0) (List.concat (repeat [Add 0; AddCas 0] 256) ++ [Unref 0; UnrefCas 0; Free 0])) as [s| |] eqn:E; [|vm_compute in E; discriminate E|vm_compute in E; discriminate E].
  exists s. split; [reflexivity|]. split; [reflexivity|]. vm_compute in E. injection E as <-. split; [reflexivity|]. split; reflexivity.
Qed.
Print Assumptions C94_wrap_refuted.
