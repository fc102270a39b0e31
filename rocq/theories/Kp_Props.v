(** C135, C136: the key pairs of the devices. *)

From Coq Require Import List Bool Arith Lia.
From Verif Require Import Kp_Model Kp_Spec Kp_Proofs Kp2_Proofs.
Import ListNotations.

(** ** C135 *)

(** If each device is loaded once after each start, no freed key pair is read,
    the list stays a list, no place of the pool is lost, each device has at
    most one key pair, and the keys fit into their buffers. *)
Theorem C135_safe : forall c f ops, calm ops -> exists s, run c f ops = Fine s /\
  (forall h, live s h = true <-> In h (lst s)) /\ NoDup (lst s) /\
  NoDup (map (fun h => kdev (at_ s h)) (lst s)) /\
  (forall d k, get c s d = Some k -> length (pub k) <= 120 /\ length (priv k) <= 200).
Proof.
  intros c f ops C. destruct (run_R c f ops C) as [s [E V]]. exists s. split; [exact E|].
  split; [apply (r_live _ _ _ V)|]. split; [apply (r_nodup _ _ _ V)|]. split.
  - assert (D := r_devs _ _ _ V). rewrite <- (r_keys _ _ _ V), map_map in D. exact D.
  - intros d k G. rewrite (get_lookup c s _ d V) in G. apply lookup_in in G. apply (r_small _ _ _ V d k G).
Qed.
Print Assumptions C135_safe.

(** The list is the table of the specification. *)
Theorem C135_refines : forall c f ops, calm ops -> exists s, run c f ops = Fine s /\
  (forall d, get c s d = lookup d (keys (acts c f ops))) /\
  (forall d, store s d = files (acts c f ops) d).
Proof.
  intros c f ops C. destruct (run_R c f ops C) as [s [E V]]. exists s. split; [exact E|].
  split; [intros d; apply get_lookup; exact V|apply (r_files _ _ _ V)].
Qed.
Print Assumptions C135_refines.

(** Loading gives a device the keys of its file, or new ones if there is no
    file; a pool with a place for each device is always large enough. *)
Theorem C135_load_gives : forall c f ops d x, calm (ops ++ [OLoad d x]) ->
  (c = None -> x_mem x = true) ->
  (forall n, c = Some n -> d < n /\ forall o e, In o ops -> about e o -> e < n) ->
  exists s s', run c f ops = Fine s /\ run c f (ops ++ [OLoad d x]) = Fine s' /\
    get c s' d = match store s d with
                 | Absent => drawn x
                 | Garbage => None
                 | Rep l => content l
                 end.
Proof.
  intros c f ops d x C M P. destruct (run_R c f ops (calm_front _ _ C)) as [s [E V]].
  destruct (run_R c f _ C) as [s' [E' V']]. exists s, s'. split; [exact E|]. split; [exact E'|].
  rewrite (get_lookup c s' _ d V'), acts_snoc, (r_files _ _ _ V d). assert (N := calm_load c f ops d x C).
  assert (RM : room c x (acts c f ops) = true).
  { destruct c as [n|]; [|apply M; reflexivity]. destruct (P n eq_refl) as [A B].
    apply (pool_room (Some n) f ops n d x eq_refl (r_devs _ _ _ V) B A N). }
  cbn [act]. destruct (files (acts c f ops) d) as [| |l].
  - rewrite enter_new_lookup by exact N. rewrite RM. reflexivity.
  - exact N.
  - rewrite enter_lookup by exact N. rewrite RM. reflexivity.
Qed.
Print Assumptions C135_load_gives.

Definition K1 : key := mkkey [1; 2] [3].
Definition K2 : key := mkkey [4] [5; 6].
Definition new (k : key) : input := mkin true (Some k) true true.
Definition fails : input := mkin true None true true.

Definition life : list op :=
  [OLoad 0 (new K1); OLoad 1 (new K2); OReset 1 false (new K1); OGet 0; OShutdown; OLoad 1 fails; OLoad 0 fails].

Example C135_case : calm life /\
  match run (Some 2) (fun _ => Absent) life with
  | Fine s => get (Some 2) s 0 = Some K1 /\ get (Some 2) s 1 = Some K1 /\ get (Some 2) s 2 = None
  | _ => False
  end.
Proof.
  split; [|vm_compute; auto].
  change life with (((((((([] ++ [OLoad 0 (new K1)]) ++ [OLoad 1 (new K2)]) ++ [OReset 1 false (new K1)]) ++ [OGet 0])
    ++ [OShutdown]) ++ [OLoad 1 fails]) ++ [OLoad 0 fails])).
  apply calm_first; [apply calm_restart; apply calm_snoc; [apply calm_snoc; [|intros; discriminate]|intros; discriminate]|].
  - apply calm_first; [apply calm_first; [exact calm_nil|]|].
    + exists [], []. split; [right; reflexivity|intros o []].
    + exists [], [OLoad 0 (new K1)]. split; [right; reflexivity|]. intros o [I|[]] A. subst o. discriminate A.
  - exists [OLoad 0 (new K1); OLoad 1 (new K2); OReset 1 false (new K1); OGet 0], [OLoad 1 fails].
    split; [left; reflexivity|]. intros o [I|[]] A. subst o. discriminate A.
Qed.

(** A device that is loaded again from a file that cannot be read has its key
    pair freed but left on the list. *)
Definition twice : list op :=
  [OLoad 0 (new K1); OFile 0 (Rep []); OLoad 0 (new K2)].

Theorem C135_loaded_twice_refuted :
  exists ops, ops = twice /\ (exists s h, run None (fun _ => Absent) ops = Fine s /\ In h (lst s) /\ live s h = false) /\
    run None (fun _ => Absent) (ops ++ [OGet 0]) = Stale /\
    run (Some 2) (fun _ => Absent) (ops ++ [OLoad 1 (new K2)]) = Cycle.
Proof.
  exists twice. split; [reflexivity|]. split; [|split; vm_compute; reflexivity].
  destruct (run None (fun _ => Absent) twice) as [s| |] eqn:E; vm_compute in E; try discriminate E.
  exists s, 0. inversion E. split; [reflexivity|]. vm_compute. auto.
Qed.
Print Assumptions C135_loaded_twice_refuted.

(** ** C136 *)

(** A key pair survives a restart, if the storage is written and not changed
    from outside. *)
Theorem C136_survives_restart : forall c f ops d x k, calm ops -> Forall saves ops -> (c = None -> x_mem x = true) ->
  exists s s', run c f ops = Fine s /\ run c f ((ops ++ [OShutdown]) ++ [OLoad d x]) = Fine s' /\
    (get c s d = Some k -> get c s' d = Some k).
Proof.
  intros c f ops d x k C S M. destruct (run_R c f ops C) as [s [E V]].
  destruct (run_R c f _ (calm_restart ops d x C)) as [s' [E' V']].
  exists s, s'. split; [exact E|]. split; [exact E'|]. intros G.
  rewrite (get_lookup c s _ d V) in G. rewrite (get_lookup c s' _ d V'), !acts_snoc. cbn [act files].
  apply lookup_in in G. destruct (acts_saved c f ops C S d k G) as [l [F K]]. rewrite F.
  rewrite enter_lookup by reflexivity. assert (RM : room c x (mktable [] (files (acts c f ops))) = true).
  { destruct c as [n|]; [|apply M; reflexivity]. cbn [room keys length]. apply Nat.ltb_lt.
    rewrite <- (r_keys _ _ _ V) in G. apply in_map_iff in G. destruct G as [h [_ H]].
    assert (Z := r_pool _ _ _ V n eq_refl h H). lia. }
  rewrite RM. exact K.
Qed.
Print Assumptions C136_survives_restart.

(** A reset replaces the key pair by the one drawn, or leaves none, unless it
    is to keep valid keys and the key is not given up; the key pairs of other
    devices stay. *)
Theorem C136_reset : forall c f ops d keep x, calm ops ->
  exists s s', run c f ops = Fine s /\ run c f (ops ++ [OReset d keep x]) = Fine s' /\
    (forall e, e <> d -> get c s' e = get c s e) /\
    (get c s d <> None -> keep = true -> x_free x = false -> get c s' d = get c s d) /\
    (get c s d = None \/ keep = false \/ x_free x = true ->
       get c s' d = None \/ get c s' d = drawn x) /\
    (get c s d = None \/ keep = false \/ x_free x = true -> (c = None -> x_mem x = true) ->
     (forall n, c = Some n -> d < n /\ forall o e, In o ops -> about e o -> e < n) ->
       get c s' d = drawn x).
Proof.
  intros c f ops d keep x C. destruct (run_R c f ops C) as [s [E V]].
  assert (C' : calm (ops ++ [OReset d keep x])) by (apply calm_snoc; [exact C|intros; discriminate]).
  destruct (run_R c f _ C') as [s' [E' V']].
  exists s, s'. split; [exact E|]. split; [exact E'|]. rewrite acts_snoc in V'.
  rewrite (get_lookup c s _ d V), (get_lookup c s' _ d V'). set (t := acts c f ops) in *. cbn [act].
  assert (OT : forall e, e <> d -> get c s' e = get c s e).
  { intros e N. rewrite (get_lookup c s _ e V), (get_lookup c s' _ e V'). fold t. cbn [act].
    destruct (lookup d (keys t)); [destruct (keep && negb (x_free x)); [reflexivity|]|]; rewrite enter_new_other by congruence;
      [|reflexivity]. cbn [keys]. apply lookup_kept. congruence. }
  split; [exact OT|]. destruct (lookup d (keys t)) as [j|] eqn:L.
  - assert (LF := lookup_removed d (keys t)).
    assert (EN := enter_new_lookup c x d (mktable (filter (fun p => negb (fst p =? d)) (keys t)) (files t)) LF).
    split; [|split].
    + intros _ A B. rewrite A, B. cbn [negb andb]. exact L.
    + intros [A|A]; [discriminate A|]. assert (Z : keep && negb (x_free x) = false).
      { destruct A as [A|A]; rewrite A; [reflexivity|apply andb_false_r]. }
      rewrite Z, EN. destruct (room _ _ _); auto.
    + intros A M P. destruct A as [A|A]; [discriminate A|]. assert (Z : keep && negb (x_free x) = false).
      { destruct A as [A|A]; rewrite A; [reflexivity|apply andb_false_r]. }
      rewrite Z, EN. replace (room c x _) with true; [reflexivity|]. symmetry. destruct c as [n|]; [|apply M; reflexivity].
      cbn [room keys]. apply Nat.ltb_lt. destruct (P n eq_refl) as [PD PB].
      assert (IL : length (filter (fun p : nat * key => negb (fst p =? d)) (keys t)) < length (keys t)).
      { apply lookup_in in L. clear - L. induction (keys t) as [|[a b] l IH]; [destruct L|].
        cbn [filter fst]. destruct L as [L|L].
        - inversion L. subst a b. rewrite Nat.eqb_refl. cbn [negb length].
          assert (Q : forall l', length (filter (fun p : nat * key => negb (fst p =? d)) l') <= length l').
          { induction l' as [|y l' IH']; cbn [filter]; [auto|]. destruct (negb _); cbn [length]; lia. }
          assert (Y := Q l). lia.
        - assert (Y := IH L). destruct (negb (a =? d)); cbn [length]; lia. }
      assert (LL := len_keys _ _ _ V). fold t in LL.
      assert (PL : length (lst s) <= length (seq 0 n)).
      { apply NoDup_incl_length; [apply (r_nodup _ _ _ V)|]. intros h H. apply in_seq.
        assert (Z2 := r_pool _ _ _ V n eq_refl h H). lia. }
      rewrite seq_length in PL. lia.
  - assert (EN := enter_new_lookup c x d t L). split; [|split].
    + intros A. destruct (A eq_refl).
    + intros _. rewrite EN. destruct (room c x t); auto.
    + intros _ M P. rewrite EN. replace (room c x t) with true; [reflexivity|]. symmetry.
      destruct c as [n|]; [|apply M; reflexivity]. destruct (P n eq_refl) as [PD PB].
      apply (pool_room (Some n) f ops n d x eq_refl (r_devs _ _ _ V) PB PD L).
Qed.
Print Assumptions C136_reset.

Example C136_case :
  let ops := [OLoad 0 (new K1); OReset 0 true (new K2)] in
  Forall saves ops /\
  match run None (fun _ => Absent) ((ops ++ [OShutdown]) ++ [OLoad 0 fails]) with
  | Fine s => get None s 0 = Some K2
  | _ => False
  end.
Proof. split; [repeat constructor|vm_compute; reflexivity]. Qed.

(** A file that cannot be read leaves the device without a key pair, at every
    start. *)
Theorem C136_damaged_file_refuted : exists f, f 0 = Garbage /\
  forall k x, x_mem x = true -> x_gen x = Some k ->
  exists s, run None f [OLoad 0 x; OShutdown; OLoad 0 x] = Fine s /\ get None s 0 = None /\ store s 0 = Garbage.
Proof.
  exists (fun _ => Garbage). split; [reflexivity|]. intros k x _ _. eexists.
  split; [reflexivity|]. split; reflexivity.
Qed.
Print Assumptions C136_damaged_file_refuted.

(** Without functions for private keys of the application oc_pk_free_key gives
    up no key (security/oc_pki.c:516-526): a reset that keeps valid keys keeps
    any, even an empty one. *)
Theorem C136_any_key_is_kept_refuted : exists f, f 0 = Rep [(NPub, Bytes []); (NPriv, Bytes [])] /\
  match run None f [OLoad 0 (new K1); OReset 0 true (mkin true (Some K1) true false)] with
  | Fine s => get None s 0 = Some (mkkey [] [])
  | _ => False
  end.
Proof.
  exists (fun _ => Rep [(NPub, Bytes []); (NPriv, Bytes [])]). split; [reflexivity|]. vm_compute. reflexivity.
Qed.
Print Assumptions C136_any_key_is_kept_refuted.

(** A reset that fails leaves the old keys in the storage, and the next start
    brings them back. *)
Theorem C136_failed_reset_undone_refuted : exists ops, ops = [OLoad 0 (new K1); OReset 0 false fails] /\
  match run None (fun _ => Absent) ops with Fine s => get None s 0 = None | _ => False end /\
  match run None (fun _ => Absent) ((ops ++ [OShutdown]) ++ [OLoad 0 fails]) with
  | Fine s => get None s 0 = Some K1
  | _ => False
  end.
Proof. eexists. split; [reflexivity|]. split; vm_compute; reflexivity. Qed.
Print Assumptions C136_failed_reset_undone_refuted.
