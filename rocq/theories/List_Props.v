(** C20: linked lists (util/oc_list.c). *)
From Verif Require Import Common List_Model List_Spec List_Proofs.
Local Open Scope N_scope.

(** Any history of calls over any number of lists that adds only cells not linked anywhere gives, from empty
    lists, exactly the results of the sequence operations, and no loop runs away. *)
Theorem C20_history_refines_sequences :
  forall os fuel, all_allowed (fun _ => []) os -> (List.length os < fuel)%nat ->
  exists m, run fuel empty_mem os = Some (m, snd (spec_run (fun _ => []) os)).
Proof.
  intros os fuel Al Hf. destruct (run_refines os empty_mem (fun _ => []) fuel 0%nat rel_empty Al) as (m & E & _);
    [intros l; cbn [List.length]; lia|lia|]. exists m. exact E.
Qed.
Print Assumptions C20_history_refines_sequences.

(** One call from any state that represents sequences [a]: the result and the new sequences are the
    specified ones, no cell is shared between lists and none occurs twice. *)
Theorem C20_one_call :
  forall m a o fuel, rel m a -> allowed a o -> (forall l, (List.length (a l) < fuel)%nat) ->
  exists m', exec fuel m o = Some (m', snd (spec a o)) /\ rel m' (fst (spec a o)).
Proof. exact exec_refines. Qed.
Print Assumptions C20_one_call.

(** What a caller sees by walking from the head: exactly the cells of the sequence, in order. *)
Fixpoint walk (fuel : nat) (m : mem) (c : N) : option (list N) :=
  match fuel with
  | O => None
  | S f => if c =? 0 then Some [] else option_map (cons c) (walk f m (item_next m c))
  end.
Theorem C20_walk_yields_sequence :
  forall m a l fuel, rel m a -> (List.length (a l) < fuel)%nat -> walk fuel m (m_head m l) = Some (a l).
Proof.
  intros m a l fuel R Hf. pose proof (r_chain _ _ R l) as C. unfold chain in C. revert C Hf. generalize (m_head m l).
  revert fuel. induction (a l) as [|x r IH]; intros fuel p C Hf; (destruct fuel as [|f]; [lia|]); cbn [walk].
  - cbn [seg] in C. subst p. reflexivity.
  - destruct C as (-> & Hx & C). destruct (x =? 0) eqn:E; [lia|]. unfold item_next. rewrite E.
    rewrite (IH f _ C); [reflexivity|cbn [List.length] in Hf; lia].
Qed.
Print Assumptions C20_walk_yields_sequence.

(** An element that is already in the list must not be added again: for every list and every element of it,
    oc_list_add makes the element its own successor, and counting the list never ends. *)
Theorem C20_adding_present_item_never_ends :
  forall m a l x fuel, rel m a -> In x (a l) -> (List.length (a l) <= fuel)%nat ->
  exists m', list_add fuel m l x = Some m' /\ forall fuel', list_length fuel' m' l = None.
Proof. exact readd_loops. Qed.
Print Assumptions C20_adding_present_item_never_ends.

(** The wish "adding a present element moves it" fails. *)
Theorem C20_readd_moves_refuted :
  exists os m, run 9 empty_mem os = Some (m, map (fun _ => 0) os) /\ os = [OAdd 1 10; OAdd 1 11; OAdd 1 10] /\
    forall fuel, list_length fuel m 1 = None.
Proof.
  destruct (run_refines [OAdd 1 10; OAdd 1 11] empty_mem (fun _ => []) 9%nat 0%nat rel_empty) as (m & E & R).
  - cbn. unfold detached. repeat split; try lia; intros l; unfold set_seq; destruct (l =? 1); cbn; lia.
  - intros l; cbn; lia.
  - cbn; lia.
  - destruct (readd_loops m _ 1 10 9%nat R) as (m' & E1 & D); [vm_compute; tauto|vm_compute; lia|].
    exists [OAdd 1 10; OAdd 1 11; OAdd 1 10], m'. split; [|split; [reflexivity|exact D]].
    change [OAdd 1 10; OAdd 1 11; OAdd 1 10] with ([OAdd 1 10; OAdd 1 11] ++ [OAdd 1 10]).
    cbn [app run] in E |- *. destruct (exec 9 empty_mem (OAdd 1 10)) as [[m1 v1]|]; [|discriminate].
    destruct (exec 9 m1 (OAdd 1 11)) as [[m2 v2]|]; [|discriminate].
    cbn [spec_run spec snd] in E. injection E as -> -> ->. cbn [exec]. rewrite E1. reflexivity.
Qed.
Print Assumptions C20_readd_moves_refuted.

(** Two lists: add, push, insert, remove from the middle, move between lists, chop and pop. *)
Definition sample_ops : list op :=
  [OAdd 1 10; OAdd 1 11; OPush 1 12; OInsert 1 10 13; OLength 1; OHas 1 13; ONext 1 10; ORemove 1 10; OAdd 2 10;
   OTail 1; OChop 1; OPop 1; OHead 1; OHead 2; ORemove 2 99; OLength 1].
Example C20_case :
  option_map snd (run 20 empty_mem sample_ops) = Some [0; 0; 0; 0; 4; 1; 13; 10; 0; 11; 11; 12; 13; 10; 0; 1] /\
  snd (spec_run (fun _ => []) sample_ops) = [0; 0; 0; 0; 4; 1; 13; 10; 0; 11; 11; 12; 13; 10; 0; 1].
Proof. split; vm_compute; reflexivity. Qed.
Example C20_case_allowed : all_allowed (fun _ => []) sample_ops.
Proof.
  cbn. unfold detached, set_seq.
  repeat split; try lia; try tauto;
    try (intros l; destruct (l =? 1) eqn:?E; vm_compute; intuition discriminate);
    vm_compute; tauto.
Qed.
