(** C45: writing formatted text in pieces (util/oc_buffer.c). *)
From Verif Require Import Common Buf_Model Buf_Spec Buf_Proofs.
Local Open Scope nat_scope.

(** For every buffer and every sequence of writes: each write answers the text length so far while it fits
    and an error from the first write on that does not; what the buffer holds in the end is the terminated
    prefix of the whole text, as long as possible, and bytes behind it are untouched. *)
Theorem C45_pieces_form_one_text :
  forall mem ts, mem <> [] -> ts <> [] ->
  snd (writes (open_buffer mem) ts) = answers (fun n => n <? List.length mem) 0 ts /\
  w_mem (fst (writes (open_buffer mem) ts)) = holds mem (concat ts) /\
  w_total (fst (writes (open_buffer mem) ts)) = List.length (concat ts).
Proof.
  intros mem ts Hm Ht. destruct (writes_ok mem ts [] false (open_buffer mem) (fun _ => eq_refl)) as [E A].
  - constructor; try reflexivity. cbn [List.length open_buffer w_off w_size]. destruct (0 <? List.length mem) eqn:E0; [lia|]. apply Nat.ltb_ge in E0. lia.
  - split; [exact E|]. destruct A as [_ A2 A3 _]. split; [|exact A2]. rewrite A3. destruct ts; [congruence|]. destruct mem; [congruence|]. reflexivity.
Qed.
Print Assumptions C45_pieces_form_one_text.

(** Nothing is written outside: the buffer keeps its length and the bytes behind the terminator. *)
Theorem C45_stays_inside :
  forall mem text, mem <> [] -> List.length (holds mem text) = List.length mem /\
  (forall i, Nat.min (List.length text) (List.length mem - 1) < i -> nth_error (holds mem text) i = nth_error mem i) /\
  nth_error (holds mem text) (Nat.min (List.length text) (List.length mem - 1)) = Some 0%N /\
  firstn (Nat.min (List.length text) (List.length mem - 1)) (holds mem text) = firstn (List.length mem - 1) text.
Proof.
  intros mem text Hm. assert (Hn : List.length mem <> 0) by (destruct mem; [congruence|cbn; lia]). split; [apply holds_length, Hn|].
  unfold holds. set (n := List.length mem) in *. set (p := firstn (n - 1) text).
  assert (Lp : List.length p = Nat.min (List.length text) (n - 1)) by (unfold p; rewrite firstn_length; lia). rewrite <- Lp. split; [|split].
  - intros i Hi. rewrite nth_error_app2 by (rewrite app_length; cbn [List.length]; lia).
    assert (G : forall (l : list N) a b, nth_error (skipn a l) b = nth_error l (a + b)) by (induction l as [|x r IH]; intros [|a] b; cbn [skipn Nat.add nth_error]; try reflexivity; [destruct b; reflexivity|apply IH]).
    rewrite G. f_equal. rewrite app_length in *. cbn [List.length] in *. lia.
  - rewrite <- app_assoc, nth_error_app2 by lia. rewrite Nat.sub_diag. reflexivity.
  - rewrite <- app_assoc, firstn_app, Nat.sub_diag. cbn [firstn]. rewrite app_nil_r. apply firstn_all.
Qed.
Print Assumptions C45_stays_inside.

(** A buffer of no bytes is not touched and every write to it is an error; without a buffer the writes
    answer the length so far. *)
Theorem C45_measuring :
  forall ts, snd (writes no_buffer ts) = answers (fun _ => true) 0 ts /\
             snd (writes (open_buffer []) ts) = map (fun _ => None) ts /\ w_mem (fst (writes (open_buffer []) ts)) = [].
Proof.
  intros ts. split; [exact (proj1 (null_writes ts no_buffer eq_refl))|].
  destruct (writes_ok [] ts [] false (open_buffer []) (fun _ => eq_refl)) as [E A]; [constructor; cbn; auto|]. split.
  - rewrite E. clear. assert (G : forall n, answers (fun k => k <? List.length (@nil N)) n ts = map (fun _ => None) ts); [|apply G].
    induction ts as [|t r IH]; intros n; cbn [answers map]; [reflexivity|]. rewrite IH. reflexivity.
  - rewrite (a_mem _ _ _ _ A). destruct (false || _); reflexivity.
Qed.
Print Assumptions C45_measuring.

Example C45_case :
  writes (open_buffer [9; 9; 9; 9; 9; 9]%N) [[1; 2]; []; [3; 4; 5; 6]; [7]]%N
  = (mkWb false [1; 2; 3; 4; 5; 0]%N 6 0 7, [Some 2; Some 2; None; None]).
Proof. vm_compute. reflexivity. Qed.
