(** Proofs for the write buffer. *)
From Verif Require Import Common Buf_Model Buf_Spec.
Local Open Scope nat_scope.

Lemma null_writes ts : forall b, w_null b = true -> snd (writes b ts) = answers (fun _ => true) (w_total b) ts /\ w_mem (fst (writes b ts)) = w_mem b.
Proof.
  induction ts as [|t r IH]; intros b H; cbn [writes answers]; [auto|]. unfold buffer_write. rewrite H.
  set (b1 := mkWb _ _ _ _ _). destruct (IH b1 eq_refl) as [E1 E2]. destruct (writes b1 r) as [b2 vs]. cbn [fst snd] in *. split; [f_equal; exact E1|exact E2].
Qed.

(** State after the text [done] was written in pieces to a buffer that was [mem]. *)
Record at_text (mem done : list N) (started : bool) (b : wb) : Prop := {
  a_null : w_null b = false;
  a_total : w_total b = List.length done;
  a_mem : w_mem b = if started then (if List.length mem =? 0 then mem else holds mem done) else mem;
  a_pos : if List.length done <? List.length mem then w_off b = List.length done /\ w_size b = List.length mem - List.length done
          else w_off b = List.length mem /\ w_size b = 0 }.

Lemma holds_length mem done : List.length mem <> 0 -> List.length (holds mem done) = List.length mem.
Proof. intros H. unfold holds. rewrite !app_length, skipn_length, ?app_length, !firstn_length. cbn [List.length]. lia. Qed.

Lemma step mem done started b t : (started = false -> done = []) -> at_text mem done started b ->
  at_text mem (done ++ t) true (fst (buffer_write b t)) /\
  snd (buffer_write b t) = if List.length (done ++ t) <? List.length mem then Some (List.length (done ++ t)) else None.
Proof.
  intros Hs [A1 A2 A3 A4]. unfold buffer_write. rewrite A1, app_length.
  set (n := List.length mem) in *. set (d := List.length done) in *. set (l := List.length t).
  assert (Hd : done = firstn d done) by (symmetry; apply firstn_all).
  destruct (d <? n) eqn:Ed.
  - apply Nat.ltb_lt in Ed. destruct A4 as [P1 P2].
    assert (Hm : vsn (w_mem b) (w_off b) (w_size b) t = holds mem (done ++ t)).
    { rewrite P1, P2. unfold vsn. destruct (n - d) as [|k] eqn:Ek; [lia|].
      assert (Hfront : firstn d (w_mem b) = done).
      { rewrite A3. destruct started; [|unfold d; rewrite (Hs eq_refl); reflexivity].
        destruct (n =? 0) eqn:En; [apply Nat.eqb_eq in En; lia|]. unfold holds. fold n. rewrite (firstn_all2 done) by (fold d; lia).
        rewrite <- app_assoc. rewrite firstn_app. fold d. rewrite Nat.sub_diag. cbn [firstn]. rewrite app_nil_r. unfold d. apply firstn_all. }
      assert (Hback : forall j, d < j -> skipn j (w_mem b) = skipn j mem).
      { intros j Hj. rewrite A3. destruct started; [|reflexivity]. destruct (n =? 0) eqn:En; [reflexivity|]. unfold holds. fold n. rewrite (firstn_all2 done) by (fold d; lia).
        rewrite skipn_app. rewrite (skipn_all2 (done ++ [0%N])) by (rewrite app_length; cbn [List.length]; fold d; lia). cbn [app]. rewrite app_length. cbn [List.length]. fold d.
        rewrite skipn_skipn. f_equal. lia. }
      rewrite Hfront. unfold holds. fold n. rewrite firstn_app. fold d. rewrite (firstn_all2 done) by (fold d; lia).
      replace (n - 1 - d) with k by lia. rewrite <- !app_assoc. f_equal. f_equal. f_equal.
      rewrite app_length. cbn [List.length]. rewrite Hback by lia. f_equal. rewrite !app_length. cbn [List.length]. fold d. lia. }
    rewrite Hm, P1, P2. fold l. destruct (n - d <=? l) eqn:El; cbn [fst snd].
    + apply Nat.leb_le in El. assert (Hlt : (d + l <? n) = false) by (apply Nat.ltb_ge; lia). rewrite Hlt. split; [|reflexivity].
      constructor; cbn [w_null w_total w_mem w_off w_size]; [reflexivity|rewrite app_length, A2; reflexivity| |].
      * fold n. destruct (n =? 0) eqn:En; [apply Nat.eqb_eq in En; lia|reflexivity].
      * rewrite app_length. fold d l n. rewrite Hlt. lia.
    + apply Nat.leb_gt in El. assert (Hlt : (d + l <? n) = true) by (apply Nat.ltb_lt; lia). rewrite Hlt. split; [|rewrite A2; reflexivity].
      constructor; cbn [w_null w_total w_mem w_off w_size]; [reflexivity|rewrite app_length, A2; reflexivity| |].
      * fold n. destruct (n =? 0) eqn:En; [apply Nat.eqb_eq in En; lia|reflexivity].
      * rewrite app_length. fold d l n. rewrite Hlt. lia.
  - apply Nat.ltb_ge in Ed. destruct A4 as [P1 P2]. rewrite P2. cbn [vsn Nat.leb fst snd].
    assert (Hlt : (d + l <? n) = false) by (apply Nat.ltb_ge; lia). rewrite Hlt. split; [|reflexivity].
    constructor; cbn [w_null w_total w_mem w_off w_size]; [reflexivity|rewrite app_length, A2; reflexivity| |].
    + fold n. rewrite A3. destruct started.
      * destruct (n =? 0); [reflexivity|]. unfold holds. fold n. rewrite (firstn_app _ done t). fold d. replace (n - 1 - d) with 0 by lia. cbn [firstn]. rewrite app_nil_r. reflexivity.
      * specialize (Hs eq_refl). subst done. cbn in d. destruct (n =? 0) eqn:En; [reflexivity|apply Nat.eqb_neq in En; lia].
    + rewrite app_length. fold d l n. rewrite Hlt. lia.
Qed.

Lemma writes_ok mem ts : forall done started b, (started = false -> done = []) -> at_text mem done started b ->
  snd (writes b ts) = answers (fun n => n <? List.length mem) (List.length done) ts /\
  at_text mem (done ++ concat ts) (started || negb (List.length ts =? 0)) (fst (writes b ts)).
Proof.
  induction ts as [|t r IH]; intros done started b Hs A; cbn [writes answers concat List.length].
  - cbn [Nat.eqb negb fst snd]. rewrite app_nil_r, orb_false_r. auto.
  - destruct (step mem done started b t Hs A) as [A1 E1]. destruct (buffer_write b t) as [b1 v]. cbn [fst snd] in *.
    destruct (IH (done ++ t) true b1 (fun K => ltac:(discriminate K)) A1) as [E2 A2]. destruct (writes b1 r) as [b2 vs]. cbn [fst snd] in *.
    rewrite <- app_assoc in A2. cbn [orb Nat.eqb negb] in *. rewrite orb_true_r. split; [|exact A2]. rewrite app_length in *. rewrite E1, E2. reflexivity.
Qed.
