(** The notifications of the software update. *)
From Verif Require Import Common Rep_Model Repd_Model Acl_Model Ael_Model Ael_Spec Ael_Proofs Ael3_Proofs Ts_Model Ts_Spec Ts3_Proofs Ts4_Proofs Pt_Spec Pt_Proofs Sd_Proofs Swu_Model Swu_Spec Swu_Proofs Swu2_Proofs Swu3_Proofs.
From Verif Require Sd_Spec.
From Coq Require Import String ZArith.
Notation rep := Rep_Model.rep.
Local Open Scope string_scope.
Local Open Scope list_scope.
Local Open Scope Z_scope.

Lemma time_text_ok hz n t : frequency hz -> time_ok hz t -> exists s, put_time hz n t = Some [(n, RStr s)] /\ exact_text hz s t.
Proof.
  intros F [->|S].
  - destruct F as [Hh Hd]. destruct (clock_encode_64 hz 0 Hh Hd) as (s & x & E & W & I); [lia|rewrite Z.div_0_l by lia; lia|]. exists s. unfold put_time. rewrite E. split; [reflexivity|]. exists x. split; assumption.
  - destruct (put_time_ok hz n t F S) as (s & E & _ & X). exists s. split; assumption.
Qed.
Lemma get_pieces hz s base : frequency hz -> sound hz s -> exists a u, encode hz s base false = Some ((if base then baseline else []) ++ texts s ++ a ++ [(str "updatetime", RStr u)]) /\
  exact_text hz u (s_time s) /\ ((s_last s = 0 /\ a = []) \/ (0 < s_last s /\ exists t, a = [(str "lastupdate", RStr t)] /\ exact_text hz t (s_last s))).
Proof.
  intros F (_ & _ & _ & L & T & _). destruct (time_text_ok hz (str "updatetime") _ F T) as (u & Eu & Xu). unfold encode. cbn [negb orb]. rewrite Eu. destruct L as [L|S].
  - rewrite L. exists [], u. split; [reflexivity|]. split; [exact Xu|left; auto].
  - rewrite (sensible_pos hz _ S). destruct (time_text_ok hz (str "lastupdate") _ F (or_intror S)) as (t & Et & Xt). rewrite Et. exists [(str "lastupdate", RStr t)], u. split; [reflexivity|].
    split; [exact Xu|right]. split; [apply S|]. exists t. auto.
Qed.
Lemma elapse_files hz d dt : frequency hz -> sound hz (d_swu d) -> d_dump d = true -> filed hz (elapse hz d dt true).
Proof.
  intros F S D. destruct (encode_pieces hz _ F S) as (a & b & E & _). exists (stored_list (d_swu d) a b). unfold elapse. cbn [d_dump]. rewrite D. cbv zeta.
  set (x := dump hz _ true). assert (X : d_swu x = d_swu d /\ d_file x = Some (enc_root (stored_list (d_swu d) a b))) by (unfold x, dump; cbn [d_swu]; rewrite E; split; reflexivity).
  clearbody x. destruct X as [X1 X2]. cbn [d_alarm d_swu d_file].
  destruct (d_alarm x) as [k|]; [destruct (k <=? dt)|]; unfold perform, with_alarm; cbn [d_swu d_file]; rewrite ?set_action_same, X1, X2; split; (exact E || reflexivity).
Qed.

Lemma request_told hz im now has l : 0 < hz -> bytes_in l -> (match fst (decode_request hz im now has all l) with Some _ => true | None => false end = true <-> snd (decode_request hz im now has all l) = []).
Proof.
  intros H B. destruct (loop_faults hz l H B nothing true []) as (c & f & E & F). cbn [app andb] in E. destruct f as [|x f].
  - apply faults_settable in F. pose proof (loop_settable hz all l H F nothing true []) as E2. unfold decode_request. rewrite E2. cbv zeta. set (skip := match c_action _ with Some _ => _ | None => _ end). clearbody skip. unfold validate_data. cbv zeta.
    change (go_on all) with (fun _ : list report => true). cbv beta. cbn [negb]. rewrite andb_false_r.
    destruct (validate_time now (applied hz l nothing) =? 0); destruct skip; try (destruct (validate_url im (applied hz l nothing) =? 0)); cbn; split; intros Z; (reflexivity || discriminate Z).
  - unfold decode_request. rewrite E. cbn. split; discriminate.
Qed.
