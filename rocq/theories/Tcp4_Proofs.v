(** Frames too large for the buffer, and failing readings. *)
From Coq Require Import NArith List Bool Lia.
From Verif Require Import Common Coap_Model Coap_Spec Tcp_Model Tcp_Spec Tcp_Proofs Tcp2_Proofs Tcp3_Proofs.
Import ListNotations.
Local Open Scope N_scope.

Lemma nlen_length {A} (l : list A) : nlen l = N.of_nat (List.length l).
Proof. reflexivity. Qed.

Lemma large_loop (dyn : bool) (pdu : N) (f : list N) : sized f -> pdu < nlen f -> 6 <= pdu ->
  forall fuel d recs tail more, (List.length (List.concat recs) < fuel)%nat -> (List.length d <= 6)%nat ->
  d ++ List.concat recs ++ tail = f ++ more ->
  tls_loop dyn pdu fuel (mkPart d pdu) recs = T_free \/
  (List.length (d ++ List.concat recs) < 6)%nat /\
  exists recs', tls_loop dyn pdu fuel (mkPart d pdu) recs = T_wait (mkPart (d ++ List.concat recs) pdu) recs' /\ List.concat recs' = [].
Proof.
  intros Hs Hl H6. induction fuel as [|fuel IH]; intros d recs tail more Hfu Hd He; [lia|]. cbn [tls_loop t_data t_cap]. unfold FIRST_READ.
  destruct (N.ltb_spec (nlen d) 6) as [L|L].
  - destruct (ssl_read_spec (6 - nlen d) recs ltac:(lia)) as [[-> E]|(b & bs & recs' & -> & Hn & E)].
    + right. rewrite E, app_nil_r. split; [rewrite nlen_length in L; lia|]. exists recs. auto.
    + rewrite nlen_length in L. assert (N1 : nlen (d ++ b :: bs) <= 6) by (rewrite nlen_app; unfold nlen in *; lia).
      destruct (N.ltb_spec pdu (nlen (d ++ b :: bs))); [lia|]. change (negb (0 =? 0)) with false. cbn [andb].
      destruct (IH (d ++ b :: bs) recs' tail more) as [->|(L2 & recs2 & -> & E2)].
      * rewrite E, app_length in Hfu. cbn [List.length] in Hfu. lia.
      * unfold nlen in N1. lia.
      * rewrite E in He. rewrite <- !app_assoc in *. exact He.
      * left. reflexivity.
      * right. rewrite E, app_assoc. split; [exact L2|]. exists recs2. auto.
  - left. rewrite nlen_length in L. assert (Ed : d = firstn 6 (f ++ more)).
    { rewrite <- He, firstn_app. replace (6 - List.length d)%nat with 0%nat by lia. rewrite firstn_O, app_nil_r. symmetry. apply firstn_all2. lia. }
    rewrite Ed at 1. rewrite (Hs 6%nat more (Nat.le_refl 6)). destruct (N.ltb_spec pdu (nlen f)); [reflexivity|lia].
Qed.

Lemma large_run (dyn : bool) (pdu : N) (f : list N) : sized f -> pdu < nlen f -> 6 <= pdu ->
  forall records d recs tail more, List.concat recs = [] -> (List.length d < 6)%nat ->
  d ++ List.concat records ++ tail = f ++ more -> (6 <= List.length (d ++ List.concat records))%nat ->
  forall part, part = Some (mkPart d pdu) \/ part = None /\ d = [] ->
  tls_run dyn pdu (mkPeer part recs) records = (T_down, []).
Proof.
  intros Hs Hl H6. induction records as [|r rs IH]; intros d recs tail more Er Hd He L part Hp.
  - cbn [List.concat] in L. rewrite app_nil_r in L. lia.
  - cbn [tls_run]. unfold tls_recv, tls_read. cbn [p_part p_recs].
    replace (match part with Some p => p | None => mkPart [] pdu end) with (mkPart d pdu) by (destruct Hp as [->|[-> ->]]; reflexivity).
    cbn [List.concat] in He. rewrite <- app_assoc in He.
    assert (Er2 : List.concat (recs ++ [r]) = r) by (rewrite concat_snoc, Er; reflexivity).
    destruct (large_loop dyn pdu f Hs Hl H6 (S (List.length (List.concat (recs ++ [r])))) d (recs ++ [r]) (List.concat rs ++ tail) more) as [->|(L2 & recs2 & -> & E2)].
    + lia.
    + lia.
    + rewrite Er2. exact He.
    + reflexivity.
    + rewrite Er2 in *. cbv iota beta. rewrite (IH (d ++ r) recs2 tail more).
      * reflexivity.
      * exact E2.
      * exact L2.
      * rewrite <- app_assoc. exact He.
      * cbn [List.concat] in L. rewrite <- app_assoc. exact L.
      * left. reflexivity.
Qed.

Lemma finish_not_wait c osc tls buf stream msg : finish c osc tls buf stream msg <> R_wait /\ finish c osc tls buf stream msg <> R_none.
Proof. unfold finish. destruct (valid_message _ _ _ _ _); split; discriminate. Qed.

(** a failing reading while the message is not complete *)
Lemma loop_fail c osc tls buf pre post : forall stream msg want total,
  receive_loop c osc tls buf pre stream msg want total = R_wait ->
  receive_loop c osc tls buf (pre ++ Fail :: post) stream msg want total = R_error.
Proof.
  induction pre as [|e pre IH]; intros stream msg want total H; [reflexivity|]. cbn [app receive_loop] in *.
  destruct e as [k| |]; [|destruct (nlen msg <? total); [apply IH; exact H|]|discriminate H].
  - destruct (N.min want _ =? 0); [discriminate H|]. destruct (nlen buf <? _); [discriminate H|].
    destruct (total =? 0).
    + destruct (total_length tls _) as [t|]; [|discriminate H]. destruct (nlen buf <? t); [discriminate H|].
      destruct (_ <? t); [apply IH; exact H|]. exfalso. exact (proj1 (finish_not_wait _ _ _ _ _ _) H).
    + destruct (_ <? total); [apply IH; exact H|]. exfalso. exact (proj1 (finish_not_wait _ _ _ _ _ _) H).
  - exfalso. exact (proj1 (finish_not_wait _ _ _ _ _ _) H).
Qed.
(** the end of the stream is reported when nothing or only a part of a frame was left *)
Lemma loop_none c osc tls buf evs : forall stream0 stream msg want total,
  6 <= nlen buf -> nlen buf < 2 ^ 64 -> state_ok tls buf stream0 stream msg want total ->
  receive_loop c osc tls buf evs stream msg want total = R_none ->
  stream0 = [] \/ exists t, total_length tls stream0 = Some t /\ nlen stream0 < t.
Proof.
  induction evs as [|[k| |] evs IH]; intros stream0 stream msg want total H6 H64 [Hs Hst] H; cbn [receive_loop] in H; [discriminate H| | |discriminate H].
  - set (cnt := N.min want (N.of_nat (Nat.min (Nat.max 1 k) (List.length stream)))) in H.
    destruct (N.eqb_spec cnt 0) as [Hz|Hz].
    { clear H. destruct Hst as [(-> & -> & ->)|(Ht & Hw & Hsum & Hmax)].
      - left. assert (List.length stream = 0)%nat by (unfold cnt in Hz; lia). destruct stream; [exact Hs|discriminate].
      - right. exists total. assert (List.length stream = 0)%nat by (unfold cnt in Hz; lia). destruct stream; [|discriminate].
        rewrite app_nil_r in Hs. subst stream0. split; [exact Ht|lia]. }
    set (n := N.to_nat cnt) in H. assert (Hn : (n <= List.length stream)%nat) by (unfold n, cnt; lia).
    assert (Hnl : nlen (msg ++ firstn n stream) = nlen msg + cnt).
    { rewrite nlen_app. f_equal. unfold nlen. rewrite firstn_length_le by lia. unfold n. lia. }
    assert (Hcw : cnt <= want) by (unfold cnt; lia).
    assert (Hs' : stream0 = (msg ++ firstn n stream) ++ skipn n stream) by (rewrite <- app_assoc, firstn_skipn; exact Hs).
    rewrite Hnl in H.
    destruct Hst as [(-> & -> & ->)|(Ht & Hw & Hsum & Hmax)].
    + cbn [app] in *. change (nlen (@nil N)) with 0 in *. rewrite N.add_0_l in *. replace (nlen buf <? cnt) with false in H by lia. change (0 =? 0) with true in H. cbv iota in H.
      destruct (total_length tls (firstn n stream)) as [t|] eqn:Et; [|discriminate H].
      destruct (N.ltb_spec (nlen buf) t) as [Hbt|Hbt]; [discriminate H|].
      destruct (N.ltb_spec cnt t) as [Hlt|Hge].
      * rewrite sub64_le in H by lia. revert H. apply IH; try assumption. split; [exact Hs'|]. right. rewrite Hnl. repeat split; try assumption; lia.
      * exfalso. exact (proj2 (finish_not_wait _ _ _ _ _ _) H).
    + replace (nlen buf <? nlen msg + cnt) with false in H by lia. replace (total =? 0) with false in H by lia.
      destruct (N.ltb_spec (nlen msg + cnt) total) as [Hlt|Hge].
      * rewrite sub64_le in H by lia. revert H. apply IH; try assumption. split; [exact Hs'|]. right. rewrite Hnl.
        split; [apply total_length_ext, Ht|]. repeat split; try assumption; lia.
      * exfalso. exact (proj2 (finish_not_wait _ _ _ _ _ _) H).
  - destruct (N.ltb_spec (nlen msg) total) as [Hlt|Hge]; [revert H; apply IH; try assumption; split; assumption|].
    exfalso. exact (proj2 (finish_not_wait _ _ _ _ _ _) H).
Qed.
Lemma receive_none c osc tls buf evs stream : 6 <= nlen buf -> nlen buf < 2 ^ 64 -> receive c osc tls buf evs stream = R_none ->
  stream = [] \/ exists t, total_length tls stream = Some t /\ nlen stream < t.
Proof. intros H1 H2. apply loop_none; try assumption. split; [reflexivity|]. left. auto. Qed.
