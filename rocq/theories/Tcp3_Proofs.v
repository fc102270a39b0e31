From Coq Require Import NArith ZArith List Bool Arith Lia.
From Verif Require Import Common Oscore_Model Oscore_Spec Coap_Model Coap_Spec Coap_Proofs Tcp_Model Tcp_Spec Tcp_Proofs Tcp2_Proofs.
Import ListNotations.
Local Open Scope N_scope.

(** The length is found from any six bytes at the start. *)
Definition sized (f : list N) : Prop := forall k rest, (6 <= k)%nat -> tcp_packet_size (firstn k (f ++ rest)) = Some (nlen f).

Lemma coap_sized opts (f : list N) : coap_frame opts f -> sized f.
Proof. intros (code & token & payload & Ht & Hf & Hl & Hr) k rest Hk. eapply tcp_size_rfc; [exact Ht|exact Hr|lia]. Qed.

Lemma ssl_read_spec (want : N) (recs : list (list N)) : 0 < want ->
  (ssl_read want recs = None /\ List.concat recs = []) \/
  (exists b bs recs', ssl_read want recs = Some (b :: bs, recs') /\ nlen (b :: bs) <= want /\
     List.concat recs = (b :: bs) ++ List.concat recs').
Proof.
  intros Hw. induction recs as [|[|b r] recs IH]; [left; auto|cbn [ssl_read List.concat app]; exact IH|].
  right. cbn [ssl_read]. set (n := N.to_nat (N.min want (nlen (b :: r)))).
  assert (Hn : (1 <= n)%nat) by (unfold n, nlen; cbn [List.length]; lia).
  destruct n as [|n'] eqn:En; [lia|]. exists b, (firstn n' r), (skipn n' r :: recs). split; [reflexivity|]. split.
  - unfold nlen. cbn [List.length]. rewrite firstn_length. unfold n, nlen in En. cbn [List.length] in En. lia.
  - cbn [List.concat app]. rewrite app_assoc, firstn_skipn. reflexivity.
Qed.

Section Tls.
Context (dyn : bool) (pdu : N).
Hypothesis pdu64 : pdu < 2 ^ 64.

Definition cap_ok (f d : list N) (cap : N) : Prop := cap = pdu \/ ((6 <= List.length d)%nat /\ cap = nlen f).

Lemma app_split (d r f more : list N) : d ++ r = f ++ more -> (List.length d <= List.length f)%nat ->
  exists e, f = d ++ e /\ r = e ++ more.
Proof.
  revert f. induction d as [|x d IH]; intros f E Hl; [exists f; auto|].
  destruct f as [|y f]; [cbn [List.length] in Hl; lia|]. cbn [app] in E. injection E as -> E.
  destruct (IH f E ltac:(cbn [List.length] in Hl; lia)) as (e & -> & ->). exists e. auto.
Qed.

Lemma tls_loop_ok (fuel : nat) : forall f d cap recs tail more,
  sized f -> 7 <= nlen f <= pdu -> (List.length d < List.length f)%nat -> cap_ok f d cap ->
  d ++ List.concat recs ++ tail = f ++ more -> (List.length (List.concat recs) < fuel)%nat ->
  (exists recs' cap', tls_loop dyn pdu fuel (mkPart d cap) recs = T_wait (mkPart (d ++ List.concat recs) cap') recs' /\
     List.concat recs' = [] /\ (List.length (d ++ List.concat recs) < List.length f)%nat /\ cap_ok f (d ++ List.concat recs) cap') \/
  (exists recs', tls_loop dyn pdu fuel (mkPart d cap) recs = T_msg f recs' /\ d ++ List.concat recs = f ++ List.concat recs').
Proof.
  induction fuel as [|n IH]; intros f d cap recs tail more Hs Hsz Hd Hcap He Hfuel; [lia|]. cbn [tls_loop t_data t_cap].
  assert (Hstep : forall want total cap1, 0 < want -> want <= nlen f - nlen d -> cap_ok f d cap1 ->
     (total = 0 /\ want + nlen d <= 6 \/ total = nlen f /\ (6 <= List.length d)%nat) ->
     let r := match ssl_read want recs with
      | None => T_wait (mkPart d cap1) recs
      | Some ([], recs') => T_wait (mkPart d cap1) recs'
      | Some (((_ :: _) as bs), recs') =>
        if t_cap (mkPart d cap1) <? nlen (t_data (mkPart d cap1) ++ bs) then T_over
        else if negb (total =? 0) && (nlen (t_data (mkPart d cap1) ++ bs) =? total) then T_msg (t_data (mkPart d cap1) ++ bs) recs'
        else tls_loop dyn pdu n (mkPart (t_data (mkPart d cap1) ++ bs) (t_cap (mkPart d cap1))) recs'
      end in
     (exists recs' cap', r = T_wait (mkPart (d ++ List.concat recs) cap') recs' /\
       List.concat recs' = [] /\ (List.length (d ++ List.concat recs) < List.length f)%nat /\ cap_ok f (d ++ List.concat recs) cap') \/
     (exists recs', r = T_msg f recs' /\ d ++ List.concat recs = f ++ List.concat recs')).
  { intros want total cap1 Hw Hwf Hc1 Htot. cbv zeta. cbn [t_data t_cap].
    destruct (ssl_read_spec want recs Hw) as [[-> E0]|(b & bs & recs' & -> & Hlen & E0)].
    - left. exists recs, cap1. rewrite E0, app_nil_r. auto.
    - assert (Hl : (List.length (d ++ b :: bs) <= List.length f)%nat) by (rewrite app_length; unfold nlen in *; lia).
      assert (Hnl : nlen (d ++ b :: bs) = nlen d + nlen (b :: bs)) by apply nlen_app.
      assert (Hcap1 : nlen f <= cap1) by (destruct Hc1 as [->|[_ ->]]; lia).
      replace (cap1 <? nlen (d ++ b :: bs)) with false by (unfold nlen in *; lia).
      rewrite E0 in He, Hfuel |- *.
      assert (He' : (d ++ b :: bs) ++ List.concat recs' ++ tail = f ++ more) by (rewrite <- He, <- !app_assoc; reflexivity).
      assert (Hlt : (List.length (d ++ b :: bs) < List.length f)%nat -> cap_ok f (d ++ b :: bs) cap1 ->
        (exists recs'0 cap', tls_loop dyn pdu n (mkPart (d ++ b :: bs) cap1) recs' = T_wait (mkPart (d ++ (b :: bs) ++ List.concat recs') cap') recs'0 /\
          List.concat recs'0 = [] /\ (List.length (d ++ (b :: bs) ++ List.concat recs') < List.length f)%nat /\ cap_ok f (d ++ (b :: bs) ++ List.concat recs') cap') \/
        (exists recs'0, tls_loop dyn pdu n (mkPart (d ++ b :: bs) cap1) recs' = T_msg f recs'0 /\ d ++ (b :: bs) ++ List.concat recs' = f ++ List.concat recs'0)).
      { intros H1 H2. rewrite app_assoc. apply (IH f (d ++ b :: bs) cap1 recs' tail more); auto.
        rewrite app_length in Hfuel. cbn [List.length] in Hfuel. lia. }
      destruct Htot as [[-> H6]|[-> H6]].
      + change (0 =? 0) with true. cbn [negb andb]. apply Hlt; [rewrite app_length; unfold nlen in *; lia|].
        destruct Hc1 as [->|[H6' ->]]; [left; reflexivity|]. unfold nlen in *. lia.
      + replace (nlen f =? 0) with false by lia. cbn [negb andb].
        destruct (N.eqb_spec (nlen (d ++ b :: bs)) (nlen f)) as [E|E].
        * right. destruct (app_split _ _ _ _ He' Hl) as (e & E1 & E2).
          assert (e = []).
          { apply (f_equal nlen) in E1. rewrite nlen_app, E in E1. destruct e; [reflexivity|unfold nlen in E1; cbn [List.length] in E1; lia]. }
          subst e. rewrite app_nil_r in E1. rewrite <- E1. exists recs'. split; [reflexivity|]. rewrite E1. rewrite <- !app_assoc. reflexivity.
        * apply Hlt; [unfold nlen in *; lia|].
          destruct Hc1 as [->|[H6' ->]]; [left; reflexivity|right]. rewrite app_length. split; [lia|reflexivity]. }
  destruct (N.ltb_spec (nlen d) FIRST_READ) as [H6|H6]; unfold FIRST_READ in *.
  - apply Hstep; [lia|lia|exact Hcap|left; split; [reflexivity|lia]].
  - assert (Hd6 : (6 <= List.length d)%nat) by (unfold nlen in H6; lia).
    destruct (app_split d (List.concat recs ++ tail) f more He ltac:(lia)) as (e & E1 & E2).
    assert (Ep : tcp_packet_size d = Some (nlen f)).
    { rewrite <- (Hs (List.length d) [] Hd6). rewrite E1, app_nil_r, firstn_app, firstn_all, Nat.sub_diag, firstn_O, app_nil_r. reflexivity. }
    rewrite Ep. replace (pdu <? nlen f) with false by lia.
    rewrite sub64_le by (unfold nlen in *; lia).
    assert (Esh : (if dyn then shrink (mkPart d cap) (nlen f) else mkPart d cap) = mkPart d (if dyn then nlen f else cap)).
    { destruct dyn; [|reflexivity]. unfold shrink. cbn [t_cap t_data]. destruct (N.eqb_spec (nlen f) cap) as [->|H]; [reflexivity|].
      rewrite firstn_all2 by (unfold nlen; lia). reflexivity. }
    rewrite Esh. apply Hstep; [unfold nlen in *; lia|lia| |right; split; [reflexivity|exact Hd6]].
    destruct dyn; [right; split; [exact Hd6|reflexivity]|exact Hcap].
Qed.

(** ** The peer *)
Definition part_of (s : peer) : part := match p_part s with Some p => p | None => mkPart [] pdu end.
Definition pending (s : peer) : list N := t_data (part_of s) ++ List.concat (p_recs s).
(** The peer is in the middle of the first of the frames that are to come (or between frames). *)
Definition waits (s : peer) (fs : list (list N)) : Prop :=
  match fs with
  | [] => part_of s = mkPart [] pdu
  | f :: _ => (List.length (t_data (part_of s)) < List.length f)%nat /\ cap_ok f (t_data (part_of s)) (t_cap (part_of s))
  end.
Definition frame_ok (f : list N) : Prop := sized f /\ 7 <= nlen f <= pdu.

Lemma concat_snoc (l : list (list N)) r : List.concat (l ++ [r]) = List.concat l ++ r.
Proof. rewrite concat_app. cbn [List.concat]. rewrite app_nil_r. reflexivity. Qed.

Lemma waits_fresh (recs : list (list N)) (fs : list (list N)) : Forall frame_ok fs -> waits (mkPeer None recs) fs.
Proof.
  intros H. destruct fs as [|f fs]; [reflexivity|]. inversion H as [|x y [_ Hf] _]; subst. cbn [waits part_of p_part t_data t_cap List.length].
  split; [unfold nlen in Hf; lia|left; reflexivity].
Qed.

Lemma recv_ok (s : peer) (fs : list (list N)) (r tail : list N) :
  Forall frame_ok fs -> waits s fs -> pending s ++ r ++ tail = List.concat fs ->
  exists s' ms more, tls_recv dyn pdu s r = (T_up s', ms) /\ fs = ms ++ more /\ waits s' more /\
    pending s' ++ tail = List.concat more /\
    (ms = [] -> List.concat (p_recs s') = []) /\ (List.length ms <= 1)%nat.
Proof.
  intros Hf Hw He. unfold tls_recv, tls_read. cbn [p_part p_recs].
  change (match p_part s with Some p => p | None => mkPart [] pdu end) with (part_of s).
  destruct fs as [|f fs].
  - cbn [waits] in Hw. cbn [List.concat] in He. unfold pending in He. rewrite Hw in *. cbn [t_data app] in He.
    apply app_eq_nil in He as [E1 E2]. apply app_eq_nil in E2 as [-> ->].
    assert (Ec : List.concat (p_recs s ++ [[]]) = []) by (rewrite concat_snoc, E1; reflexivity).
    cbn [tls_loop t_data]. change (nlen (@nil N) <? FIRST_READ) with true. cbv iota.
    destruct (ssl_read_spec (FIRST_READ - nlen (@nil N)) (p_recs s ++ [[]]) eq_refl) as [[-> _]|(b & bs & recs' & _ & _ & E)];
      [|rewrite Ec in E; discriminate].
    exists (mkPeer (Some (mkPart [] pdu)) (p_recs s ++ [[]])), [], [].
    split; [reflexivity|]. split; [reflexivity|]. split; [reflexivity|]. split.
    + unfold pending. cbn [part_of p_part t_data p_recs app List.concat]. rewrite Ec. reflexivity.
    + split; [intros _; exact Ec|cbn; lia].
  - inversion Hf as [|x y [Hs Hsz] Hf']; subst. cbn [waits] in Hw. destruct Hw as [Hd Hc].
    assert (He' : t_data (part_of s) ++ List.concat (p_recs s ++ [r]) ++ tail = f ++ List.concat fs).
    { rewrite concat_snoc. unfold pending in He. rewrite <- !app_assoc in *. exact He. }
    destruct (tls_loop_ok (S (List.length (List.concat (p_recs s ++ [r])))) f (t_data (part_of s)) (t_cap (part_of s)) (p_recs s ++ [r]) tail (List.concat fs)
                Hs Hsz Hd Hc He' ltac:(lia)) as [(recs' & cap' & E & Er & Hl & Hc')|(recs' & E & Em)];
      replace (mkPart (t_data (part_of s)) (t_cap (part_of s))) with (part_of s) in E by (destruct (part_of s); reflexivity); rewrite E.
    + exists (mkPeer (Some (mkPart (t_data (part_of s) ++ List.concat (p_recs s ++ [r])) cap')) recs'), [], (f :: fs).
      split; [reflexivity|]. split; [reflexivity|]. split; [split; assumption|]. split.
      * unfold pending at 1. cbn [part_of p_part t_data p_recs]. rewrite Er, app_nil_r, <- app_assoc. exact He'.
      * split; [intros _; exact Er|cbn; lia].
    + exists (mkPeer None recs'), [f], fs. split; [reflexivity|]. split; [reflexivity|]. split; [apply waits_fresh, Hf'|]. split.
      * unfold pending. cbn [part_of p_part t_data p_recs app]. rewrite app_assoc, Em, <- app_assoc in He'. apply app_inv_head in He'. exact He'.
      * split; [discriminate|cbn; lia].
Qed.

Lemma run_safe (records : list (list N)) : forall s fs tail,
  Forall frame_ok fs -> waits s fs -> pending s ++ List.concat records ++ tail = List.concat fs ->
  exists s' ms more, tls_run dyn pdu s records = (T_up s', ms) /\ fs = ms ++ more /\ waits s' more /\ pending s' ++ tail = List.concat more.
Proof.
  induction records as [|r rs IH]; intros s fs tail Hf Hw He; cbn [tls_run].
  - exists s, [], fs. auto.
  - cbn [List.concat] in He. rewrite <- app_assoc in He.
    destruct (recv_ok s fs r (List.concat rs ++ tail) Hf Hw He) as (s' & ms & more & -> & E & Hw' & He' & _).
    assert (Hf' : Forall frame_ok more) by (rewrite E in Hf; apply Forall_app in Hf; apply Hf).
    destruct (IH s' more tail Hf' Hw' He') as (s2 & ms2 & more2 & -> & E2 & Hw2 & He2).
    exists s2, (ms ++ ms2), more2. split; [reflexivity|]. split; [rewrite E, E2, app_assoc; reflexivity|]. auto.
Qed.

(** One frame in records of its own. *)
Lemma frame_run (records : list (list N)) : forall s f rest,
  Forall frame_ok (f :: rest) -> waits s (f :: rest) -> List.concat (p_recs s) = [] ->
  t_data (part_of s) ++ List.concat records = f -> 
  exists s', tls_run dyn pdu s records = (T_up s', [f]) /\ waits s' rest /\ pending s' = [].
Proof.
  induction records as [|r rs IH]; intros s f rest Hf Hw Hr He.
  - cbn [List.concat] in He. rewrite app_nil_r in He. destruct Hw as [Hl _]. rewrite He in Hl. lia.
  - cbn [tls_run List.concat] in *.
    assert (Hp : pending s ++ r ++ List.concat rs ++ List.concat rest = List.concat (f :: rest)).
    { unfold pending. rewrite Hr, app_nil_r. cbn [List.concat]. rewrite <- He, <- !app_assoc. reflexivity. }
    destruct (recv_ok s (f :: rest) r (List.concat rs ++ List.concat rest) Hf Hw Hp) as (s' & ms & more & -> & E & Hw' & He' & Hz & Hl).
    destruct ms as [|m [|m2 ms]]; [| |cbn [List.length] in Hl; lia].
    + cbn [app] in E. subst more. specialize (Hz eq_refl).
      assert (Ed : t_data (part_of s') ++ List.concat rs = f).
      { unfold pending in He'. rewrite Hz, app_nil_r in He'. cbn [List.concat] in He'. rewrite app_assoc in He'. apply app_inv_tail in He'. exact He'. }
      destruct (IH s' f rest Hf Hw' Hz Ed) as (s2 & -> & H1 & H2). exists s2. auto.
    + cbn [app] in E. injection E as <- <-.
      assert (Ep : pending s' = [] /\ List.concat rs = []).
      { rewrite app_assoc in He'. apply (f_equal (@List.length N)) in He'. rewrite !app_length in He'.
        split; apply length_zero_iff_nil; lia. }
      destruct Ep as [Ep Ers]. clear - IH Ep Ers Hw' Hf pdu64.
      assert (Hi : forall rs s', List.concat rs = [] -> pending s' = [] -> waits s' rest ->
        exists s'', tls_run dyn pdu s' rs = (T_up s'', []) /\ waits s'' rest /\ pending s'' = []).
      { clear - Hf pdu64. induction rs as [|r rs IH]; intros s Ec Ep Hw; cbn [tls_run].
        - exists s. auto.
        - cbn [List.concat] in Ec. apply app_eq_nil in Ec as [-> Ec]. inversion Hf as [|x y _ Hf']; subst.
          destruct (recv_ok s rest [] (List.concat rest) Hf' Hw ltac:(rewrite Ep; reflexivity)) as (s' & ms & more & -> & E & Hw' & He' & _).
          destruct ms as [|m ms].
          + cbn [app] in E. subst more.
            assert (Ep' : pending s' = []).
            { apply (f_equal (@List.length N)) in He'. rewrite app_length in He'. apply length_zero_iff_nil. lia. }
            destruct (IH s' Ec Ep' Hw') as (s2 & -> & H1 & H2). exists s2. auto.
          + exfalso. rewrite E in He' at 1. cbn [app List.concat] in He'. rewrite E in Hf'. inversion Hf' as [|x2 y2 [_ Hm] _]; subst.
            apply (f_equal (@List.length N)) in He'. rewrite concat_app, !app_length in He'. unfold nlen in Hm. lia. }
      destruct (Hi rs s' Ers Ep Hw') as (s2 & -> & H1 & H2). exists s2. auto.
Qed.

Lemma run_app (a b : list (list N)) : forall s, tls_run dyn pdu s (a ++ b) =
  match tls_run dyn pdu s a with
  | (T_up s', ms) => let (x, ms') := tls_run dyn pdu s' b in (x, ms ++ ms')
  | x => x
  end.
Proof.
  induction a as [|r a IH]; intros s; cbn [tls_run app].
  - destruct (tls_run dyn pdu s b). reflexivity.
  - destruct (tls_recv dyn pdu s r) as [[s'| |] ms]; try reflexivity. rewrite IH.
    destruct (tls_run dyn pdu s' a) as [[s2| |] ms2]; try reflexivity.
    destruct (tls_run dyn pdu s2 b) as [x ms3]. rewrite app_assoc. reflexivity.
Qed.

Lemma run_live (fs : list (list N)) : forall s groups, Forall frame_ok fs -> waits s fs -> pending s = [] ->
  Forall2 (fun f g => List.concat g = f) fs groups ->
  exists s', tls_run dyn pdu s (List.concat groups) = (T_up s', fs) /\ pending s' = [].
Proof.
  induction fs as [|f fs IH]; intros s groups Hf Hw Hp H2; inversion H2 as [|x g y gs Hg H2']; subst; cbn [List.concat].
  - exists s. split; [reflexivity|exact Hp].
  - unfold pending in Hp. apply app_eq_nil in Hp as [Hp1 Hp2].
    destruct (frame_run g s (List.concat g) fs Hf Hw Hp2 ltac:(rewrite Hp1; reflexivity)) as (s' & E & Hw' & Hp').
    inversion Hf as [|x y _ Hf']; subst. rewrite run_app, E.
    destruct (IH s' gs Hf' Hw' Hp' H2') as (s2 & -> & Hp2'). exists s2. auto.
Qed.
End Tls.

(** ** A frame of exactly six bytes is never delivered *)
Lemma six_stuck (dyn : bool) (pdu : N) (f : list N) : sized f -> nlen f = 6 -> 6 <= pdu -> pdu < 2 ^ 64 ->
  forall records s, part_of pdu s = mkPart f 6 \/ part_of pdu s = mkPart f pdu ->
  exists s', tls_run dyn pdu s records = (T_up s', []).
Proof.
  intros Hs H6 Hpdu H64. 
  assert (Ep : tcp_packet_size f = Some 6).
  { rewrite <- H6. rewrite <- (Hs (List.length f) []) by (unfold nlen in H6; lia). rewrite app_nil_r, firstn_all. reflexivity. }
  assert (Hread : forall recs, ssl_read 0 recs = None \/ exists recs', ssl_read 0 recs = Some ([], recs')).
  { induction recs as [|[|b r] recs IH]; [left; reflexivity|exact IH|]. right. cbn [ssl_read]. rewrite N.min_0_l. cbn. eauto. }
  induction records as [|r rs IH]; intros s Hp; cbn [tls_run]; [eauto|].
  unfold tls_recv, tls_read. cbn [p_part p_recs].
  change (match p_part s with Some p => p | None => mkPart [] pdu end) with (part_of pdu s).
  assert (Hd : t_data (part_of pdu s) = f) by (destruct Hp as [->| ->]; reflexivity).
  cbn [tls_loop]. rewrite Hd, H6. change (6 <? FIRST_READ) with false. cbv iota. rewrite Ep.
  replace (pdu <? 6) with false by lia. change (sub64 6 6) with 0.
  assert (Hsh : (if dyn then shrink (part_of pdu s) 6 else part_of pdu s) = mkPart f 6 \/ (if dyn then shrink (part_of pdu s) 6 else part_of pdu s) = mkPart f pdu).
  { assert (E6 : firstn (N.to_nat 6) f = f) by (apply firstn_all2; unfold nlen in H6; change (N.to_nat 6) with 6%nat; lia).
    destruct dyn; [|destruct Hp as [->| ->]; auto]. unfold shrink. destruct Hp as [->| ->]; cbn [t_cap t_data].
    - left. reflexivity.
    - destruct (6 =? pdu); [right; reflexivity|]. rewrite E6. left. reflexivity. }
  destruct (Hread (p_recs s ++ [r])) as [->|[recs' ->]].
  - match goal with |- context [tls_run dyn pdu ?s' rs] => destruct (IH s') as (s2 & E) end; [cbn [part_of p_part]; exact Hsh|].
    rewrite E. eauto.
  - match goal with |- context [tls_run dyn pdu ?s' rs] => destruct (IH s') as (s2 & E) end; [cbn [part_of p_part]; exact Hsh|].
    rewrite E. eauto.
Qed.
