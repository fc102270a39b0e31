From Coq Require Import NArith ZArith List Bool Arith Lia.
From Coq Require Import Zify.
From Verif Require Import Common Oscore_Model Oscore_Spec Coap_Model Coap_Spec Coap_Proofs Coap_Bounds Tcp_Model Tcp_Spec Tcp_Proofs.
Import ListNotations.
Local Open Scope N_scope.
Ltac Zify.zify_post_hook ::= Z.div_mod_to_equations.

Lemma sub64_le (a b : N) : b <= a -> a < 2 ^ 64 -> sub64 a b = a - b.
Proof. intros H1 H2. unfold sub64. change (2 ^ 64) with 18446744073709551616 in *. lia. Qed.

Lemma nlen_app {A} (a b : list A) : nlen (a ++ b) = nlen a + nlen b.
Proof. unfold nlen. rewrite app_length. lia. Qed.

(** ** The validity check *)
Lemma tcp_validate (c : cfg) (data after : list N) (p : packet) :
  tcp_parse c false data after = P_ok p -> exists q, tcp_parse c true data after = P_ok q.
Proof.
  unfold tcp_parse, parse_options. destruct (0xFFFFFFFF <? nlen data); [discriminate|].
  destruct (tcp_parse_length data); try discriminate.
  destruct (nth_error (data ++ after) (1 + ext)); [|discriminate].
  destruct (8 <? N.land 0x0F (hd 0 data)); [discriminate|].
  destruct (List.length _ <? _)%nat; [discriminate|].
  match goal with |- parse_loop ?f _ _ _ _ _ ?m ?l ?nm _ ?p0 = _ -> _ => pose proof (loop_validate c true true false f m l nm 0 p0 p0 eq_refl) as H end.
  intros E. rewrite E in H. destruct (parse_loop _ _ _ _ _ true _ _ _ _ _) as [| |q]; [contradiction|congruence|]. exists q. reflexivity.
Qed.

Lemma good_valid (c : cfg) (osc tls : bool) (f after : list N) : good_frame c osc tls f -> valid_message c osc tls f after = V_ok.
Proof.
  unfold good_frame, valid_message. destruct tls; [reflexivity|].
  intros (opts & (code & token & payload & Ht & Hf & Hlen & Hr) & Hok).
  assert (Hparse : (exists p, tcp_parse c false f [] = P_ok p) ->
    match tcp_parse c true f after with P_oob => V_abort | P_err _ => V_bad | P_ok _ => V_ok end = V_ok).
  { intros [p Hp]. rewrite (tcp_parse_rfc c false code token opts payload) in Hp by assumption.
    rewrite <- (tcp_parse_rfc c false code token opts payload f after) in Hp by assumption.
    destruct (tcp_validate c f after p Hp) as [q ->]. reflexivity. }
  destruct osc.
  - rewrite (is_oscore_tcp code token opts payload f after) by assumption.
    destruct (existsb _ opts) eqn:E; [reflexivity|]. destruct Hok as [[_ H]|H]; [|apply Hparse, H].
    apply existsb_nine in H. congruence.
  - destruct Hok as [[H _]|H]; [discriminate|apply Hparse, H].
Qed.

Lemma type_set (ty : N) : In ty [20; 21; 22; 23; 25] -> existsb (N.eqb ty) [22; 20; 21; 23; 25] = true.
Proof. intros H. apply existsb_exists. exists ty. split; [cbn [In] in *; intuition auto|apply N.eqb_refl]. Qed.

Lemma good_total (c : cfg) (osc tls : bool) (f rest : list N) (k : nat) :
  good_frame c osc tls f -> (6 <= k)%nat -> total_length tls (firstn k (f ++ rest)) = Some (nlen f) /\ nlen f <= 0xFFFFFFFF /\ 2 <= nlen f.
Proof.
  unfold good_frame. intros H Hk. destruct tls.
  - destruct H as (ty & minor & frag & Hty & Hmin & Hlen & ->).
    do 5 (destruct k as [|k]; [lia|]). cbn [app firstn]. unfold total_length, valid_header.
    rewrite (type_set ty Hty). change (3 =? 3) with true.
    replace (existsb (N.eqb minor) [1; 2; 3; 4]) with true.
    2:{ symmetry. apply existsb_exists. exists minor. split; [cbn [In]; lia|apply N.eqb_refl]. }
    cbn [andb negb]. unfold nlen in *. cbn [List.length].
    split; [|lia]. f_equal.
    rewrite lor_shift_add' by (unfold is_byte; lia). lia.
  - destruct H as (opts & (code & token & payload & Ht & Hf & Hlen & Hr) & _).
    unfold total_length. rewrite (tcp_size_rfc code token opts payload f rest k Ht Hr) by lia.
    destruct Hr as (ob & pb & nib & ext & Ho & Hp & Hl & ->). destruct (rfc_tcp_len_ext _ _ _ Hl) as [He Hn].
    destruct k as [|k]; [lia|]. cbn [app firstn]. unfold valid_header.
    destruct (rfc_tcp_read _ nib (N.of_nat (List.length token)) ext [] Hl Hn ltac:(lia)) as [_ E2].
    rewrite E2. replace (N.of_nat (List.length token) <=? 8) with true by lia. cbn [negb].
    split; [reflexivity|]. split; [exact Hlen|]. unfold nlen. cbn [List.length]. rewrite app_length. cbn [List.length]. lia.
Qed.

(** ** One message *)
Section Rx.
Context (c : cfg) (osc tls : bool) (buf : list N).

Lemma loop_rest (evs : list rcv) : forall f msg more rest,
  good_frame c osc tls f -> f = msg ++ more -> more <> [] -> nlen f <= nlen buf -> ~ In Fail evs ->
  let r := receive_loop c osc tls buf evs (more ++ rest) msg (nlen more) (nlen f) in
  (r = R_wait \/ r = R_msg f rest) /\ ((List.length more <= reads evs)%nat -> r = R_msg f rest).
Proof.
  induction evs as [|[k| |] evs IH]; intros f msg more rest Hg Hf Hm Hb Hno; cbv zeta.
  - cbn [receive_loop reads]. split; [left; reflexivity|]. destruct more; [congruence|cbn [List.length]; lia].
  - cbn [receive_loop].
    destruct (good_total c osc tls f [] 6 Hg ltac:(lia)) as (_ & Hmax & _).
    set (cnt := N.min (nlen more) (N.of_nat (Nat.min (Nat.max 1 k) (List.length (more ++ rest))))).
    assert (Hmore : (1 <= List.length more)%nat) by (destruct more; [congruence|cbn [List.length]; lia]).
    assert (Hc1 : 1 <= cnt <= nlen more) by (unfold cnt, nlen; rewrite app_length; lia).
    replace (cnt =? 0) with false by lia.
    set (n := N.to_nat cnt). assert (Hn : (1 <= n <= List.length more)%nat) by (unfold n, nlen in *; lia).
    rewrite firstn_app. replace (n - List.length more)%nat with 0%nat by lia. rewrite firstn_O, app_nil_r.
    rewrite skipn_app. replace (n - List.length more)%nat with 0%nat by lia. rewrite skipn_O.
    assert (Hnl : nlen (msg ++ firstn n more) = nlen msg + cnt).
    { rewrite nlen_app. f_equal. unfold nlen. rewrite firstn_length_le by lia. unfold n. lia. }
    assert (Hfl : nlen f = nlen msg + nlen more) by (rewrite Hf, nlen_app; reflexivity).
    rewrite Hnl. replace (nlen buf <? nlen msg + cnt) with false by lia. replace (nlen f =? 0) with false by lia.
    destruct (N.ltb_spec (nlen msg + cnt) (nlen f)) as [Hlt|Hge].
    + rewrite sub64_le by (change (2 ^ 64) with 18446744073709551616; lia).
      replace (nlen more - cnt) with (nlen (skipn n more)) by (unfold nlen in *; rewrite skipn_length; unfold n; lia).
      specialize (IH f (msg ++ firstn n more) (skipn n more) rest Hg).
      destruct IH as [I1 I2].
      * rewrite <- app_assoc, firstn_skipn. exact Hf.
      * intros E. apply (f_equal (@List.length N)) in E. rewrite skipn_length in E. cbn [List.length] in E. unfold nlen in *. lia.
      * exact Hb.
      * intros Hi. apply Hno. right. exact Hi.
      * split; [exact I1|]. cbn [reads]. intros Hr. apply I2. rewrite skipn_length. lia.
    + assert (En : n = List.length more) by (unfold nlen in *; lia).
      rewrite En, firstn_all, skipn_all. cbn [app]. rewrite <- Hf. unfold finish.
      rewrite (good_valid c osc tls f) by exact Hg. split; [right; reflexivity|reflexivity].
  - cbn [receive_loop reads].
    replace (nlen msg <? nlen f) with true.
    2:{ symmetry. rewrite Hf, nlen_app. destruct more; [congruence|]. unfold nlen. cbn [List.length]. lia. }
    apply IH; auto. intros Hi. apply Hno. right. exact Hi.
  - exfalso. apply Hno. left. reflexivity.
Qed.

Lemma receive_frame (evs : list rcv) (f rest : list N) :
  good_frame c osc tls f -> 6 <= nlen f -> nlen f <= nlen buf -> calm evs ->
  let r := receive c osc tls buf evs (f ++ rest) in
  (r = R_wait \/ r = R_msg f rest) /\ ((List.length f <= reads evs)%nat -> r = R_msg f rest).
Proof.
  intros Hg H6 Hb Hcalm. destruct evs as [|[k| |] evs]; cbn [calm] in Hcalm; try contradiction.
  - cbn. split; [left; reflexivity|]. unfold nlen in H6. lia.
  - destruct Hcalm as [Hk Hno]. unfold receive, FIRST_READ. cbv zeta. cbn [receive_loop reads].
    replace (N.min 6 _) with 6 by (rewrite app_length; unfold nlen in H6; lia).
    change (6 =? 0) with false. cbv iota. change (N.to_nat 6) with 6%nat. cbn [app].
    change (0 =? 0) with true. cbv iota.
    destruct (good_total c osc tls f rest 6 Hg ltac:(lia)) as (Ht & Hmax & _). rewrite Ht.
    assert (E1 : firstn 6 (f ++ rest) = firstn 6 f).
    { rewrite firstn_app. replace (6 - List.length f)%nat with 0%nat by (unfold nlen in H6; lia). rewrite firstn_O, app_nil_r. reflexivity. }
    assert (E2 : skipn 6 (f ++ rest) = skipn 6 f ++ rest).
    { rewrite skipn_app. replace (6 - List.length f)%nat with 0%nat by (unfold nlen in H6; lia). reflexivity. }
    rewrite E1, E2.
    assert (E3 : nlen (firstn 6 f) = 6) by (unfold nlen in *; rewrite firstn_length_le by lia; reflexivity).
    rewrite E3. replace (nlen buf <? 6) with false by lia. replace (nlen buf <? nlen f) with false by lia.
    destruct (N.ltb_spec 6 (nlen f)) as [Hlt|Hge].
    + rewrite sub64_le by (change (2 ^ 64) with 18446744073709551616; lia).
      replace (nlen f - 6) with (nlen (skipn 6 f)) by (unfold nlen; rewrite skipn_length; lia).
      destruct (loop_rest evs f (firstn 6 f) (skipn 6 f) rest Hg (eq_sym (firstn_skipn 6 f))) as [I1 I2]; auto.
      * intros E. apply (f_equal (@List.length N)) in E. rewrite skipn_length in E. cbn [List.length] in E. unfold nlen in *. lia.
      * split; [exact I1|]. intros Hr. apply I2. rewrite skipn_length. unfold nlen in *. lia.
    + assert (El : List.length f = 6%nat) by (unfold nlen in *; lia).
      rewrite firstn_all2, skipn_all2 by lia. cbn [app]. unfold finish. rewrite (good_valid c osc tls f) by exact Hg.
      split; [right; reflexivity|reflexivity].
Qed.

(** ** Streams of messages *)
Definition fits (f : list N) : Prop := good_frame c osc tls f /\ 6 <= nlen f <= nlen buf.

Lemma session_safe (scheds : list (list rcv)) : forall frames,
  Forall fits frames -> Forall calm scheds ->
  exists more, frames = fst (session c osc tls buf scheds (List.concat frames)) ++ more /\
    let fin := snd (session c osc tls buf scheds (List.concat frames)) in
    (fin = S_open (List.concat more) \/ fin = S_end R_wait \/ more = [] /\ fin = S_end R_none).
Proof.
  induction scheds as [|evs r IH]; intros frames Hf Hc; cbn [session].
  - exists frames. split; [reflexivity|]. left. reflexivity.
  - inversion Hc as [|x y Hc1 Hc2]; subst. destruct frames as [|f fs].
    + exists []. split.
      * cbn [List.concat]. destruct evs as [|[k| |] evs]; cbn [calm] in Hc1; try contradiction; [reflexivity|].
        unfold receive. cbn [receive_loop List.length]. rewrite Nat.min_0_r. reflexivity.
      * cbn [List.concat]. destruct evs as [|[k| |] evs]; cbn [calm] in Hc1; try contradiction; [cbn; auto|].
        unfold receive. cbn [receive_loop List.length]. rewrite Nat.min_0_r. right. right. split; reflexivity.
    + inversion Hf as [|x y Hf1 Hf2]; subst. destruct Hf1 as [Hg [H6 Hb]]. cbn [List.concat].
      destruct (receive_frame evs f (List.concat fs) Hg H6 Hb Hc1) as [[-> | ->] _].
      * exists (f :: fs). split; [reflexivity|]. right. left. reflexivity.
      * destruct (IH fs Hf2 Hc2) as (more & E & Hfin). exists more.
        destruct (session c osc tls buf r (List.concat fs)) as [ms fin]. cbn [fst snd] in *. split; [rewrite E; reflexivity|exact Hfin].
Qed.

Lemma session_live (frames : list (list N)) : forall scheds tail,
  Forall fits frames -> Forall2 (fun f evs => calm evs /\ (List.length f <= reads evs)%nat) frames scheds ->
  session c osc tls buf scheds (List.concat frames ++ tail) = (frames, S_open tail).
Proof.
  induction frames as [|f fs IH]; intros scheds tail Hf H2; inversion H2 as [|x evs y r [Hc Hr] H2']; subst; [reflexivity|].
  inversion Hf as [|x y Hf1 Hf2]; subst. destruct Hf1 as [Hg [H6 Hb]]. cbn [List.concat session]. rewrite <- app_assoc.
  destruct (receive_frame evs f (List.concat fs ++ tail) Hg H6 Hb Hc) as [_ E]. rewrite (E Hr).
  rewrite (IH r tail Hf2 H2'). reflexivity.
Qed.

(** ** Any stream, any network *)
Lemma total_length_pos (data : list N) (t : N) : total_length tls data = Some t -> 0 < t.
Proof.
  unfold total_length. destruct (negb (valid_header tls data)); [discriminate|]. destruct tls.
  - destruct data as [|a [|b [|d [|hi [|lo r]]]]]; try discriminate. intros [= <-]. lia.
  - unfold tcp_packet_size. destruct (tcp_parse_length data); try discriminate. intros [= <-]. lia.
Qed.

Lemma total_length_ext (data more : list N) (t : N) : total_length tls data = Some t -> total_length tls (data ++ more) = Some t.
Proof.
  unfold total_length. destruct tls.
  - unfold valid_header. destruct data as [|a [|b [|d [|hi [|lo r]]]]]; cbn [app negb]; try discriminate;
      destruct (negb _); try discriminate; auto.
  - destruct data as [|a r]; [discriminate|]. cbn [valid_header app]. destruct (negb _); [discriminate|].
    unfold tcp_packet_size, tcp_parse_length. cbn [hd]. destruct (_ <? 13); [auto|].
    set (e := N.to_nat (N.shiftl 1 _)). destruct (Nat.ltb_spec (List.length (a :: r)) (e + 1)) as [H|H]; [discriminate|].
    destruct (Nat.ltb_spec (List.length (a :: r ++ more)) (e + 1)) as [H'|H'].
    { cbn [List.length] in *. rewrite app_length in H'. lia. }
    rewrite firstn_app. replace (e - List.length r)%nat with 0%nat by (cbn [List.length] in H; lia). rewrite firstn_O, app_nil_r. auto.
Qed.

Definition state_ok (stream0 stream msg : list N) (want total : N) : Prop :=
  stream0 = msg ++ stream /\
  ((total = 0 /\ msg = [] /\ want = 6) \/
   (total_length tls msg = Some total /\ 0 < want /\ nlen msg + want = total /\ total <= nlen buf)).

Lemma finish_cases (s m : list N) :
  finish c osc tls buf s m = R_msg m s \/ finish c osc tls buf s m = R_error \/ finish c osc tls buf s m = R_abort.
Proof. unfold finish. destruct (valid_message _ _ _ _ _); auto. Qed.

Lemma loop_any (evs : list rcv) : forall stream0 stream msg want total,
  6 <= nlen buf -> nlen buf < 2 ^ 64 -> state_ok stream0 stream msg want total ->
  let r := receive_loop c osc tls buf evs stream msg want total in
  r <> R_over /\
  (forall m rest, r = R_msg m rest -> stream0 = m ++ rest /\ nlen m <= nlen buf /\ (nlen m <= 6 \/ total_length tls m = Some (nlen m))).
Proof.
  induction evs as [|[k| |] evs IH]; intros stream0 stream msg want total H6 H64 [Hs Hst]; cbv zeta; cbn [receive_loop].
  - split; [discriminate|intros m rest E; discriminate E].
  - set (cnt := N.min want (N.of_nat (Nat.min (Nat.max 1 k) (List.length stream)))).
    destruct (N.eqb_spec cnt 0) as [Hz|Hz]; [split; [discriminate|intros m rest E; discriminate E]|].
    set (n := N.to_nat cnt). assert (Hn : (n <= List.length stream)%nat) by (unfold n, cnt; lia).
    assert (Hnl : nlen (msg ++ firstn n stream) = nlen msg + cnt).
    { rewrite nlen_app. f_equal. unfold nlen. rewrite firstn_length_le by lia. unfold n. lia. }
    assert (Hcw : cnt <= want) by (unfold cnt; lia).
    assert (Hs' : stream0 = (msg ++ firstn n stream) ++ skipn n stream) by (rewrite <- app_assoc, firstn_skipn; exact Hs).
    rewrite Hnl.
    destruct Hst as [(-> & -> & ->)|(Ht & Hw & Hsum & Hmax)].
    + cbn [app] in *. change (nlen (@nil N)) with 0 in *. rewrite N.add_0_l in *. replace (nlen buf <? cnt) with false by lia. change (0 =? 0) with true. cbv iota.
      destruct (total_length tls (firstn n stream)) as [t|] eqn:Et; [|split; [discriminate|intros m rest E; discriminate E]].
      destruct (N.ltb_spec (nlen buf) t) as [Hbt|Hbt]; [split; [discriminate|intros m rest E; discriminate E]|].
      destruct (N.ltb_spec cnt t) as [Hlt|Hge].
      * rewrite sub64_le by lia. apply IH; try assumption. split; [exact Hs'|]. right. rewrite Hnl. repeat split; try assumption; lia.
      * destruct (finish_cases (skipn n stream) (firstn n stream)) as [-> | [-> | ->]];
          (split; [discriminate|intros m rest E]; try discriminate E). injection E as <- <-.
        split; [exact Hs'|]. rewrite Hnl. split; [lia|left; lia].
    + replace (nlen buf <? nlen msg + cnt) with false by lia. replace (total =? 0) with false by lia.
      destruct (N.ltb_spec (nlen msg + cnt) total) as [Hlt|Hge].
      * rewrite sub64_le by lia. apply IH; try assumption. split; [exact Hs'|]. right. rewrite Hnl.
        split; [apply total_length_ext, Ht|]. repeat split; try assumption; lia.
      * destruct (finish_cases (skipn n stream) (msg ++ firstn n stream)) as [-> | [-> | ->]];
          (split; [discriminate|intros m rest E]; try discriminate E). injection E as <- <-.
        split; [exact Hs'|]. rewrite Hnl. split; [lia|]. right. replace (nlen msg + cnt) with total by lia. apply total_length_ext, Ht.
  - destruct (N.ltb_spec (nlen msg) total) as [Hlt|Hge]; [apply IH; try assumption; split; assumption|].
    destruct (finish_cases stream msg) as [-> | [-> | ->]]; (split; [discriminate|intros m rest E]; try discriminate E). injection E as <- <-.
    split; [exact Hs|]. destruct Hst as [(-> & -> & ->)|(Ht & Hw & Hsum & Hmax)]; [|lia].
    change (nlen (@nil N)) with 0. split; [lia|left; lia].
  - split; [discriminate|intros m rest E; discriminate E].
Qed.

Lemma receive_any (evs : list rcv) (stream : list N) : 6 <= nlen buf -> nlen buf < 2 ^ 64 ->
  receive c osc tls buf evs stream <> R_over /\
  (forall m rest, receive c osc tls buf evs stream = R_msg m rest ->
     stream = m ++ rest /\ nlen m <= nlen buf /\ (nlen m <= 6 \/ total_length tls m = Some (nlen m))).
Proof. intros H1 H2. apply loop_any; try assumption. split; [reflexivity|]. left. auto. Qed.

Lemma session_any (scheds : list (list rcv)) : forall stream, 6 <= nlen buf -> nlen buf < 2 ^ 64 ->
  exists rest, stream = List.concat (fst (session c osc tls buf scheds stream)) ++ rest /\
    snd (session c osc tls buf scheds stream) <> S_end R_over /\
    (forall r, snd (session c osc tls buf scheds stream) = S_open r -> r = rest) /\
    Forall (fun m => nlen m <= nlen buf /\ (nlen m <= 6 \/ total_length tls m = Some (nlen m))) (fst (session c osc tls buf scheds stream)).
Proof.
  induction scheds as [|evs r IH]; intros stream H6 H64; cbn [session].
  - exists stream. cbn [fst snd List.concat app]. split; [reflexivity|]. split; [discriminate|]. split; [intros x E; injection E as ->; reflexivity|constructor].
  - destruct (receive_any evs stream H6 H64) as [Hno Hm].
    destruct (receive c osc tls buf evs stream) as [m rest| | | | |] eqn:E;
      [|exists stream; cbn [fst snd List.concat app]; split; [reflexivity|]; split; [intros X; discriminate X|]; split; [intros x X; discriminate X|constructor]..
       |contradiction (Hno eq_refl)].
    destruct (Hm m rest eq_refl) as (E1 & E2 & E3). destruct (IH rest H6 H64) as (rest' & I1 & I2 & I3 & I4).
    destruct (session c osc tls buf r rest) as [ms fin]. cbn [fst snd List.concat] in *. exists rest'.
    split; [rewrite E1, I1 at 1; rewrite <- app_assoc; reflexivity|]. repeat split; try assumption. constructor; [split; assumption|exact I4].
Qed.
End Rx.

(** ** Sending *)
Lemma send_spec (evs : list snd_ev) : forall sent rest w ret, send_loop evs sent rest = Some (w, ret) ->
  exists more, sent ++ rest = w ++ more /\
    (ret = S_minus1 /\ w = [] \/ ret = S_bytes (nlen w)) /\ (more <> [] -> In SFail evs).
Proof.
  induction evs as [|[k| |] evs IH]; intros sent rest w ret; cbn [send_loop]; [discriminate| | |].
  - destruct (skipn k rest) as [|x y] eqn:E.
    + intros [= <- <-]. exists []. rewrite app_nil_r. split.
      * f_equal. rewrite <- (firstn_skipn k rest) at 1. rewrite E. apply app_nil_r.
      * split; [right; reflexivity|intros H; congruence].
    + intros H. destruct (IH _ _ _ _ H) as (more & I1 & I2 & I3). exists more. split; [|split; [exact I2|]].
      * rewrite <- I1, <- app_assoc, <- E, firstn_skipn. reflexivity.
      * intros Hm. right. apply I3, Hm.
  - destruct rest as [|x y].
    + intros [= <- <-]. exists []. split; [reflexivity|]. split; [right; reflexivity|congruence].
    + intros H. destruct (IH _ _ _ _ H) as (more & I1 & I2 & I3). exists more. split; [exact I1|]. split; [exact I2|]. intros Hm. right. apply I3, Hm.
  - intros [= <- <-]. exists rest. split; [reflexivity|]. split; [destruct sent; [left|right]; auto|]. intros _. left. reflexivity.
Qed.
