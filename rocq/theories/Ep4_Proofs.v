From Verif Require Import Common Ep_Model Ep_Spec Ep_Proofs Ep2_Proofs Ep3_Proofs.
From Coq Require Import String.
Local Open Scope string_scope.
Local Open Scope list_scope.
Local Open Scope N_scope.

Lemma join_in c ts : In c (join ts) -> c = 58 \/ exists t, In t ts /\ In c t.
Proof.
  induction ts as [|t ts IH]; [intros []|]. rewrite join_cons. intros H. apply in_app_or in H. destruct H as [H|H].
  - right. exists t. split; [left; reflexivity|assumption].
  - destruct ts as [|u ts]; [destruct H|]. destruct H as [H|H]; [left; auto|]. destruct (IH H) as [X|(x & X & Y)]; [auto|]. right. exists x. split; [right; assumption|assumption].
Qed.
Lemma groups_out ws ts c : Forall2 group ws ts -> c = 47 \/ c = 93 -> ~ In c (join ts).
Proof.
  intros F C H. apply join_in in H. destruct H as [->|(t & I & J)]; [destruct C; discriminate|].
  induction F as [|w u ws ts G F IH]; [destruct I|]. destruct I as [->|I]; [|auto]. destruct G as [R _]. apply (reads_out _ _ _ c R); [tauto|assumption].
Qed.
Lemma v6_out a t c : v6_text a t -> c = 47 \/ c = 93 -> ~ In c t.
Proof.
  intros [ws ts _ F|l k r lt rt _ _ Fl Fr] C.
  - exact (groups_out _ _ c F C).
  - intros H. apply in_app_or in H. destruct H as [H|H]; [exact (groups_out _ _ c Fl C H)|].
    destruct H as [H|[H|H]]; [destruct C; subst; discriminate|destruct C; subst; discriminate|exact (groups_out _ _ c Fr C H)].
Qed.
Lemma last_app (a b : list N) d : b <> [] -> last (a ++ b) d = last b d.
Proof.
  intros NE. induction a as [|x a IH]; [reflexivity|]. cbn [app]. rewrite <- IH. destruct (a ++ b) as [|y l] eqn:E; [|reflexivity].
  apply app_eq_nil in E. tauto.
Qed.
Lemma flags_sec tcp sec : N.testbit (flags_of tcp sec) 1 = sec.
Proof. destruct tcp, sec; reflexivity. Qed.

Lemma of_string_v6 tcp sec sc a t tl p u : scheme tcp sec sc -> v6_text a t -> tail_text sec tl p u ->
  of_string (sc ++ [91] ++ t ++ [93] ++ tl) = PAddress (mk_ep (flags_of tcp sec + 8) 0 a p 0 0) u.
Proof.
  intros Sc V T. unfold of_string. rewrite (scheme_text tcp sec sc Sc) by discriminate.
  replace ([91] ++ t ++ [93] ++ tl) with ((91 :: t ++ [93]) ++ tl) by (cbn [app]; rewrite <- app_assoc; reflexivity).
  rewrite (parse_uri_tail (flags_of tcp sec) (91 :: t ++ [93]) tl p u).
  - replace (firstn (List.length (91 :: t ++ [93])) ((91 :: t ++ [93]) ++ tl)) with (91 :: t ++ [93]).
    2:{ rewrite firstn_app, Nat.sub_diag, firstn_all. cbn [firstn]. rewrite app_nil_r. reflexivity. }
    change (last (91 :: t ++ [93]) 47) with (last ((91 :: t) ++ [93]) 47). rewrite last_app by discriminate. cbn [last].
    change (is_letter 93) with false. cbn iota. change (93 =? 93) with true.
    replace (1 <? List.length (91%N :: t ++ [93%N]))%nat with true by (symmetry; apply Nat.ltb_lt; cbn [List.length]; rewrite app_length; cbn [List.length]; lia).
    cbn [app hd]. change (91 =? 91) with true. cbn [andb].
    replace (firstn (List.length (91%N :: t ++ [93%N]) - 2) (List.tl (91 :: (t ++ [93]) ++ tl))) with t.
    2:{ cbn [List.tl List.length]. rewrite app_length. cbn [List.length]. rewrite <- app_assoc.
        replace (S (List.length t + 1) - 2)%nat with (List.length t) by lia. rewrite firstn_app, Nat.sub_diag, firstn_all. cbn [firstn]. rewrite app_nil_r. reflexivity. }
    rewrite (parse6_reads a t V). reflexivity.
  - intros [H|H]; [discriminate|]. apply in_app_or in H. destruct H as [H|[H|[]]]; [|discriminate]. exact (v6_out a t 47 V ltac:(auto) H).
  - rewrite flags_sec. exact T.
  - apply (colon_v6 t tl _ _ _ (v6_out a t 93 V ltac:(auto)) T).
Qed.

Lemma is_digit_range c : is_digit c = true -> 48 <= c <= 57.
Proof. unfold is_digit. rewrite andb_true_iff. lia. Qed.
Lemma tail_stops s tl p u : tail_text s tl p u -> stops is_digit tl.
Proof. intros []; cbn; auto. Qed.
Lemma parse4_step cnt t n r rem : reads 10 t n -> n < 256 -> parse4 (S cnt) (t ++ 46 :: r) (List.length t + 1 + rem) = n :: parse4 cnt r rem.
Proof.
  intros R L. cbn [parse4]. destruct (List.length t + 1 + rem)%nat eqn:E; [lia|]. rewrite <- E.
  rewrite (strtoul_reads t n (46 :: r) R) by (try exact eq_refl; lia). rewrite N.mod_small by assumption. f_equal. f_equal.
  - rewrite skipn_app, skipn_all2 by lia. replace (List.length t + 1 - List.length t)%nat with 1%nat by lia. reflexivity.
  - lia.
Qed.
Lemma of_string_v4 tcp sec sc a t tl p u : scheme tcp sec sc -> v4_text a t -> tail_text sec tl p u ->
  of_string (sc ++ t ++ tl) = PAddress (mk_ep (flags_of tcp sec + 4) 0 (a ++ repeat 0 12) p 0 0) u.
Proof.
  intros Sc V T. destruct V as [a b c d ta tb tc td Ra Rb Rc Rd B].
  set (t := ta ++ [46] ++ tb ++ [46] ++ tc ++ [46] ++ td).
  pose proof (reads_nonempty _ _ _ Ra) as NA. pose proof (reads_nonempty _ _ _ Rd) as ND.
  assert (NT : t ++ tl <> []) by (subst t; destruct ta; [contradiction|discriminate]).
  assert (Hd : 48 <= hd 0 (t ++ tl) <= 57).
  { subst t. destruct (reads_digits _ _ Ra) as [D _]. destruct ta as [|x ta]; [contradiction|]. cbn [forallb app hd] in *. apply andb_true_iff in D. apply is_digit_range. tauto. }
  assert (Ld : 48 <= last t 47 <= 57).
  { subst t. rewrite !app_assoc, last_app by exact ND. destruct (reads_digits _ _ Rd) as [D _].
    destruct (@exists_last N td ND) as (td' & x & ->). rewrite last_app by discriminate. cbn [last]. rewrite forallb_app in D. apply andb_true_iff in D. destruct D as [_ D]. cbn [forallb] in D. rewrite andb_true_r in D. apply is_digit_range. exact D. }
  assert (O : forall x, x = 58 \/ x = 47 -> ~ In x t).
  { intros x X H. subst t. assert (X' : x = 58 \/ x = 47 \/ x = 93 \/ x = 46) by tauto.
    repeat (apply in_app_or in H; destruct H as [H|H]; [first [exact (reads_out _ _ _ x Ra X' H)|exact (reads_out _ _ _ x Rb X' H)|exact (reads_out _ _ _ x Rc X' H)|destruct H as [H|[]]; destruct X; subst; discriminate]|]).
    exact (reads_out _ _ _ x Rd X' H). }
  unfold of_string. rewrite (scheme_text tcp sec sc Sc) by assumption.
  rewrite (parse_uri_tail (flags_of tcp sec) t tl p u).
  - rewrite firstn_app, Nat.sub_diag, firstn_all. cbn [firstn]. rewrite app_nil_r.
    assert (NL : is_letter (last t 47) = false) by (unfold is_letter; lia). rewrite NL.
    replace (last t 47 =? 93) with false by lia. rewrite andb_false_r.
    assert (P : parse4 4 (t ++ tl) (List.length t) = [a; b; c; d]).
    { inversion B as [|? ? B1 B']; subst. inversion B' as [|? ? B2 B'']; subst. inversion B'' as [|? ? B3 B3']; subst. inversion B3' as [|? ? B4 _]; subst. unfold is_byte in *.
      subst t. rewrite !app_length. cbn [List.length]. repeat rewrite <- app_assoc. cbn [app].
      replace (List.length ta + (1 + (List.length tb + (1 + (List.length tc + (1 + List.length td))))))%nat with (List.length ta + 1 + (List.length tb + 1 + (List.length tc + 1 + List.length td)))%nat by lia.
      rewrite (parse4_step 3 ta a _ _ Ra B1), (parse4_step 2 tb b _ _ Rb B2), (parse4_step 1 tc c _ _ Rc B3).
      do 3 f_equal. cbn [parse4]. destruct td as [|x td]; [contradiction|]. cbn [List.length].
      rewrite (strtoul_reads (x :: td) d tl Rd) by (try exact (tail_stops _ _ _ _ T); lia). rewrite N.mod_small by assumption. reflexivity. }
    rewrite P. reflexivity.
  - apply O. auto.
  - rewrite flags_sec. exact T.
  - apply colon_v4; [apply O; auto|lia].
Qed.

(** * Printing *)
Lemma scheme_of_ok fl : scheme (N.testbit fl 4) (N.testbit fl 1) (scheme_of fl).
Proof. unfold scheme_of. rewrite has_tcp, has_sec. destruct (N.testbit fl 4), (N.testbit fl 1); constructor. Qed.
Lemma scheme_len fl : (7 <= List.length (scheme_of fl) <= 12)%nat.
Proof. destruct (scheme_of_ok fl); cbn; lia. Qed.
Lemma text4_ok a : List.length a = 16%nat -> bytes_ok a -> v4_text (firstn 4 a) (text4 a).
Proof.
  intros L B. do 4 (destruct a as [|? a]; [discriminate L|]). unfold text4. cbn [nth firstn].
  unfold bytes_ok in B. repeat match goal with H : Forall _ (_ :: _) |- _ => inversion H; clear H; subst end.
  constructor; try apply dec_ok. repeat constructor; assumption.
Qed.
Lemma text4_len4 x y z w r : x < 256 -> y < 256 -> z < 256 -> w < 256 -> (List.length (text4 (x :: y :: z :: w :: r)) <= 15)%nat.
Proof.
  intros X Y Z W. unfold text4. cbn [nth]. rewrite !app_length. cbn [List.length]. apply dec_len_byte in X, Y, Z, W. lia.
Qed.
Lemma text4_len a : List.length a = 16%nat -> bytes_ok a -> (List.length (text4 a) <= 15)%nat.
Proof.
  intros L B. do 4 (destruct a as [|? a]; [discriminate L|]). 
  unfold bytes_ok in B. repeat match goal with H : Forall _ (_ :: _) |- _ => inversion H; clear H; subst end. apply text4_len4; assumption.
Qed.
Lemma join_len ws ts : Forall2 group ws ts -> (List.length (join ts) <= 5 * List.length ws - 1)%nat.
Proof.
  induction 1 as [|w t ws ts G F IH]; [cbn; lia|]. rewrite join_cons, app_length. apply group_len in G. cbn [List.length].
  destruct ts as [|u ts]; [cbn; lia|]. cbn [List.length]. inversion F; subst. cbn [List.length] in *. lia.
Qed.
Lemma v6_len a t : v6_text a t -> (List.length t <= 39)%nat.
Proof.
  intros [ws ts L F|l k r lt rt L K Fl Fr].
  - apply join_len in F. lia.
  - apply join_len in Fl, Fr. rewrite !app_length. cbn [List.length]. lia.
Qed.
Lemma ntop_len_embedded a : List.length a = 16%nat -> bytes_ok a ->
  embedded (words a) (best_run (map is0 (words a))) = true -> (List.length (ntop6 a) <= 39)%nat.
Proof.
  intros L B E. destruct (words_two 16 a ltac:(lia) 8 ltac:(lia) B) as [_ W2]. pose proof (words_len a L) as WL.
  assert (T : (List.length (text4 (skipn 12 a)) <= 15)%nat).
  { do 16 (destruct a as [|? a]; [discriminate L|]). cbn [skipn].
    unfold bytes_ok in B. repeat match goal with H : Forall _ (_ :: _) |- _ => inversion H; clear H; subst end. apply text4_len4; assumption. }
  unfold ntop6. fold is0. rewrite E. unfold embedded in E.
  destruct (best_run (map is0 (words a))) as [[[|b] l]|]; [|discriminate|discriminate].
  set (d := text4 (skipn 12 a)) in *. clearbody d. destruct (words a) as [|w0 ws] eqn:EW; [discriminate|]. rewrite <- EW in *. clear EW w0 ws. set (w := words a) in *. clearbody w.
  eight w WL. apply orb_true_iff in E. destruct E as [E|E].
  - apply Nat.eqb_eq in E. subst l. unfold ntop_words. cbn [Nat.eqb Nat.leb Nat.ltb Nat.add andb app]. cbn [List.length]. lia.
  - apply andb_true_iff in E. destruct E as [E _]. apply Nat.eqb_eq in E. subst l. unfold ntop_words. cbn [Nat.eqb Nat.leb Nat.ltb Nat.add andb app].
    cbn [List.length]. rewrite app_length. cbn [List.length].
    assert (G : Forall2 group [n; n0; n1; n2; n3; n4; n5; n6] (map hex [n; n0; n1; n2; n3; n4; n5; n6])) by (apply hex_groups; assumption).
    inversion G as [|? ? ? ? _ G1]; subst. inversion G1 as [|? ? ? ? _ G2]; subst. inversion G2 as [|? ? ? ? _ G3]; subst. inversion G3 as [|? ? ? ? _ G4]; subst. inversion G4 as [|? ? ? ? _ G5]; subst.
    inversion G5 as [|? ? ? ? G6 _]; subst. apply group_len in G6. lia.
Qed.
Lemma ntop_len a : List.length a = 16%nat -> bytes_ok a -> (List.length (ntop6 a) <= 39)%nat.
Proof.
  intros L B. destruct (embedded (words a) (best_run (map is0 (words a)))) eqn:E.
  - apply ntop_len_embedded; assumption.
  - apply (v6_len a). apply ntop6_text; assumption.
Qed.

(** The text of an endpoint without regard to the size of a buffer. *)
Definition full_text (e : ep) : list N :=
  scheme_of (e_flags e) ++
  (if N.testbit (e_flags e) 2 then text4 (e_addr e) ++ [58] ++ dec (e_port e) else [91] ++ ntop6 (e_addr e) ++ [93] ++ [58] ++ dec (e_port e)).
Lemma to_string_full e : ep_ok e -> is_v6 e \/ is_v4 e -> to_string e = Some (full_text e) /\ (List.length (full_text e) < 64)%nat.
Proof.
  intros O V. pose proof (scheme_len (e_flags e)) as SL. pose proof (dec_len_port _ (eo_port _ O)) as DL.
  assert (D1 : (1 <= List.length (dec (e_port e)))%nat).
  { pose proof (reads_nonempty _ _ _ (dec_ok (e_port e))). destruct (dec (e_port e)); [contradiction|cbn; lia]. }
  unfold to_string, to_cstring, full_text, addr_port. rewrite has4, has6.
  replace (N.of_nat (List.length (scheme_of (e_flags e))) <? 64) with true by lia.
  destruct (N.testbit (e_flags e) 2) eqn:F4.
  - pose proof (text4_len _ (eo_len _ O) (eo_bytes _ O)) as TL. unfold addr_port4.
    match goal with |- context [?a <=? ?b] => replace (a <=? b) with false by lia end.
    rewrite app_length. cbn [List.length].
    match goal with |- context [?a <=? ?b] => replace (a <=? b) with false by lia end.
    split; [reflexivity|]. rewrite !app_length. cbn [List.length]. lia.
  - destruct V as [V|V]; [|unfold is_v4 in V; congruence]. unfold is_v6 in V. rewrite V.
    pose proof (ntop_len _ (eo_len _ O) (eo_bytes _ O)) as TL. unfold addr_port6.
    match goal with |- context [?a <? 8] => replace (a <? 8) with false by lia end. cbv zeta.
    match goal with |- context [?a <? ?b] => replace (a <? b) with false by lia end.
    match goal with |- context [?a <=? ?b] => replace (a <=? b) with false by (rewrite app_length; cbn [List.length str]; lia) end.
    split; [reflexivity|]. rewrite !app_length. cbn [List.length]. lia.
Qed.
Lemma round_trip e : ep_ok e -> is_v6 e \/ is_v4 e -> (is_v4 e \/ ~ dotted (e_addr e)) ->
  exists t, to_string e = Some t /\
    of_string t = PAddress (mk_ep (flags_of (N.testbit (e_flags e) 4) (N.testbit (e_flags e) 1) + (if N.testbit (e_flags e) 2 then 4 else 8)) 0
                              (if N.testbit (e_flags e) 2 then firstn 4 (e_addr e) ++ repeat 0 12 else e_addr e) (e_port e) 0 0) None.
Proof.
  intros O V D. destruct (to_string_full e O V) as [T _]. exists (full_text e). split; [exact T|]. unfold full_text.
  pose proof (scheme_of_ok (e_flags e)) as Sc.
  pose proof (T_port (N.testbit (e_flags e) 1) _ _ (dec_ok (e_port e)) (eo_port _ O)) as Tl.
  destruct (N.testbit (e_flags e) 2) eqn:F4.
  - apply of_string_v4; [assumption| |assumption]. apply text4_ok; [exact (eo_len _ O)|exact (eo_bytes _ O)].
  - assert (ND : ~ dotted (e_addr e)) by (destruct D as [D|D]; [unfold is_v4 in D; congruence|exact D]).
    apply of_string_v6; [assumption| |assumption]. apply ntop6_text; [exact (eo_len _ O)|exact (eo_bytes _ O)|].
    destruct (embedded (words (e_addr e)) (best_run (map is0 (words (e_addr e))))) eqn:E; [|reflexivity].
    exfalso. apply ND, embedded_dotted; [exact (eo_len _ O)|exact (eo_bytes _ O)|exact E].
Qed.

(** Any buffer: the text as a whole or nothing. *)
Lemma to_cstring_whole e n t : ep_ok e -> to_cstring e n = Some t -> t = full_text e /\ N.of_nat (List.length t) < n.
Proof.
  intros O. pose proof (scheme_len (e_flags e)) as SL. unfold to_cstring, full_text, addr_port. rewrite has4, has6.
  destruct (N.of_nat (List.length (scheme_of (e_flags e))) <? n) eqn:L1; [|discriminate].
  destruct (N.testbit (e_flags e) 2) eqn:F4.
  - unfold addr_port4. destruct (_ <=? _) eqn:L2; [discriminate|]. cbv zeta. match goal with |- context [?a <=? ?b] => destruct (a <=? b) eqn:L3 end; [discriminate|].
    intros [= <-]. split; [reflexivity|]. rewrite !app_length in *. cbn [List.length] in *. lia.
  - destruct (N.testbit (e_flags e) 3) eqn:F6; [|discriminate]. unfold addr_port6. destruct (_ <? 8) eqn:L2; [discriminate|]. cbv zeta.
    match goal with |- context [?a <? ?b] => destruct (a <? b) eqn:L3 end; [discriminate|].
    match goal with |- context [?a <=? ?b] => destruct (a <=? b) eqn:L4 end; [discriminate|].
    intros [= <-]. split; [reflexivity|]. cbn [List.length str app] in *. rewrite !app_length in *. cbn [List.length] in *. rewrite app_length. cbn [List.length]. lia.
Qed.

(** * Paths *)
Lemma after_sep_nocolon h r : ~ In 58 h -> after_sep (h ++ 58 :: 47 :: 47 :: r) = Some r.
Proof.
  induction h as [|c h IH]; intros H; [reflexivity|]. cbn [app after_sep].
  assert (X : after_sep (h ++ 58 :: 47 :: 47 :: r) = Some r) by (apply IH; intros Y; apply H; right; exact Y).
  destruct c as [|p]; [exact X|]. do 6 (destruct p as [p|p|]; try exact X). exfalso. apply H. left. reflexivity.
Qed.
Lemma parse_path_ok sch host path query : ~ In 58 sch -> ~ In 47 host -> ~ In 63 path -> (query = [] \/ exists q, query = 63 :: q) ->
  parse_path (sch ++ str "://" ++ host ++ [47] ++ path ++ query) = Some ([47] ++ path).
Proof.
  intros Hs Hh Hp Hq. unfold parse_path. change (str "://") with [58; 47; 47]. cbn [app]. rewrite after_sep_nocolon by assumption.
  rewrite index_app by assumption. rewrite index_here. cbn [option_map]. rewrite Nat.add_0_r, skipn_app, Nat.sub_diag, skipn_all. cbn [app skipn].
  change (47 :: path ++ query) with ((47 :: path) ++ query). rewrite index_app by (intros [X|X]; [discriminate|exact (Hp X)]).
  destruct Hq as [->|[q ->]].
  - cbn [index_of option_map]. rewrite app_nil_r. reflexivity.
  - rewrite index_here. cbn [option_map]. rewrite Nat.add_0_r, firstn_app, Nat.sub_diag, firstn_all. cbn [firstn]. rewrite app_nil_r. reflexivity.
Qed.
