From Verif Require Import Common Ep_Model Ep_Spec Ep_Proofs Rep_Model Jp_Spec Jp_Proofs Jd_Model Jd_Spec.
From Coq Require Import String.
Local Open Scope string_scope.
Local Open Scope list_scope.
Local Open Scope nat_scope.

(** ** Running the tokenizer over a piece of text *)
Section Run.
Context {D : Type} (cb : tok -> D -> cbres * D).
Notation st := (@st D).

Fixpoint run (js : list N) (s : st) : @next D :=
  match js with [] => Go s | c :: r => match step cb c s with Go s' => run r s' | Stop x d => Stop x d end end.
Lemma run_app a b s s' : run a s = Go s' -> run (a ++ b) s = run b s'.
Proof.
  revert s. induction a as [|c a IH]; intros s H; cbn [run app] in *; [injection H as ->; reflexivity|].
  destruct (step cb c s); [apply IH, H | discriminate].
Qed.
Lemma run_app_go a b s s' s'' : run a s = Go s' -> run b s' = Go s'' -> run (a ++ b) s = Go s''.
Proof. intros H1 H2. rewrite (run_app a b s s' H1). exact H2. Qed.
Lemma run_jsmn a b s s' : run a s = Go s' -> jsmn_from cb (a ++ b) s = jsmn_from cb b s'.
Proof.
  revert s. induction a as [|c a IH]; intros s H; cbn [run app] in H |- *; [injection H as ->; reflexivity|].
  destruct (step cb c s) as [s1|] eqn:E; [|discriminate]. cbn [jsmn_from]. rewrite E.
  destruct (s_mode s) eqn:M; try (apply IH, H). destruct (c =? 0)%N eqn:Z; [|apply IH, H].
  apply N.eqb_eq in Z. subst c. destruct s as [m dep obj acc d n]. cbn [s_mode] in M. subst m. discriminate.
Qed.

(** Inside a container: the text is skipped and collected. *)
Definition idle (m : mode) : Prop := m = Scan \/ m = Prim.
Definition skips (t : list N) : Prop :=
  forall k obj acc d n, exists m, idle m /\ run t (mkSt Scan (S k) obj acc d n) = Go (mkSt m (S k) obj (rev t ++ acc) d n).
(** The same from a primitive that a delimiter is about to end. *)
Definition skips_idle (t : list N) : Prop :=
  forall m k obj acc d n, idle m -> exists m', idle m' /\ run t (mkSt m (S k) obj acc d n) = Go (mkSt m' (S k) obj (rev t ++ acc) d n).

Lemma idle_skips t : skips_idle t -> skips t.
Proof. intros H k obj acc d n. apply H. left. reflexivity. Qed.
Lemma skip_nil : skips_idle [].
Proof. intros m k obj acc d n H. exists m. split; [exact H | reflexivity]. Qed.
Definition blank (c : N) : Prop := c = 32%N \/ c = 9%N \/ c = 10%N \/ c = 13%N \/ c = 44%N \/ c = 58%N.
Lemma step_blank m k obj acc d n c : blank c -> idle m -> step cb c (mkSt m (S k) obj acc d n) = Go (mkSt Scan (S k) obj (c :: acc) d n).
Proof. intros H [->| ->]; destruct H as [->|[->|[->|[->|[->| ->]]]]]; reflexivity. Qed.
Lemma skip_ws w : ws w -> skips_idle w.
Proof.
  induction 1 as [|c w Hc Hw IH]; [apply skip_nil|]. intros m k obj acc d n Hm.
  destruct (IH Scan k obj (c :: acc) d n (or_introl eq_refl)) as (m' & Hm' & R). exists m'. split; [exact Hm'|].
  cbn [run]. rewrite step_blank; [|unfold blank; tauto|exact Hm]. rewrite R. cbn [rev]. rewrite <- app_assoc. reflexivity.
Qed.
(** Behind a comma or colon the tokenizer is between tokens. *)
Lemma skip_sep c t : (c = 44%N \/ c = 58%N) -> skips t -> skips_idle (c :: t).
Proof.
  intros Hc Ht m k obj acc d n Hm. destruct (Ht k obj (c :: acc) d n) as (m' & Hm' & R). exists m'. split; [exact Hm'|].
  cbn [run]. rewrite step_blank; [|unfold blank; tauto|exact Hm]. rewrite R. cbn [rev]. rewrite <- app_assoc. reflexivity.
Qed.
Lemma skip_app a b : skips a -> skips_idle b -> skips (a ++ b).
Proof.
  intros Ha Hb k obj acc d n. destruct (Ha k obj acc d n) as (m & Hm & R). destruct (Hb m k obj (rev a ++ acc) d n Hm) as (m' & Hm' & R').
  exists m'. split; [exact Hm'|]. rewrite (run_app_go _ _ _ _ _ R R'). rewrite rev_app_distr, app_assoc. reflexivity.
Qed.
Lemma skip_ws_app w b : ws w -> skips b -> skips (w ++ b).
Proof.
  intros Hw Hb. assert (H : forall k obj acc d n, run w (mkSt Scan (S k) obj acc d n) = Go (mkSt Scan (S k) obj (rev w ++ acc) d n)).
  { clear Hb. induction Hw as [|c w Hc Hw IH]; intros; [reflexivity|]. cbn [run]. rewrite step_blank; [|unfold blank; tauto|left; reflexivity].
    rewrite IH. cbn [rev]. rewrite <- app_assoc. reflexivity. }
  intros k obj acc d n. destruct (Hb k obj (rev w ++ acc) d n) as (m & Hm & R). exists m. split; [exact Hm|].
  rewrite (run_app_go _ _ _ _ _ (H k obj acc d n) R). rewrite rev_app_distr, app_assoc. reflexivity.
Qed.
Lemma skip_separated {A} (P : A -> list N -> Prop) l t : (forall a u, In a l -> P a u -> skips u) -> separated P l t -> skips t.
Proof.
  intros H S. induction S as [w Hw|a t w1 w2 H1 H2 Ha|a t w1 w2 b l u H1 H2 Ha Hu IH].
  - apply idle_skips, skip_ws, Hw.
  - apply skip_ws_app; [exact H1|]. apply skip_app; [apply (H a); [left; reflexivity | exact Ha] | apply skip_ws, H2].
  - apply skip_ws_app; [exact H1|]. rewrite (app_assoc t w2). apply skip_app; [apply skip_app; [apply (H a); [left; reflexivity | exact Ha] | apply skip_ws, H2]|].
    apply skip_sep; [left; reflexivity|]. apply IH. intros x v Hx. apply H. right. exact Hx.
Qed.
Lemma skip_container t o c : (o = 123%N /\ c = 125%N) \/ (o = 91%N /\ c = 93%N) -> skips t -> skips ([o] ++ t ++ [c]).
Proof.
  intros Hoc Ht k obj acc d n. destruct (Ht (S k) obj (o :: acc) d n) as (m & Hm & R). exists Scan. split; [left; reflexivity|].
  apply (run_app_go [o] _ _ (mkSt Scan (S (S k)) obj (o :: acc) d n)); [destruct Hoc as [[-> _]|[-> _]]; reflexivity|].
  apply (run_app_go t _ _ _ _ R). rewrite !rev_app_distr. cbn [rev app]. rewrite <- app_assoc. cbn [app].
  destruct Hm as [->| ->]; destruct Hoc as [[_ ->]|[_ ->]]; reflexivity.
Qed.

(** Plain strings. *)
Lemma step_plain c dep obj acc d n : plain_char c -> step cb c (mkSt Str dep obj acc d n) = Go (mkSt Str dep obj (c :: acc) d n).
Proof.
  intros (H1 & H2 & H3). cbn [step].
  rewrite (proj2 (N.eqb_neq c 0)) by lia. rewrite (proj2 (N.eqb_neq c 34)) by lia. rewrite (proj2 (N.eqb_neq c 92)) by lia. reflexivity.
Qed.
Lemma run_plain s dep obj acc d n : plain_text s -> run s (mkSt Str dep obj acc d n) = Go (mkSt Str dep obj (rev s ++ acc) d n).
Proof.
  intros H. revert acc. induction H as [|c s Hc Hs IH]; intros acc; [reflexivity|]. cbn [run]. rewrite step_plain by exact Hc. rewrite IH.
  cbn [rev]. rewrite <- app_assoc. reflexivity.
Qed.
Lemma skip_quote s : plain_text s -> skips (quote s).
Proof.
  intros H k obj acc d n. exists Scan. split; [left; reflexivity|]. unfold quote.
  change (34%N :: s ++ [34%N]) with ([34%N] ++ s ++ [34%N]).
  apply (run_app_go _ _ _ (mkSt Str (S k) obj (34%N :: acc) d n)); [reflexivity|].
  apply (run_app_go _ _ _ _ _ (run_plain s _ _ _ _ _ H)). cbn [run step].
  rewrite !rev_app_distr. cbn [rev app]. rewrite <- app_assoc. reflexivity.
Qed.

(** Primitives. *)
Definition prim_char (c : N) : Prop := (32 < c < 127)%N /\ c <> 58%N /\ c <> 44%N /\ c <> 93%N /\ c <> 125%N.
Definition prim_start (c : N) : Prop := prim_char c /\ c <> 34%N /\ c <> 91%N /\ c <> 123%N.
Definition prim_text (s : list N) : Prop := match s with [] => False | c :: r => prim_start c /\ Forall prim_char r end.
Lemma step_prim c dep obj acc d n : prim_char c -> step cb c (mkSt Prim dep obj acc d n) = Go (mkSt Prim dep obj (c :: acc) d n).
Proof.
  intros (H1 & H2 & H3 & H4 & H5). cbn [step]. unfold is_delim.
  repeat match goal with |- context [(c =? ?k)%N] => rewrite (proj2 (N.eqb_neq c k)) by lia end. cbn [orb].
  destruct (N.ltb_spec c 32); [lia|]. destruct (N.leb_spec 127 c); [lia|]. reflexivity.
Qed.
Lemma run_prim s dep obj acc d n : Forall prim_char s -> run s (mkSt Prim dep obj acc d n) = Go (mkSt Prim dep obj (rev s ++ acc) d n).
Proof.
  intros H. revert acc. induction H as [|c s Hc Hs IH]; intros acc; [reflexivity|]. cbn [run]. rewrite step_prim by exact Hc. rewrite IH.
  cbn [rev]. rewrite <- app_assoc. reflexivity.
Qed.
Lemma start_prim c dep obj acc d n : prim_start c -> step cb c (mkSt Scan dep obj acc d n) = Go (mkSt Prim dep obj (match dep with O => [c] | _ => c :: acc end) d n).
Proof.
  intros ((H1 & H2 & H3 & H4 & H5) & H6 & H7 & H8). cbn [step]. unfold scan_char.
  repeat match goal with |- context [(c =? ?k)%N] => rewrite (proj2 (N.eqb_neq c k)) by lia end. cbn [orb].
  destruct (N.ltb_spec c 32); [lia|]. destruct (N.leb_spec 127 c); [lia|]. reflexivity.
Qed.
Lemma skip_prim s : prim_text s -> skips s.
Proof.
  destruct s as [|c s]; [contradiction|]. intros [Hc Hs] k obj acc d n. exists Prim. split; [right; reflexivity|].
  cbn [run]. rewrite start_prim by exact Hc. rewrite run_prim by exact Hs. cbn [rev]. rewrite <- app_assoc. reflexivity.
Qed.

(** ** Tokens at the outermost level *)
(** All tokens so far have been reported with result [d] and count [n], except that a primitive whose report will
    give that may still be open. *)
Definition done (s : st) (d : D) (n : nat) : Prop :=
  (exists obj acc, s = mkSt Scan 0 obj acc d n) \/
  (exists obj t d0 n0, s = mkSt Prim 0 obj (rev t) d0 n0 /\ cb (TPrim t) d0 = (CbTrue, d) /\ n = S n0).

Lemma done_blank s d n c : blank c -> done s d n -> exists obj acc, step cb c s = Go (mkSt Scan 0 obj acc d n).
Proof.
  intros Hc [(obj & acc & ->)|(obj & t & d0 & n0 & -> & E & ->)].
  - exists obj, (c :: acc). destruct Hc as [->|[->|[->|[->|[->| ->]]]]]; reflexivity.
  - exists obj, [c]. cbn [step]. rewrite rev_involutive. unfold emit. rewrite E.
    destruct Hc as [->|[->|[->|[->|[->| ->]]]]]; reflexivity.
Qed.
Lemma done_ws s d n w : ws w -> done s d n -> exists s', run w s = Go s' /\ done s' d n.
Proof.
  intros Hw. revert s. induction Hw as [|c w Hc Hw IH]; intros s H; [exists s; split; [reflexivity | exact H]|].
  destruct (done_blank s d n c) as (obj & acc & E); [unfold blank; tauto | exact H|].
  cbn [run]. rewrite E. apply IH. left. exists obj, acc. reflexivity.
Qed.
Lemma scan_ws w obj acc d n : ws w -> exists acc', run w (mkSt Scan 0 obj acc d n) = Go (mkSt Scan 0 obj acc' d n).
Proof.
  intros Hw. revert acc. induction Hw as [|c w Hc Hw IH]; intros acc; [exists acc; reflexivity|].
  cbn [run]. destruct Hc as [->|[->|[->| ->]]]; apply IH.
Qed.
Lemma done_finish s d n : done s d n -> finish cb s = (ROk n, d).
Proof.
  intros [(obj & acc & ->)|(obj & t & d0 & n0 & -> & E & ->)]; [reflexivity|].
  unfold finish. cbn [s_dep s_mode s_acc s_data s_cnt]. rewrite rev_involutive. unfold emit. rewrite E. reflexivity.
Qed.

(** [t] reports one token with the effect [d] to [d']. *)
Definition reports (t : list N) (d d' : D) : Prop :=
  forall obj acc n, exists s, run t (mkSt Scan 0 obj acc d n) = Go s /\ done s d' (S n).
Lemma report_prim s d d' : prim_text s -> cb (TPrim s) d = (CbTrue, d') -> reports s d d'.
Proof.
  destruct s as [|c s]; [contradiction|]. intros [Hc Hs] E obj acc n.
  exists (mkSt Prim 0 obj (rev (c :: s)) d n). split.
  - cbn [run]. rewrite start_prim by exact Hc. rewrite run_prim by exact Hs. reflexivity.
  - right. exists obj, (c :: s), d, n. auto.
Qed.
Lemma report_quote s d d' : plain_text s -> cb (TStr s) d = (CbTrue, d') -> reports (quote s) d d'.
Proof.
  intros H E obj acc n. exists (mkSt Scan 0 obj [] d' (S n)). split; [|left; exists obj, []; reflexivity].
  unfold quote. change (34%N :: s ++ [34%N]) with ([34%N] ++ s ++ [34%N]).
  apply (run_app_go _ _ _ (mkSt Str 0 obj [] d n)); [reflexivity|].
  apply (run_app_go _ _ _ _ _ (run_plain s _ _ _ _ _ H)). cbn [run step]. rewrite app_nil_r, rev_involutive. unfold emit. rewrite E. reflexivity.
Qed.
Definition closes (t : list N) (d d' : D) : Prop :=
  forall obj acc n, exists obj', run t (mkSt Scan 0 obj acc d n) = Go (mkSt Scan 0 obj' [] d' (S n)).
Lemma closes_reports t d d' : closes t d d' -> reports t d d'.
Proof. intros H obj acc n. destruct (H obj acc n) as (obj' & R). eexists. split; [exact R|]. left. exists obj', []. reflexivity. Qed.
Lemma close_object t d d' : skips t -> cb (TObj t) d = (CbTrue, d') -> closes ([123%N] ++ t ++ [125%N]) d d'.
Proof.
  intros Ht E obj acc n. exists true.
  apply (run_app_go _ _ _ (mkSt Scan 1 true [] d n)); [reflexivity|].
  destruct (Ht 0 true [] d n) as (m & Hm & R). apply (run_app_go _ _ _ _ _ R). rewrite app_nil_r.
  assert (X : step cb 125%N (mkSt m 1 true (rev t) d n) = Go (mkSt Scan 0 true [] d' (S n))).
  { destruct Hm as [->| ->]; cbn [step]; unfold is_delim, scan_char, emit; rewrite rev_involutive; cbn -[rev]; rewrite E; reflexivity. }
  cbn [run]. rewrite X. reflexivity.
Qed.
Lemma close_array t d d' : skips t -> cb (TArr t) d = (CbTrue, d') -> closes ([91%N] ++ t ++ [93%N]) d d'.
Proof.
  intros Ht E obj acc n. exists false.
  apply (run_app_go _ _ _ (mkSt Scan 1 false [] d n)); [reflexivity|].
  destruct (Ht 0 false [] d n) as (m & Hm & R). apply (run_app_go _ _ _ _ _ R). rewrite app_nil_r.
  assert (X : step cb 93%N (mkSt m 1 false (rev t) d n) = Go (mkSt Scan 0 false [] d' (S n))).
  { destruct Hm as [->| ->]; cbn [step]; unfold is_delim, scan_char, emit; rewrite rev_involutive; cbn -[rev]; rewrite E; reflexivity. }
  cbn [run]. rewrite X. reflexivity.
Qed.
Lemma report_object t d d' : skips t -> cb (TObj t) d = (CbTrue, d') -> reports ([123%N] ++ t ++ [125%N]) d d'.
Proof. intros. apply closes_reports, close_object; assumption. Qed.
Lemma report_array t d d' : skips t -> cb (TArr t) d = (CbTrue, d') -> reports ([91%N] ++ t ++ [93%N]) d d'.
Proof. intros. apply closes_reports, close_array; assumption. Qed.

(** A sequence of items: each takes [w] tokens and changes the data by [upd]. *)
Definition takes (w : nat) (t : list N) (d d' : D) : Prop :=
  forall obj acc n, exists s, run t (mkSt Scan 0 obj acc d n) = Go s /\ done s d' (n + w).
Lemma reports_takes t d d' : reports t d d' -> takes 1 t d d'.
Proof. intros H obj acc n. destruct (H obj acc n) as (s & R & Hs). exists s. split; [exact R|]. rewrite Nat.add_1_r. exact Hs. Qed.
Lemma run_separated {A} (P : A -> list N -> Prop) (I : list A -> D -> Prop) (upd : A -> D -> D) w l t :
  (forall a r u d, In a l -> P a u -> List.length u <= List.length t -> I (a :: r) d -> takes w u d (upd a d) /\ I r (upd a d)) ->
  separated P l t -> forall d obj acc n, I l d ->
  exists s, run t (mkSt Scan 0 obj acc d n) = Go s /\ done s (fold_left (fun d a => upd a d) l d) (n + w * List.length l).
Proof.
  intros H HS. induction HS as [x Hx|a t w1 w2 H1 H2 Ha|a t w1 w2 b l u H1 H2 Ha Hu IH]; intros d obj acc n Hd.
  - destruct (scan_ws x obj acc d n Hx) as (acc' & R). exists (mkSt Scan 0 obj acc' d n). split; [exact R|]. left. exists obj, acc'.
    cbn [List.length fold_left]. rewrite Nat.mul_0_r, Nat.add_0_r. reflexivity.
  - destruct (scan_ws w1 obj acc d n H1) as (acc' & R). rewrite (run_app _ _ _ _ R).
    destruct (H a [] t d (or_introl eq_refl) Ha ltac:(rewrite !app_length; lia) Hd) as [X _]. destruct (X obj acc' n) as (s & R2 & Hs).
    rewrite (run_app _ _ _ _ R2). cbn [List.length fold_left]. rewrite Nat.mul_1_r. apply done_ws; [exact H2 | exact Hs].
  - destruct (scan_ws w1 obj acc d n H1) as (acc' & R). rewrite (run_app _ _ _ _ R).
    destruct (H a (b :: l) t d (or_introl eq_refl) Ha ltac:(rewrite !app_length; lia) Hd) as [X HI]. destruct (X obj acc' n) as (s & R2 & Hs).
    rewrite (run_app _ _ _ _ R2). destruct (done_ws s _ _ w2 H2 Hs) as (s2 & R3 & Hs2). rewrite (run_app _ _ _ _ R3).
    destruct (done_blank s2 _ _ 44%N ltac:(unfold blank; tauto) Hs2) as (obj' & acc2 & E).
    cbn [app run]. rewrite E. cbn [fold_left].
    destruct (IH ltac:(intros x r v d0 Hx Hp Hl; apply H; [right; exact Hx | exact Hp | rewrite !app_length; lia]) (upd a d) obj' acc2 (n + w) HI) as (s3 & R4 & Hs3).
    exists s3. split; [exact R4|]. replace (n + w * List.length (a :: b :: l)) with (n + w + w * List.length (b :: l)) by (cbn [List.length]; lia). exact Hs3.
Qed.
Lemma jsmn_separated {A} (P : A -> list N -> Prop) (I : list A -> D -> Prop) (upd : A -> D -> D) w l t d :
  (forall a r u d, In a l -> P a u -> List.length u <= List.length t -> I (a :: r) d -> takes w u d (upd a d) /\ I r (upd a d)) ->
  separated P l t -> I l d -> jsmn cb t d = (ROk (w * List.length l), fold_left (fun d a => upd a d) l d).
Proof.
  intros H HS Hd. destruct (run_separated P I upd w l t H HS d false [] 0 Hd) as (s & R & Hs).
  unfold jsmn. rewrite <- (app_nil_r t). rewrite (run_jsmn _ _ _ _ R). cbn [jsmn_from]. apply done_finish, Hs.
Qed.
End Run.
