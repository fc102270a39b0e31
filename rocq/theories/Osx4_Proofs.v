(** Messages protected with OSCORE: which message an answer answers, and exchanges that work. *)
From Verif Require Import Common Oscore_Model Oscore_Spec Oscore_Proofs Osx_Model Osx_Spec Osx_Proofs Osx2_Proofs Osx3_Proofs.
Local Open Scope N_scope.

Section Agree.
Variable civ : list N -> list N.
Hypothesis civ_len : forall k, List.length (civ k) = 13%nat.
Variable known : list N -> bool.
Notation inv := (inv civ).

(** ** What an answer is bound to *)
Definition bound (s : st) : Prop := forall e rp, In e (prot s) -> e_to e = Some rp ->
  exists n b, e_ans e = Some n /\ nth_error (acc s) n = Some b /\ a_dev b = e_dev e /\ a_mcast b = false /\ a_piv b = rp /\
              a_secret b = e_secret e /\ a_send b = e_send e.

Lemma nth_app {A} (l r : list A) n x : nth_error l n = Some x -> nth_error (l ++ r) n = Some x.
Proof. intros H. rewrite nth_error_app1; [exact H|]. apply nth_error_Some. congruence. Qed.

Lemma step_bound s o : inv s -> answers_once s o -> bound s -> bound (step civ s o).
Proof.
  intros V AO B e rp I T. destruct (step_hist civ s o) as [[l AL] PX].
  assert (OLD : In e (prot s) -> exists n b, e_ans e = Some n /\ nth_error (acc (step civ s o)) n = Some b /\ a_dev b = e_dev e /\ a_mcast b = false /\ a_piv b = rp /\
              a_secret b = e_secret e /\ a_send b = e_send e).
  { intros J. destruct (B e rp J T) as (n & b & X & Y & Z). exists n, b. split; [exact X|]. split; [rewrite AL; now apply nth_app|exact Z]. }
  destruct PX as [PX|(e' & PX & AD)]; rewrite PX in I; [auto|]. apply in_app_or in I. destruct I as [I|[<-|[]]]; [auto|].
  destruct AD as [X|[(d & n & ty & mid & tok & i & con & a & c & -> & NA & E1 & E2 & F & E3 & E4 & E5 & E6 & E7)|(d & k & m & -> & NK & R)]]; [congruence| |].
  - exists n, a. split; [exact E6|]. split; [rewrite AL; now apply nth_app|]. destruct (v_actx _ _ V a (nth_error_In _ _ NA)) as (c0 & I0 & S0). unfold stat in S0. injection S0 as S1 S2 S3 S4 S5.
    apply find_in in F. destruct F as [Ic Hc]. unfold has_subject in Hc. apply N.eqb_eq in Hc. rewrite E1 in I0.
    assert (c0 = c) by (apply (one_ctx s d); [apply V|exact I0|exact Ic|congruence]). subst c0. repeat split; congruence.
  - exfalso. specialize (AO m NK). congruence.
Qed.

Lemma run_bound l : forall s, inv s -> along civ answers_once s l -> bound s -> bound (run civ s l).
Proof. induction l as [|o l IH]; [intros s V _ B; exact B|]. intros s V [A C] B. cbn. apply IH; [now apply step_inv|exact C|now apply step_bound]. Qed.

Lemma kssn_one s q q' : inv s -> In q (prot s) -> In q' (prot s) -> e_send q <> [] -> kssn q = kssn q' -> q = q'.
Proof.
  intros V I J NE E. assert (ND := v_nodup _ _ V).
  assert (SQ : sendable q = true) by (unfold sendable; destruct (e_send q); [contradiction|reflexivity]).
  assert (SQ' : sendable q' = true) by (unfold kssn in E; injection E as E1 E2 E3; unfold sendable in *; now rewrite <- E2).
  assert (I1 : In q (filter sendable (prot s))) by (apply filter_In; auto). assert (J1 : In q' (filter sendable (prot s))) by (apply filter_In; auto).
  revert ND I1 J1 E. generalize (filter sendable (prot s)). clear. induction l as [|x l IH]; [contradiction|]. cbn. intros ND I J E. inversion ND; subst.
  destruct I as [->|I], J as [->|J]; auto.
  - exfalso. rewrite E in H1. apply H1. now apply in_map.
  - exfalso. rewrite <- E in H1. apply H1. now apply in_map.
Qed.

(** The peer that answers, what it answers, and the message of this device that is. *)
Lemma agreement s a rp : inv s -> authentic civ known s -> bound s -> in_range s -> In a (acc s) -> a_to a = Some rp -> a_type a = Pair -> known (a_secret a) = false ->
  exists e b q, In e (prot s) /\ origin a e /\ (exists n, e_ans e = Some n /\ nth_error (acc s) n = Some b) /\ a_dev b = e_dev e /\ a_mcast b = false /\
    In q (prot s) /\ origin b q /\ e_dev q = a_dev a /\ e_secret q = a_secret a /\ e_send q = a_send a /\ rp = store_piv (e_ssn q) /\
    (e_token q = a_token a \/ e_mid q = a_mid a).
Proof.
  intros V AU BO IR I T TY KN. assert (W := v_wf _ _ V).
  destruct (AU a I KN) as (e & c' & Ie & Ic' & WC & OR & _ & FR). specialize (FR rp T).
  destruct OR as (O1 & O2 & O3 & O4 & O5).
  assert (ET : e_to e = Some rp) by congruence. assert (NR := v_to _ _ V e rp Ie ET).
  destruct (BO e rp Ie ET) as (n & b & EA & NB & B1 & B2 & B3 & B4 & B5). assert (IB := nth_error_In _ _ NB).
  destruct (v_mine _ _ V a rp I T) as [X|X]; [contradiction|]. destruct X as (q & c & Iq & Q1 & Ic & Q2 & Q3 & Q4 & Q5 & Q6).
  (* the context of [a] *)
  destruct (v_actx _ _ V a I) as (c0 & I0 & S0). unfold stat in S0. injection S0 as S1 S2 S3 S4 S5.
  assert (c0 = c) by (apply (one_ctx s (a_dev a)); [exact W|exact I0|exact Ic|congruence]). subst c0.
  (* the context of [b] *)
  destruct (v_actx _ _ V b IB) as (cb & Ib & Sb). unfold stat in Sb. injection Sb as R1 R2 R3 R4 R5.
  destruct WC as (W1 & W2 & W3).
  destruct (proj1 W (a_dev a) c Ic) as (_ & _ & _ & _ & NS & NRc & _).
  assert (XS : x_recv c <> []) by (apply NRc; congruence).
  assert (XC : x_send c' <> []) by congruence.
  rewrite B1 in Ib. destruct (proj2 (proj2 W) (e_dev e) cb (e_dev e) c' Ib Ic') as [_ SUB].
  { apply (has_send s (e_dev e)); [exact W|exact Ib|congruence]. }
  { apply (has_send s (e_dev e)); [exact W|exact Ic'|exact XC]. }
  { congruence. }
  { congruence. }
  assert (cb = c') by (apply (one_ctx s (e_dev e)); auto). subst cb.
  (* the origin of [b] *)
  assert (KB : known (a_secret b) = false) by congruence.
  destruct (AU b IB KB) as (q' & k' & Iq' & _ & _ & OB & _ & _). destruct OB as (P1 & P2 & P3 & P4 & P5).
  assert (NSC : x_send c <> []) by (apply NS; congruence).
  assert (q' = q).
  { apply (kssn_one s); auto.
    - congruence.
    - unfold kssn. f_equal; [f_equal; congruence|]. rewrite B3, Q5, store_piv_value, !N.mod_small in P5; [congruence|now apply IR|now apply IR]. }
  subst q'. exists e, b, q. split; [exact Ie|]. split; [repeat split; auto|]. split; [eauto|]. split; [exact B1|]. split; [exact B2|]. split; [exact Iq|].
  split; [repeat split; auto|]. split; [exact Q1|]. split; [congruence|]. split; [congruence|]. split; [exact Q5|]. exact Q6.
Qed.

(** ** Nonces *)
Definition nonce_ct (x : ct) : option (key * list N) := match x with Ct k n _ _ => Some (k, n) | Junk => None end.
Lemma nodup_nth {A B} (f : A -> B) (p : A -> bool) l i j x y : NoDup (map f (filter p l)) -> nth_error l i = Some x -> nth_error l j = Some y ->
  p x = true -> f x = f y -> p y = true -> i = j.
Proof.
  revert i j. induction l as [|z l IH]; intros i j ND I J PX E PY; [destruct i; discriminate|]. cbn in ND.
  assert (IN : forall k w, nth_error l k = Some w -> p w = true -> In (f w) (map f (filter p l))).
  { intros k w K PW. apply in_map, filter_In. split; [now apply nth_error_In with k|exact PW]. }
  destruct i as [|i], j as [|j]; cbn in I, J; auto.
  - injection I as ->. rewrite PX in ND. inversion ND; subst. exfalso. rewrite E in H1. eauto.
  - injection J as ->. rewrite PY in ND. inversion ND; subst. exfalso. rewrite <- E in H1. eauto.
  - f_equal. apply IH; auto. destruct (p z); [now inversion ND|exact ND].
Qed.

Lemma nonce_once s i j e e' : inv s -> in_range s -> nth_error (prot s) i = Some e -> nth_error (prot s) j = Some e' -> e_send e <> [] ->
  nonce_ct (e_ct e) = nonce_ct (e_ct e') -> i = j.
Proof.
  intros V IR I J NE E. assert (Ie := nth_error_In _ _ I). assert (Ie' := nth_error_In _ _ J).
  destruct (v_prot _ _ V e Ie) as (c & Ic & (W1 & W2 & W3) & _). destruct (v_prot _ _ V e' Ie') as (c' & Ic' & (W1' & W2' & W3') & _).
  destruct (proj1 (v_wf _ _ V) _ c Ic) as (L1 & _). destruct (proj1 (v_wf _ _ V) _ c' Ic') as (L1' & _).
  rewrite W3, W3' in E. cbn in E. injection E as E1 E2 E3. rewrite <- E1 in E3.
  assert (ES : e_ssn e = e_ssn e').
  { destruct (N.eq_dec (e_ssn e) (e_ssn e')) as [|D]; [assumption|]. exfalso. apply (nonce_ssn_distinct (x_send c) (x_send c') (civ (x_secret c)) (e_ssn e) (e_ssn e')); auto. congruence. }
  eapply (nodup_nth kssn sendable); eauto using (v_nodup _ _ V).
  - unfold sendable. destruct (e_send e); [contradiction|reflexivity].
  - unfold kssn. congruence.
  - unfold sendable. rewrite W2', <- E2, <- W2. destruct (e_send e); [contradiction|reflexivity].
Qed.
End Agree.
