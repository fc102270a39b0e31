(** Proofs about decoding and lookup of payloads. *)
From Verif Require Import Common Rep_Model Repd_Model Repd_Spec.
Local Open Scope N_scope.

Scheme means_mut := Minimality for means Sort Prop
  with mems_mut := Minimality for mems Sort Prop
  with objs_mut := Minimality for objs Sort Prop.
Combined Scheme means_ind3 from means_mut, mems_mut, objs_mut.
Scheme plain_mut := Minimality for plain Sort Prop
  with pmems_mut := Minimality for pmems Sort Prop
  with plains_mut := Minimality for plains Sort Prop.
Scheme writable_mut := Minimality for writable Sort Prop
  with wmems_mut := Minimality for wmems Sort Prop
  with wobjs_mut := Minimality for wobjs Sort Prop.
Combined Scheme writable_ind3 from writable_mut, wmems_mut, wobjs_mut.

Section CborInd.
  Variable P : cbor -> Prop.
  Hypothesis Hi : forall z, P (CInt z).
  Hypothesis Hb : forall s, P (CBytes s).
  Hypothesis Ht : forall s, P (CText s).
  Hypothesis Hl : forall b, P (CBool b).
  Hypothesis Hd : forall b, P (CDouble b).
  Hypothesis Hn : P CNull.
  Hypothesis Ho : P COther.
  Hypothesis Ha : forall l, Forall P l -> P (CArr l).
  Hypothesis Hm : forall l, Forall (fun kv => P (snd kv)) l -> P (CMap l).
  Hypothesis Hg : forall n c, P c -> P (CTag n c).
  Fixpoint cbor_ind2 (c : cbor) : P c :=
    match c with
    | CInt z => Hi z | CBytes s => Hb s | CText s => Ht s | CBool b => Hl b | CDouble b => Hd b | CNull => Hn | COther => Ho
    | CArr l => Ha l ((fix go l : Forall P l := match l with [] => Forall_nil _ | c :: t => Forall_cons c (cbor_ind2 c) (go t) end) l)
    | CMap l => Hm l ((fix go l : Forall (fun kv => P (snd kv)) l := match l with [] => Forall_nil _ | c :: t => Forall_cons c (cbor_ind2 (snd c)) (go t) end) l)
    | CTag n c => Hg n c (cbor_ind2 c)
    end.
End CborInd.

Lemma wrap64_id z : in64 z -> wrap64 z = z.
Proof. unfold in64, wrap64. intros H. rewrite Z.mod_small; lia. Qed.

Lemma short_ltb s : short s <-> (List.length s <? item_max)%nat = true.
Proof. unfold short, item_max. rewrite Nat.ltb_lt. lia. Qed.

(** Arrays of one simple type. *)
Lemma simple_ok {A} ty it (mk : A -> cbor) get (Q : A -> Prop) l :
  type_ok ty it = true -> (forall a, ctype (mk a) = Some it) -> (forall a, Q a -> get (mk a) = Ok a) -> Forall Q l ->
  simple_array ty get (map mk l) = Ok l.
Proof.
  intros T C G. induction 1 as [|a l Ha Hl IH]; cbn [map simple_array]; [reflexivity|].
  rewrite C, T, (G a Ha), IH. reflexivity.
Qed.

Lemma all_true {A} (l : list A) : Forall (fun _ => True) l.
Proof. induction l; constructor; auto. Qed.

Lemma arr_ne {A} (mk : A -> cbor) l : l <> [] -> exists c t, map mk l = c :: t /\ exists a, c = mk a.
Proof. destruct l as [|a l]; [congruence|]. intros _. cbn [map]. eauto. Qed.

Lemma dec_complete : (forall c v, means c v -> dec c = Ok v) /\ (forall m o, mems m o -> members dec m = Ok o) /\ (forall l o, objs l o -> objects dec l = Ok o).
Proof.
  apply means_ind3; intros.
  - reflexivity.
  - cbn [dec]. now rewrite wrap64_id.
  - reflexivity.
  - reflexivity.
  - reflexivity.
  - reflexivity.
  - cbn [dec]. assumption.
  - cbn [dec]. now rewrite H0.
  - destruct (arr_ne CInt l H) as (c & t & E & a & Ea).
    assert (K : simple_array 9 get_int (map CInt l) = Ok l).
    { apply (simple_ok 9 1 CInt get_int in64); auto. intros b Hb. cbn [get_int]. now rewrite wrap64_id. }
    rewrite E in *. subst c. cbn [dec ctype]. now rewrite K.
  - destruct (arr_ne CDouble l H) as (c & t & E & a & Ea).
    assert (K : simple_array 10 get_double (map CDouble l) = Ok l) by (apply (simple_ok 10 2 CDouble get_double (fun _ => True)); auto using all_true).
    rewrite E in *. subst c. cbn [dec ctype]. now rewrite K.
  - destruct (arr_ne CBool l H) as (c & t & E & a & Ea).
    assert (K : simple_array 11 get_bool (map CBool l) = Ok l) by (apply (simple_ok 11 3 CBool get_bool (fun _ => True)); auto using all_true).
    rewrite E in *. subst c. cbn [dec ctype]. now rewrite K.
  - destruct (arr_ne CBytes l H) as (c & t & E & a & Ea).
    assert (K : simple_array 12 get_bytes (map CBytes l) = Ok l).
    { apply (simple_ok 12 4 CBytes get_bytes short); auto. intros b Hb. cbn [get_bytes]. apply short_ltb in Hb. now rewrite Hb. }
    rewrite E in *. subst c. cbn [dec ctype]. now rewrite K.
  - destruct (arr_ne CText l H) as (c & t & E & a & Ea).
    assert (K : simple_array 13 get_text (map CText l) = Ok l).
    { apply (simple_ok 13 5 CText get_text short); auto. intros b Hb. cbn [get_text]. apply short_ltb in Hb. now rewrite Hb. }
    rewrite E in *. subst c. cbn [dec ctype]. now rewrite K.
  - destruct l as [|c t]; [congruence|]. inversion H0; subst. cbn [dec ctype]. now rewrite H1.
  - reflexivity.
  - cbn [members dec_key bind]. fold (members dec). rewrite H0. cbn [bind]. now rewrite H2.
  - reflexivity.
  - cbn [objects]. fold (objects dec). rewrite H0. cbn [bind]. now rewrite H2.
Qed.

(** Soundness. *)
Lemma bind_ok {A B} (x : out A) (f : A -> out B) b : bind x f = Ok b -> exists a, x = Ok a /\ f a = Ok b.
Proof. destruct x; cbn; intros H; [eauto|discriminate|discriminate]. Qed.

Lemma simple_sound {A} ty get (mk : A -> cbor) (Q : cbor -> Prop) (R : A -> Prop) :
  (forall c a, Q c -> get c = Ok a -> c = mk a /\ R a) ->
  forall l r, Forall Q l -> simple_array ty get l = Ok r -> l = map mk r /\ Forall R r.
Proof.
  intros G. induction l as [|c l IH]; intros r Hq H; cbn [simple_array] in H.
  - injection H as <-. split; constructor.
  - destruct (ctype c) as [t|]; [|discriminate]. destruct (type_ok ty t); [|discriminate].
    apply bind_ok in H. destruct H as (a & Ea & H). apply bind_ok in H. destruct H as (r' & Er & H). injection H as <-.
    inversion Hq; subst. destruct (G c a H1 Ea) as [-> Ra]. destruct (IH r' H2 Er) as [-> Rr]. split; [reflexivity|now constructor].
Qed.

Lemma plains_forall l : plains l -> Forall plain l.
Proof. induction 1; constructor; auto. Qed.
Lemma pmems_forall l : pmems l -> Forall (fun kv => plain (snd kv)) l.
Proof. induction 1; constructor; auto. Qed.

Lemma members_sound l : Forall (fun kv => plain (snd kv) -> forall v, dec (snd kv) = Ok v -> means (snd kv) v) l -> Forall (fun kv => plain (snd kv)) l ->
  forall o, members dec l = Ok o -> mems l o.
Proof.
  induction 1 as [|[k c] l Hc Hl IH]; intros P o H; cbn [members] in H.
  - injection H as <-. constructor.
  - fold (members dec) in H. inversion P; subst. cbn [snd] in *.
    apply bind_ok in H. destruct H as (n & En & H). apply bind_ok in H. destruct H as (v & Ev & H). apply bind_ok in H. destruct H as (r & Er & H). injection H as <-.
    destruct k; cbn [dec_key] in En; try discriminate. injection En as <-. constructor; auto.
Qed.

Lemma map_ne {A} (mk : A -> cbor) c t r : c :: t = map mk r -> r <> [].
Proof. destruct r; [discriminate|congruence]. Qed.

Lemma dec_sound c : plain c -> forall v, dec c = Ok v -> means c v.
Proof.
  induction c as [z|s|s|b|b| | |l IH|l IH|n c IH] using cbor_ind2; intros P v H; cbn [dec] in H; inversion P; subst.
  - injection H as <-. rewrite wrap64_id by assumption. now constructor.
  - injection H as <-. constructor.
  - injection H as <-. constructor.
  - injection H as <-. constructor.
  - injection H as <-. constructor.
  - injection H as <-. constructor.
  - destruct l as [|c0 t]; [congruence|]. pose proof (plains_forall _ H2) as F. clear P H1 H2.
    destruct c0; cbn [ctype] in H; try discriminate; apply bind_ok in H; destruct H as (r & Er & H); injection H as <-.
    + destruct (simple_sound 9 get_int CInt plain in64) with (l := CInt z :: t) (r := r) as [E R]; auto.
      { intros c a Pc G. destruct c; try discriminate G. inversion Pc; subst. cbn [get_int] in G. rewrite wrap64_id in G by assumption. injection G as <-. auto. }
      rewrite E. constructor; [exact (map_ne _ _ _ _ E)|assumption].
    + destruct (simple_sound 12 get_bytes CBytes plain short) with (l := CBytes s :: t) (r := r) as [E R]; auto.
      { intros c a Pc G. destruct c; try discriminate G. cbn [get_bytes] in G. destruct (_ <? _)%nat eqn:L; [|discriminate]. injection G as <-. apply short_ltb in L. auto. }
      rewrite E. constructor; [exact (map_ne _ _ _ _ E)|assumption].
    + destruct (simple_sound 13 get_text CText plain short) with (l := CText s :: t) (r := r) as [E R]; auto.
      { intros c a Pc G. destruct c; try discriminate G. cbn [get_text] in G. destruct (_ <? _)%nat eqn:L; [|discriminate]. injection G as <-. apply short_ltb in L. auto. }
      rewrite E. constructor; [exact (map_ne _ _ _ _ E)|assumption].
    + destruct (simple_sound 11 get_bool CBool plain (fun _ => True)) with (l := CBool b :: t) (r := r) as [E R]; auto.
      { intros c a Pc G. destruct c; try discriminate G. injection G as <-. auto. }
      rewrite E. constructor. exact (map_ne _ _ _ _ E).
    + destruct (simple_sound 10 get_double CDouble plain (fun _ => True)) with (l := CDouble bits :: t) (r := r) as [E R]; auto.
      { intros c a Pc G. destruct c; try discriminate G. injection G as <-. auto. }
      rewrite E. constructor. exact (map_ne _ _ _ _ E).
    + constructor; [congruence|]. revert r Er. set (l0 := l) in *. clearbody l0. clear l. set (l := CMap l0 :: t) in *. clearbody l. clear l0 t.
      induction l as [|c l IHl]; intros r Er; [injection Er as <-; constructor|].
      inversion IH; inversion F; subst. cbn [objects] in Er. fold (objects dec) in Er. destruct c; try discriminate Er.
      apply bind_ok in Er. destruct Er as (o & Eo & Er). apply bind_ok in Er. destruct Er as (r' & Er & Ex). injection Ex as <-.
      constructor; [|auto]. specialize (H1 H5 (RObj o)). cbn [dec] in H1. rewrite Eo in H1. specialize (H1 eq_refl). inversion H1; subst; assumption.
  - apply bind_ok in H. destruct H as (o & Eo & H). injection H as <-. constructor. apply members_sound; auto. now apply pmems_forall.
  - constructor. auto.
Qed.

(** Never a crash when arrays are uniform. *)
Lemma bind_nc {A B} (x : out A) (f : A -> out B) : x <> Crash -> (forall a, f a <> Crash) -> bind x f <> Crash.
Proof. destruct x; cbn; auto. discriminate. Qed.

Lemma simple_nc {A} ty it get (l : list cbor) : Forall (fun c => ctype c = Some it) l -> (forall c, ctype c = Some it -> get c <> Crash) ->
  @simple_array A ty get l <> Crash.
Proof.
  intros F G. induction F as [|c l Hc Hl IH]; cbn [simple_array]; [discriminate|]. rewrite Hc. destruct (type_ok ty it); [|discriminate].
  apply bind_nc; [auto|]. intros a. apply bind_nc; [exact IH|discriminate].
Qed.

Lemma uniforms_forall l : uniforms l -> Forall uniform l.
Proof. induction 1; constructor; auto. Qed.
Lemma umems_forall l : umems l -> Forall (fun kv => uniform (snd kv)) l.
Proof. induction 1; constructor; auto. Qed.

Lemma members_nc l : Forall (fun kv => dec (snd kv) <> Crash) l -> members dec l <> Crash.
Proof.
  induction 1 as [|[k c] l Hc Hl IH]; cbn [members]; [discriminate|]. fold (members dec).
  apply bind_nc; [destruct k; discriminate|]. intros n. apply bind_nc; [exact Hc|]. intros v. apply bind_nc; [exact IH|discriminate].
Qed.

Lemma uniform_safe c : uniform c -> dec c <> Crash.
Proof.
  induction c as [z|s|s|b|b| | |l IH|l IH|n c IH] using cbor_ind2; intros U; cbn [dec]; try discriminate; inversion U; subst.
  - destruct l as [|c0 t']; [discriminate|]. pose proof (uniforms_forall _ H1) as F. clear U H1.
    pose proof (Forall_inv H0) as T0. cbn beta in T0. subst t.
    destruct (ctype c0) as [ty|] eqn:T; [|discriminate].
    destruct c0; cbn [ctype] in T; try discriminate T; injection T as <-; cbn [ctype]; try (apply bind_nc; [|discriminate]); try discriminate.
    + apply (simple_nc _ 1); auto. intros c E. destruct c; discriminate.
    + apply (simple_nc _ 4); auto. intros c E. destruct c; try discriminate. cbn [get_bytes]. destruct (_ <? _)%nat; discriminate.
    + apply (simple_nc _ 5); auto. intros c E. destruct c; try discriminate. cbn [get_text]. destruct (_ <? _)%nat; discriminate.
    + apply (simple_nc _ 3); auto. intros c E. destruct c; discriminate.
    + apply (simple_nc _ 2); auto. intros c E. destruct c; discriminate.
    + clear H0. set (x := CMap l :: t') in *. clearbody x. induction x as [|c x IHx]; cbn [objects]; [discriminate|]. fold (objects dec).
      inversion IH; inversion F; subst. destruct c; try discriminate. apply bind_nc; [|intros a; apply bind_nc; [auto|discriminate]].
      specialize (H1 H5). cbn [dec] in H1. intros K. rewrite K in H1. now apply H1.
  - apply bind_nc; [|discriminate]. apply members_nc. apply umems_forall in H0. rewrite Forall_forall in *. auto.
  - auto.
Qed.

(** Encoding. *)
Lemma enc_obj l : enc (RObj l) = CMap (enc_members l).
Proof. cbn [enc]. f_equal. induction l as [|[n x] l IH]; [reflexivity|]. cbn. now rewrite IH. Qed.
Lemma enc_objs l : enc (RObjArr l) = CArr (map (fun o => CMap (enc_members o)) l).
Proof.
  cbn [enc]. f_equal. induction l as [|o l IH]; [reflexivity|]. cbn [map]. rewrite IH. f_equal. f_equal.
  induction o as [|[n x] o IHo]; [reflexivity|]. cbn. now rewrite IHo.
Qed.

Lemma enc_means : (forall v, writable v -> means (enc v) v) /\ (forall o, wmems o -> mems (enc_members o) o) /\
  (forall l, wobjs l -> objs (map (fun o => CMap (enc_members o)) l) l).
Proof.
  apply writable_ind3; intros.
  1-6: cbn [enc]; now constructor.
  - rewrite enc_obj. now constructor.
  - cbn [enc]. now constructor.
  - cbn [enc]. now constructor.
  - cbn [enc]. now constructor.
  - cbn [enc]. now constructor.
  - cbn [enc]. now constructor.
  - rewrite enc_objs. constructor; [|assumption]. destruct l; [congruence|discriminate].
  - constructor.
  - cbn [enc_members map fst snd]. fold (enc_members o). now constructor.
  - constructor.
  - cbn [map]. now constructor.
Qed.

Lemma roundtrip l : wmems l -> parse (enc_root l) = Ok (PRep l).
Proof. intros W. unfold enc_root. cbn [parse]. rewrite (proj1 (proj2 dec_complete) _ _ (proj1 (proj2 enc_means) _ W)). reflexivity. Qed.

(** Lookup. *)
Lemma find_first {A} (f : A -> bool) l x : find f l = Some x -> exists a b, l = a ++ x :: b /\ f x = true /\ forall y, In y a -> f y = false.
Proof.
  induction l as [|y l IH]; cbn [find]; [discriminate|]. destruct (f y) eqn:E.
  - intros [= <-]. exists [], l. repeat split; auto. intros z [].
  - intros H. destruct (IH H) as (a & b & -> & Fx & Fa). exists (y :: a), b. repeat split; auto. intros z [<-|Hz]; auto.
Qed.

Lemma key_cond key : ((List.length key =? 0) || (max_string <=? List.length key))%nat = false <-> usable_key key.
Proof.
  unfold usable_key, max_string. rewrite orb_false_iff, Nat.eqb_neq, Nat.leb_gt. destruct key; cbn [List.length]; split; intros [A B]; split; try congruence; try lia.
Qed.

Lemma test_spec n w ty key : (rtype w =? ty) && list_eqb n key = true <-> n = key /\ rtype w = ty.
Proof. rewrite andb_true_iff, N.eqb_eq, list_eqb_spec. tauto. Qed.

Lemma get_by_some l ty key v : usable_key key -> (get_by l ty key = Some v <-> first_of l ty key v).
Proof.
  intros U. unfold get_by. rewrite (proj2 (key_cond key) U). split.
  - intros H. destruct (find (fun r : list N * rval => (rtype (snd r) =? ty) && list_eqb (fst r) key) l) as [[n w]|] eqn:F; [|discriminate]. cbn [option_map snd] in H. injection H as <-.
    apply find_first in F. destruct F as (a & b & -> & T & Fa). cbn [fst snd] in T. apply test_spec in T. destruct T as [-> T].
    exists a, b. split; [reflexivity|]. split; [assumption|]. intros n w' I K. apply Fa in I. cbn [fst snd] in I. apply test_spec in K. congruence.
  - intros (a & b & -> & T & Na). induction a as [|[n w] a IH]; cbn [app find fst snd].
    + rewrite T, N.eqb_refl, list_eqb_refl. reflexivity.
    + destruct ((rtype w =? ty) && list_eqb n key) eqn:E; [apply test_spec in E; exfalso; exact (Na n w (or_introl eq_refl) E)|].
      apply IH. intros n' w' I. apply Na. now right.
Qed.

Lemma get_by_none l ty key : usable_key key -> (get_by l ty key = None <-> none_of l ty key).
Proof.
  intros U. unfold get_by. rewrite (proj2 (key_cond key) U). split.
  - intros H n w I K. destruct (find (fun r : list N * rval => (rtype (snd r) =? ty) && list_eqb (fst r) key) l) as [x|] eqn:F; [discriminate|]. apply (find_none _ _ F) in I. cbn [fst snd] in I. apply test_spec in K. congruence.
  - intros Hn. destruct (find (fun r : list N * rval => (rtype (snd r) =? ty) && list_eqb (fst r) key) l) as [[n w]|] eqn:F; [|reflexivity]. apply find_some in F. destruct F as [I T]. cbn [fst snd] in T. apply test_spec in T.
    exfalso. exact (Hn n w I T).
Qed.

Lemma get_by_bad_key l ty key : ~ usable_key key -> get_by l ty key = None.
Proof. intros U. unfold get_by. destruct (_ || _)%bool eqn:E; [reflexivity|]. apply key_cond in E. tauto. Qed.
