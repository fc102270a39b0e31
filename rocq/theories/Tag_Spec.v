(** What the provisioning server may do to the access control list. *)
From Verif Require Import Common Rep_Model Hex_Model Acl_Model.
From Coq Require Import String.
Local Open Scope string_scope.
Local Open Scope list_scope.
Local Open Scope N_scope.

Definition provisioned (a : ace) : Prop := a_tag a = Some (str "dps").
Definition passing (a : ace) : Prop := a_tag a = Some (str "dps-stale").

(** The answer [o] has the entry [d]. *)
Definition named (o : list rep) (d : ace_dec) : Prop :=
  exists r aces x, In r o /\ snd r = RObjArr aces /\ In x aces /\ decode_ace dec0 x = Some d.

(** A subject of the list is meant by one of the answer. *)
Definition meant (s t : subject) : Prop := s = t \/ exists r au, s = SRole r [] /\ t = SRole r au.

(** The entry [d] has the resource [e]. *)
Definition has_res (d : ace_dec) (e : ace_res) : Prop :=
  exists x href w, In x (ad_res d) /\ decode_res x None NoWc = Some (href, w) /\
    match href with Some h => e = mk_res h w | None => w <> NoWc /\ e = mk_res [] w end.

(** The answer accounts for [a]: for its subject, permissions and tag, and for
    each of its resources. *)
Definition accounts_for (o : list rep) (a : ace) : Prop :=
  (exists d, named o d /\ ad_tag d = a_tag a /\ ad_subj d = a_subj a /\ ad_perm d = a_perm a) /\
  forall e, In e (a_res a) -> exists d, named o d /\ ad_tag d = a_tag a /\
    (ad_perm d = 0 \/ ad_perm d = a_perm a) /\ meant (a_subj a) (ad_subj d) /\ has_res d e.

(** No entry of the answer is about [a]. *)
Definition untouched (o : list rep) (a : ace) : Prop :=
  forall d, named o d -> a_id a <> ad_id d /\
    (ad_id d = (-1)%Z -> a_tag a <> ad_tag d \/ ~ meant (a_subj a) (ad_subj d) \/ (ad_perm d <> 0 /\ ad_perm d <> a_perm a)).

(** No entry of the answer has the identifier of [a] or the tag of an entry
    that is about to go. *)
Definition spared (o : list rep) (a : ace) : Prop :=
  forall d, named o d -> a_id a <> ad_id d /\ ad_tag d <> Some (str "dps-stale").

(** A resource named by its path, or by a wildcard. *)
Definition one_way (href : option (list N)) (w : wc) : Prop :=
  match href with Some h => hd_error h = Some 47 /\ w = NoWc | None => w <> NoWc end.

(** The answer has no identifiers, and each of its resources is named in one way. *)
Definition regular (o : list rep) : Prop :=
  forall d, named o d -> ad_id d = (-1)%Z /\
    forall x, In x (ad_res d) -> forall href w, decode_res x None NoWc = Some (href, w) -> one_way href w.

(** [a] grants what [d] says for the resource [href] or [w]. *)
Definition grants (d : ace_dec) (href : option (list N)) (w : wc) (a : ace) : Prop :=
  a_tag a = ad_tag d /\ (ad_perm d = 0 \/ ad_perm d = a_perm a) /\ meant (a_subj a) (ad_subj d) /\
  exists e, In e (a_res a) /\ match href with Some h => ar_href e = h | None => ar_wc e = w \/ ar_wc e = WcAll end.
