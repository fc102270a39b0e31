(** What delayed callbacks promise: a set of registrations, without current-callback globals and rescans. *)
From Verif Require Import Common Delay_Model.
Local Open Scope N_scope.

Record sp := mkSp { p_now : N; p_next : N; p_evs : list ev; p_log : list item }.

Definition matches (cb : N) (f : N -> bool) (e : ev) : bool := (e_cb e =? cb) && f (e_data e).

(** The registrations a removal is about: the first match, or all of them. *)
Definition victims (l : list ev) (cb : N) (f : N -> bool) (all : bool) : list ev :=
  let ms := filter (matches cb f) l in if all then ms else firstn 1 ms.
Definition among (l : list ev) (e : ev) : bool := existsb (fun x => e_id x =? e_id e) l.
Definition running (cur : option N) (e : ev) : bool := match cur with Some i => e_id e =? i | None => false end.

(** One call into the interface.  A registration whose handler is running ([cur]) stays registered until the
    handler returns, and is then gone if it was removed; [d] collects this, with the on_delete function. *)
Definition sp_act (cur : option N) (x : sp * option N) (a : action) : sp * option N :=
  let (s, d) := x in
  match a with
  | AAdd cb data ticks slot =>
      if slot then (mkSp (p_now s) (p_next s + 1) (p_evs s ++ [mkEv (p_next s) cb data (p_now s) ticks false]) (p_log s), d) else x
  | ARemove cb f all od =>
      let vs := victims (p_evs s) cb f all in
      let gone := filter (fun e => negb (running cur e)) vs in
      (mkSp (p_now s) (p_next s) (filter (fun e => negb (among gone e)) (p_evs s))
            (if od =? 0 then p_log s else rev (map (fun e => LDelete od (e_data e)) gone) ++ p_log s),
       if existsb (running cur) vs then Some od else d)
  | AHas cb data ign => (mkSp (p_now s) (p_next s) (p_evs s) (LHas (existsb (fun e => (e_cb e =? cb) && (ign || (e_data e =? data))) (p_evs s)) :: p_log s), d)
  | ATick n => (mkSp (p_now s + n) (p_next s) (p_evs s) (p_log s), d)
  end.

(** Running one handler: afterwards it is unregistered if it returned "done" or was removed meanwhile, else
    due again one interval later. *)
Definition sp_call (beh : behaviour) (s : sp) (e : ev) : sp :=
  let (script, done) := beh (p_log s) e in
  let (s1, d) := fold_left (sp_act (Some (e_id e))) script (mkSp (p_now s) (p_next s) (p_evs s) (LCall e (p_now s) :: p_log s), None) in
  match d, done with
  | None, false =>
      mkSp (p_now s1) (p_next s1)
           (map (fun x => if e_id x =? e_id e then mkEv (e_id x) (e_cb x) (e_data x) (p_now s1) (e_int x) false else x) (p_evs s1)) (p_log s1)
  | _, _ =>
      mkSp (p_now s1) (p_next s1) (filter (fun x => negb (e_id x =? e_id e)) (p_evs s1))
           (match d with Some od => if od =? 0 then p_log s1 else LDelete od (e_data e) :: p_log s1 | None => p_log s1 end)
  end.

(** A timer event: every registration whose timer has fired by now is run once, in order of registration,
    unless an earlier handler removed it. *)
Definition sp_visit (beh : behaviour) (s : sp) (i : N) : sp :=
  match find (fun e => e_id e =? i) (p_evs s) with Some e => sp_call beh s e | None => s end.
Definition sp_check (beh : behaviour) (s : sp) : sp :=
  fold_left (sp_visit beh) (map e_id (filter e_fired (p_evs s))) s.

Definition sp_exec (beh : behaviour) (s : sp) (o : op) : sp :=
  match o with
  | OAct a => fst (sp_act None (s, None) a)
  | OFire sel => mkSp (p_now s) (p_next s)
       (map (fun e => if sel (e_id e) && (e_start e + e_int e <=? p_now s) then mkEv (e_id e) (e_cb e) (e_data e) (e_start e) (e_int e) true else e) (p_evs s)) (p_log s)
  | OCheck => sp_check beh s
  end.
Definition sp_run (beh : behaviour) (s : sp) (os : list op) : sp := fold_left (sp_exec beh) os s.
Definition sp_init (now : N) : sp := mkSp now 1 [] [].

(** Handlers that remove themselves do so by the plain call (no removal of all matches, no on_delete). *)
Definition plain_self (e : ev) (a : action) : bool :=
  match a with ARemove cb f all od => negb (matches cb f e) || (negb all && (od =? 0)) | _ => true end.
Definition plain (beh : behaviour) : Prop := forall lg e, forallb (plain_self e) (fst (beh lg e)) = true.
