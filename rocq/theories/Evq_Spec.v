(** What the event queue means: a first-in first-out list. *)
From Verif Require Import Common Evq_Model.
Local Open Scope N_scope.

Definition matches (p : N) (m : event -> bool) (e : event) : bool := (e_p e =? p) && m e.

Definition spec (dyn : bool) (q : list event) (o : op) : list event * out :=
  match o with
  | OPost e => if negb dyn && (N.of_nat (List.length q) =? 10) then (q, ONum 1) else (q ++ [e], ONum 0)
  | OTake => (tl q, OEv (hd_error q))
  | ODrop p m => if p =? 0 then (q, ONum 0)
                 else (filter (fun e => negb (matches p m e)) q, ONum (N.of_nat (List.length (filter (matches p m) q))))
  | OCount => (q, ONum (N.of_nat (List.length q)))
  | OAny m => (q, ONum (if existsb m q then 1 else 0))
  end.

Fixpoint spec_run (dyn : bool) (q : list event) (os : list op) : list event * list out :=
  match os with
  | [] => (q, [])
  | o :: rest => let (q1, v) := spec dyn q o in let (q2, vs) := spec_run dyn q1 rest in (q2, v :: vs)
  end.

(** The events accepted and the events delivered in a history with its answers. *)
Fixpoint accepted (os : list op) (vs : list out) : list event :=
  match os, vs with
  | OPost e :: os', ONum 0 :: vs' => e :: accepted os' vs'
  | _ :: os', _ :: vs' => accepted os' vs'
  | _, _ => []
  end.
Fixpoint delivered (vs : list out) : list event :=
  match vs with
  | OEv (Some e) :: r => e :: delivered r
  | _ :: r => delivered r
  | [] => []
  end.
Definition no_drop (o : op) : bool := match o with ODrop _ _ => false | _ => true end.
