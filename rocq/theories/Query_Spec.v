(** Query strings as lists of key/value pairs. *)
From Verif Require Import Common.

Definition pair := (list N * option (list N))%type.

Definition render_pair (p : pair) : list N :=
  match snd p with None => fst p | Some v => fst p ++ [61%N] ++ v end.

Fixpoint render (ps : list pair) : list N :=
  match ps with
  | [] => []
  | [p] => render_pair p
  | p :: r => render_pair p ++ [38%N] ++ render r
  end.

(** keys are non-empty without '&' and '='; values have no '&' *)
Definition wf_pair (p : pair) : Prop :=
  fst p <> [] /\ ~ In 38%N (fst p) /\ ~ In 61%N (fst p) /\
  match snd p with None => True | Some v => ~ In 38%N v end.

Definition same_ignoring_case (a b : list N) : Prop :=
  List.length a = List.length b /\
  forall i, let x := nth i a 0%N in let y := nth i b 0%N in
            x = y \/ (65 <= x <= 90 /\ y = x + 32)%N \/ (65 <= y <= 90 /\ x = y + 32)%N.

(** The first pair whose key matches. *)
Inductive first_match (k : list N) : list pair -> option (option (list N)) -> Prop :=
| fm_nil : first_match k [] None
| fm_here p r : same_ignoring_case k (fst p) -> first_match k (p :: r) (Some (snd p))
| fm_next p r v : ~ same_ignoring_case k (fst p) -> first_match k r v -> first_match k (p :: r) v.

(** The next pair whose key is exactly [k] (letter case counts): how many pairs on, and its value. *)
Inductive next_value (k : list N) : list pair -> option (nat * option (list N)) -> Prop :=
| nv_nil : next_value k [] None
| nv_here p r : k = fst p -> next_value k (p :: r) (Some (1, snd p))
| nv_next p r v : k <> fst p -> next_value k r v -> next_value k (p :: r) (option_map (fun x => (S (fst x), snd x)) v).
