(** What the compacting allocator promises: every live handle has its own array; cells never written are
    unspecified ([None]). *)
From Verif Require Import Common Mmem_Model.
Local Open Scope N_scope.

Record blk := mkB { b_id : N; b_size : N; b_cont : N -> option N }.
Definition sum_sizes (s : list blk) : N := fold_right (fun b n => b_size b + n) 0 s.
Definition find_blk (s : list blk) (m : N) : option blk := find (fun b => b_id b =? m) s.

Definition answer_ok (ts total : N) (s : list blk) (o : op) (v : N) : Prop :=
  match o with
  | OAlloc m size => if size <=? total - sum_sizes s then v = size * ts else v = 0
  | OFree _ => True
  | OAvail => v = total - sum_sizes s
  | OWrite _ _ _ => True
  | ORead m off => match find_blk s m with
                   | None => False
                   | Some b => match b_cont b off with None => True | Some w => v = w end
                   end
  end.

Definition after (total : N) (s : list blk) (o : op) : list blk :=
  match o with
  | OAlloc m size => if size <=? total - sum_sizes s then s ++ [mkB m size (fun _ => None)] else s
  | OFree m => filter (fun b => negb (b_id b =? m)) s
  | OWrite m off v =>
      map (fun b => if b_id b =? m then mkB m (b_size b) (fun x => if x =? off then Some v else b_cont b x) else b) s
  | _ => s
  end.

(** A client allocates into handles that are not in use, frees handles in use, and stays inside its arrays. *)
Definition allowed (s : list blk) (o : op) : Prop :=
  match o with
  | OAlloc m _ => ~ In m (map b_id s)
  | OFree m => In m (map b_id s)
  | OAvail => True
  | OWrite m off _ | ORead m off => exists b, find_blk s m = Some b /\ off < b_size b
  end.

Fixpoint allowed_all (total : N) (s : list blk) (os : list op) : Prop :=
  match os with
  | [] => True
  | o :: r => allowed s o /\ allowed_all total (after total s o) r
  end.

Fixpoint trace_ok (ts total : N) (s : list blk) (os : list op) (vs : list N) : Prop :=
  match os, vs with
  | [], [] => True
  | o :: os', v :: vs' => answer_ok ts total s o v /\ trace_ok ts total (after total s o) os' vs'
  | _, _ => False
  end.
