(** Model of util/oc_mmem.c, static-memory form: one of its three pools (bytes, ints and doubles differ only
    in the element type, so cells of the pool are counted in elements).

    Handles (struct oc_mmem, owned by the caller) are named by numbers; the linked list of handles is a list
    in the order of allocation, as property C20 shows of oc_list_add and oc_list_remove. *)
From Verif Require Import Common.
Local Open Scope N_scope.

Record handle := mkH { h_id : N; h_ptr : N; h_size : N }.   (* m, m->ptr as an index into the pool, m->size *)

Record mstate := mkS {
  s_total : N;                (* OC_BYTES_POOL_SIZE *)
  s_avail : N;                (* g_mmem_avail_bytes *)
  s_cells : N -> N;           (* g_mmem_bytes *)
  s_list : list handle }.     (* g_mmem_bytes_list *)

(** oc_mmem_init, lines 248-265. *)
Definition init (total : N) : mstate := mkS total total (fun _ => 0) [].

(** _oc_mmem_alloc, lines 106-115 and 143; type_size is the element size.  Result: bytes allocated. *)
Definition mmem_alloc (type_size : N) (s : mstate) (m size : N) : mstate * N :=
  if s_avail s <? size then (s, 0)
  else (mkS (s_total s) (s_avail s - size) (s_cells s)
            (s_list s ++ [mkH m (s_total s - s_avail s) size]), size * type_size).

(** memmove(dst, src, len), lines 173-176. *)
Definition move (cells : N -> N) (dst src len : N) : N -> N :=
  fun a => if (dst <=? a) && (a <? dst + len) then cells (a - dst + src) else cells a.

(** The list from the handle on: the handle and what follows it. *)
Fixpoint split_at (m : N) (l : list handle) : option (list handle * handle * list handle) :=
  match l with
  | [] => None
  | h :: r => if h_id h =? m then Some ([], h, r)
              else match split_at m r with
                   | None => None
                   | Some (a, x, b) => Some (h :: a, x, b)
                   end
  end.

(** _oc_mmem_free, lines 170-221, for a handle in the list. *)
Definition mmem_free (s : mstate) (m : N) : option mstate :=
  match split_at m (s_list s) with
  | None => None
  | Some (before, h, later) =>
      let cells' := match later with
                    | [] => s_cells s
                    | n :: _ => move (s_cells s) (h_ptr h) (h_ptr n) (s_total s - s_avail s - h_ptr n)
                    end in
      Some (mkS (s_total s) (s_avail s + h_size h) cells'
                (before ++ map (fun n => mkH (h_id n) (h_ptr n - h_size h) (h_size n)) later))
  end.

(** Calls, and a client's own accesses through the pointer in the handle. *)
Inductive op :=
| OAlloc (m size : N)
| OFree (m : N)
| OAvail                         (* oc_mmem_available_size, lines 231-244 *)
| OWrite (m off v : N)
| ORead (m off : N).

Definition handle_of (s : mstate) (m : N) : option handle := find (fun h => h_id h =? m) (s_list s).

Definition exec (type_size : N) (s : mstate) (o : op) : option (mstate * N) :=
  match o with
  | OAlloc m size => Some (mmem_alloc type_size s m size)
  | OFree m => option_map (fun s' => (s', 0)) (mmem_free s m)
  | OAvail => Some (s, s_avail s)
  | OWrite m off v =>
      option_map (fun h => (mkS (s_total s) (s_avail s) (fun a => if a =? h_ptr h + off then v else s_cells s a) (s_list s), 0))
                 (handle_of s m)
  | ORead m off => option_map (fun h => (s, s_cells s (h_ptr h + off))) (handle_of s m)
  end.

Fixpoint run (type_size : N) (s : mstate) (os : list op) : option (list N) :=
  match os with
  | [] => Some []
  | o :: r => match exec type_size s o with
              | None => None
              | Some (s', v) => option_map (cons v) (run type_size s' r)
              end
  end.
