(** Model of the event queue of util/oc_process.c: the ring g_events with g_fevent, g_nevents and
    OC_PROCESS_NUMEVENTS.

    The counters are machine words in the code (unsigned long when the queue grows, unsigned char when it is
    fixed at 10); a queue of 2^63 events is out of scope, so they are plain numbers here.  Memory accesses
    are bounds-checked: [None] is an access outside the buffer.  That realloc does not fail (the code aborts
    then) is assumed. *)
From Verif Require Import Common.
Local Open Scope N_scope.

Record event := mkE { e_p : N; e_ev : N; e_data : N }.  (* struct event_data, lines 66-71; p = 0 is a broadcast *)
Definition zero_event : event := mkE 0 0 0.

Record buf := mkBuf { b_len : N; b_cell : N -> event }.
Definition get (b : buf) (i : N) : option event := if i <? b_len b then Some (b_cell b i) else None.
Definition put (b : buf) (i : N) (e : event) : option buf :=
  if i <? b_len b then Some (mkBuf (b_len b) (fun a => if a =? i then e else b_cell b a)) else None.
(** memmove of [k] entries from [s] to [d]. *)
Definition move (b : buf) (d s k : N) : option buf :=
  if (d + k <=? b_len b) && (s + k <=? b_len b)
  then Some (mkBuf (b_len b) (fun a => if (d <=? a) && (a <? d + k) then b_cell b (a - d + s) else b_cell b a))
  else None.

Record ring := mkRing { r_buf : buf; r_f : N; r_n : N; r_cap : N }.

(** oc_process_init, lines 248-263: 10 cleared entries. *)
Definition ring_init : ring := mkRing (mkBuf 10 (fun _ => zero_event)) 0 0 10.

(** The loop that rearranges the grown buffer, lines 456-467: [cap] is the new size, [n] the number of events
    at the end of the old one. *)
Fixpoint grow_loop (fuel : nat) (b : buf) (cap nev n i j : N) : option buf :=
  match fuel with
  | O => None
  | S fu =>
      if i <? cap - n then
        match (if i <? nev
               then match get b i with
                    | None => None
                    | Some e => option_map (fun b1 => (b1, j + 1)) (put b (cap - n + j) e)
                    end
               else Some (b, j)) with
        | None => None
        | Some (b1, j1) =>
            match put b1 i zero_event with
            | None => None
            | Some b2 => grow_loop fu b2 cap nev n (i + 1) j1
            end
        end
      else Some b
  end.

(** Growing, lines 449-468; realloc leaves arbitrary contents [junk] in the new half. *)
Definition grow (junk : N -> event) (r : ring) : option ring :=
  let cap := r_cap r * 2 in
  let b := mkBuf cap (fun a => if a <? b_len (r_buf r) then b_cell (r_buf r) a else junk a) in
  let n := r_n r - r_f r in
  match grow_loop (S (N.to_nat cap)) b cap (r_n r) n (r_f r) 0 with
  | None => None
  | Some b' => Some (mkRing b' (cap - n) (r_n r) cap)
  end.

(** Lines 474-478. *)
Definition append (r : ring) (e : event) : option ring :=
  match put (r_buf r) ((r_f r + r_n r) mod r_cap r) e with
  | None => None
  | Some b => Some (mkRing b (r_f r) (r_n r + 1) (r_cap r))
  end.

(** oc_process_post, lines 441-481; [dyn] is the dynamic build.  The answer is 0 (OK) or 1 (FULL). *)
Definition post (dyn : bool) (junk : N -> event) (r : ring) (e : event) : option (ring * N) :=
  if r_n r =? r_cap r then
    if dyn then match grow junk r with
                | None => None
                | Some r1 => option_map (fun r2 => (r2, 0)) (append r1 e)
                end
    else Some (r, 1)
  else option_map (fun r2 => (r2, 0)) (append r e).

(** The head of do_event, lines 305-317: take the oldest event. *)
Definition take (r : ring) : option (ring * option event) :=
  if r_n r =? 0 then Some (r, None)
  else match get (r_buf r) (r_f r) with
       | None => None
       | Some e => Some (mkRing (r_buf r) ((r_f r + 1) mod r_cap r) (r_n r - 1) (r_cap r), Some e)
       end.

(** Removing the event at position [i], lines 419-435. *)
Definition drop_at (r : ring) (i : N) : option ring :=
  let index := (r_f r + i) mod r_cap r in
  match (if 1 <? r_n r then
           let last := (r_f r + r_n r - 1) mod r_cap r in
           if index <=? last then move (r_buf r) index (index + 1) (last - index)
           else match move (r_buf r) index (index + 1) (r_cap r - 1 - index) with
                | None => None
                | Some b1 => match get b1 0 with
                             | None => None
                             | Some e0 => match put b1 (r_cap r - 1) e0 with
                                          | None => None
                                          | Some b2 => move b2 0 1 last
                                          end
                             end
                end
         else Some (r_buf r)) with
  | None => None
  | Some b => Some (mkRing b (r_f r) (r_n r - 1) (r_cap r))
  end.

(** oc_process_drop, lines 399-439; [m] says which of the target's events to drop. *)
Fixpoint drop_loop (fuel : nat) (r : ring) (p : N) (m : event -> bool) (i dropped : N) : option (ring * N) :=
  match fuel with
  | O => None
  | S fu =>
      if i <? r_n r then
        match get (r_buf r) ((r_f r + i) mod r_cap r) with
        | None => None
        | Some e => if negb (e_p e =? p) || negb (m e) then drop_loop fu r p m (i + 1) dropped
                    else match drop_at r i with
                         | None => None
                         | Some r' => drop_loop fu r' p m i (dropped + 1)
                         end
        end
      else Some (r, dropped)
  end.
Definition drop (r : ring) (p : N) (m : event -> bool) : option (ring * N) :=
  if p =? 0 then Some (r, 0) else drop_loop (S (N.to_nat (r_n r))) r p m 0 0.

(** oc_process_iterate_events, lines 387-397, with a callback that stops at the first match; this is also
    oc_process_is_closing_all_tls_sessions, lines 371-385. *)
Fixpoint iter_loop (fuel : nat) (r : ring) (m : event -> bool) (i : N) : option bool :=
  match fuel with
  | O => None
  | S fu =>
      if i <? r_n r then
        match get (r_buf r) ((r_f r + i) mod r_cap r) with
        | None => None
        | Some e => if m e then Some true else iter_loop fu r m (i + 1)
        end
      else Some false
  end.
Definition iter_any (r : ring) (m : event -> bool) : option bool := iter_loop (S (N.to_nat (r_n r))) r m 0.

(** Interface calls.  A handler that posts while an event is delivered posts after the event was taken, so an
    arbitrary sequence of calls covers it. *)
Inductive op :=
| OPost (e : event)
| OTake
| ODrop (p : N) (m : event -> bool)
| OCount                      (* oc_process_nevents without the poll flag, line 362 *)
| OAny (m : event -> bool).

Inductive out := ONum (n : N) | OEv (e : option event).

Definition exec (dyn : bool) (junk : N -> event) (r : ring) (o : op) : option (ring * out) :=
  match o with
  | OPost e => option_map (fun x => (fst x, ONum (snd x))) (post dyn junk r e)
  | OTake => option_map (fun x => (fst x, OEv (snd x))) (take r)
  | ODrop p m => option_map (fun x => (fst x, ONum (snd x))) (drop r p m)
  | OCount => Some (r, ONum (r_n r))
  | OAny m => option_map (fun b : bool => (r, ONum (if b then 1 else 0))) (iter_any r m)
  end.

Fixpoint run (dyn : bool) (junk : N -> event) (r : ring) (os : list op) : option (ring * list out) :=
  match os with
  | [] => Some (r, [])
  | o :: rest => match exec dyn junk r o with
                 | None => None
                 | Some (r1, v) => option_map (fun x => (fst x, v :: snd x)) (run dyn junk r1 rest)
                 end
  end.
