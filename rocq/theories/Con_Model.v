(** The configuration resource /oc/con: api/oc_con_resource.c, with the names of
    the locations (api/oc_enums.c:113-200, 211-257).

    Simplifications, all stated in DESIGN.md:
    - a payload is the list of its properties, a text is a Coq string;
    - the response is what is sent, encoding it does not fail;
    - oc_process_baseline_interface is not modelled;
    - a request reaches a device that exists. *)

From Coq Require Import List Bool Arith String.
Import ListNotations.
Open Scope string_scope.
Open Scope list_scope.
Open Scope nat_scope.

(** oc_rep_t of a request: property name and value. *)
Inductive val : Type := Text (t : string) | NoText.
Definition payload : Type := list (string * val).

(** The device: oc_device_info_t.name, tag_locn of /oic/d
    (include/oc_ri.h, 0 if there is none), post_handler.user_data of /oc/con. *)
Record dev : Type := mkdev { nm : string; tag : nat; cb : option nat }.
Definition st : Type := list dev.

Inductive status : Type := Changed | BadRequest.

Inductive event : Type :=
| Notified (d : nat)
| Called (f d : nat) (p : payload)
| Answer (d : nat) (s : status) (body : option string)
| Content (d : nat) (n : string) (l : option string).

(** oc_locns, api/oc_enums.c:113-134. *)
Definition locns : list string :=
  ["unknown"; "attic"; "balcony"; "ballroom"; "bathroom"; "bedroom";
   "border"; "boxroom"; "cellar"; "cloakroom"; "conservatory"; "corridor";
   "deck"; "den"; "diningroom"; "drawingroom"; "driveway"; "dungeon";
   "ensuite"; "entrance"; "familyroom"; "garage"; "garden"; "guestroom";
   "hall"; "indoor"; "kitchen"; "larder"; "lawn"; "library";
   "livingroom"; "lounge"; "mancave"; "masterbedroom"; "musicroom"; "office";
   "outdoor"; "pantry"; "parkinglot"; "parlour"; "patio"; "receiptionroom";
   "restroom"; "roof"; "roofterrace"; "sauna"; "scullery"; "shed";
   "sittingroom"; "snug"; "spa"; "studio"; "suite"; "swimmingpool";
   "terrace"; "toilet"; "utilityroom"; "vegetableplot"; "ward"; "yard"].

(** oc_enum_locn_to_string_view, oc_enum_locn_to_str, api/oc_enums.c:211-228. *)
Definition to_str (n : nat) : option string :=
  match n with 0 => None | S i => nth_error locns i end.

(** The loop of oc_enum_locn_from_str, api/oc_enums.c:233-241. *)
Fixpoint from_loop (t : string) (i : nat) (l : list string) : option nat :=
  match l with
  | [] => None
  | s :: r => if String.eqb s t then Some (i + 1) else from_loop t (S i) r
  end.

(** oc_enum_locn_from_str, oc_str_to_enum_locn, api/oc_enums.c:230-254. *)
Definition from_str (t : string) : option nat := from_loop t 0 locns.

(** con_resource_get, api/oc_con_resource.c:46-82. *)
Definition get (d : nat) (v : dev) : list event :=
  [Content d (nm v) (if 0 <? tag v then to_str (tag v) else None)].

(** The loop of con_resource_post, api/oc_con_resource.c:90-114. *)
Fixpoint scan (n l : option string) (p : payload) : option (option string * option string) :=
  match p with
  | [] => Some (n, l)
  | (k, Text t) :: r =>
      if String.length t =? 0 then None
      else if String.eqb k "n" then scan (Some t) l r
      else if String.eqb k "locn" then scan n (Some t) r
      else None
  | (_, NoText) :: _ => None
  end.

(** oc_core_device_set_name, api/oc_core_res.c:446-453. *)
Definition set_name (t : string) (v : dev) : dev := mkdev t (tag v) (cb v).

(** oc_resource_tag_locn, api/oc_resource.c:224-227. *)
Definition tag_locn (n : nat) (v : dev) : dev := mkdev (nm v) n (cb v).

(** The end of con_resource_post, api/oc_con_resource.c:152-157. *)
Definition done (d : nat) (p : payload) (body : option string) (v : dev) : list event :=
  (match cb v with Some f => [Called f d p] | None => [] end) ++ [Answer d Changed body].

(** con_resource_post, api/oc_con_resource.c:84-158. *)
Definition post (d : nat) (p : payload) (v : dev) : dev * list event :=
  match scan None None p with
  | None => (v, [Answer d BadRequest None])
  | Some (n, l) =>
      let v1 := match n with Some t => set_name t v | None => v end in
      let ev := match n with Some _ => [Notified d] | None => [] end in
      match l with
      | Some t =>
          if tag v1 =? 0 then (v1, ev ++ [Answer d BadRequest n])
          else match from_str t with
               | None => (v1, ev ++ [Answer d BadRequest n])
               | Some i => let v2 := tag_locn i v1 in (v2, ev ++ done d p n v2)
               end
      | None =>
          match n with
          | None => (v1, ev ++ [Answer d BadRequest n])
          | Some _ => (v1, ev ++ done d p n v1)
          end
      end
  end.

(** The resource part of a reset, security/oc_pstat.c:305-316; [w] is
    OC_WIPE_NAME, [a] the guard of line 305. OCF_LOCN_UNKNOWN is 1
    (include/oc_enums.h:139). *)
Definition reset (a w : bool) (v : dev) : dev :=
  if a then
    let v1 := if w then set_name "" v else v in
    if 0 <? tag v1 then tag_locn 1 v1 else v1
  else v.

(** Replacing one device. *)
Fixpoint put (d : nat) (v : dev) (s : st) : st :=
  match s, d with
  | [], _ => []
  | _ :: r, 0 => v :: r
  | x :: r, S e => x :: put e v r
  end.

(** What happens. [Added]: oc_core_add_new_device with oc_create_con_resource
    (api/oc_con_resource.c:174-181), no callback; [SetCb]: oc_set_con_write_cb,
    lines 162-171; [Named], [Tagged]: the application. *)
Inductive op : Type :=
| Added (n : string)
| SetCb (f : option nat)
| Named (d : nat) (t : string)
| Tagged (d n : nat)
| Get (d : nat)
| Post (d : nat) (p : payload)
| Wiped (d : nat) (a w : bool).

Definition on (d : nat) (s : st) (f : dev -> dev * list event) : st * list event :=
  match nth_error s d with
  | Some v => let (v', e) := f v in (put d v' s, e)
  | None => (s, [])
  end.

Definition step (s : st) (o : op) : st * list event :=
  match o with
  | Added n => ((s ++ [mkdev n 0 None])%list, [])
  | SetCb f => (map (fun v => mkdev (nm v) (tag v) f) s, [])
  | Named d t => on d s (fun v => (set_name t v, []))
  | Tagged d n => on d s (fun v => (tag_locn n v, []))
  | Get d => on d s (fun v => (v, get d v))
  | Post d p => on d s (post d p)
  | Wiped d a w => on d s (fun v => (reset a w v, []))
  end.

Fixpoint run (s : st) (os : list op) : st * list event :=
  match os with
  | [] => (s, [])
  | o :: r => let (s1, e1) := step s o in let (s2, e2) := run s1 r in (s2, (e1 ++ e2)%list)
  end.
