(** What the provisioning client keeps in storage:
    api/plgd/device-provisioning-client/plgd_dps_store.c, on the addresses of Ea_Model.

    Simplifications: the file is the representation that was encoded (its
    encoding as CBOR is the subject of other models); writing it does not fail;
    an address of the provisioning client has a name, not a UUID. *)
From Verif Require Import Common Rep_Model Repd_Model Ea_Model.
From Coq Require Import String.
Local Open Scope string_scope.
Local Open Scope list_scope.
Local Open Scope N_scope.

(** plgd_dps_store_t. A string that is NULL and an empty one are both []. *)
Record store : Type := mk_ds { d_eps : eas; d_owner : list N; d_flag : bool }.

(** oc_endpoint_address_encode (util/oc_endpoint_address.c:502-530) without the key of a UUID. *)
Definition name_text (m : meta) : option (list N) :=
  match m with MUuid _ => None | MName None => Some [] | MName (Some t) => Some t end.
Definition enc_addr (uri_key name_key : list N) (e : ea) : list rep :=
  (uri_key, RStr (a_uri e)) :: match name_text (a_meta e) with Some t => [(name_key, RStr t)] | None => [] end.

(** oc_endpoint_addresses_encode with skipIfSingleAndSelected (util/oc_endpoint_address.c:552-574). *)
Definition enc_eps (l : list ea) : list rep :=
  match l with
  | [] | [_] => []
  | _ => [(str "eps", RObjArr (map (enc_addr (str "uri") (str "name")) l))]
  end.

(** dps_store_encode_with_map (255-276). *)
Definition encode (s : store) : list rep :=
  match selected (d_eps s) with None => [] | Some e => enc_addr (str "ep") (str "epname") e end ++
  enc_eps (l_items (d_eps s)) ++
  [ (str "owner", RStr (d_owner s)); (str "hasBeenProvisionedSinceReset", RBool (d_flag s)) ].

(** dps_store_data_t (145-152). *)
Record data : Type := mk_dd {
  dd_eps : option (list (list rep)); dd_ep : option (list N); dd_name : option (list N); dd_owner : option (list N); dd_flag : option bool }.

(** One turn of the loop of dps_store_decode (156-185); other properties are ignored. *)
Definition take (d : data) (r : rep) : data :=
  let n := fst r in
  match snd r with
  | RObjArr l => if list_eqb n (str "eps") then mk_dd (match l with [] => None | _ => Some l end) (dd_ep d) (dd_name d) (dd_owner d) (dd_flag d) else d
  | RStr v =>
      if list_eqb n (str "ep") then mk_dd (dd_eps d) (Some v) (dd_name d) (dd_owner d) (dd_flag d)
      else if list_eqb n (str "epname") then mk_dd (dd_eps d) (dd_ep d) (Some v) (dd_owner d) (dd_flag d)
      else if list_eqb n (str "owner") then mk_dd (dd_eps d) (dd_ep d) (dd_name d) (Some v) (dd_flag d)
      else d
  | RBool b => if list_eqb n (str "hasBeenProvisionedSinceReset") then mk_dd (dd_eps d) (dd_ep d) (dd_name d) (dd_owner d) (Some b) else d
  | _ => d
  end.

(** The slots the pool hands out, by number of the request. *)
Definition pool := nat -> option N.

(** The loop of dps_store_set_endpoints (106-137). *)
Fixpoint add_eps (mem : pool) (k : nat) (s : eas) (l : list (list rep)) : eas * bool :=
  match l with
  | [] => (s, true)
  | o :: t =>
      match get_s o (str "uri") with
      | None => add_eps mem k s t
      | Some u =>
          if contains s u then add_eps mem k s t
          else match add s u (MName (get_s o (str "name"))) (mem k) with
               | (s', Some _) => add_eps mem (S k) s' t
               | (s', None) => (s', false)
               end
      end
  end.

(** dps_store_set_endpoints (90-140). *)
Definition set_eps (mem : pool) (s : eas) (u name : option (list N)) (l : option (list (list rep))) : eas * bool :=
  match reinit s (match u with Some v => v | None => [] end) (MName name) (mem 0%nat) with
  | (s', false) => (s', false)
  | (s', true) => match l with None => (s', true) | Some l => add_eps mem 1%nat s' l end
  end.

(** dps_store_decode (142-215). *)
Definition decode (mem : pool) (l : list rep) (s : store) : store :=
  let d := fold_left take l (mk_dd None None None None None) in
  mk_ds (match dd_eps d, dd_ep d with
         | None, None => d_eps s
         | None, Some [] => d_eps s
         | _, _ => fst (set_eps mem (d_eps s) (dd_ep d) (dd_name d) (dd_eps d))
         end)
        (match dd_owner d with None => d_owner s | Some [] => d_owner s | Some t => t end)
        (match dd_flag d with None => d_flag s | Some b => b end).

(** dps_store_deinit (82-88). *)
Definition clear_store (s : store) : store := mk_ds (deinit (d_eps s)) [] false.

(** dps_store_load (278-309): [None] is a missing file. *)
Definition load (mem : pool) (file : option (list rep)) (s : store) : bool * store :=
  match file with None => (false, clear_store s) | Some l => (true, decode mem l s) end.
