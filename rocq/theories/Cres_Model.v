(** The resource of the cloud configuration: api/cloud/oc_cloud_resource.c, with
    oc_cloud_update_by_resource and cloud_set_cloudconf (api/cloud/oc_cloud.c:194-217, 294-328),
    on the configuration of Cloud_Model.

    Simplifications: the common properties of the resource are not modelled, a
    device has a context; what cloud_reset does to the configuration is a
    function that is given (Cm_Model has it). *)
From Verif Require Import Common Rep_Model Hex_Model Repd_Model Ea_Model Cloud_Model.
From Coq Require Import String.
Local Open Scope string_scope.
Local Open Scope list_scope.
Local Open Scope N_scope.

(** oc_cps_to_string (34-54). *)
Definition cps_text (c : N) : list N :=
  if c =? 0 then str "uninitialized" else if c =? 1 then str "readytoregister" else if c =? 2 then str "registering"
  else if c =? 3 then str "registered" else if c =? 4 then str "failed" else if c =? 5 then str "deregistering" else [].

(** oc_cloud_encode (56-103); [err] is last_error. *)
Definition show (err : Z) (s : store) : list rep :=
  [ (str "apn", RStr (st_provider s));
    (str "cis", RStr (match selected_uri (st_servers s) with Some u => u | None => [] end));
    (str "sid", RStr (match selected_uuid (st_servers s) with Some u => sid_text u | None => [] end)) ] ++
  encode_list (l_items (st_servers s)) ++
  [ (str "clec", RInt err) ] ++
  match cps_text (st_cps s) with [] => [] | t => [ (str "cps", RStr t) ] end.

(** resource_payload_get_string_property (124-136) with cannotBeEmpty. *)
Definition get_full (p : list rep) (k : list N) : option (list N) := match get_s p k with Some [] => None | x => x end.

(** oc_cloud_conf_update_t. *)
Record update : Type := mk_up { u_access : list N; u_provider : option (list N); u_server : list N; u_sid : list N; u_servers : option (list (list rep)) }.
Inductive order : Type := Nothing | Leave | Configure (u : update).

(** cloud_update_from_request (138-181) up to its call of oc_cloud_update_by_resource. *)
Definition read_update (p : list rep) : order :=
  let sid := get_full p (str "sid") in
  match (match sid with
         | None => Some default_sid
         | Some t => match str_to_uuid_v1 t with (z, Some v) => if (z <? 0)%Z then None else Some v | (_, None) => None end
         end) with
  | None => Nothing
  | Some id =>
      let servers := match get_oa p (str "x.org.iotivity.servers") with Some [] => None | x => x end in
      match get_s p (str "cis") with
      | None => Nothing
      | Some [] => Leave
      | Some u => match get_full p (str "at"), sid with
                  | Some a, Some _ => Configure (mk_up a (get_full p (str "apn")) u id servers)
                  | _, _ => Nothing
                  end
      end
  end.

(** oc_cloud_update_by_resource (oc_cloud.c:294-328) for a server: oc_cloud_store_reinitialize with the slot [slot],
    cloud_set_cloudconf (194-217), whose failure is only logged. *)
Definition configure (slot : option N) (mem : pool) (u : update) (s : store) : store :=
  let s0 := initialize slot (l_log (st_servers s)) in
  mk_st (fst (addresses_set mem (st_servers s0) (u_server u) (u_sid u) (u_servers u)))
        (match u_provider u with Some t => t | None => st_provider s0 end) (st_uid s0) (u_access u) (st_refresh s0) 0 1 (st_expires s0).

(** The switch of cloud_resource_post (199-221). *)
Definition open_to (cps : N) (p : list rep) : bool :=
  if (cps =? 0) || (cps =? 1) || (cps =? 4) || (cps =? 5) then true
  else if (cps =? 2) || (cps =? 3) then match get_s p (str "cis") with Some [] => true | _ => false end
  else false.

Inductive answer : Type := BadRequest | Changed (body : list rep).
Inductive act : Type := ResetCloud | Restarted | Saved.

(** The end of cloud_resource_post (231-238): the answer has to fit, otherwise nothing is saved. *)
Definition finish (fits : bool) (err : Z) (s : store) (l : list act) : answer * store * list act :=
  if fits then (Changed (show err s), s, l ++ [Saved]) else (BadRequest, s, l).

(** cloud_resource_post (183-239). [manager]: the cloud manager runs; [fits]: encoding the answer succeeds. *)
Definition post (slot : option N) (mem : pool) (reset : store -> store) (manager fits : bool) (err : Z) (p : list rep) (s : store)
  : answer * store * list act :=
  if negb (open_to (st_cps s) p) then (BadRequest, s, [])
  else match get_s p (str "cps") with
       | Some _ => (BadRequest, s, [])
       | None =>
           match read_update p with
           | Nothing => (BadRequest, s, [])
           | Leave => finish fits err (reset s) [ResetCloud]
           | Configure u => finish fits err (configure slot mem u s) (if manager then [Restarted] else [])
           end
       end.
