(** Delayed (separate) responses of slow resources (messaging/coap/separate.c, api/oc_server_api.c). *)
From Verif Require Import Common.
Local Open Scope N_scope.

(** coap_separate_t (messaging/coap/separate_internal.h): token, observe value, where to answer, path of the resource.
    The endpoint is a number standing for the client. *)
Record req : Type := mk_req { q_tok : list N; q_obs : Z; q_ep : N; q_uri : list N }.

(** The response buffer of the handle: never allocated, allocated, or freed. *)
Inductive buf : Type := BNone | BLive | BFreed.

(** oc_separate_response_t (messaging/coap/oc_coap.h:32-41): active flag, waiting requests, buffer; [h_leak] counts buffers
    lost. *)
Record handle : Type := mk_handle { h_active : bool; h_reqs : list req; h_buf : buf; h_leak : nat }.

(** What goes out: a response with that token to that client, or a notification to the observers of the resource at that
    client. *)
Inductive msg : Type := Response (ep : N) (tok : list N) | Notification (uri : list N) (ep : N).

(** What may fail: allocation of the buffer, of the request, of the acknowledgement. *)
Record luck : Type := mk_luck { k_buf : bool; k_req : bool; k_ack : bool }.

Definition same (tok : list N) (obs : Z) (r : req) : bool := list_eqb (q_tok r) tok && (q_obs r =? obs)%Z.

(** Overwrites the endpoint of the first request that matches (separate.c:94-103, 133). *)
Fixpoint retarget (tok : list N) (obs : Z) (ep : N) (l : list req) : list req :=
  match l with
  | [] => []
  | r :: t => if same tok obs r then mk_req (q_tok r) (q_obs r) ep (q_uri r) :: t else r :: retarget tok obs ep t
  end.
(** coap_separate_clear (183-193) of that request. *)
Fixpoint drop (tok : list N) (obs : Z) (l : list req) : list req :=
  match l with [] => [] | r :: t => if same tok obs r then t else r :: drop tok obs t end.

(** coap_separate_accept (71-160) and, when it succeeds, the flag set by its callers (api/oc_ri.c:1143-1146,
    messaging/coap/observe.c:583-586). [con]: the request is confirmable and needs an acknowledgement. *)
Definition accept (h : handle) (k : luck) (con : bool) (tok : list N) (obs : Z) (ep : N) (uri : list N) : handle * bool :=
  if negb (h_active h) && negb (k_buf k) then (mk_handle false [] BNone (h_leak h), false)
  else
    let lost := match h_active h, h_buf h with false, BLive => 1%nat | _, _ => 0%nat end in
    let h1 := if h_active h then h else mk_handle false [] BLive (h_leak h + lost) in
    let known := existsb (same tok obs) (h_reqs h1) in
    if negb known && negb (k_req k) then (h1, false)
    else
      let l := if known then retarget tok obs ep (h_reqs h1) else h_reqs h1 ++ [mk_req tok obs ep uri] in
      if con && negb (k_ack k) then (mk_handle (h_active h1) (drop tok obs l) (h_buf h1) (h_leak h1), false)
      else (mk_handle true l (h_buf h1) (h_leak h1), true).

(** The message for one waiting request (api/oc_server_api.c:707-717); OC_COAP_OPTION_OBSERVE_SEQUENCE_START_VALUE is 2. *)
Definition answer (r : req) : msg := if (q_obs r <? 2)%Z then Response (q_ep r) (q_tok r) else Notification (q_uri r) (q_ep r).

(** oc_send_separate_response (684-724) with separate_response_clear (669-681): [None] when the buffer has been freed
    already (it is read or freed again). *)
Definition send (h : handle) (code_ok : bool) : option (handle * list msg) :=
  match h_buf h with
  | BFreed => None
  | _ => if negb code_ok then Some (mk_handle (h_active h) [] BFreed (h_leak h), [])
         else Some (mk_handle false [] BFreed (h_leak h), map answer (h_reqs h))
  end.

Inductive op : Type :=
| Accept (k : luck) (con : bool) (tok : list N) (obs : Z) (ep : N) (uri : list N)
| Send (code_ok : bool).
Definition step (h : handle) (o : op) : option (handle * list msg) :=
  match o with
  | Accept k con tok obs ep uri => Some (fst (accept h k con tok obs ep uri), [])
  | Send c => if h_active h then send h c else Some (h, [])   (* applications check the flag first *)
  end.
