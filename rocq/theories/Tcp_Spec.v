(** What the stream properties are stated with: the frames of RFC 8323 and of TLS, and streams of
    them. *)
From Coq Require Import NArith List Bool.
From Verif Require Import Common Coap_Model Coap_Spec Tcp_Model.
Import ListNotations.
Local Open Scope N_scope.

(** A CoAP over TCP frame (RFC 8323, 3.2) with these options. *)
Definition coap_frame (opts : list (N * list N)) (f : list N) : Prop :=
  exists code token payload,
    (List.length token <= 8)%nat /\ Forall (fun o => fst o < 2 ^ 32) opts /\ nlen f <= 0xFFFFFFFF /\
    rfc_tcp code token opts payload f.

(** A TLS record (RFC 5246, 6.2.1; RFC 9146 for 25): type, version, length, fragment. *)
Definition tls_frame (f : list N) : Prop :=
  exists ty minor fragment,
    In ty [20; 21; 22; 23; 25] /\ 1 <= minor <= 4 /\ nlen fragment < 65536 /\
    f = [ty; 3; minor; nlen fragment / 256; nlen fragment mod 256] ++ fragment.

(** A frame the receiver takes: a TLS record on a secured connection; otherwise a CoAP frame that is
    an OSCORE message (option 9) or that the CoAP parser accepts. *)
Definition good_frame (c : cfg) (osc tls : bool) (f : list N) : Prop :=
  if tls then tls_frame f
  else exists opts, coap_frame opts f /\
    (osc = true /\ In 9 (map fst opts) \/ exists p, tcp_parse c false f [] = P_ok p).

(** How the network may cut the stream: the first reading of a message brings the six bytes asked
    for; the other readings bring any number of bytes or are interrupted. *)
Definition calm (evs : list rcv) : Prop :=
  match evs with
  | [] => True
  | Got k :: r => (6 <= k)%nat /\ ~ In Fail r
  | _ :: _ => False
  end.
(** The number of readings that bring bytes. *)
Fixpoint reads (evs : list rcv) : nat :=
  match evs with
  | [] => 0
  | Got _ :: r => S (reads r)
  | _ :: r => reads r
  end.
