(** RFC 4648 base64, written independently of the code: three bytes are one 24-bit number written
    with four base-64 digits. *)
From Verif Require Import Common.
From Coq Require Import String.
Local Open Scope N_scope.

Definition digits_std : list N :=
  str "ABCDEFGHIJKLMNOPQRSTUVWXYZabcdefghijklmnopqrstuvwxyz0123456789+/".
Definition digits_url : list N :=
  str "ABCDEFGHIJKLMNOPQRSTUVWXYZabcdefghijklmnopqrstuvwxyz0123456789-_".

Definition digit (ds : list N) (v : N) : N := nth (N.to_nat v) ds 0.

Fixpoint rfc_encode (ds : list N) (pad : list N) (l : list N) : list N :=
  match l with
  | [] => []
  | [a] => let n := a * 65536 in
           digit ds (n / 262144) :: digit ds (n / 4096 mod 64) :: pad ++ pad
  | [a; b] => let n := a * 65536 + b * 256 in
              digit ds (n / 262144) :: digit ds (n / 4096 mod 64) :: digit ds (n / 64 mod 64) :: pad
  | a :: b :: c :: r =>
    let n := a * 65536 + b * 256 + c in
    digit ds (n / 262144) :: digit ds (n / 4096 mod 64) :: digit ds (n / 64 mod 64)
      :: digit ds (n mod 64) :: rfc_encode ds pad r
  end.

(** A string a strict reader could take as base64 text: alphabet characters followed by at most two
    trailing pads (none when unpadded), of admissible length. *)
Definition rfc_text (ds : list N) (padding : bool) (s : list N) : Prop :=
  exists body k,
    s = (body ++ repeat 61 k)%list /\ Forall (fun c => In c ds) body /\
    (if padding then (k <= 2 /\ List.length s mod 4 = 0)%nat
     else (k = 0 /\ List.length s mod 4 <> 1)%nat).
