(** What ETags are for, stated without the code that issues them. *)
From Verif Require Import Common Etag_Model.
Local Open Scope N_scope.

(** Who a resource is, across restarts. *)
Definition key := (bool * N * list N)%type.
Definition key_of (r : res) : key := (e_plat r, home r, e_uri r).
Definition ekey (e : entry) : key := (s_plat e, s_dev e, s_uri e).
(** What a client can see of a resource: who it is, its ETag, the checksum of its content. *)
Definition sight := (key * N * N)%type.
Definition view (crc : N -> N) (rs : list res) : list sight := map (fun r => (key_of r, e_tag r, crc (e_con r))) rs.

(** One ETag of a resource stands for one content. *)
Definition consistent (seen : list sight) : Prop :=
  forall k t c1 c2, In (k, t, c1) seen -> In (k, t, c2) seen -> c1 = c2.

(** The numbers stay below 2^64: [m] bounds clock and ETag, [k] the number of ETags drawn. *)
Definition room (m : N) (k : nat) : Prop := m + 1000 * N.of_nat k < two64.
Definition clock_below (inp : nat -> draw) (m : N) : Prop := forall n, fst (inp n) <= m.

(** When the device starts, either its clock is past the last ETag, or the greatest ETag issued is among those
    restored (and the devices are in normal operation). *)
Definition clock_ahead (s : st) (inp : nat -> draw) : Prop := forall n, g_etag s <= fst (inp n).
Definition greatest_restored (crc : N -> N) (s : st) (seen : list sight) (can : N -> bool) (cfg : list res) : Prop :=
  (forall r, In r cfg -> e_plat r = true \/ can (e_dev r) = true) /\
  exists r e, In r cfg /\ In e (g_store s) /\ ekey e = key_of r /\ e_crc r = true /\ s_tag e <> 0 /\ s_crc e = crc (e_con r) /\
              forall k t c, In (k, t, c) seen -> t <= s_tag e.

Definition op_ok (crc : N -> N) (s : st) (seen : list sight) (p : op) : Prop :=
  match p with
  | Create r d => (exists m, g_etag s <= m /\ fst d <= m /\ room m 1) /\ ~ In (key_of r) (map key_of (g_res s))
  | Change r d => exists m, g_etag s <= m /\ fst d <= m /\ room m 1
  | Remove _ => True
  | ResetDev _ inp => exists m, g_etag s <= m /\ clock_below inp m /\ room m (List.length (g_res s))
  | Dump => True
  | Start can inp cfg =>
      NoDup (map key_of cfg) /\ (exists m, g_etag s <= m /\ clock_below inp m /\ room m (2 * List.length cfg + 2)) /\
      (clock_ahead s inp \/ greatest_restored crc s seen can cfg)
  end.

(** States reached, with everything clients could have seen. *)
Inductive reach (crc : N -> N) : st -> list sight -> Prop :=
| Reach0 : reach crc (mk_st 0 [] []) []
| ReachS s seen p : reach crc s seen -> op_ok crc s seen p -> reach crc (step crc s p) (seen ++ view crc (g_res (step crc s p))).

(** Later in the same run of the device. *)
Inductive later (crc : N -> N) : st -> list sight -> st -> list sight -> Prop :=
| Later0 s seen : later crc s seen s seen
| LaterS s1 seen1 s seen p : later crc s1 seen1 s seen -> op_ok crc s seen p -> (forall can inp cfg, p <> Start can inp cfg) ->
    later crc s1 seen1 (step crc s p) (seen ++ view crc (g_res (step crc s p))).
