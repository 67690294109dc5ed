(** What is said about the estimators, in terms of what the satellite received in each control cycle. *)
From Verif Require Import Base GPSTimeModel NavModel.

Section Spec.
Context {G : gnc}.
Implicit Types i : nin G.

(** the GPS receiver delivered a position (modes: single point, fixed RTK, float RTK) *)
Definition gps_fix i : Prop := n_mode G i = 0 \/ n_mode G i = 1 \/ n_mode G i = 2.
(** ... and a baseline to the other satellite, to a few centimetres *)
Definition rtk i : Prop := n_mode G i = 1.
(** ground commanded a reset *)
Definition resets_time i : Prop := n_treset G i = Some true.
Definition resets_orbit i : Prop := n_oreset G i = Some true.
Definition resets_rel i : Prop := n_rreset G i = Some true.
Definition resets_att i : Prop := n_areset G i = Some true.
(** ground uplinked nothing about the other satellite in this cycle, or something for a later time than [T] *)
Definition later_uplink (T : gtime) i : Prop :=
  match n_uplink G i with None => True | Some (t, _, _) => g_set t = true /\ gtime_ns T < gtime_ns t end.

(** the age of the GPS data, in nanoseconds *)
Definition age i : Z := 1000 * n_delta G i.
(** ages the receiver's task lets through with a position *)
Definition fresh i : Prop := 0 <= n_delta G i <= 100000.

(** since some cycle of the history a GPS position arrived and time was not reset *)
Definition time_known (h : list (nin G)) : Prop :=
  exists h1 i h2, h = h1 ++ i :: h2 /\ gps_fix i /\ ~ resets_time i /\ Forall (fun j => ~ resets_time j) h2.

(** the satellite is told not to move: nothing asked of wheels and rods *)
Definition still (c : cst G) : Prop := c_t G c = vzero G /\ c_m G c = vzero G.

(** commands made of finite numbers *)
Definition finite_cmd (c : cst G) : Prop := vfin G (c_t G c) = true /\ vfin G (c_m G c) = true.

(** time between two readings of consecutive cycles *)
Definition elapsed i j : Z := 170000000 + age i - age j.

(** the rods' command as it stood when the estimator ran one cycle earlier *)
Definition rods_before (h : list (nin G)) : vec G := match rev h with [] => vzero G | i :: _ => n_mtr G i end.
End Spec.

(** the library's updates never make a valid relative estimate invalid *)
Definition keeps (G : gnc) : Prop := forall ns w p v m e, re_ok G e = true -> re_ok G (re_update G ns w p v m e) = true.
