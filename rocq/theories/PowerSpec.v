(** Vocabulary of the power and docking properties. *)
From Verif Require Import Base FaultModel FaultHandlerModel MissionModel PowerModel.
From Coq Require Import QArith.
Local Open Scope Z_scope.

(** the commands of a history addressed to output [i], in order *)
Definition sent (i : nat) (tr : list (nat * bool)) : list bool := map snd (filter (fun c => Nat.eqb (fst c) i) tr).

(** a cycle in which the supply hears and answers everything *)
Definition working (e : genv) : Prop :=
  ge_hk e = true /\ (forall j, ge_out e j = true) /\ ge_pv e = true /\ ge_ppt e = true /\ ge_query e = true /\ ge_heat e = true.

(** What everyone else may do between two cycles of the controller: write any command field except the power-cycle command
    of output [i] and the period; for output 0, the GPS receiver, the off switch stays off. *)
Definition elsewhere (i : nat) (g g' : gom) : Prop :=
  p_out g' = p_out g /\ k_out g' = k_out g /\ f_out g' = f_out g /\ c_cyc g' i = c_cyc g i /\ c_period g' = c_period g /\
  (i = 0%nat -> c_off g' = false).

(** [n] cycles of the controller after cycle number [cc], none of them numbered 1; the commands sent are collected *)
Inductive pcrun (i : nat) (cc : Z) : Z -> gom -> list (nat * bool) -> gom -> Prop :=
| pc_0 g : pcrun i cc 0 g [] g
| pc_S n g tr g1 g2 e g3 t : pcrun i cc n g tr g1 -> elsewhere i g1 g2 -> working e -> u32 (cc + (n + 1)) <> 1 ->
    gom_exec (u32 (cc + (n + 1))) e g2 = Some (g3, t) -> pcrun i cc (n + 1) g (tr ++ t) g3.

(** interleavings of timer ticks and controller cycles in which the docking command may change freely except that it is not
    withdrawn while the motor turns *)
Inductive dkrun (angle : Q) : dock -> dock -> Prop :=
| dk_0 d : dkrun angle d d
| dk_tick d d1 : dkrun angle d d1 -> dkrun angle d (dock_tick d1)
| dk_exec d d1 cmd d2 : dkrun angle d d1 -> (dk_turning d1 = true -> cmd <> dk_config d1) ->
    dock_exec cmd angle d1 = Some d2 -> dkrun angle d d2.

(** the motor stands still and is not powered *)
Definition at_rest (d : dock) : Prop := dk_timer d = false /\ dk_awake d = false.
(** the motor has made whole half turns of [n] steps, and the flag says which side it is on; it started on the docking side *)
Definition flag_right (n : Z) (d : dock) : Prop := exists k, dk_pos d = k * n /\ dk_config d = Z.even k.

(** mission-manager histories without ground commands for the mission state or the GPS power switch *)
Inductive gps_history : world -> world -> Prop :=
| gh_0 w : gps_history w w
| gh_S w w1 w2 i w3 : gps_history w w1 -> environment false w1 w2 -> mm_piksi_off (wm w2) = mm_piksi_off (wm w1) ->
    mission_execute i w2 = Some w3 -> gps_history w w3.
