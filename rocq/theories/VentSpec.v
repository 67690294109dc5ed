(** Specification vocabulary for venting: which tank asks for relief, what opens, an episode of venting. *)
From Verif Require Import Base FaultModel FaultHandlerModel PropModel PropSpec.

(** what reading a fault of the propulsion system answers *)
Definition in_force (p : pst) (i : fid) : bool := snd (fault_read (ps_faults p i)).
(** tank 1 asks for relief when it is hot, tank 2 when it is hot or over pressure *)
Definition asks (p : pst) (t : tank) : bool :=
  match t with T1 => in_force p Tank1Hot | T2 => in_force p Tank2Hot || in_force p Overpressure end.
Definition other (t : tank) : tank := match t with T1 => T2 | T2 => T1 end.
(** the tank of the venting in progress, or of the last one *)
Definition vented (p : pst) : tank := vt_tank (ps_vent p).

(** valve [i] of tank [t] goes from shut to open *)
Definition opens (d d' : drv) (t : tank) (i : nat) : Prop := drv_is_open t i d = false /\ drv_is_open t i d' = true.

(** the thruster valves a venting cycle opened, in a run, first one first *)
Definition newly_open (d d' : drv) : list nat := filter (fun i => negb (drv_is_open T2 i d) && drv_is_open T2 i d') [0; 1; 2; 3]%nat.
Fixpoint thrusters_vented (l : list pcycle) : list nat :=
  match l with
  | [] => []
  | y :: t => thrusters_vented t ++ (if ps_state (y_before y) =? p_venting then newly_open (ps_drv (y_before y)) (ps_drv (y_after y)) else [])
  end.

(** venting of tank [t] under fixed parameters, [n] evaluations after it was entered *)
Inductive venting (fill close mx : Z) (t : tank) : Z -> pst -> Prop :=
| venting_enter p0 cc c s : ps_state p0 <> p_venting -> none_open (d_t1 (ps_drv p0)) -> none_open (d_t2 (ps_drv p0)) ->
    length (d_t1 (ps_drv p0)) = 2%nat -> length (d_t2 (ps_drv p0)) = 4%nat -> d_on (ps_drv p0) = false ->
    let p := prop_ctrl cc c s p0 in
    ps_state p = p_venting -> vented p = t -> venting fill close mx t 0 p
| venting_step n p p1 cc c s : venting fill close mx t n p -> between Nobody p p1 ->
    c_fill c = fill -> c_close c = close -> c_max_vent c = mx -> (c_t1_valve c < 2)%nat ->
    ps_state (prop_ctrl cc c s p1) = p_venting -> venting fill close mx t (n + 1) (prop_ctrl cc c s p1).
