(** The orbit controller followed by the propulsion controller in one control cycle, MainControlLoop.cpp:159-160: they share
    orbit.control.valve1-4, prop.cycles_until_firing, prop.state and the propulsion parameters. *)
From Verif Require Import Base FaultModel FaultHandlerModel PropModel OrbitModel.
Local Open Scope Z_scope.

Definition with_sched (c : pcfg) (l : list Z) : pcfg :=
  mk_pcfg l (c_inter1 c) (c_inter2 c) (c_max_vent c) (c_close c) (c_max_press c) (c_fill c) (c_cool c) (c_t1_valve c).
Definition with_prop (c : pcfg) (st : Z) (i : oin) : oin :=
  mk_oi (oi_time i) (oi_orbit i) (oi_att i) (oi_rel i) (oi_dr i) (oi_dv i) (oi_mission i) st (c_max_press c) (c_fill c) (c_cool c)
        (oi_theta i) (oi_w i) (oi_J i).
Definition with_until (s : ost) (n : Z) : ost := mk_os (os_alpha s) (os_n s) (os_dr s) (os_dv s) (os_gain s) (os_J s) (os_valves s) n.

(** one cycle of both tasks, nobody else writing *)
Definition joint_cycle (cc : Z) (c : pcfg) (sn : sens) (i : oin) (sp : ost * pst) : option (ost * pst) :=
  let '(s, p) := sp in
  match orbit_execute (with_prop c (ps_state p) i) (with_until s (ps_until p)) with
  | None => None
  | Some s' => Some (s', prop_ctrl cc (with_sched c (os_valves s')) sn (ps_set_until p (os_until s')))
  end.

(** any number of cycles; each has its own cycle count, parameters, sensor readings and orbit inputs *)
Fixpoint joint_run (l : list (Z * pcfg * sens * oin)) (sp : ost * pst) : option (ost * pst) :=
  match l with
  | [] => Some sp
  | (cc, c, sn, i) :: more => match joint_cycle cc c sn i sp with None => None | Some sp' => joint_run more sp' end
  end.
