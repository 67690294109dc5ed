(** Specification vocabulary for the orbit controller claims. *)
From Verif Require Import Base FaultModel FaultHandlerModel PropModel OrbitModel.
From Coq Require Import QArith Qabs.
Local Open Scope Z_scope.

(** The four thrusters' directions in the body frame, to four digits: unit vectors to 1 part in 10000.  They are not written in
    the code; they are the geometry whose inverse the coefficients of schedule_valves are. *)
Definition net (x : Q * Q * Q * Q) : vec3 :=
  let '(x1, x2, x3, x4) := x in
  V3 ((6534 # 10000) * x1 + (5391 # 10000) * x2 - (6534 # 10000) * x3 - (5391 # 10000) * x4)
     (- (3822 # 10000) * x1 + (6472 # 10000) * x2 - (3822 # 10000) * x3 + (6472 # 10000) * x4)
     (- (6534 # 10000) * x1 + (5391 # 10000) * x2 + (6534 # 10000) * x3 - (5391 # 10000) * x4).

(** no component larger than [m] *)
Definition within (m : Q) (v : vec3) : Prop := (-m <= v3x v <= m /\ -m <= v3y v <= m /\ -m <= v3z v <= m)%Q.
(** every component within [e] of the other's *)
Definition close (e : Q) (v w : vec3) : Prop :=
  (-e <= v3x v - v3x w <= e /\ -e <= v3y v - v3y w <= e /\ -e <= v3z v - v3z w <= e)%Q.

Definition nonneg4 (x : Q * Q * Q * Q) : Prop := let '(x1, x2, x3, x4) := x in (0 <= x1 /\ 0 <= x2 /\ 0 <= x3 /\ 0 <= x4)%Q.
(** propellant spent, up to a factor *)
Definition total4 (x : Q * Q * Q * Q) : Q := let '(x1, x2, x3, x4) := x in (x1 + x2 + x3 + x4)%Q.
(** square of the norm *)
Definition norm4 (x : Q * Q * Q * Q) : Q := let '(x1, x2, x3, x4) := x in (x1 * x1 + x2 * x2 + x3 * x3 + x4 * x4)%Q.

(** the impulse a valve opening of [t] milliseconds gives, by the regression of OrbitController.hpp:18-19 *)
Definition impulse_of (t : Z) : Q := ((24119 # 1000000) * (inject_Z t / 1000) + (70092 # 1000000000))%Q.

(** the angle, in units of pi, of a node ahead, and how long it takes to get there *)
Definition ahead (theta w node t : Q) : Prop := (0 < t /\ theta + w * t == node)%Q.

(** the cycles in which a firing may be planned *)
Definition may_plan (i : oin) : Prop :=
  oi_time i = true /\ oi_orbit i = true /\ oi_att i = true /\ oi_rel i <> 0 /\ (oi_mission i = 4 \/ oi_mission i = 6).

(** cycles needed by the pressurization: so many fillings, each followed by cooling, and four for the changes of state *)
Definition needed (i : oin) : Z := oi_press i * (oi_fill i + oi_cool i) + 4.

(** Runs of the task with the measured relative position and velocity since the last cycle without a relative orbit, newest
    first.  Between executions others may write the smoothing constant (telemetered from 0 to 1), the number of nodes and
    the countdown. *)
Inductive oruns : list (vec3 * vec3) -> ost -> Prop :=
| or_start s : os_dr s = None -> os_dv s = None -> oruns [] s
| or_cycle l s s1 i s' : oruns l s -> os_dr s1 = os_dr s -> os_dv s1 = os_dv s -> (0 <= os_alpha s1 <= 1)%Q ->
    orbit_execute i s1 = Some s' -> oruns (if oi_rel i =? 0 then [] else (oi_dr i, oi_dv i) :: l) s'.

(** the angle from the projected sun line to the satellite, in units of pi, counted in the direction of motion, after time [t] *)
Definition position (phi w t : Q) : Q := (phi + w * t)%Q.
(** the same place on the orbit *)
Definition same_place (a b : Q) : Prop := exists k, (a == b + 2 * inject_Z k)%Q.

(** within the smallest box containing some vectors *)
Definition hull (l : list vec3) (d : vec3) : Prop :=
  forall lo hi, (Forall (fun v => lo <= v3x v <= hi) l -> lo <= v3x d <= hi)%Q /\
                (Forall (fun v => lo <= v3y v <= hi) l -> lo <= v3y d <= hi)%Q /\
                (Forall (fun v => lo <= v3z v <= hi) l -> lo <= v3z d <= hi)%Q.

(** no firing is under preparation; nor is one planned *)
Definition not_begun (p : pst) : Prop := ps_state p <> p_await_pressurizing /\ ps_state p <> p_pressurizing /\ ps_state p <> p_await_firing.
Definition resting (p : pst) : Prop := 0 <= ps_until p <= 1 /\ not_begun p.
