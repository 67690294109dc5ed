(** Model of the orbit controller, /repo/src/fsw/FCCode/OrbitController.cpp.

    Simplifications.  double values are exact rationals, [None] where the code keeps NaN on purpose.  Angles are in units of
    pi, so that the firing nodes are rationals.  What the gnc library and the frame rotations compute is an input: the angle
    [oi_theta] of :126, the angular velocity of :166, and the impulses of :195-214 and :146-157 as functions [oi_J] of the
    smoothed relative state and of the factor dividing the gains. *)
From Verif Require Import Base.
From Coq Require Import QArith Qminmax.
Local Open Scope Z_scope.

(** a conversion of a double to an integer: towards zero *)
Definition Qtrunc (q : Q) : Z := Z.quot (Qnum q) (Zpos (Qden q)).
Definition qlt (a b : Q) : bool := negb (Qle_bool b a).

Record vec3 := V3 { v3x : Q; v3y : Q; v3z : Q }.

(** ** Thrust allocation *)

(** impulse_to_time, OrbitController.cpp:221-226, constants OrbitController.hpp:18-19.  A value out of the range of int is
    undefined. *)
Definition slope : Q := 24119 # 1000000.
Definition intercept : Q := 70092 # 1000000000.
Definition impulse_to_time (impulse : Q) : option Z :=
  let t := Qtrunc ((impulse - intercept) / slope * 1000)%Q in
  if (- 2 ^ 31 <=? t) && (t <? 2 ^ 31) then Some (if t <? 0 then 0 else t) else None.

(** the integer division in :235 *)
Definition min_norm_factor : Z := -1 * (1 / 152280838494).

(** :241-243, 248-250, 256-258 *)
Definition x1_of (a b c x4 : Q) : Q := ((4026550706 # 10000000000) * c + (116788310856 # 100000000000) * a - (130821559393 # 100000000000) * b + (169335426478 # 100000000000) * x4)%Q.
Definition x2_of (a b c x4 : Q) : Q := ((92747171211 # 100000000000) * c + (92747171211 # 100000000000) * a + x4)%Q.
Definition x3_of (a b c x4 : Q) : Q := ((116788310856 # 100000000000) * c + (4026550706 # 10000000000) * a - (130821559393 # 100000000000) * b + (169335426478 # 100000000000) * x4)%Q.

(** the impulses of schedule_valves, :228-259 *)
Definition impulses (J : vec3) : Q * Q * Q * Q :=
  let a := v3x J in let b := v3y J in let c := v3z J in
  let x4 := (inject_Z min_norm_factor * (70618085000 * c - 87226380000 * b + 70618085000 * a))%Q in
  let x4 := if qlt x4 0 then 0%Q else x4 in
  let x1 := x1_of a b c x4 in let x2 := x2_of a b c x4 in let x3 := x3_of a b c x4 in
  if qlt x1 0 || qlt x2 0 || qlt x3 0 then
    let x4 := (- Qmin (x1_of a b c 0) (Qmin (x2_of a b c 0) (x3_of a b c 0)))%Q in
    (x1_of a b c x4, x2_of a b c x4, x3_of a b c x4, x4)
  else (x1, x2, x3, x4).

(** schedule_valves, :228-267 *)
Definition schedule_valves (J : vec3) : option (list Z) :=
  let '(x1, x2, x3, x4) := impulses J in
  match impulse_to_time x1, impulse_to_time x2, impulse_to_time x3, impulse_to_time x4 with
  | Some t1, Some t2, Some t3, Some t4 => Some [t1; t2; t3; t4]
  | _, _, _, _ => None
  end.

(** ** Firing nodes *)

(** node_generator, :276-286, for index [i] *)
Definition near_node (n : Z) (i : Z) : Q :=
  if u32 (n - 1) <? i then 0%Q
  else let x := (i # 90)%Q in if qlt 1 x then (x - 2)%Q else x.
Definition near_nodes (n : Z) : list Q := map (fun i => near_node n (Z.of_nat i)) (seq 0 360).
(** firing_nodes_far, :12 *)
Definition far_nodes : list Q := [1 # 3; 1; - (1 # 3)]%Q.

(** next_node, :169-178; [None] is the largest double, when no node is ahead *)
Definition next_node (theta w : Q) (nodes : list Q) : option Q :=
  fold_left (fun best node =>
    let t := ((node - theta) / w)%Q in
    if qlt 0 t && match best with None => true | Some b => qlt t b end then Some t else best) nodes None.

Definition rel_invalid : Z := 0.
Definition rel_estimating : Z := 2.

(** time_till_node, :159-182 *)
Definition time_till_node (rel n : Z) (theta w : Q) : option Q :=
  if rel =? rel_estimating then next_node theta w (near_nodes n) else next_node theta w far_nodes.

(** prop_min_cycles_needed, :269-274 *)
Definition min_cycles (press fill cool : Z) : Z := u32 (u32 (press * u32 (fill + cool)) + 4).

(** ** The task *)

Record oin := mk_oi {
  oi_time : bool; oi_orbit : bool; oi_att : bool;   (* time.valid, orbit.valid, attitude_estimator.valid *)
  oi_rel : Z;                                       (* rel_orbit.state *)
  oi_dr : vec3; oi_dv : vec3;                       (* rel_orbit.rel_pos, rel_vel *)
  oi_mission : Z; oi_prop : Z;                      (* pan.state, prop.state *)
  oi_press : Z; oi_fill : Z; oi_cool : Z;           (* the propulsion parameters *)
  oi_theta : Q; oi_w : Q;
  oi_J : option vec3 -> option vec3 -> Q -> vec3 * vec3   (* J_ecef and J_body *)
}.
Record ost := mk_os {
  os_alpha : Q; os_n : Z;                           (* orbit.control.alpha, num_near_field_nodes *)
  os_dr : option vec3; os_dv : option vec3;         (* dr_smoothed, dv_smoothed *)
  os_gain : option Q;                               (* the function-local static gain_factor, :205, once initialised *)
  os_J : vec3;                                      (* orbit.control.J_ecef *)
  os_valves : list Z;                               (* orbit.control.valve1-4 *)
  os_until : Z                                      (* prop.cycles_until_firing *)
}.

(** the exponential smoothing, :70-84 *)
Definition smooth (alpha : Q) (v : vec3) (s : option vec3) : option vec3 :=
  match s with
  | None => Some v
  | Some s => Some (V3 (alpha * v3x v + (1 - alpha) * v3x s) (alpha * v3y v + (1 - alpha) * v3y s) (alpha * v3z v + (1 - alpha) * v3z s))%Q
  end.

Definition o_follower : Z := 4.
Definition o_follower_ca : Z := 6.
Definition o_idle : Z := 1.

(** execute, :60-157, with calculate_impulse, :184-219; [None] is undefined behaviour *)
Definition orbit_execute (i : oin) (s : ost) : option ost :=
  let valid := negb (oi_rel i =? rel_invalid) in
  let dr := if valid then smooth (os_alpha s) (oi_dr i) (os_dr s) else None in
  let dv := if valid then smooth (os_alpha s) (oi_dv i) (os_dv s) else None in
  if negb (oi_time i) || negb (oi_orbit i) || negb valid || negb (oi_att i)
     || negb ((oi_mission i =? o_follower) || (oi_mission i =? o_follower_ca)) then
    Some (mk_os (os_alpha s) (os_n s) dr dv (os_gain s) (os_J s) (os_valves s) (os_until s))
  else
    let limit := u32 (min_cycles (oi_press i) (oi_fill i) (oi_cool i) + 10) in
    let until := match time_till_node (oi_rel i) (os_n s) (oi_theta i) (oi_w i) with
                 | Some t => let cc := (t * 1000 / 170)%Q in
                             if Qle_bool cc (inject_Z limit) && (oi_prop i =? o_idle) then Qtrunc cc else os_until s
                 | None => os_until s
                 end in
    let gain := match os_gain s with Some g => g | None => (inject_Z (os_n s) / 3)%Q end in
    let '(Je, Jb) := oi_J i dr dv (if oi_rel i =? rel_estimating then gain else 1%Q) in
    match schedule_valves Jb with
    | None => None
    | Some v => Some (mk_os (os_alpha s) (os_n s) dr dv (Some gain) Je v until)
    end.
