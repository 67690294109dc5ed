(** Model of [VectorSerializer<T>], /repo/src/common/SerializerTypes.inl:350-497, and of [QuaternionSerializer<T>], :499-638, in
    exact real arithmetic: rounding is left out (FloatSerModel.v has it for one component), but the signs of zero components and
    the cases in which the code divides zero by zero are kept.  Where the code converts a NaN to an integer the outcome is
    [None]. *)
From Verif Require Import Base BitArrayModel.
From Coq Require Import Reals.
From Flocq Require Import Core.
Local Open Scope R_scope.

(** [FloatDoubleSerializer::serialize], :225-238 *)
Definition renc (mn mx : R) (n : nat) (x : R) : option Z :=
  match n with
  | O => None                                                   (* division by a resolution of zero *)
  | _ => let x := if Rlt_dec mx x then mx else x in
         let x := if Rlt_dec x mn then mn else x in
         let res := (mx - mn) / (2 ^ n - 1) in
         Some (Zfloor ((x - mn) / res))
  end.

(** [FloatDoubleSerializer::deserialize], :255-267 *)
Definition rdec (mn mx : R) (b : list bool) : R :=
  mn + (mx - mn) / (2 ^ length b - 1) * IZR (bits_val b).

(** a vector with the sign bits its components have when they are zero *)
Record svec := SV { sv_x : R; sv_y : R; sv_z : R; sv_x_neg0 : bool; sv_y_neg0 : bool }.

Definition pt (v : svec) : R * R * R := (sv_x v, sv_y v, sv_z v).

(** [b1], [b2], :395-406 *)
Definition vb1 (p : nat) : nat := (2 + p)%nat.
Definition vb2 (mn mx : R) (p : nat) : nat := Z.to_nat (Zceil (ln (3 * mx / (mx - mn)) / ln 2) + Z.of_nat p).

(** [lin::norm] *)
Definition norm3 (x y z : R) : R := sqrt (x * x + y * y + z * z).

(** the argument of [std::atan], :441: the quotient of the first two components.  With x zero it is infinite, with the sign the
    two signs give, and the arc tangent is a right angle; 0/0 is a NaN. *)
Definition vphi (v : svec) : option R :=
  if Req_EM_T (sv_x v) 0 then
    if Req_EM_T (sv_y v) 0 then None
    else let s := if Rlt_dec (sv_y v) 0 then -1 else 1 in
         let s := if sv_x_neg0 v then - s else s in
         Some (s * (PI / 2))
  else Some (atan (sv_y v / sv_x v)).

(** [serialize], :435-460.  Normalization divides both components of the quotient and is left out there; a zero vector is
    normalized to NaNs. *)
Definition vserialize (mn mx : R) (p : nat) (v : svec) : option (list bool) :=
  let r := norm3 (sv_x v) (sv_y v) (sv_z v) in
  if Req_EM_T r 0 then None else
  match vphi v with
  | None => None
  | Some phi =>
    let theta := acos (sv_z v / r) in
    let xsign := if Rlt_dec 0 (sv_x v / r) then true else false in
    match renc mn mx (vb1 p) r, renc 0 PI (vb2 mn mx p) theta, renc (- PI / 2) (PI / 2) (vb2 mn mx p) phi with
    | Some cr, Some ct, Some cp =>
      Some (xsign :: val_bits (vb1 p) cr ++ val_bits (vb2 mn mx p) ct ++ val_bits (vb2 mn mx p) cp)
    | _, _, _ => None
    end
  end.

(** [deserialize], :467-490 *)
Definition vdeserialize (mn mx : R) (p : nat) (b : list bool) : R * R * R :=
  let xsign := hd false b in
  let b := tl b in
  let r := rdec mn mx (firstn (vb1 p) b) in
  let b := skipn (vb1 p) b in
  let theta := rdec 0 PI (firstn (vb2 mn mx p) b) in
  let b := skipn (vb2 mn mx p) b in
  let phi := rdec (- PI / 2) (PI / 2) (firstn (vb2 mn mx p) b) in
  let f := if xsign then 1 else -1 in
  (f * r * sin theta * cos phi, f * r * sin theta * sin phi, r * cos theta).

(** ** Quaternions *)
Definition quat := (R * R * R * R)%type.
Definition qget (q : quat) (i : nat) : R := let '(a, b, c, d) := q in match i with 0%nat => a | 1%nat => b | 2%nat => c | _ => d end.
Definition norm4r (q : quat) : R := let '(a, b, c, d) := q in sqrt (a * a + b * b + c * c + d * d).
Definition quat_component_sz : nat := 10.                       (* :527 *)

(** index of the component largest in magnitude, the first of equals, :552-561 *)
Definition qmax_step (q : nat -> R) (best : R * nat) (i : nat) : R * nat :=
  if Rlt_dec (fst best) (Rabs (q i)) then (Rabs (q i), i) else best.
Definition qmax (q : nat -> R) : nat := snd (fold_left (qmax_step q) [0; 1; 2; 3]%nat (0, 0%nat)).
Definition others (i : nat) : list nat := filter (fun j => negb (j =? i)%nat) [0; 1; 2; 3]%nat.
Definition idx_bits (i : nat) : list bool := val_bits 2 (Z.of_nat i).

(** the three other components, :571-588 *)
Fixpoint qelems (q : nat -> R) (l : list nat) : option (list bool) :=
  match l with
  | [] => Some []
  | i :: l => match renc (-1) 1 quat_component_sz (q i), qelems q l with
              | Some c, Some b => Some (val_bits quat_component_sz c ++ b)
              | _, _ => None
              end
  end.

(** [serialize], :545-589 *)
Definition qserialize (s : quat) : option (list bool) :=
  let n := norm4r s in
  if Req_EM_T n 0 then None else
  let q := fun i => qget s i / n in
  let m := qmax q in
  let q' := fun i => if Rlt_dec (qget s m) 0 then - q i else q i in
  match qelems q' (others m) with Some b => Some (idx_bits m ++ b) | None => None end.

(** [deserialize], :596-632; the square root of a negative number is a NaN, here [None] *)
Definition qdeserialize (b : list bool) : option (nat -> R) :=
  let m := Z.to_nat (bits_val (firstn 2 b)) in
  let e k := rdec (-1) 1 (firstn quat_component_sz (skipn (2 + k * quat_component_sz) b)) in
  let d := 1 - e 0%nat * e 0%nat - e 1%nat * e 1%nat - e 2%nat * e 2%nat in
  if Rlt_dec d 0 then None else
  Some (fun i => if (i =? m)%nat then sqrt d else e (if (i <? m)%nat then i else (i - 1)%nat)).
