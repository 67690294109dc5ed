(** What vector telemetry is meant to do. *)
From Coq Require Import Reals.
Local Open Scope R_scope.

(** Euclidean distance and length *)
Definition dist3 (a b : R * R * R) : R :=
  let '(a1, a2, a3) := a in let '(b1, b2, b3) := b in
  sqrt ((a1 - b1) * (a1 - b1) + (a2 - b2) * (a2 - b2) + (a3 - b3) * (a3 - b3)).
Definition len3 (a : R * R * R) : R := dist3 a (0, 0, 0).

(** the distance to which a field declared with limits [mn], [mx] and precision [p] is to transmit a vector,
    SerializerTypes.inl:374-377 *)
Definition declared_precision (mn mx : R) (p : nat) : R := (mx - mn) / 2 ^ p.

(** two quaternions stand for the same rotation if they agree up to sign; [close4 e q r]: they do within [e] per component *)
Definition close4 (e : R) (q r : nat -> R) : Prop := forall i, (i < 4)%nat -> Rabs (q i - r i) <= e.
Definition same_rotation_within (e : R) (q r : nat -> R) : Prop := close4 e q r \/ close4 e (fun i => - q i) r.

(** the vector in the same direction whose length is within the limits, nearest to the given one *)
Definition within_limits (mn mx : R) (a : R * R * R) : R * R * R :=
  let '(x, y, z) := a in let k := Rmax mn (Rmin mx (len3 a)) / len3 a in (k * x, k * y, k * z).
Definition first3 (a : R * R * R) : R := let '(x, _, _) := a in x.
Definition second3 (a : R * R * R) : R := let '(_, y, _) := a in y.
Definition third3 (a : R * R * R) : R := let '(_, _, z) := a in z.
(** a component further than [e] from zero comes back with its sign *)
Definition sign_kept (e x x' : R) : Prop := (e < x -> 0 < x') /\ (x < - e -> x' < 0).
