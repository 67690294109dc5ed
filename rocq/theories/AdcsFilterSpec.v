(** What the filter constants and lost sensors are meant to do. *)
From Verif Require Import Base AdcsModel.
From Coq Require Import QArith Qabs.
Local Open Scope Q_scope.

(** smoothing with constant [f]: the part [f] of the way from the old reading to the fresh one *)
Definition smooths (f old fresh new : Q) : Prop := new == (1 - f) * old + f * fresh.
Definition smooths3 (f : Q) (old fresh new : vec) : Prop :=
  smooths f (vx old) (vx fresh) (vx new) /\ smooths f (vy old) (vy fresh) (vy new) /\ smooths f (vz old) (vz fresh) (vz new).
Definition same3 (a b : vec) : Prop := vx a == vx b /\ vy a == vy b /\ vz a == vz b.
(** some component is at least [q] in magnitude *)
Definition reaches (q : Q) (a : vec) : Prop := q <= Qabs (vx a) \/ q <= Qabs (vy a) \/ q <= Qabs (vz a).

(** repeated passes without a working wheel converter *)
Fixpoint passes (n : nat) (e : senv) (f r : Q) (h : hw) : hw := match n with O => h | S n => rwa_sense e f r (passes n e f r h) end.

(** [js] are different sun sensors, each above one volt and on a converter in use *)
Definition lit_sensors (h : hw) (js : list nat) : Prop :=
  NoDup js /\ forall j, In j js -> (j < 20)%nat /\ fn h (13 + j / 4)%nat = true /\ 1 < volts h j.
