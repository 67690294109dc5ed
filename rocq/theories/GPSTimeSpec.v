(** Specification of GPS time: a set time denotes a number of nanoseconds. *)
From Verif Require Import Base GPSTimeModel.

(** a normal calendar time: whole milliseconds of the week and a residue below one millisecond *)
Definition normal (g : gtime) : Prop :=
  0 <= g_wn g < 2 ^ 16 /\ 0 <= g_tow g < 7 * 24 * 3600 * 1000 /\ 0 <= g_ns g < 1000000.

(** nanoseconds since the GPS epoch *)
Definition instant (g : gtime) : Z :=
  (g_wn g * (7 * 24 * 3600 * 1000) + g_tow g) * 1000000 + g_ns g.

(** instants a 64-bit count can hold *)
Definition in64 (x : Z) : Prop := 0 <= x < 2 ^ 64.
