(** Specification of downlink frames. *)
From Verif Require Import Base DownlinkModel.

(** the telemetry a frame carries: cycle count, then id and fields of each active flow, in order *)
Definition payload (cc : list bool) (flows : list flow) : list bool :=
  cc ++ flat_map (fun f => if fl_active f then fl_idbits f ++ concat (fl_fields f) else []) flows.

(** a frame is cut into packets of 560 bits, the first bit of each being a marker *)
Definition slot (j : Z) : Z := j + 1 + j / 559.       (* where telemetry bit [j] goes *)
Definition marker (k : Z) : Z := 560 * k.             (* marker of packet [k] *)

(** number of packets after the first that [n] telemetry bits need *)
Definition continuations (n : Z) : Z := if n <=? 0 then 0 else (n - 1) / 559.

(** bits used by a frame of [n] telemetry bits *)
Definition frame_length (n : Z) : Z := n + 1 + continuations n.

Definition bit_at (buf : list bool) (p : Z) : option bool := nth_error buf (Z.to_nat p).

(** the flows that a frame reports, in order *)
Definition reported (ids : list (Z * flow)) : list (Z * list (list bool)) :=
  map (fun p => (fst p, fl_fields (snd p))) (filter (fun p => fl_active (snd p)) ids).
