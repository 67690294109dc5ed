(** What the user of the power supply relies on: its messages as documented in src/fsw/FCCode/Drivers/Gomspace.hpp:36-128 and
    in the comments of the driver ("All values must be sent in big-endian order"), and the documented meaning of the device
    class (Devices/I2CDevice.hpp:14-33).  Only the type [bus] comes from the model. *)
From Verif Require Import Base DevModel.

(** * Messages *)

(** [w] bytes of a value, most significant first, and back *)
Fixpoint big (w : nat) (v : Z) : list Z := match w with O => [] | S k => v / 256 ^ Z.of_nat k mod 256 :: big k v end.
Definition value (l : list Z) : Z := fold_left (fun a b => 256 * a + b) l 0.

(** The housekeeping reply: 65 fields of these widths.  0-2 boost voltages, 3 battery voltage, 4-6 input currents, 7 and 8
    converter and system current, 9 reserved, 10-15 output currents, 16-23 outputs, 24-31 and 32-39 time to on and off,
    40-45 latch-ups, 46 and 47 watchdog times, 48-49 pings left, 50-53 watchdog reboots, 54 reboots, 55-60 temperatures,
    61 boot cause, 62 battery mode, 63 tracker mode, 64 reserved. *)
Definition hk_widths : list nat :=
  (repeat 2 16 ++ repeat 1 8 ++ repeat 2 22 ++ [4; 4; 1; 1; 4; 4; 4; 4; 4] ++ repeat 2 6 ++ [1; 1; 1; 2])%nat.
Definition hk_width (i : nat) : nat := nth i hk_widths 0%nat.
(** place of a field *)
Definition hk_place (i : nat) : nat := list_sum (firstn i hk_widths).
(** fields [a] to [b - 1] as sent *)
Definition hk_image (v : nat -> Z) (a b : nat) : list Z := flat_map (fun i => big (hk_width i) (v i)) (seq a (b - a)).
Definition hk_legal (v : nat -> Z) : Prop := forall i, (i < 65)%nat -> 0 <= v i < 256 ^ Z.of_nat (hk_width i).
(** fields that are telemetered, in the order of the telemetry: see GomspaceController.hpp:42-96 *)
Definition hk_telemetered : list nat :=
  ([0; 1; 2; 3; 4; 5; 6; 7; 8; 10; 11; 12; 13; 14; 15; 16; 17; 18; 19; 20; 21; 46; 50; 54; 55; 56; 57; 58; 61; 62; 63])%nat.
Definition reboots : nat := 54.
(** what a field is telemetered as: outputs as on or off, temperatures signed *)
Definition shown (v : nat -> Z) (i : nat) : Z :=
  if Nat.leb 16 i && Nat.leb i 23 then (if v i =? 0 then 0 else 1)
  else if Nat.leb 55 i && Nat.leb i 60 then (if v i <? 32768 then v i else v i - 65536) else v i.

(** A memory image of little-endian integers: value of the field of [w] bytes at [p] *)
Definition peek (w p : nat) (m : list Z) : Z := value (rev (firstn w (skipn p m))).
Definition bytes (l : list Z) : Prop := Forall (fun b => 0 <= b < 256) l.

(** What the supply understands by a message switching one output: output, level, delay in seconds *)
Definition understood_switch (m : list Z) : option (Z * Z * Z) :=
  match m with [10; ch; v; d1; d0] => Some (ch, v, value [d1; d0]) | _ => None end.

(** configurations: widths of the fields of the two structs *)
Definition cfg_widths : list nat := (repeat 1 20 ++ repeat 2 19)%nat.
Definition cfg2_widths : list nat := (repeat 2 4 ++ repeat 1 12)%nat.
(** a struct in memory, and as sent *)
Fixpoint in_memory (ws : list nat) (vs : list Z) : list Z :=
  match ws, vs with w :: ws, v :: vs => rev (big w v) ++ in_memory ws vs | _, _ => [] end.
Fixpoint as_sent (ws : list nat) (vs : list Z) : list Z :=
  match ws, vs with w :: ws, v :: vs => big w v ++ as_sent ws vs | _, _ => [] end.

(** * Buses *)

(** nothing works *)
Definition dead_bus : bus := mk_bus unit (fun _ s => (s, mk_wres false [])).
(** A bus with a scripted partner: every request is answered with the next reply of the script.  State: replies to come, bytes
    waiting to be taken, bytes of the message being sent, messages sent so far. *)
Record talk := mk_talk { t_replies : list (list Z); t_wait : list Z; t_msg : list Z; t_sent : list (list Z) }.
Definition scripted : bus := mk_bus talk (fun o t =>
  match o with
  | Write l => (mk_talk (t_replies t) (t_wait t) (t_msg t ++ l) (t_sent t), mk_wres true [])
  | EndTx => (mk_talk (t_replies t) (t_wait t) [] (t_sent t ++ [t_msg t]), mk_wres true [])
  | Request _ => (mk_talk (tl (t_replies t)) (hd [] (t_replies t)) (t_msg t) (t_sent t), mk_wres (negb (Nat.eqb (length (hd [] (t_replies t))) 0)) [])
  | Take n => (mk_talk (t_replies t) (skipn n (t_wait t)) (t_msg t) (t_sent t), mk_wres true (firstn n (t_wait t)))
  | Finish | Pin => (t, mk_wres true [])
  end).
(** a conversation in which the supply will give these replies; nothing pending *)
Definition conversation (replies : list (list Z)) (sent : list (list Z)) : talk := mk_talk replies [] [] sent.
