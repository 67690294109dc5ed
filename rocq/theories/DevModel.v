(** Model of the drivers of the devices on the internal buses of the attitude computer: /repo/src/adcs/dev/I2CDevice.inl,
    Device.hpp, LSM6DSM.cpp (gyroscope), LIS2MDLTR.cpp and MMC34160PJ.cpp (magnetometers), ADS1015.cpp (converters), and the
    parts of imu.cpp, rwa.cpp and ssa.cpp that call them.

    The library i2c_t3 is not in /repo.  A bus is any state machine answering its calls, see [bus]; every theorem about drivers
    holds for all of them.  Left out: addresses, timeouts, stop conditions, and the time a call takes. *)
From Verif Require Import Base AdcsModel.

(** One call of the library: write bytes, end a transmission, request [n] bytes, take [n] bytes out of the buffer, wait for the
    bus to be idle; and the level of an alert pin. *)
Inductive wop := Write (l : list Z) | EndTx | Request (n : nat) | Take (n : nat) | Finish | Pin.
(** whether the call succeeded ([Pin]: whether the level is high), and the bytes taken *)
Record wres := mk_wres { w_ok : bool; w_data : list Z }.
Record bus := mk_bus { bst : Type; bcall : wop -> bst -> bst * wres }.

(** Device.hpp:43-45 and I2CDevice.hpp:130-132 *)
Record dev := mk_dev { d_fn : bool; d_cnt : Z; d_acc : bool }.

(** DEV_I2C_ERROR_COUNT, I2CDevice.hpp:23 *)
Definition error_limit : Z := 3.

Section Drivers.
Context (B : bus).
Notation st := (bst B * dev)%type.

(** one call, its failure added to the accumulator: I2CDevice.inl:52-99 *)
Definition call (o : wop) (s : st) : st * list Z :=
  let '(b, r) := bcall B o (fst s) in
  ((b, mk_dev (d_fn (snd s)) (d_cnt (snd s)) (d_acc (snd s) || negb (w_ok r))), w_data r).
Definition calls (l : list wop) (s : st) : st := fold_left (fun s o => fst (call o s)) l s.

(** i2c_pop_errors, I2CDevice.inl:37-46 *)
Definition pop (s : st) : st * bool :=
  let d := snd s in
  if d_acc d then
    let c := u32 (d_cnt d + 1) in
    ((fst s, mk_dev (if error_limit <=? c then false else d_fn d) c false), true)
  else ((fst s, mk_dev (d_fn d) 0 false), false).

(** I2CDevice::reset, I2CDevice.inl:18-23 *)
Definition dev_clear (s : st) : st := (fst s, mk_dev true 0 false).

(** the loop common to all reset functions, e.g. LIS2MDLTR.cpp:24-34: [None] when it is not over after [fuel] rounds *)
Fixpoint reset_loop (fuel : nat) (msg : list wop) (s : st) : option (st * bool) :=
  match fuel with
  | O => None
  | S k => if d_fn (snd s) then
             let '(s, err) := pop (calls msg s) in
             if err then reset_loop k msg s else Some (s, true)
           else Some (s, false)
  end.
(** what each reset function sends in one round: LIS2MDLTR.cpp:25-32, MMC34160PJ.cpp:24-27, LSM6DSM.cpp:25-28, ADS1015.cpp:32-37,
    AD5254.cpp:43-53 *)
Definition mag1_setup : list wop := [Write [0x60]; Write [0x08]; EndTx; Write [0x62]; Write [0x10]; EndTx].
Definition mag2_setup : list wop := [Write [7]; Write [0x0E]; EndTx].
Definition gyr_setup : list wop := [Write [0x11]; Write [0x32]; EndTx].
Definition adc_setup : list wop := [Write [2; 0; 0]; EndTx; Write [3; 255; 255]; EndTx].
Definition pot_setup : list wop := [Write [0]; Write [0; 0; 0; 0]; Finish].
(** reset; the gyroscope's also sends a switch-off message after a failure, LSM6DSM.cpp:31 *)
Definition reset (msg : list wop) (s : st) : option (st * bool) := reset_loop 4 msg (dev_clear s).

(** ** Readings *)

Definition byte (l : list Z) (i : nat) : Z := nth i l 0 mod 256.
(** two bytes, low byte first *)
Definition word (l : list Z) (i : nat) : Z := byte l i + 256 * byte l (S i).
Definition s16 (z : Z) : Z := if z <? 32768 then z else z - 65536.

(** is_ready: LIS2MDLTR.cpp:45-51 (register 0x67, bit 3) and MMC34160PJ.cpp:73-80 (register 6, bit 0): the byte is taken after
    errors were looked at *)
Definition ready_late (reg : Z) (bit : Z) (s : st) : st * bool :=
  let '(s, err) := pop (calls [Write [reg]; EndTx; Request 1] s) in
  if err then (s, false) else let '(s, l) := call (Take 1) s in (s, Z.testbit (byte l 0) bit).
(** LSM6DSM.cpp:43-50 *)
Definition gyr_ready (s : st) : st * bool :=
  let '(s, l) := call (Take 1) (calls [Write [0x1E]; EndTx; Request 1] s) in
  let '(s, err) := pop s in (s, negb err && Z.testbit (byte l 0) 1).

(** read: LSM6DSM.cpp:52-69, LIS2MDLTR.cpp:53-69, MMC34160PJ.cpp:82-98: [n] bytes from a register, [None] on error *)
Definition read_reg (reg : Z) (n : nat) (s : st) : st * option (list Z) :=
  let '(s, l) := call (Take n) (calls [Write [reg]; EndTx; Request n] s) in
  let '(s, err) := pop s in (s, if err then None else Some l).

(** the values the getters return: LSM6DSM.hpp:82-90 (temperature, rates), LIS2MDLTR.hpp:90-96 *)
Definition gyr_values (l : list Z) : Z * (Z * Z * Z) := (s16 (word l 0), (s16 (word l 2), s16 (word l 4), s16 (word l 6))).
Definition mag1_values (l : list Z) : Z * Z * Z := (s16 (word l 0), s16 (word l 2), s16 (word l 4)).
Definition mag2_words (l : list Z) : Z * Z * Z := (word l 0, word l 2, word l 4).
(** MMC34160PJ.hpp:88-94 *)
Definition mag2_value (off b : Z) : Z := Z.quot (- (b - off)) 2.
Definition map3 (f : Z -> Z -> Z) (a b : Z * Z * Z) : Z * Z * Z :=
  let '(a0, a1, a2) := a in let '(b0, b1, b2) := b in (f a0 b0, f a1 b1, f a2 b2).

(** one pass over a sensor: imu.cpp:129-131, 53-55 and 92-94: the new reading, if any *)
Definition gyr_pass (s : st) : st * option (list Z) :=
  if d_fn (snd s) then let '(s, r) := gyr_ready s in if r then read_reg 0x20 8 s else (s, None) else (s, None).
Definition mag1_pass (s : st) : st * option (list Z) :=
  if d_fn (snd s) then let '(s, r) := ready_late 0x67 3 s in if r then read_reg 0x68 6 s else (s, None) else (s, None).
Definition mag2_pass (s : st) : st * option (list Z) :=
  if d_fn (snd s) then let '(s, r) := ready_late 6 0 s in if r then read_reg 0 6 s else (s, None) else (s, None).

(** ADS1015.cpp:46-57: start a conversion *)
Definition adc_start (cfg : list Z) (s : st) : st := calls [Finish; Write (1 :: cfg); EndTx] s.
(** ADS1015.cpp:64-69: wait for the alert pin; [None] when it is still low after [fuel] looks *)
Fixpoint adc_wait (fuel : nat) (b : bst B) : option (bst B) :=
  match fuel with
  | O => None
  | S k => let '(b, r) := bcall B Pin b in if w_ok r then Some b else adc_wait k b
  end.
(** ADS1015.cpp:59-87: end a conversion *)
Definition adc_end (fuel : nat) (s : st) : option (st * option Z) :=
  match adc_wait fuel (fst s) with
  | None => None
  | Some b =>
    let '(s, r) := read_reg 0 2 (b, snd s) in
    Some (s, option_map (fun l => adc_code (byte l 0) (byte l 1)) r)
  end.
(** one conversion of a converter in use: rwa.cpp:112-121, ssa.cpp:83-91 *)
Definition adc_pass (fuel : nat) (cfg : list Z) (s : st) : option (st * option Z) :=
  if d_fn (snd s) then adc_end fuel (adc_start cfg s) else Some (s, None).

(** ** Calibration of the second magnetometer *)

(** fill_capacitor, set_operation, reset_operation, MMC34160PJ.cpp:100-122: a value for the control register *)
Definition control (v : Z) (s : st) : st := calls [Write [7]; Write [v]; EndTx] s.

(** outcome of a blocking function: ended with a result, or still waiting after [fuel] looks at the status *)
Inductive ends (A : Type) := Ended (s : st) (a : A) | Waiting.
Arguments Ended {A} s a. Arguments Waiting {A}.

(** the loop of single_read, MMC34160PJ.cpp:130-133; [false]: given up *)
Fixpoint wait_ready (fuel : nat) (s : st) : ends bool :=
  match fuel with
  | O => Waiting
  | S k => let '(s, r) := ready_late 6 0 s in
           if r then Ended s true else if d_fn (snd s) then wait_ready k s else Ended s false
  end.
(** single_read, MMC34160PJ.cpp:124-137 *)
Definition single_read (fuel : nat) (s : st) : ends (option (Z * Z * Z)) :=
  match wait_ready fuel (control 1 s) with
  | Waiting => Waiting
  | Ended s false => Ended s None
  | Ended s true => let '(s, r) := read_reg 0 6 s in Ended s (option_map mag2_words r)
  end.

(** calibrate, MMC34160PJ.cpp:41-71: the new offsets, [None] on failure *)
Definition calibrate (fuel : nat) (s : st) : ends (option (Z * Z * Z)) :=
  let '(s, e) := pop (control 0x80 s) in if e then Ended s None else
  let '(s, e) := pop (control 0x20 s) in if e then Ended s None else
  match single_read fuel s with
  | Waiting => Waiting
  | Ended s None => Ended s None
  | Ended s (Some _) =>
  match single_read fuel s with
  | Waiting => Waiting
  | Ended s None => Ended s None
  | Ended s (Some set) =>
  let '(s, e) := pop s in if e then Ended s None else
  let '(s, e) := pop (control 0x80 s) in if e then Ended s None else
  let '(s, e) := pop (control 0x40 s) in if e then Ended s None else
  match single_read fuel s with
  | Waiting => Waiting
  | Ended s None => Ended s None
  | Ended s (Some rst) =>
  let '(s, e) := pop s in if e then Ended s None else
  (* 62-64: the offsets are stored before the last message *)
  let off := map3 (fun a b => Z.quot (a + b) 2) set rst in
  let '(s, e) := pop (control 0x0E s) in Ended s (Some off)
  end end end.
(** the value calibrate returns differs from [Some] only in the last line; no caller looks at it (imu.cpp:87, 224) *)

End Drivers.
Arguments Ended {B A} s a. Arguments Waiting {B A}.

(** ** The second magnetometer itself

    A chip, from its data sheet as far as the driver relies on it: a transmission of one byte moves the register pointer, one of
    two bytes writes register 7 (control).  0x20 and 0x40 magnetize the bridge one way or the other; the output is the bridge's
    offset plus or minus the field accordingly.  Bit 0 triggers one measurement, bit 1 keeps measuring; the status bit says that
    a measurement was made since the last control write.  [field] is the field at each call, [bad] says which calls fail; a call
    that fails has no effect. *)
Record chip := mk_chip { c_now : nat; c_tx : list Z; c_ptr : Z; c_rx : list Z; c_ctl : Z; c_pos : bool; c_meas : Z * Z * Z }.

Definition split16 (z : Z) : list Z := [z mod 256; z / 256].
Definition output (off : Z * Z * Z) (pos : bool) (f : Z * Z * Z) : Z * Z * Z := map3 (fun o x => if pos then o + x else o - x) off f.
Definition bytes3 (m : Z * Z * Z) : list Z := let '(a, b, c) := m in split16 a ++ split16 b ++ split16 c.
Definition measuring (ctl : Z) : bool := Z.testbit ctl 0 || Z.testbit ctl 1.

Definition chip_end (off : Z * Z * Z) (field : nat -> Z * Z * Z) (c : chip) : chip :=
  let t := S (c_now c) in
  match c_tx c with
  | [r] => mk_chip t [] r (c_rx c) (c_ctl c) (c_pos c) (c_meas c)
  | [r; v] =>
    if r =? 7 then
      let pos := if v =? 0x20 then true else if v =? 0x40 then false else c_pos c in
      mk_chip t [] (c_ptr c) (c_rx c) v pos (if measuring v then output off pos (field (c_now c)) else c_meas c)
    else mk_chip t [] (c_ptr c) (c_rx c) (c_ctl c) (c_pos c) (c_meas c)
  | _ => mk_chip t [] (c_ptr c) (c_rx c) (c_ctl c) (c_pos c) (c_meas c)
  end.

Definition chip_call (off : Z * Z * Z) (field : nat -> Z * Z * Z) (bad : nat -> bool) (o : wop) (c : chip) : chip * wres :=
  let t := S (c_now c) in
  let tick := mk_chip t (c_tx c) (c_ptr c) (c_rx c) (c_ctl c) (c_pos c) (c_meas c) in
  if bad (c_now c) then
    (match o with EndTx => mk_chip t [] (c_ptr c) (c_rx c) (c_ctl c) (c_pos c) (c_meas c) | _ => tick end, mk_wres false [])
  else
  match o with
  | Write l => (mk_chip t (c_tx c ++ l) (c_ptr c) (c_rx c) (c_ctl c) (c_pos c) (c_meas c), mk_wres true [])
  | EndTx => (chip_end off field c, mk_wres true [])
  | Request n =>
    let m := if Z.testbit (c_ctl c) 1 then output off (c_pos c) (field (c_now c)) else c_meas c in
    let rx := if c_ptr c =? 6 then [if measuring (c_ctl c) then 1 else 0] else if c_ptr c =? 0 then bytes3 m else [] in
    (mk_chip t (c_tx c) (c_ptr c) (firstn n rx) (c_ctl c) (c_pos c) m, mk_wres true [])
  | Take n => (tick, mk_wres true (c_rx c))
  | Finish => (tick, mk_wres true [])
  | Pin => (tick, mk_wres true [])
  end.
Definition chip_bus (off : Z * Z * Z) (field : nat -> Z * Z * Z) (bad : nat -> bool) : bus := mk_bus chip (chip_call off field bad).
(** power-up of the chip, after reset was called (imu.cpp:222-224) *)
Definition chip_on : chip := mk_chip 0 [] 0 [] 0 false (0, 0, 0).
