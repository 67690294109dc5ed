(** Model of the flight computer's i2c device class, src/fsw/FCCode/Devices/I2CDevice.{hpp,inl,cpp}, of the power supply's
    driver built on it, src/fsw/FCCode/Drivers/Gomspace.{hpp,cpp}, and of its controller down to the bytes on the bus,
    src/fsw/FCCode/GomspaceController.cpp (flight build, DESKTOP not defined).

    The library i2c_t3 is not in /repo: the bus is any state machine, as in DevModel.  Addresses and stop conditions are left
    out, the time a call takes too.  The unused calls i2c_transmit_data, i2c_receive_data, i2c_send_*, i2c_peek, i2c_available
    are not modelled. *)
From Verif Require Import Base DevModel.

(** * The device class *)

(** private members, I2CDevice.hpp:207-220 *)
Record fdev := mk_fd { fd_count : Z; fd_recent : bool; fd_timeout : Z }.
(** I2CDEVICE_DISABLE_AT, I2CDevice.hpp:55 *)
Definition disable_at : Z := 3.
(** constructor, I2CDevice.cpp:38-40 *)
Definition fd_new (t : Z) : fdev := mk_fd 0 false t.
(** is_functional, reset, disable, I2CDevice.cpp:22-32 *)
Definition fd_functional (d : fdev) : bool := fd_count d <? disable_at.
Definition fd_reset (d : fdev) : fdev := mk_fd 0 false (fd_timeout d).
Definition fd_disable (d : fdev) : fdev := mk_fd disable_at true (fd_timeout d).
(** timeouts and data validity, I2CDevice.inl:10-16; unsigned long has 32 bits *)
Definition fd_set_timeout (t : Z) (d : fdev) : fdev := mk_fd (fd_count d) (fd_recent d) (u32 (t * 1000)).
Definition fd_get_timeout (d : fdev) : Z := fd_timeout d / 1000.
Definition fd_valid (d : fdev) : bool := fd_count d =? 0.
(** i2c_pop_errors, I2CDevice.inl:18-22 *)
Definition fd_pop (d : fdev) : fdev := mk_fd (fd_count d) false (fd_timeout d).
(** recording an error, e.g. I2CDevice.inl:52-53 *)
Definition fd_err (e : bool) (d : fdev) : fdev := mk_fd (fd_count d) (fd_recent d || e) (fd_timeout d).

Section Wire.
Context (B : bus).
Notation st := (bst B * fdev)%type.

(** i2c_write, i2c_end_transmission, i2c_request_from, i2c_finish: I2CDevice.inl:50-68, 127-147 *)
Definition fcall (o : wop) (s : st) : st :=
  let '(b, r) := bcall B o (fst s) in (b, fd_err (negb (w_ok r)) (snd s)).
(** i2c_read into a buffer, I2CDevice.inl:169-175: the library fills in the bytes it has, the rest of the buffer stays *)
Definition fread (buf : list Z) (s : st) : st * list Z :=
  let '(b, r) := bcall B (Take (length buf)) (fst s) in
  let got := map u8 (firstn (length buf) (w_data r)) in
  ((b, fd_err (negb (Nat.eqb (length got) (length buf))) (snd s)), got ++ skipn (length got) buf).

(** setup, I2CDevice.cpp:13-20, for any i2c_ping; [k] attempts left *)
Fixpoint fd_setup (ping : st -> st * bool) (k : nat) (s : st) : st * bool :=
  match k with
  | O => (s, false)
  | S k => let '(s, ok) := ping s in
           if ok then (s, true)
           else fd_setup ping k (fst s, mk_fd (u32 (fd_count (snd s) + 1)) (fd_recent (snd s)) (fd_timeout (snd s)))
  end.

(** everything a program can do with a device: calls of the library, looking at the errors, setup, reset, disable *)
Inductive fop := OCall (o : wop) | ORead (n : nat) | OPop | OSetup | OReset | ODisable.
Definition fd_op (ping : st -> st * bool) (s : st) (o : fop) : st :=
  match o with
  | OCall o => fcall o s
  | ORead n => fst (fread (repeat 0 n) s)
  | OPop => (fst s, fd_pop (snd s))
  | OSetup => fst (fd_setup ping 3 s)
  | OReset => (fst s, fd_reset (snd s))
  | ODisable => (fst s, fd_disable (snd s))
  end.

(** * Memory *)

(** little-endian value of bytes and back *)
Fixpoint le (l : list Z) : Z := match l with [] => 0 | b :: t => b + 256 * le t end.
Fixpoint le_bytes (w : nat) (v : Z) : list Z := match w with O => [] | S k => v mod 256 :: le_bytes k (v / 256) end.
Definition load (w off : nat) (m : list Z) : Z := le (firstn w (skipn off m)).
Definition blit (off : nat) (src m : list Z) : list Z := firstn off m ++ src ++ skipn (off + length src) m.
Definition store (w off : nat) (v : Z) (m : list Z) : list Z := blit off (le_bytes w v) m.
(** __builtin_bswap16 and 32 of a value converted to that width *)
Definition bswap (w : nat) (v : Z) : Z := le (rev (le_bytes w v)).
(** [x = __bswap(x)] for a field of [w] bytes at [off], the builtin working on [wb] bytes *)
Definition flip (f : nat * nat * nat) (m : list Z) : list Z :=
  let '(w, wb, off) := f in store w off (bswap wb (load w off m)) m.
Definition flips (l : list (nat * nat * nat)) (m : list Z) : list Z := fold_left (fun m f => flip f m) l m.

(** * The driver *)

(** Offsets in the packed struct eps_hk_t, Gomspace.hpp:37-64, which is the sequence of the structs of :66-101 *)
Definition o_vboost : nat := 0. Definition o_vbatt : nat := 6. Definition o_curin : nat := 8. Definition o_cursun : nat := 14.
Definition o_cursys : nat := 16. Definition o_curout : nat := 20. Definition o_output : nat := 32. Definition o_on : nat := 40.
Definition o_off : nat := 56. Definition o_latchup : nat := 72. Definition o_wdt_i2c : nat := 84. Definition o_wdt_gnd : nat := 88.
Definition o_cnt_i2c : nat := 94. Definition o_cnt_gnd : nat := 98. Definition o_cnt_csp : nat := 102. Definition o_boot : nat := 110.
Definition o_temp : nat := 114. Definition o_cause : nat := 126. Definition o_battmode : nat := 127. Definition o_pptmode : nat := 128.
(** sizes of eps_hk_t and of its four parts, and where the parts begin, Gomspace.cpp:29-33 *)
Definition hk_size : nat := 131.
Definition vi_size : nat := 20. Definition out_size : nat := 64. Definition wdt_size : nat := 26. Definition basic_size : nat := 21.
Definition out_at : nat := 20. Definition wdt_at : nat := 84. Definition basic_at : nat := 110.

Definition short_at (o i : nat) : nat * nat * nat := (2, 2, o + 2 * i)%nat.
Definition long_at (o i : nat) : nat * nat * nat := (4, 4, o + 4 * i)%nat.
(** _hk_vi_endian_flip ... _hk_basic_endian_flip, Gomspace.cpp:602-645; the boot counter has four bytes and is swapped as two *)
Definition vi_flips : list (nat * nat * nat) :=
  flat_map (fun i => [short_at o_vboost i; short_at o_curin i]) [0; 1; 2]%nat ++ [short_at o_vbatt 0; short_at o_cursun 0; short_at o_cursys 0].
Definition out_flips : list (nat * nat * nat) :=
  flat_map (fun i => [short_at o_curout i; short_at o_latchup i]) (seq 0 6) ++ flat_map (fun i => [short_at o_on i; short_at o_off i]) (seq 0 8).
Definition wdt_flips : list (nat * nat * nat) :=
  [long_at o_wdt_i2c 0; long_at o_wdt_gnd 0; long_at o_cnt_i2c 0; long_at o_cnt_gnd 0; long_at o_cnt_csp 0; long_at o_cnt_csp 1].
Definition basic_flips : list (nat * nat * nat) := map (short_at o_temp) (seq 0 6) ++ [(4, 2, o_boot)%nat].

(** The state a driver function works on: bus, device, housekeeping struct.  [jk] is what happens to be in the function's
    buffer before it is read into: the buffers are uninitialised local arrays. *)
Record drv := mk_drv { g_bus : bst B; g_dev : fdev; g_hk : list Z }.
Definition stack := nat -> Z.
Definition junk (jk : stack) (n : nat) : list Z := map (fun i => u8 (jk i)) (seq 0 n).

Definition on_dev (f : st -> st) (g : drv) : drv := let '(b, d) := f (g_bus g, g_dev g) in mk_drv b d (g_hk g).
(** send the parts of a message *)
Definition send (parts : list (list Z)) (g : drv) : drv :=
  on_dev (fun s => fcall EndTx (fold_left (fun s p => fcall (Write p) s) parts s)) g.
(** request as many bytes as the buffer has and read them into it *)
Definition recv (buf : list Z) (g : drv) : drv * list Z :=
  let '(b, d, l) := fread buf (fcall (Request (length buf)) (g_bus g, g_dev g)) in (mk_drv b d (g_hk g), l).
Definition at_ (l : list Z) (i : nat) : Z := nth i l 0.

(** get_hk, Gomspace.cpp:46-88 *)
Definition get_hk (jk : stack) (g : drv) : drv * bool :=
  let '(g, l) := recv (junk jk (hk_size + 2)) (send [[8; 0]] g) in
  let g := on_dev (fcall Finish) g in
  if negb (at_ l 0 =? 8) || negb (at_ l 1 =? 0) then (g, false)
  else (mk_drv (g_bus g) (g_dev g) (flips (vi_flips ++ out_flips ++ wdt_flips ++ basic_flips) (blit 0 (skipn 2 l) (g_hk g))), true).
(** get_hk_vi, get_hk_out, get_hk_wdt, get_hk_basic, Gomspace.cpp:90-213: part [sel] of [size] bytes at [off]; only the error byte
    is looked at *)
Definition get_part (sel : Z) (size off : nat) (fl : list (nat * nat * nat)) (buf : list Z) (g : drv) : drv * bool :=
  let '(g, l) := recv buf (send [[8; sel]] g) in
  if negb (at_ l 1 =? 0) then (g, false)
  else (mk_drv (g_bus g) (g_dev g) (flips fl (blit off (skipn 2 l) (g_hk g))), true).
Definition get_hk_vi (jk : stack) := get_part 1 vi_size 0 vi_flips (junk jk (vi_size + 2)).
Definition get_hk_out (jk : stack) := get_part 2 out_size out_at out_flips (junk jk (out_size + 2)).
(** the only buffer that is initialised *)
Definition get_hk_wdt (jk : stack) := get_part 3 wdt_size wdt_at wdt_flips (repeat 0 (wdt_size + 2)).
Definition get_hk_basic (jk : stack) := get_part 4 basic_size basic_at basic_flips (junk jk (basic_size + 2)).

(** _check_for_error, Gomspace.cpp:586-600 *)
Definition check_error (port : Z) (jk : stack) (g : drv) : drv * bool :=
  let '(g, l) := recv (junk jk 2) g in (g, (at_ l 0 =? port) && (at_ l 1 =? 0)).
Definition command (parts : list (list Z)) (port : Z) (jk : stack) (g : drv) : drv * bool := check_error port jk (send parts g).

(** set_output, Gomspace.cpp:215-230 *)
Definition set_output (v : Z) := command [[9; v]] 9.
(** set_single_output, Gomspace.cpp:232-253; [delay] is a short int: converting the swapped value back and shifting it gives
    the two bytes of the swapped value *)
Definition single_message (ch v delay : Z) : list Z :=
  let d := bswap 2 delay in [10; ch; v; d / 256 mod 256; d mod 256].
Definition set_single_output (ch v delay : Z) (jk : stack) (g : drv) : drv * bool :=
  if 5 <? ch then (g, false) else if 1 <? v then (g, false) else command [single_message ch v delay] 10 jk g.
(** set_pv_volt, Gomspace.cpp:255-284; the parameters are 16 bit *)
Definition pv_message (v1 v2 v3 : Z) : list Z :=
  11 :: flat_map (fun v => let d := bswap 2 v in [d / 256 mod 256; d mod 256]) [v1; v2; v3].
Definition set_pv_volt (v1 v2 v3 : Z) := command [pv_message v1 v2 v3] 11.
(** set_ppt_mode, Gomspace.cpp:286-302 *)
Definition set_ppt_mode (m : Z) (jk : stack) (g : drv) : drv * bool :=
  if 2 <? m then (g, false) else command [[12; m]] 12 jk g.
(** _set_heater, Gomspace.cpp:307-336: [1 == (1 | 2)] is false, so the last check never fails *)
Definition set_heater (mode : bool) (jk : stack) (g : drv) : drv * bool :=
  let '(g, l) := recv (junk jk 4) (send [[13; 0; 1; Z.b2z mode]] g) in
  (g, if negb (at_ l 0 =? 13) then false
      else if negb (at_ l 1 =? 0) then false
      else if negb (at_ l 3 =? Z.b2z mode) && (1 =? Z.lor 1 2) then false else true).
(** get_heater, Gomspace.cpp:338-359 *)
Definition get_heater (jk : stack) (g : drv) : drv * Z :=
  let '(g, l) := recv (junk jk 4) (send [[13]] g) in
  (g, if negb (at_ l 0 =? 13) || negb (at_ l 1 =? 0) then 2 else at_ l 3).
(** reset_counters, reset_wdt, hard_reset, Gomspace.cpp:361-390, 458-471 *)
Definition reset_counters := command [[15; 0x42]] 15.
Definition reset_wdt := command [[16; 0x78]] 16.
Definition hard_reset := command [[20]] 20.
(** ping and i2c_ping, Gomspace.cpp:44, 553-571 *)
Definition ping (v : Z) (jk : stack) (g : drv) : drv * bool :=
  let '(g, l) := recv (junk jk 3) (send [[1; v]] g) in (g, (at_ l 1 =? 0) && (v =? at_ l 2)).
(** reboot, Gomspace.cpp:573-584; reset, :39-42 *)
Definition reboot (g : drv) : drv := send [[4]; [0x80; 7; 0x80; 7]] g.
Definition gs_reset (g : drv) : drv := reboot (mk_drv (g_bus g) (fd_reset (g_dev g)) (g_hk g)).
(** setup, :37 *)
Definition gs_setup (jk : stack) (g : drv) : drv * bool :=
  let '(b, d, ok) := fd_setup (fun s => let '(g, ok) := ping 0xFF jk (mk_drv (fst s) (snd s) (g_hk g)) in (g_bus g, g_dev g, ok)) 3 (g_bus g, g_dev g) in
  (mk_drv b d (g_hk g), ok).

(** ** Configuration *)

(** eps_config_t, Gomspace.hpp:105-118, as memory: two delays of 8 shorts each at 20 and 36, three voltages at 52 *)
Definition config_size : nat := 58. Definition config2_size : nat := 20.
Definition config_flips : list (nat * nat * nat) :=
  flat_map (fun i => [short_at 20 i; short_at 36 i]) (seq 0 8) ++ map (short_at 52) [0; 1; 2]%nat.
Definition config2_flips : list (nat * nat * nat) := map (short_at 0) [2; 0; 1; 3]%nat.
(** what a call may come to: a result, or undefined behaviour *)
Inductive outcome := Done (g : drv) (ok : bool) | Undefined.
(** config_get and config2_get, Gomspace.cpp:392-428, 473-502: on success the bytes are copied to [&gspace_config], the place
    of the pointer (4 bytes), not to the struct it points to; [size] bytes do not fit there *)
Definition pointer_size : nat := 4.
Definition config_read (port : Z) (size : nat) (jk : stack) (g : drv) : outcome :=
  let '(g, l) := recv (junk jk (size + 2)) (send [[port]] g) in
  if negb (at_ l 1 =? 0) then Done g false
  else if Nat.leb size pointer_size then Done g true else Undefined.
Definition config_get := config_read 18 config_size.
Definition config2_get := config_read 22 config2_size.
(** config_set, Gomspace.cpp:430-456; the argument as memory *)
Definition config_set (c : list Z) := command [[19]; flips config_flips c] 19.
(** _config2_confirm, restore_default_config2, config2_set, Gomspace.cpp:504-551 *)
Definition config2_confirm := command [[21; 2]] 21.
Definition and_confirm (jk : stack) (r : drv * bool) : drv * bool :=
  let '(g, ok) := r in if ok then config2_confirm jk g else (g, false).
Definition restore_default_config2 (jk jk2 : stack) (g : drv) : drv * bool := and_confirm jk2 (command [[21; 2]] 21 jk g).
Definition config2_set (c : list Z) (jk jk2 : stack) (g : drv) : drv * bool :=
  and_confirm jk2 (command [[23]; flips config2_flips c] 23 jk g).

(** * The controller *)

Definition s16 (z : Z) : Z := if z <? 32768 then z else z - 65536.
Definition truth (z : Z) : Z := if z =? 0 then 0 else 1.
(** readable fields set from the struct, GomspaceController.cpp:270-313, in that order; outputs are boolean fields *)
Definition published (m : list Z) : list Z :=
  let sh o i := load 2 (o + 2 * i) m in let ch o i := load 1 (o + i) m in
  map (sh o_vboost) (seq 0 3) ++ [sh o_vbatt 0%nat] ++ map (sh o_curin) (seq 0 3) ++ [sh o_cursun 0%nat; sh o_cursys 0%nat] ++
  map (sh o_curout) (seq 0 6) ++ map (fun i => truth (ch o_output i)) (seq 0 6) ++
  [load 4 o_wdt_i2c m; load 4 o_cnt_i2c m; load 4 o_boot m] ++ map (fun i => s16 (sh o_temp i)) (seq 0 4) ++
  [ch o_cause 0%nat; ch o_battmode 0%nat; ch o_pptmode 0%nat].
(** Command fields: power cycling of each output, panel voltages, tracker mode, heater, the three reset commands, receiver held
    off, power-cycling period, battery threshold.  GomspaceController.hpp:116-152, 42 *)
Record cmds := mk_cmd { m_cyc : nat -> bool; m_pv : nat -> Z; m_ppt : Z; m_heat : bool; m_cnt : bool; m_rst : bool; m_boot : bool;
  m_off : bool; m_period : Z; m_thr : Z }.
(** driver, readable fields from the struct (see [published]), heater field, command fields *)
Record ctl := mk_ctl { x_drv : drv; x_pub : list Z; x_hot : bool; x_cmd : cmds }.
Definition p_vbatt : nat := 3. Definition p_output : nat := 15. Definition p_pptmode : nat := 30.

Definition upd {A} (f : nat -> A) (i : nat) (v : A) : nat -> A := fun j => if Nat.eqb j i then v else f j.
Definition set_cyc (i : nat) (v : bool) (c : cmds) : cmds :=
  mk_cmd (upd (m_cyc c) i v) (m_pv c) (m_ppt c) (m_heat c) (m_cnt c) (m_rst c) (m_boot c) (m_off c) (m_period c) (m_thr c).

(** powercycle_logic and power_cycle_outputs, GomspaceController.cpp:324-353; [jk i] is the buffer of the call for output [i] *)
Definition cycle_one (jk : nat -> stack) (pub : list Z) (s : drv * cmds) (i : nat) : drv * cmds :=
  let '(g, c) := s in
  if m_cyc c i then
    if at_ pub (p_output + i) =? 1 then (fst (set_single_output (Z.of_nat i) 0 0 (jk i) g), c)
    else (fst (set_single_output (Z.of_nat i) 1 0 (jk i) g), set_cyc i false c)
  else (g, c).
Definition cycle_outputs (jk : nat -> stack) (pub : list Z) (s : drv * cmds) : drv * cmds :=
  fold_left (cycle_one jk pub) ((if m_off (snd s) then [] else [0%nat]) ++ [1; 2; 3; 4; 5]%nat) s.

(** execute, GomspaceController.cpp:198-322.  [jk k] is what the buffer of the [k]-th call below holds before it is read into;
    [None] is the division by zero at :229.  Also returned: the arguments of the two [evaluate] calls. *)
Definition gexec (cc : Z) (jk : nat -> stack) (x : ctl) : option (ctl * (bool * bool)) :=
  let pub := x_pub x in
  let '(g, ok) := get_hk (jk 6%nat) (x_drv x) in                                              (* 202 *)
  let low := at_ pub p_vbatt <? m_thr (x_cmd x) in                                            (* 205 *)
  let '(g, c) :=                                                                              (* 209-226 *)
    if cc =? 1 then
      let '(g, h) := get_heater (jk 7%nat) g in
      let c := x_cmd x in
      (g, mk_cmd (fun _ => false) (fun i => if Nat.ltb i 3 then load 2 (o_vboost + 2 * i) (g_hk g) else m_pv c i) (m_ppt c)
            (negb (h =? 0)) false false false (m_off c) (m_period c) (m_thr c))
    else (g, x_cmd x) in
  if m_period c =? 0 then None else
  let '(g, c) := if cc mod m_period c =? 0 then cycle_outputs jk pub (g, c) else (g, c) in    (* 229-231 *)
  let g := if (at_ pub p_pptmode =? 2) &&                                                     (* 233-238 *)
              (negb (at_ pub 0 =? m_pv c 0) || negb (at_ pub 1 =? m_pv c 1) || negb (at_ pub 2 =? m_pv c 2))
           then fst (set_pv_volt (m_pv c 0) (m_pv c 1) (m_pv c 2) (jk 8%nat) g) else g in
  let g := if negb (at_ pub p_pptmode =? m_ppt c) then fst (set_ppt_mode (m_ppt c) (jk 9%nat) g) else g in  (* 241-243 *)
  let '(g, h) := get_heater (jk 10%nat) g in                                                  (* 246-251: one query either way *)
  let g := if m_heat c then (if h =? 0 then fst (set_heater true (jk 11%nat) g) else g)
           else (if h =? 1 then fst (set_heater false (jk 11%nat) g) else g) in
  let g := if m_cnt c then fst (reset_counters (jk 12%nat) g) else g in                       (* 254-267 *)
  let g := if m_rst c then fst (hard_reset (jk 13%nat) g) else g in
  let g := if m_boot c then reboot g else g in
  let c := mk_cmd (m_cyc c) (m_pv c) (m_ppt c) (m_heat c) false false false (m_off c) (m_period c) (m_thr c) in
  let pub := published (g_hk g) in                                                            (* 270-313 *)
  let '(g, h) := get_heater (jk 14%nat) g in                                                  (* 315 *)
  let g := if m_off c then fst (set_single_output 0 0 0 (jk 15%nat) g) else g in              (* 318-320 *)
  Some (mk_ctl g pub (h =? 1) c, (negb ok, low)).
End Wire.
Arguments mk_drv {B} _ _ _. Arguments g_bus {B} _. Arguments g_dev {B} _. Arguments g_hk {B} _. Arguments Done {B} _ _. Arguments Undefined {B}.
Arguments mk_ctl {B} _ _ _ _. Arguments x_drv {B} _. Arguments x_pub {B} _. Arguments x_hot {B} _. Arguments x_cmd {B} _.
