(** Model of the GPS receiver's serial link: the message parser of libsbp (/repo/lib/common/libsbp/src/sbp.c and edc.c) and
    the driver over it (/repo/src/fsw/FCCode/Drivers/Piksi.cpp), in the flight build ([DESKTOP] not defined). *)
From Verif Require Import Base.

(** ** The checksum *)

(** edc.c:24-57, [crc16tab] *)
Definition crc16tab : list Z := [
   0x0000; 0x1021; 0x2042; 0x3063; 0x4084; 0x50A5; 0x60C6; 0x70E7; 0x8108; 0x9129; 0xA14A; 0xB16B; 0xC18C; 0xD1AD; 0xE1CE; 0xF1EF;
   0x1231; 0x0210; 0x3273; 0x2252; 0x52B5; 0x4294; 0x72F7; 0x62D6; 0x9339; 0x8318; 0xB37B; 0xA35A; 0xD3BD; 0xC39C; 0xF3FF; 0xE3DE;
   0x2462; 0x3443; 0x0420; 0x1401; 0x64E6; 0x74C7; 0x44A4; 0x5485; 0xA56A; 0xB54B; 0x8528; 0x9509; 0xE5EE; 0xF5CF; 0xC5AC; 0xD58D;
   0x3653; 0x2672; 0x1611; 0x0630; 0x76D7; 0x66F6; 0x5695; 0x46B4; 0xB75B; 0xA77A; 0x9719; 0x8738; 0xF7DF; 0xE7FE; 0xD79D; 0xC7BC;
   0x48C4; 0x58E5; 0x6886; 0x78A7; 0x0840; 0x1861; 0x2802; 0x3823; 0xC9CC; 0xD9ED; 0xE98E; 0xF9AF; 0x8948; 0x9969; 0xA90A; 0xB92B;
   0x5AF5; 0x4AD4; 0x7AB7; 0x6A96; 0x1A71; 0x0A50; 0x3A33; 0x2A12; 0xDBFD; 0xCBDC; 0xFBBF; 0xEB9E; 0x9B79; 0x8B58; 0xBB3B; 0xAB1A;
   0x6CA6; 0x7C87; 0x4CE4; 0x5CC5; 0x2C22; 0x3C03; 0x0C60; 0x1C41; 0xEDAE; 0xFD8F; 0xCDEC; 0xDDCD; 0xAD2A; 0xBD0B; 0x8D68; 0x9D49;
   0x7E97; 0x6EB6; 0x5ED5; 0x4EF4; 0x3E13; 0x2E32; 0x1E51; 0x0E70; 0xFF9F; 0xEFBE; 0xDFDD; 0xCFFC; 0xBF1B; 0xAF3A; 0x9F59; 0x8F78;
   0x9188; 0x81A9; 0xB1CA; 0xA1EB; 0xD10C; 0xC12D; 0xF14E; 0xE16F; 0x1080; 0x00A1; 0x30C2; 0x20E3; 0x5004; 0x4025; 0x7046; 0x6067;
   0x83B9; 0x9398; 0xA3FB; 0xB3DA; 0xC33D; 0xD31C; 0xE37F; 0xF35E; 0x02B1; 0x1290; 0x22F3; 0x32D2; 0x4235; 0x5214; 0x6277; 0x7256;
   0xB5EA; 0xA5CB; 0x95A8; 0x8589; 0xF56E; 0xE54F; 0xD52C; 0xC50D; 0x34E2; 0x24C3; 0x14A0; 0x0481; 0x7466; 0x6447; 0x5424; 0x4405;
   0xA7DB; 0xB7FA; 0x8799; 0x97B8; 0xE75F; 0xF77E; 0xC71D; 0xD73C; 0x26D3; 0x36F2; 0x0691; 0x16B0; 0x6657; 0x7676; 0x4615; 0x5634;
   0xD94C; 0xC96D; 0xF90E; 0xE92F; 0x99C8; 0x89E9; 0xB98A; 0xA9AB; 0x5844; 0x4865; 0x7806; 0x6827; 0x18C0; 0x08E1; 0x3882; 0x28A3;
   0xCB7D; 0xDB5C; 0xEB3F; 0xFB1E; 0x8BF9; 0x9BD8; 0xABBB; 0xBB9A; 0x4A75; 0x5A54; 0x6A37; 0x7A16; 0x0AF1; 0x1AD0; 0x2AB3; 0x3A92;
   0xFD2E; 0xED0F; 0xDD6C; 0xCD4D; 0xBDAA; 0xAD8B; 0x9DE8; 0x8DC9; 0x7C26; 0x6C07; 0x5C64; 0x4C45; 0x3CA2; 0x2C83; 0x1CE0; 0x0CC1;
   0xEF1F; 0xFF3E; 0xCF5D; 0xDF7C; 0xAF9B; 0xBFBA; 0x8FD9; 0x9FF8; 0x6E17; 0x7E36; 0x4E55; 0x5E74; 0x2E93; 0x3EB2; 0x0ED1; 0x1EF0].

(** edc.c:76-77, one pass of the loop on a 16 bit [crc]: [(crc << 8) ^ crc16tab[((crc >> 8) ^ byte) & 0x00FF]], truncated on
    assignment. *)
Definition crc_byte (crc b : Z) : Z :=
  u16 (Z.lxor (Z.shiftl crc 8) (nth (Z.to_nat (Z.land (Z.lxor (Z.shiftr crc 8) b) 255)) crc16tab 0)).

(** edc.c:74-79, [crc16_ccitt] *)
Definition crc16_ccitt (buf : list Z) (crc : Z) : Z := fold_left crc_byte buf crc.

(** ** The parser *)

(** sbp.h:59-66 *)
Inductive pstate := Waiting | GetType | GetSender | GetLen | GetMsg | GetCrc.

(** sbp.h:58-75, [sbp_state_t]; numbers of two bytes as the two bytes in memory. *)
Record sbp := mk_sbp {
  p_st : pstate;
  p_ty : list Z;        (* msg_type, 2 bytes *)
  p_se : list Z;        (* sender_id, 2 bytes *)
  p_crc : list Z;       (* crc, 2 bytes *)
  p_len : Z;            (* msg_len *)
  p_nread : Z;          (* n_read *)
  p_buf : list Z        (* msg_buff, 256 bytes *)
}.

Definition set_st (s : sbp) (x : pstate) := mk_sbp x (p_ty s) (p_se s) (p_crc s) (p_len s) (p_nread s) (p_buf s).
Definition set_ty (s : sbp) (x : list Z) := mk_sbp (p_st s) x (p_se s) (p_crc s) (p_len s) (p_nread s) (p_buf s).
Definition set_se (s : sbp) (x : list Z) := mk_sbp (p_st s) (p_ty s) x (p_crc s) (p_len s) (p_nread s) (p_buf s).
Definition set_crc (s : sbp) (x : list Z) := mk_sbp (p_st s) (p_ty s) (p_se s) x (p_len s) (p_nread s) (p_buf s).
Definition set_len (s : sbp) (x : Z) := mk_sbp (p_st s) (p_ty s) (p_se s) (p_crc s) x (p_nread s) (p_buf s).
Definition set_nread (s : sbp) (x : Z) := mk_sbp (p_st s) (p_ty s) (p_se s) (p_crc s) (p_len s) x (p_buf s).
Definition set_buf (s : sbp) (x : list Z) := mk_sbp (p_st s) (p_ty s) (p_se s) (p_crc s) (p_len s) (p_nread s) x.

Definition len (l : list Z) : Z := Z.of_nat (length l).

(** Piksi.cpp:377-393, [_uart_read]: at most [n] bytes out of what is left of the driver's buffer. *)
Definition uart_read (n : Z) (inp : list Z) : list Z * list Z := (firstn (Z.to_nat n) inp, skipn (Z.to_nat n) inp).

(** the bytes [bs] written into [buf] from offset [off]; [None] when they do not fit (undefined behaviour) *)
Definition put (buf : list Z) (off : Z) (bs : list Z) : option (list Z) :=
  if off + len bs <=? len buf
  then Some (firstn (Z.to_nat off) buf ++ bs ++ skipn (Z.to_nat off + length bs) buf) else None.

(** A message whose checksum was right, as handed to the callback (sbp.c:381: type, sender, length, [msg_buff]), or one whose
    checksum was wrong (sbp.c:387). *)
Inductive event :=
| Message (ty sender : list Z) (n : Z) (buf : list Z)
| Corrupt.

(** sbp.c:312-397, [sbp_process]: the new parser state, what is left of the input, and the message if one ended.
    [None] is a write outside a buffer. *)
Definition sbp_process (s : sbp) (inp : list Z) : option (sbp * list Z * list event) :=
  match p_st s with
  | Waiting =>                                                       (* 318-324 *)
      match uart_read 1 inp with
      | ([t], rest) =>
          if t =? 0x55 then Some (set_st (set_nread s 0) GetType, rest, []) else Some (s, rest, [])
      | (_, rest) => Some (s, rest, [])
      end
  | GetType =>                                                       (* 326-334 *)
      let '(bs, rest) := uart_read (u32 (2 - p_nread s)) inp in
      match put (p_ty s) (p_nread s) bs with
      | None => None
      | Some t =>
          let s1 := set_nread (set_ty s t) (u8 (p_nread s + len bs)) in
          Some (if 2 <=? p_nread s1 then set_st (set_nread s1 0) GetSender else s1, rest, [])
      end
  | GetSender =>                                                     (* 336-343 *)
      let '(bs, rest) := uart_read (u32 (2 - p_nread s)) inp in
      match put (p_se s) (p_nread s) bs with
      | None => None
      | Some t =>
          let s1 := set_nread (set_se s t) (u8 (p_nread s + len bs)) in
          Some (if 2 <=? p_nread s1 then set_st s1 GetLen else s1, rest, [])
      end
  | GetLen =>                                                        (* 345-350 *)
      match uart_read 1 inp with
      | ([t], rest) => Some (set_st (set_nread (set_len s t) 0) GetMsg, rest, [])
      | (_, rest) => Some (s, rest, [])
      end
  | GetMsg =>                                                        (* 352-363 *)
      let '(bs, rest) := uart_read (u32 (p_len s - p_nread s)) inp in
      match put (p_buf s) (p_nread s) bs with
      | None => None
      | Some b =>
          let s1 := set_nread (set_buf s b) (u8 (p_nread s + len bs)) in
          Some (if p_len s1 - p_nread s1 <=? 0 then set_st (set_nread s1 0) GetCrc else s1, rest, [])
      end
  | GetCrc =>                                                        (* 365-389 *)
      let '(bs, rest) := uart_read (u32 (2 - p_nread s)) inp in
      match put (p_crc s) (p_nread s) bs with
      | None => None
      | Some c =>
          let s1 := set_nread (set_crc s c) (u8 (p_nread s + len bs)) in
          if 2 <=? p_nread s1 then
            let s2 := set_st s1 Waiting in
            let crc := crc16_ccitt (firstn (Z.to_nat (p_len s2)) (p_buf s2))
                         (crc16_ccitt [p_len s2] (crc16_ccitt (p_se s2) (crc16_ccitt (p_ty s2) 0))) in
            Some (s2, rest, [if nth 0 (p_crc s2) 0 + 256 * nth 1 (p_crc s2) 0 =? crc
                             then Message (p_ty s2) (p_se s2) (p_len s2) (p_buf s2) else Corrupt])
          else Some (s1, rest, [])
      end
  end.

(** Result of the loop of [read_all] (Piksi.cpp:340-342): finished, a write outside a buffer, or still running after [fuel]
    calls of [sbp_process]. *)
Inductive drained := Done (s : sbp) (evs : list event) | Overrun | Running.

Fixpoint drain (fuel : nat) (s : sbp) (inp : list Z) (evs : list event) : drained :=
  match inp with
  | [] => Done s evs
  | _ =>
      match fuel with
      | O => Running
      | S f =>
          match sbp_process s inp with
          | None => Overrun
          | Some (s', rest, es) => drain f s' rest (evs ++ es)
          end
      end
  end.

(** What the parser hands over during successive calls of [read_all], one per element; [None] as in [drain]. *)
Fixpoint delivered (s : sbp) (reads : list (list Z)) : option (sbp * list (list event)) :=
  match reads with
  | [] => Some (s, [])
  | r :: t =>
      match drain (2 * length r) s r [] with
      | Done s' es => match delivered s' t with Some (s'', l) => Some (s'', es :: l) | None => None end
      | _ => None
      end
  end.

(** sbp.c:252-261, [sbp_state_init]: the parser waits; nothing else is set, so the rest is arbitrary, of the sizes declared *)
Definition parser_boot (s : sbp) : Prop :=
  p_st s = Waiting /\ length (p_ty s) = 2%nat /\ length (p_se s) = 2%nat /\ length (p_crc s) = 2%nat /\ length (p_buf s) = 256%nat.

(** ** Sending *)

(** sbp.c:428-468, [sbp_send_message], the bytes written when every write succeeds; the receiver sends in the same format. *)
Definition sbp_send (ty sender payload : list Z) : list Z :=
  let crc := crc16_ccitt payload (crc16_ccitt [len payload] (crc16_ccitt sender (crc16_ccitt ty 0))) in
  0x55 :: ty ++ sender ++ [len payload] ++ payload ++ [crc mod 256; crc / 256].

(** ** The driver *)

(** The four message structures the control task reads (navigation.h:56-63, 95-105, 145-155, 191-201), as bytes in memory
    (packed), and the flags telling which were received. *)
Record piksi := mk_piksi {
  k_sbp : sbp;
  k_time : list Z;      (* _gps_time, 11 bytes *)
  k_pos : list Z;       (* _pos_ecef, 32 bytes *)
  k_vel : list Z;       (* _vel_ecef, 20 bytes *)
  k_base : list Z;      (* _baseline_ecef, 20 bytes *)
  k_time_u : bool;
  k_pos_u : bool;
  k_vel_u : bool;
  k_base_u : bool
}.

(** Piksi.cpp:87-123: the registered callbacks, with the number of bytes each copies out of the parser's buffer
    (Piksi.cpp:409-484, [sizeof] of the message structures; [msg_settings_read_resp_t] and [msg_user_data_t] have size 0).
    Type as its two bytes, low byte first. *)
Definition callbacks : list (list Z * Z) :=
  [([0x01; 0x04], 1); ([0x00; 0x01], 11); ([0x06; 0x02], 14); ([0x00; 0x02], 32); ([0x02; 0x02], 20); ([0x04; 0x02], 20);
   ([0x48; 0x00], 24); ([0x19; 0x00], 4); ([0xA5; 0x00], 0); ([0xFF; 0xFF], 4); ([0x00; 0xFF], 4); ([0x1D; 0x00], 74);
   ([0x00; 0x08], 0)].

(** the callback of a message type, sbp.c:222-241 ([sbp_find_callback]), copies inside the parser's buffer *)
Definition copy_inside (e : event) : bool :=
  match e with
  | Message ty _ _ buf =>
      match find (fun c => (nth 0 (fst c) 0 =? nth 0 ty 0) && (nth 1 (fst c) 0 =? nth 1 ty 0)) callbacks with
      | Some (_, n) => n <=? len buf
      | None => true
      end
  | Corrupt => true
  end.

Definition is_type (ty : list Z) (lo hi : Z) : bool := (nth 0 ty 0 =? lo) && (nth 1 ty 0 =? hi).

(** Piksi.cpp:429-433, 440-454: the callbacks of the four messages; every other callback writes structures nobody reads in
    flight (Piksi.cpp:425-428, 435-438, 455-484).  The copies have the size of the structure whatever the message's length. *)
Definition callback (k : piksi) (e : event) : piksi :=
  match e with
  | Message ty _ _ buf =>
      if is_type ty 0x00 0x01 then
        mk_piksi (k_sbp k) (firstn 11 buf) (k_pos k) (k_vel k) (k_base k) true (k_pos_u k) (k_vel_u k) (k_base_u k)
      else if is_type ty 0x00 0x02 then
        mk_piksi (k_sbp k) (k_time k) (firstn 32 buf) (k_vel k) (k_base k) (k_time_u k) true (k_vel_u k) (k_base_u k)
      else if is_type ty 0x04 0x02 then
        mk_piksi (k_sbp k) (k_time k) (k_pos k) (firstn 20 buf) (k_base k) (k_time_u k) (k_pos_u k) true (k_base_u k)
      else if is_type ty 0x02 0x02 then
        mk_piksi (k_sbp k) (k_time k) (k_pos k) (k_vel k) (firstn 20 buf) (k_time_u k) (k_pos_u k) (k_vel_u k) true
      else k
  | Corrupt => k
  end.

Definition corrupt (e : event) : bool := match e with Corrupt => true | _ => false end.

(** the four flags cleared, Piksi.cpp:333-336 *)
Definition clear_updates (k : piksi) : piksi :=
  mk_piksi (k_sbp k) (k_time k) (k_pos k) (k_vel k) (k_base k) false false false false.

Definition with_sbp (k : piksi) (s : sbp) : piksi :=
  mk_piksi s (k_time k) (k_pos k) (k_vel k) (k_base k) (k_time_u k) (k_pos_u k) (k_vel_u k) (k_base_u k).

(** Piksi.cpp:333-358, [read_all] after the bytes were copied: the return code and the driver.  The callbacks run inside the
    loop, but touch nothing the loop uses.  A byte takes at most two calls of [sbp_process]; [None]: a write or read outside a
    buffer, or a loop that is not over after that. *)
Definition read_bytes (k : piksi) (bytes : list Z) : option (Z * piksi) :=
  let k0 := clear_updates k in
  match bytes with
  | [] => Some (4, k0)
  | _ =>
      match drain (2 * length bytes) (k_sbp k0) bytes [] with
      | Done s evs =>
          if negb (forallb copy_inside evs) then None else
          let k1 := fold_left callback evs (with_sbp k0 s) in
          let r :=
            if existsb corrupt evs then 3
            else if k_time_u k1 && k_pos_u k1 && k_vel_u k1 && negb (k_base_u k1) then 0
            else if k_time_u k1 && k_pos_u k1 && k_vel_u k1 && k_base_u k1 then 1
            else 2 in
          Some (r, k1)
      | _ => None
      end
  end.

(** *** The serial port and the timer interrupt *)

(** platformio.ini:98; the ring buffer of the serial library holds one byte less than its size. *)
Definition serial_size : nat := 1024.

(** Bytes waiting in the serial port and the interrupt's counters (Piksi.cpp:37-39); [unsigned long] has 32 bits on the
    flight computer.  [i_delta] is the driver's [microdelta]. *)
Record port := mk_port { i_queue : list Z; i_last_bytes : Z; i_count : Z; i_last_count : Z; i_delta : Z }.

(** a byte arrives; it is lost when the ring buffer is full (the library is not part of /repo) *)
Definition arrive (p : port) (b : Z) : port :=
  if (length (i_queue p) <? serial_size - 1)%nat
  then mk_port (i_queue p ++ [b]) (i_last_bytes p) (i_count p) (i_last_count p) (i_delta p) else p.

(** Piksi.cpp:42-58, [check_bytes], every 100 microseconds *)
Definition check_bytes (p : port) : port :=
  let c := u32 (i_count p + 1) in
  let bytes := len (i_queue p) in
  if i_last_bytes p <? bytes then
    let c' := if 100 <? u32 (c - i_last_count p) then 0 else c in
    mk_port (i_queue p) bytes c' c' (i_delta p)
  else mk_port (i_queue p) (i_last_bytes p) c (i_last_count p) (i_delta p).

(** Piksi.cpp:316-330, the part of [read_all] under disabled interrupts.  [None] when more bytes are copied than the driver's
    buffer holds, or than the port has ([Serial4.read] then returns no byte). *)
Definition take_bytes (p : port) : option (list Z * port) :=
  let n := Z.to_nat (i_last_bytes p) in
  if (n <=? serial_size)%nat && (n <=? length (i_queue p))%nat
  then Some (firstn n (i_queue p), mk_port (skipn n (i_queue p)) 0 (i_count p) (i_last_count p) (u32 (i_count p * 100)))
  else None.

(** ** The control task *)

(** little-endian numbers in the message structures *)
Definition le (l : list Z) : Z := fold_right (fun b acc => b + 256 * acc) 0 l.
Definition field (l : list Z) (off n : nat) : Z := le (firstn n (skipn off l)).

(** piksi_mode_t.enum *)
Definition m_spp := 0.
Definition m_fixed_rtk := 1.
Definition m_float_rtk := 2.
Definition m_no_fix := 3.
Definition m_sync_error := 4.
Definition m_nsat_error := 5.
Definition m_crc_error := 6.
Definition m_time_limit_error := 7.
Definition m_data_error := 8.
Definition m_no_data_error := 9.

(** The published fields (PiksiControlTask.cpp:11-17).  The time as week, time of week and nanoseconds; a coordinate of the
    position as the 64 bits of the double that was received, a coordinate of the other vectors as the integer that was
    received (exact as a double).  [None] is the not-a-number the constructor sets (31-35). *)
Record gps_fields := mk_gps {
  q_state : Z;
  q_time : option (Z * Z * Z);
  q_pos : option (list Z);
  q_vel : option (list Z);
  q_base : option (list Z);
  q_delta : Z
}.

Definition set_state (q : gps_fields) (m : Z) : gps_fields := mk_gps m (q_time q) (q_pos q) (q_vel q) (q_base q) (q_delta q).

(** getters, Piksi.cpp:139-143, 158-163, 165, 174-179, 182, 190-195 *)
Definition time_of (k : piksi) : Z * Z * Z := (field (k_time k) 0 2, field (k_time k) 2 4, s32 (field (k_time k) 6 4)).
Definition time_tow (k : piksi) : Z := field (k_time k) 2 4.
Definition pos_tow (k : piksi) : Z := field (k_pos k) 0 4.
Definition pos_xyz (k : piksi) : list Z := [field (k_pos k) 4 8; field (k_pos k) 12 8; field (k_pos k) 20 8].
Definition pos_nsats (k : piksi) : Z := field (k_pos k) 30 1.
Definition vel_tow (k : piksi) : Z := field (k_vel k) 0 4.
Definition vel_xyz (k : piksi) : list Z := [s32 (field (k_vel k) 4 4); s32 (field (k_vel k) 8 4); s32 (field (k_vel k) 12 4)].
Definition base_tow (k : piksi) : Z := field (k_base k) 0 4.
Definition base_xyz (k : piksi) : list Z := [s32 (field (k_base k) 4 4); s32 (field (k_base k) 8 4); s32 (field (k_base k) 12 4)].
Definition base_flags (k : piksi) : Z := field (k_base k) 19 1.

(** PiksiControlTask.hpp:15 *)
Definition md_threshold : Z := 100000.

(** PiksiControlTask.cpp:38-131, [execute], on what [read_all] returned *)
Definition piksi_execute (q : gps_fields) (delta r : Z) (k : piksi) : gps_fields :=
  let q := mk_gps (q_state q) (q_time q) (q_pos q) (q_vel q) (q_base q) delta in     (* 42-43 *)
  let r := if (md_threshold <? delta) && (r <? 2) then 3 else r in                    (* 46 *)
  if r =? 5 then set_state q m_time_limit_error
  else if r =? 4 then set_state q m_no_data_error
  else if r =? 3 then set_state q m_crc_error
  else if r =? 2 then set_state q m_no_fix
  else if (r =? 1) || (r =? 0) then
    let check :=
      if r =? 1 then (time_tow k =? pos_tow k) && (time_tow k =? vel_tow k) && (time_tow k =? base_tow k)
      else (time_tow k =? pos_tow k) && (time_tow k =? vel_tow k) in                 (* 79-83 *)
    if negb check then set_state q m_sync_error
    else if pos_nsats k <? 4 then set_state q m_nsat_error
    else if r =? 0 then mk_gps m_spp (Some (time_of k)) (Some (pos_xyz k)) (Some (vel_xyz k)) (q_base q) delta
    else if base_flags k =? 1 then
      mk_gps m_fixed_rtk (Some (time_of k)) (Some (pos_xyz k)) (Some (vel_xyz k)) (Some (base_xyz k)) delta
    else if base_flags k =? 0 then
      mk_gps m_float_rtk (Some (time_of k)) (Some (pos_xyz k)) (Some (vel_xyz k)) (Some (base_xyz k)) delta
    else set_state q m_data_error
  else set_state q m_data_error.

(** constructor, PiksiControlTask.cpp:30-35; time and delay are not set *)
Definition gps_boot : gps_fields := mk_gps m_no_fix None None None None 0.

(** ** Runs *)

(** one control cycle in which the driver takes [bytes] with the delay [delta]; [None] as in [read_bytes] *)
Definition gps_cycle (x : piksi * gps_fields) (c : Z * list Z) : option (piksi * gps_fields) :=
  match read_bytes (fst x) (snd c) with
  | None => None
  | Some (r, k) => Some (k, piksi_execute (snd x) (fst c) r k)
  end.

Fixpoint gps_cycles (x : piksi * gps_fields) (cs : list (Z * list Z)) : option (piksi * gps_fields) :=
  match cs with
  | [] => Some x
  | c :: t => match gps_cycle x c with Some x' => gps_cycles x' t | None => None end
  end.

(** the whole: bytes arriving, interrupts, control cycles *)
Inductive gps_step := Byte (b : Z) | Interrupt | Cycle.

Definition gps_next (y : port * (piksi * gps_fields)) (a : gps_step) : option (port * (piksi * gps_fields)) :=
  match a with
  | Byte b => Some (arrive (fst y) b, snd y)
  | Interrupt => Some (check_bytes (fst y), snd y)
  | Cycle =>
      match take_bytes (fst y) with
      | None => None
      | Some (bytes, p) =>
          match gps_cycle (snd y) (i_delta p, bytes) with Some x => Some (p, x) | None => None end
      end
  end.

Fixpoint gps_run (y : port * (piksi * gps_fields)) (as_ : list gps_step) : option (port * (piksi * gps_fields)) :=
  match as_ with
  | [] => Some y
  | a :: t => match gps_next y a with Some y' => gps_run y' t | None => None end
  end.

(** Piksi.cpp:37-39 and Piksi.hpp:438 *)
Definition port_boot : port := mk_port [] 0 0 0 0.

(** Piksi.cpp:71-126, [setup] *)
Definition piksi_boot (k : piksi) : Prop := parser_boot (k_sbp k).
