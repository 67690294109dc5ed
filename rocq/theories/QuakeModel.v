(** Model of src/fsw/FCCode/QuakeManager.cpp, QuakeControlTask.cpp and Drivers/QLocate.cpp (flight build).

    What the radio does is an arbitrary input of every cycle: whether writes to the port succeed, how many bytes wait in
    the receive buffer when it is asked, and the bytes that arrive until the reads are over.  [sscanf] on the SBDIX reply
    is an input too (six integers or a failure); the integers it leaves behind on failure are not modelled, nothing reads
    them before the next SBDIX command zeroes them.  In [256 * read() + read()] the first call is taken to be the first
    byte (the order is unspecified in C++).  [char] is unsigned on the flight computer. *)
From Verif Require Import Base.

(** radio_state_t.enum *)
Definition r_wait : Z := 0.
Definition r_transceive : Z := 1.
Definition r_read : Z := 2.
Definition r_write : Z := 3.
Definition r_config : Z := 4.
Definition r_disabled : Z := 5.

(** radio_status_t, QLocate.hpp:29-46 *)
Definition rs_ok : Z := 0.
Definition rs_timeout : Z := 1.
Definition rs_bad_checksum : Z := 2.
Definition rs_wrong_length : Z := 3.
Definition rs_unexpected : Z := 4.
Definition rs_consume_fail : Z := 5.
Definition rs_write_fail : Z := 6.
Definition rs_port_unavailable : Z := 7.
Definition rs_unknown : Z := 8.
Definition rs_wrong_order : Z := 9.

Definition max_msg_size : nat := 340.
Definition packet_size : nat := 70.

(** commands written to the radio *)
Inductive rcmd := CFactory | CSetup | CClear | CWrite (len : Z) | CExchange | CRead.
(** what a cycle does that others can see: command or data written to the port, snapshot copied, uplink.len and
    radio.last_comms_ccno written *)
Inductive rout := OCmd (c : rcmd) | OData (l : list Z) (sum : Z) | OCopy (l : list Z) | OPublish (len : Z) | OCheckin (cc : Z).

(** one cycle of the outside world *)
Record renv := mk_re {
  e_w : bool;               (* writes to the port succeed *)
  e_avail : Z;              (* port->available() *)
  e_rx : list Z;            (* the bytes the reads return *)
  e_parse : option (Z * Z * Z);  (* MO status, MT status and MT length of a well-formed SBDIX reply *)
  e_cycling : bool;         (* gomspace.power_cycle_output3_cmd *)
  e_max_wait : Z; e_max_transceive : Z;
  e_mem : list Z            (* the bytes at downlink.ptr and after *) }.

(** the fields of QuakeManager, QuakeControlTask and QLocate *)
Record rad := mk_r {
  q_state : Z; q_entry : Z; q_fn : Z; q_idx : nat; q_flag : bool; q_err : Z; q_mt_len : Z; q_checkin : Z;
  q_buf : list Z;           (* mo_buffer_copy *)
  q_off : nat;              (* MO_msg_p - mo_buffer_copy *)
  q_mo : Z; q_mt : Z; q_len : Z;  (* sbdix_r[0], [2], [4] *)
  q_msg : list Z            (* mt_message *) }.

Definition q_set_state q x := mk_r x (q_entry q) (q_fn q) (q_idx q) (q_flag q) (q_err q) (q_mt_len q) (q_checkin q) (q_buf q) (q_off q) (q_mo q) (q_mt q) (q_len q) (q_msg q).
Definition q_set_entry q x := mk_r (q_state q) x (q_fn q) (q_idx q) (q_flag q) (q_err q) (q_mt_len q) (q_checkin q) (q_buf q) (q_off q) (q_mo q) (q_mt q) (q_len q) (q_msg q).
Definition q_set_fn q x := mk_r (q_state q) (q_entry q) x (q_idx q) (q_flag q) (q_err q) (q_mt_len q) (q_checkin q) (q_buf q) (q_off q) (q_mo q) (q_mt q) (q_len q) (q_msg q).
Definition q_set_idx q x := mk_r (q_state q) (q_entry q) (q_fn q) x (q_flag q) (q_err q) (q_mt_len q) (q_checkin q) (q_buf q) (q_off q) (q_mo q) (q_mt q) (q_len q) (q_msg q).
Definition q_set_flag q x := mk_r (q_state q) (q_entry q) (q_fn q) (q_idx q) x (q_err q) (q_mt_len q) (q_checkin q) (q_buf q) (q_off q) (q_mo q) (q_mt q) (q_len q) (q_msg q).
Definition q_set_err q x := mk_r (q_state q) (q_entry q) (q_fn q) (q_idx q) (q_flag q) x (q_mt_len q) (q_checkin q) (q_buf q) (q_off q) (q_mo q) (q_mt q) (q_len q) (q_msg q).
Definition q_set_mt_len q x := mk_r (q_state q) (q_entry q) (q_fn q) (q_idx q) (q_flag q) (q_err q) x (q_checkin q) (q_buf q) (q_off q) (q_mo q) (q_mt q) (q_len q) (q_msg q).
Definition q_set_checkin q x := mk_r (q_state q) (q_entry q) (q_fn q) (q_idx q) (q_flag q) (q_err q) (q_mt_len q) x (q_buf q) (q_off q) (q_mo q) (q_mt q) (q_len q) (q_msg q).
Definition q_set_buf q x := mk_r (q_state q) (q_entry q) (q_fn q) (q_idx q) (q_flag q) (q_err q) (q_mt_len q) (q_checkin q) x (q_off q) (q_mo q) (q_mt q) (q_len q) (q_msg q).
Definition q_set_off q x := mk_r (q_state q) (q_entry q) (q_fn q) (q_idx q) (q_flag q) (q_err q) (q_mt_len q) (q_checkin q) (q_buf q) x (q_mo q) (q_mt q) (q_len q) (q_msg q).
Definition q_set_sbdix q a b c := mk_r (q_state q) (q_entry q) (q_fn q) (q_idx q) (q_flag q) (q_err q) (q_mt_len q) (q_checkin q) (q_buf q) (q_off q) a b c (q_msg q).
Definition q_set_msg q x := mk_r (q_state q) (q_entry q) (q_fn q) (q_idx q) (q_flag q) (q_err q) (q_mt_len q) (q_checkin q) (q_buf q) (q_off q) (q_mo q) (q_mt q) (q_len q) x.

(** ** The driver, QLocate.cpp *)

(** checksum, :302-308 *)
Fixpoint checksum_from (s : Z) (l : list Z) : Z := match l with [] => s | c :: t => checksum_from (u16 (s + c)) t end.
Definition checksum (l : list Z) : Z := checksum_from 0 l.

(** strncmp over the whole expected text, which has no NUL *)
Fixpoint bytes_eqb (a b : list Z) : bool :=
  match a, b with [], [] => true | x :: a', y :: b' => (x =? y) && bytes_eqb a' b' | _, _ => false end.

(** sendCommand, :291-299, and printf in query_sbdwb_1, :78-88; a write that fails half way counts as nothing written *)
Definition send (e : renv) (c : rcmd) : Z * list rout := if e_w e then (rs_ok, [OCmd c]) else (rs_write_fail, []).
(** consume, :259-289 *)
Definition consume (e : renv) (expected : list Z) : Z :=
  if e_avail e <? Z.of_nat (length expected) then rs_port_unavailable
  else if bytes_eqb (firstn (length expected) (e_rx e)) expected then rs_ok else rs_consume_fail.

(** the expected answers: "READY\r\n", "AT&K0;&D0;E0;V0;+SBDMTA=0\r0\r", "0\r\n0\r" *)
Definition s_ready : list Z := [82; 69; 65; 68; 89; 13; 10].
Definition s_setup : list Z :=
  [65; 84; 38; 75; 48; 59; 38; 68; 48; 59; 69; 48; 59; 86; 48; 59; 43; 83; 66; 68; 77; 84; 65; 61; 48; 13; 48; 13].
Definition s_cleared : list Z := [48; 13; 10; 48; 13].

(** a byte read from the port; -1 if none came *)
Definition rd (e : renv) (i : nat) : Z := nth i (e_rx e) (-1).
(** readBytes from position [i] *)
Definition rd_bytes (e : renv) (i n : nat) : list Z := firstn n (skipn i (e_rx e)).

(** get_sbdwb, :154-179; the five bytes of the buffer are zero where nothing was read *)
Definition get_sbdwb (e : renv) : Z :=
  if e_avail e =? 0 then rs_port_unavailable else
  let l := rd_bytes e 0 5 in
  let status := nth 0 l 0 - 48 in
  if Nat.ltb (length l) 3 then rs_unknown
  else if negb (nth 1 l 0 =? 13) || negb (nth 2 l 0 =? 10) || (3 <? status) then rs_unexpected
  else status.

(** dispatch_config of QuakeControlTask with the driver functions, QuakeControlTask.cpp:100-123, QLocate.cpp:54-76 *)
Definition qct_config (e : renv) (q : rad) : rad * Z * list rout :=
  let '(err, o) :=
    if q_fn q =? 0 then send e CFactory
    else if q_fn q =? 1 then (if e_avail e =? 0 then (rs_port_unavailable, []) else send e CSetup)
    else if q_fn q =? 2 then
      let s := consume e s_setup in if s =? rs_ok then send e CClear else (s, [])
    else if q_fn q =? 3 then (consume e s_cleared, [])
    else (rs_wrong_order, []) in
  (if err =? rs_ok then q_set_fn q ((q_fn q + 1) mod 4) else q, err, o).

(** dispatch_sbdwb, QuakeControlTask.cpp:40-60; query_sbdwb_1 and _2, QLocate.cpp:78-152.  MO_msg_len is always 70. *)
Definition message (q : rad) : list Z := firstn packet_size (skipn (q_off q) (q_buf q)).
Definition qct_sbdwb (e : renv) (q : rad) : rad * Z * list rout :=
  let '(err, o) :=
    if q_fn q =? 0 then send e (CWrite 70)
    else if q_fn q =? 1 then
      let s := consume e s_ready in
      if s =? rs_ok then (if e_w e then (rs_ok, [OData (message q) (checksum (message q))]) else (rs_write_fail, []))
      else (s, [])
    else if q_fn q =? 2 then (get_sbdwb e, [])
    else (rs_wrong_order, []) in
  (if err =? rs_ok then q_set_fn q ((q_fn q + 1) mod 3) else q, err, o).

(** dispatch_sbdix, QuakeControlTask.cpp:81-98; QLocate.cpp:181-219 *)
Definition qct_sbdix (e : renv) (q : rad) : rad * Z * list rout :=
  let '(q1, err, o) :=
    if q_fn q =? 0 then let '(s, o) := send e CExchange in (q_set_sbdix q 0 0 0, s, o)
    else if q_fn q =? 1 then
      if e_avail e <? 26 then (q, rs_port_unavailable, [])
      else if 128 <=? e_avail e then (q, rs_unexpected, [])
      else match e_parse e with Some (a, b, c) => (q_set_sbdix q a b c, rs_ok, []) | None => (q, rs_unexpected, []) end
    else (q, rs_wrong_order, []) in
  (if err =? rs_ok then q_set_fn q1 ((q_fn q1 + 1) mod 2) else q1, err, o).

(** get_sbdrb, QLocate.cpp:227-257.  A negative size is huge as size_t. *)
Definition pad (n : nat) (l : list Z) : list Z := l ++ repeat 0 (n - length l).
Definition get_sbdrb (e : renv) (q : rad) : rad * Z :=
  if e_avail e + 4 <? q_len q then (q, rs_port_unavailable) else
  let size := 256 * rd e 0 + rd e 1 in
  if (size <? 0) || (340 <? size) then (q, rs_wrong_length) else
  let n := Z.to_nat size in
  let got := rd_bytes e 2 n in
  let q1 := q_set_msg q (pad (max_msg_size + 1) got) in
  let at_ := (2 + length got)%nat in
  if u16 (256 * rd e at_ + rd e (S at_)) =? checksum (firstn n (q_msg q1)) then (q1, rs_ok) else (q1, rs_bad_checksum).

(** dispatch_sbdrb, QuakeControlTask.cpp:62-79; query_sbdrb_1 clears the message, QLocate.cpp:221-225 *)
Definition qct_sbdrb (e : renv) (q : rad) : rad * Z * list rout :=
  let '(q1, err, o) :=
    if q_fn q =? 0 then let '(s, o) := send e CRead in (q_set_msg q (repeat 0 (max_msg_size + 1)), s, o)
    else if q_fn q =? 1 then let '(q1, s) := get_sbdrb e q in (q1, s, [])
    else (q, rs_wrong_order, []) in
  (if err =? rs_ok then q_set_fn q1 ((q_fn q1 + 1) mod 2) else q1, err, o).

(** ** The manager, QuakeManager.cpp *)

(** transition_radio_state, :384-390 *)
Definition transition (cc st : Z) (q : rad) : rad := q_set_state (q_set_fn (q_set_entry q cc) 0) st.
(** handle_err, :366-377; is_actual_error, :360-364; no_more_cycles, :379-382; has_finished and has_just_entered, :177-180,
    236-239 *)
Definition handle_err (cc err : Z) (q : rad) : rad := transition cc r_wait (q_set_flag (q_set_err q err) true).
Definition actual_error (err : Z) : bool := negb (err =? rs_ok) && negb (err =? rs_port_unavailable).
Definition age (cc : Z) (q : rad) : Z := u32 (cc - q_entry q).
Definition no_more_cycles (cc mx : Z) (q : rad) : bool := mx <? age cc q.
Definition has_finished (cc : Z) (q : rad) : bool := (q_fn q =? 0) && (1 <? age cc q).
Definition just_entered (cc : Z) (q : rad) : bool := (q_fn q =? 0) && (age cc q <=? 1).

Definition max_phase_cycles : Z := 5.

(** dispatch_config, :154-175 *)
Definition m_config (cc : Z) (e : renv) (q : rad) : rad * list rout :=
  if no_more_cycles cc max_phase_cycles q then (handle_err cc rs_timeout q, []) else
  let '(q1, err, o) := qct_config e q in
  if actual_error err then (handle_err cc err q1, o)
  else if has_finished cc q1 then (transition cc r_write (q_set_idx q1 0), o) else (q1, o).

(** dispatch_wait, :182-202 *)
Definition m_wait (cc : Z) (e : renv) (q : rad) : rad * list rout :=
  if negb (no_more_cycles cc (e_max_wait e) q) || e_cycling e then (q, [])
  else if q_flag q then (transition cc r_config (q_set_flag q false), [])
  else (transition cc r_write (q_set_idx q 0), []).

(** copy_next_snapshot and copy_next_packet, :241-257; [mx] is max_snapshot_size *)
Definition copy_snapshot (mx : nat) (e : renv) (q : rad) : rad := q_set_buf q (firstn mx (e_mem e)).
Definition copy_packet (mx : nat) (q : rad) : rad :=
  q_set_idx (q_set_off q (packet_size * q_idx q)) ((q_idx q + 1) mod (mx / packet_size)).

(** dispatch_write, :204-234 *)
Definition m_write (mx : nat) (cc : Z) (e : renv) (q : rad) : rad * list rout :=
  if no_more_cycles cc max_phase_cycles q then (handle_err cc rs_timeout q, []) else
  let '(q0, o0) :=
    if just_entered cc q then
      let '(q1, o1) := if Nat.eqb (q_idx q) 0 then (copy_snapshot mx e q, [OCopy (firstn mx (e_mem e))]) else (q, []) in (copy_packet mx q1, o1)
    else (q, []) in
  let '(q1, err, o) := qct_sbdwb e q0 in
  if actual_error err then (handle_err cc err q1, o0 ++ o)
  else if has_finished cc q1 then (transition cc r_transceive q1, o0 ++ o) else (q1, o0 ++ o).

(** handle_no_comms, :303-317 *)
Definition no_comms (cc : Z) (e : renv) (q : rad) : rad :=
  let left := u32 (e_max_transceive e - age cc q) in
  if e_max_transceive e / 3 + 1 <? left then q else transition cc r_write (q_set_idx q 0).

(** dispatch_transceive, handle_comms_msg and handle_comms_no_msg, :259-301, 319-331 *)
Definition m_transceive (cc : Z) (e : renv) (q : rad) : rad * list rout :=
  if no_more_cycles cc (e_max_transceive e) q then (handle_err cc rs_timeout q, []) else
  let '(q1, err, o) := qct_sbdix e q in
  if actual_error err then (handle_err cc err q1, o)
  else if has_finished cc q1 then
    if 4 <? q_mo q1 then (no_comms cc e q1, o)
    else
      let q2 := q_set_checkin q1 cc in
      (transition cc (if q_mt q2 =? 1 then r_read else r_write) q2, o ++ [OCheckin cc])
  else (q1, o).

(** dispatch_read, :333-358 *)
Definition m_read (cc : Z) (e : renv) (q : rad) : rad * list rout :=
  if no_more_cycles cc max_phase_cycles q then (handle_err cc rs_timeout q, []) else
  let '(q1, err, o) := qct_sbdrb e q in
  if actual_error err then (handle_err cc err q1, o)
  else if has_finished cc q1 then (transition cc r_write (q_set_mt_len q1 (u32 (q_len q1))), o ++ [OPublish (u32 (q_len q1))])
  else (q1, o).

(** execute, :106-146; dispatch_disabled, :148-152 *)
Definition radio_exec (mx : nat) (cc : Z) (e : renv) (q : rad) : rad * list rout :=
  if q_state q =? r_disabled then (transition cc r_disabled q, [])
  else if q_state q =? r_config then m_config cc e q
  else if q_state q =? r_wait then m_wait cc e q
  else if q_state q =? r_transceive then m_transceive cc e q
  else if q_state q =? r_read then m_read cc e q
  else if q_state q =? r_write then m_write mx cc e q
  else m_wait cc e (q_set_flag q true).

(** init, :71-75: snap_size at initialisation is the size of the snapshot's allocation *)
Definition max_snapshot (size : nat) : nat := Nat.max (size + 1) packet_size.
(** constructor, :30-69; in init the buffer is zeroed *)
Definition radio_init (size : nat) (cc : Z) : rad :=
  mk_r r_disabled cc 0 0 false 0 0 cc (repeat 0 (max_snapshot size)) 0 0 0 0 (repeat 0 (max_msg_size + 1)).
