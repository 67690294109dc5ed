(** Concrete messages of the GPS receiver, for examples and counterexamples. *)
From Verif Require Import Base SbpModel SbpSpec SbpCrcProofs SbpParseProofs SbpStreamProofs SbpProofs SbpTaskProofs SbpPortProofs.

Definition zeros (n : nat) : list Z := repeat 0 n.
Definition gps0 : piksi := mk_piksi some_parser (zeros 11) (zeros 32) (zeros 20) (zeros 20) false false false false.
Lemma gps0_boot : piksi_boot gps0. Proof. repeat split. Qed.

(** 345600000 ms of the week *)
Definition tow4 : list Z := [0; 0xB8; 0x99; 0x14].
Definition pay_time : list Z := [0x50; 0x08] ++ tow4 ++ [0; 0; 0; 0] ++ [1].
Definition pay_pos : list Z := tow4 ++ zeros 22 ++ [0x59; 0x41] ++ [0; 0] ++ [9] ++ [4].
(** 7600000 mm/s along the first axis *)
Definition pay_vel : list Z := tow4 ++ [0x80; 0xF7; 0x73; 0] ++ zeros 8 ++ [0; 0] ++ [9] ++ [2].
(** 1 km along the first axis, in millimetres *)
Definition pay_base : list Z := tow4 ++ [0x40; 0x42; 0x0F; 0] ++ zeros 8 ++ [0; 0] ++ [9] ++ [1].
Definition me : list Z := [0x42; 0].

Definition msg_time := sbp_send ty_time me pay_time.
Definition msg_pos := sbp_send ty_pos me pay_pos.
Definition msg_vel := sbp_send ty_vel me pay_vel.
Definition msg_base := sbp_send ty_base me pay_base.
Definition burst := msg_time ++ msg_pos ++ msg_vel ++ msg_base.

(** a log message of 40 bytes, and a position message that was cut after its first field, with a right checksum *)
Definition msg_log := sbp_send [0x01; 0x04] me (repeat 7 40).
Definition msg_short := sbp_send ty_pos me tow4.
