(** A power supply as its messages are documented in Drivers/Gomspace.hpp and the comments of Drivers/Gomspace.cpp, on a bus that
    may lose messages: the partner for which the power properties (C33, C59 to C63) are stated.  Messages that restart the
    supply are not part of it. *)
From Verif Require Import Base DevModel EpsModel EpsSpec PowerModel PowerSpec.

(** outputs, heater, tracker mode, panel voltages; what else it reports; the commands for outputs sent so far, heard or not *)
Record board := mk_board { b_out : nat -> bool; b_heat : bool; b_ppt : Z; b_vb : nat -> Z; b_rest : nat -> Z; b_log : list (nat * bool) }.
(** the 65 housekeeping values *)
Definition hk_of (b : board) (i : nat) : Z :=
  if Nat.ltb i 3 then b_vb b i else if Nat.leb 16 i && Nat.leb i 21 then Z.b2z (b_out b (i - 16)) else if Nat.eqb i 63 then b_ppt b else b_rest b i.
(** what reaches the supply in this cycle *)
Definition heard (e : genv) (m : list Z) : bool :=
  match m with
  | [8; 0] => ge_hk e
  | [10; ch; _; _; _] => ge_out e (Z.to_nat ch)
  | 11 :: _ => ge_pv e
  | 12 :: _ => ge_ppt e
  | [13] => ge_query e
  | 13 :: _ => ge_heat e
  | _ => true
  end.
(** what the supply does with a message, and its reply *)
Definition obey (m : list Z) (b : board) : board * list Z :=
  match m with
  | [8; 0] => (b, [8; 0] ++ hk_image (hk_of b) 0 65)
  | [10; ch; v; 0; 0] => (mk_board (fun j => if Nat.eqb j (Z.to_nat ch) then negb (v =? 0) else b_out b j) (b_heat b) (b_ppt b) (b_vb b) (b_rest b) (b_log b), [10; 0])
  | [11; a1; a0; b1; b0; c1; c0] =>
    (mk_board (b_out b) (b_heat b) (b_ppt b)
       (fun i => match i with O => value [a1; a0] | 1%nat => value [b1; b0] | 2%nat => value [c1; c0] | _ => b_vb b i end) (b_rest b) (b_log b), [11; 0])
  | [12; m] => (mk_board (b_out b) (b_heat b) m (b_vb b) (b_rest b) (b_log b), [12; 0])
  | [13] => (b, [13; 0; 0; Z.b2z (b_heat b)])
  | [13; 0; _; m] => (mk_board (b_out b) (negb (m =? 0)) (b_ppt b) (b_vb b) (b_rest b) (b_log b), [13; 0; 0; m])
  | p :: _ => (b, [p; 0])
  | [] => (b, [])
  end.
Definition noted (m : list Z) (b : board) : board :=
  match m with
  | [10; ch; v; _; _] => mk_board (b_out b) (b_heat b) (b_ppt b) (b_vb b) (b_rest b) (b_log b ++ [(Z.to_nat ch, negb (v =? 0))])
  | _ => b
  end.
Definition answer (e : genv) (m : list Z) (b : board) : board * list Z :=
  if heard e m then obey m (noted m b) else (noted m b, []).
(** the bus: message being sent, reply to the last message, bytes waiting *)
Record nano_st := mk_nano { n_env : genv; n_board : board; n_msg : list Z; n_rep : list Z; n_wait : list Z }.
Definition nano : bus := mk_bus nano_st (fun o s =>
  match o with
  | Write l => (mk_nano (n_env s) (n_board s) (n_msg s ++ l) (n_rep s) (n_wait s), mk_wres true [])
  | EndTx => let '(b, r) := answer (n_env s) (n_msg s) (n_board s) in (mk_nano (n_env s) b [] r [], mk_wres (heard (n_env s) (n_msg s)) [])
  | Request n => (mk_nano (n_env s) (n_board s) (n_msg s) [] (n_rep s), mk_wres (Nat.eqb (length (n_rep s)) n) [])
  | Take n => (mk_nano (n_env s) (n_board s) (n_msg s) (n_rep s) (skipn n (n_wait s)), mk_wres true (firstn n (n_wait s)))
  | Finish | Pin => (s, mk_wres true [])
  end).

Notation brd g := (n_board (g_bus (B := nano) g)).
Notation env g := (n_env (g_bus (B := nano) g)).
Definition board_legal (b : board) : Prop := hk_legal (hk_of b).
(** Replies are read into buffers that hold whatever was on the stack.  When a reply does not come the first byte of the buffer
    must not look like one (C157). *)
Definition clean (e : genv) (jk : nat -> stack) : Prop :=
  (forall k, ge_hk e = false -> u8 (jk k 0%nat) <> 8) /\ (forall k, ge_query e = false -> u8 (jk k 0%nat) <> 13).
(** no message half sent, values within their widths, the telemetered outputs 0 or 1, no restart of the supply commanded *)
Definition sound (x : ctl nano) : Prop :=
  n_msg (g_bus (x_drv x)) = [] /\ board_legal (brd (x_drv x)) /\ length (g_hk (x_drv x)) = hk_size /\
  (forall i, (i < 6)%nat -> nth (15 + i) (x_pub x) 0 = 0 \/ nth (15 + i) (x_pub x) 0 = 1) /\
  0 <= m_ppt (x_cmd x) /\ m_rst (x_cmd x) = false /\ m_boot (x_cmd x) = false.
(** Between two cycles: the bus may get better or worse, the supply's readings may change, its outputs do not by themselves;
    commands as in [elsewhere]. *)
Definition meanwhile (i : nat) (x x' : ctl nano) : Prop :=
  sound x' /\ (forall j, (j < 6)%nat -> b_out (brd (x_drv x')) j = b_out (brd (x_drv x)) j) /\ b_log (brd (x_drv x')) = b_log (brd (x_drv x)) /\
  g_hk (x_drv x') = g_hk (x_drv x) /\ x_pub x' = x_pub x /\ m_cyc (x_cmd x') i = m_cyc (x_cmd x) i /\ m_period (x_cmd x') = m_period (x_cmd x) /\
  (i = 0%nat -> m_off (x_cmd x') = false).
(** [n] cycles after cycle number [cc], none of them numbered 1 *)
Inductive nanorun (i : nat) (cc : Z) : Z -> ctl nano -> ctl nano -> Prop :=
| nr_0 x : nanorun i cc 0 x x
| nr_S n x x1 x2 jk x3 ev : nanorun i cc n x x1 -> meanwhile i x1 x2 -> working (env (x_drv x2)) -> u32 (cc + (n + 1)) <> 1 ->
    gexec nano (u32 (cc + (n + 1))) jk x2 = Some (x3, ev) -> nanorun i cc (n + 1) x x3.
