(** Specification vocabulary for the radio. *)
From Verif Require Import Base QuakeModel.

(** Runs: before each execution the fault handler or the mission manager may switch the radio to config or disabled.
    Outputs in order. *)
Inductive rrun (mx : nat) (q0 : rad) (c0 : Z) : list rout -> rad -> Z -> Prop :=
| rrun_nil : rrun mx q0 c0 [] q0 c0
| rrun_cons o q cc q1 e q2 o2 : rrun mx q0 c0 o q cc ->
    (q1 = q \/ q1 = q_set_state q r_config \/ q1 = q_set_state q r_disabled) ->
    radio_exec mx (u32 (cc + 1)) e q1 = (q2, o2) -> rrun mx q0 c0 (o ++ o2) q2 (u32 (cc + 1)).

(** [n] executions in the same phase *)
Inductive stays (mx : nat) (ok : renv -> Prop) (st : Z) : Z -> Z -> rad -> Prop :=
| stays_0 cc q : q_state q = st -> stays mx ok st 0 cc q
| stays_S n cc q e : stays mx ok st n cc q -> ok e ->
    q_state (fst (radio_exec mx (u32 (cc + 1)) e q)) = st ->
    stays mx ok st (n + 1) (u32 (cc + 1)) (fst (radio_exec mx (u32 (cc + 1)) e q)).

(** What the ground has of the current snapshot: the snapshot the radio took last, the packet waiting in the radio, the
    packets exchanged since. *)
Record heard := mk_h { h_snap : option (list Z); h_pending : option (list Z); h_got : list (list Z) }.
Definition hear (h : heard) (o : rout) : heard :=
  match o with
  | OCopy l => mk_h (Some l) (h_pending h) []
  | OData l _ => mk_h (h_snap h) (Some l) (h_got h)
  | OCheckin _ => mk_h (h_snap h) (h_pending h) (h_got h ++ match h_pending h with Some l => [l] | None => [] end)
  | _ => h
  end.
Definition hear_all (l : list rout) : heard := fold_left hear l (mk_h None None []).

(** the [i]th 70-byte slice *)
Definition slice (l : list Z) (i : nat) : list Z := firstn packet_size (skipn (packet_size * i) l).

(** a message as the radio sends it: length, bytes, checksum *)
Definition byte (b : Z) : Prop := 0 <= b < 256.
Definition sum_bytes (l : list Z) : Z := fold_right Z.add 0 l mod 65536.
Definition wire (l : list Z) : list Z :=
  let n := Z.of_nat (length l) in [n / 256; n mod 256] ++ l ++ [sum_bytes l / 256; sum_bytes l mod 256].
(** the frame of a message arrives in full and the radio is waiting for it *)
Definition arrives (rx : list Z) (e : renv) (q : rad) : Prop := e_rx e = rx /\ q_len q <= e_avail e + 4.

(** a run computed; the first component is what the fault handler or mission manager writes *)
Definition outside (x : option bool) (q : rad) : rad :=
  match x with None => q | Some true => q_set_state q r_config | Some false => q_set_state q r_disabled end.
Fixpoint rsim (mx : nat) (es : list (option bool * renv)) (q : rad) (cc : Z) : list rout * rad * Z :=
  match es with
  | [] => ([], q, cc)
  | (x, e) :: t => let '(q2, o2) := radio_exec mx (u32 (cc + 1)) e (outside x q) in
      let '(o, q', cc') := rsim mx t q2 (u32 (cc + 1)) in (o2 ++ o, q', cc')
  end.
