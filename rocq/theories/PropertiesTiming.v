(** Claims about the timing of control tasks. *)
From Verif Require Import Base TimingModel TimingSpec TimingProofs.
From Coq Require Import QArith Sorted.
Local Open Scope Z_scope.

(** * C41 Task start times survive microsecond counter roll-over *)

(** a task whose slot begins at the real time [d]: [t] is the reading of the clock on arrival, [s] the one at which waiting
    begins; it waits until the first reading at least [d - t] after [s], is counted late exactly when [t] is after [d],
    does not begin before [d], and reports the real time its body took *)
Theorem C41_task_waits : forall t0 d cnt dur st ts r e' rest,
  steady t0 ts -> t0 <= d < t0 + 2 ^ 31 -> execute_on_time (u32 d) cnt dur st ts = Some (r, e', rest) ->
  exists t s before x, ts = t :: s :: before ++ x :: tr_begin r :: tr_end r :: rest /\
    tr_wait r = Z.max (d - t) 0 /\ Forall (fun y => y < s + tr_wait r) before /\ s + tr_wait r <= x /\ d <= tr_begin r /\
    num_lates (tr_stat r) = (if d <? t then u32 (num_lates st + 1) else num_lates st) /\
    ct_duration (tr_stat r) = tr_end r - tr_begin r /\ e' = u32 (d + dur) /\ steady t0 rest.
Proof. exact task_exact. Qed.
Print Assumptions C41_task_waits.
(** a wait across the roll-over of the 32 bit counter *)
Example C41_case : let t := 2 ^ 32 - 50 in
  steady t [t + 10; t + 12; t + 40; t + 70; t + 105; t + 106; t + 200] /\
  match execute_on_time (u32 (t + 100)) 5 6400 (mk_ts 3 0 0) [t + 10; t + 12; t + 40; t + 70; t + 105; t + 106; t + 200] with
  | Some (r, e, rest) => tr_wait r = 90 /\ tr_begin r = t + 106 /\ num_lates (tr_stat r) = 3 /\ ct_duration (tr_stat r) = 94 /\ e = 6450 /\ rest = []
  | None => False end.
Proof.
  intros t. split; [|vm_compute; repeat split].
  split; [repeat (apply Sorted_cons || apply Sorted_nil || apply HdRel_nil || (apply HdRel_cons; unfold t; lia))|repeat (constructor; [unfold t; lia|]); constructor].
Qed.

(** * C84 No control task begins before its slot *)

Theorem C84_slots : forall cnt tasks t ts rs cnt' rest, steady t ts -> Forall (fun p => 0 <= fst p) tasks ->
  1100 + total (map fst tasks) < 2 ^ 31 -> control_cycle cnt tasks (t :: ts) = Some (rs, cnt', rest) ->
  Forall2 (fun s r => s <= tr_begin r) (slots (t + 1100) (map fst tasks)) rs.
Proof. exact cycle_slots. Qed.
Print Assumptions C84_slots.
Theorem C84_cycle_length : forall cnt tasks t ts rs cnt' rest, map fst tasks = durations -> steady t ts ->
  control_cycle cnt tasks (t :: ts) = Some (rs, cnt', rest) -> exists r, nth_error rs 16 = Some r /\ t + 169900 <= tr_begin r.
Proof. exact cycle_length. Qed.
Print Assumptions C84_cycle_length.
Example C84_case : Forall (fun p : Z * tstat => 0 <= fst p) [(6400, mk_ts 0 0 0); (15000, mk_ts 0 0 0)] /\
  steady 7 [20; 21; 1108; 1109; 9000; 9001; 9002; 9003; 9004; 9005] /\
  match control_cycle 0 [(6400, mk_ts 0 0 0); (15000, mk_ts 0 0 0)] (7 :: [20; 21; 1108; 1109; 9000; 9001; 9002; 9003; 9004; 9005]) with
  | Some (rs, c, rest) => map tr_begin rs = [1109; 9004] /\ map (fun r => num_lates (tr_stat r)) rs = [0; 1] /\ c = 1
  | None => False end.
Proof.
  split; [repeat (constructor; [cbn; lia|]); constructor|]. split; [|vm_compute; repeat split].
  split; [repeat (apply Sorted_cons || apply Sorted_nil || apply HdRel_nil || (apply HdRel_cons; lia))|repeat (constructor; [lia|]); constructor].
Qed.

(** * C85 The average wait in telemetry is the mean of the waits *)

(** it is the sum divided by one more than the number of cycles *)
Theorem C85_average_partial : forall n st ws, task_cycles n st ws -> n + 1 < 2 ^ 32 ->
  (avg_wait st == inject_Z (total ws) / inject_Z (n + 1))%Q.
Proof. exact average_low. Qed.
Print Assumptions C85_average_partial.
Theorem C85_mean_refuted : forall n st ws, task_cycles n st ws -> 0 < n -> n + 1 < 2 ^ 32 -> 0 < total ws ->
  (avg_wait st < inject_Z (total ws) / inject_Z n)%Q.
Proof. exact average_not_mean. Qed.
Print Assumptions C85_mean_refuted.
Example C85_case : exists st, task_cycles 1 st [80] /\ (avg_wait st == 40)%Q.
Proof.
  eexists. split.
  - apply (tc_cycle 0 (mk_ts 0 0 0) [] 100 [20; 20; 101] (mk_ts 0 ((0 * 1 + 80) / 2) 0) 80 [] 0); [constructor|vm_compute; reflexivity].
  - reflexivity.
Qed.
