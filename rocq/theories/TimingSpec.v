(** Specification vocabulary for the timing claims; nothing from the model but the records it produces. *)
From Verif Require Import Base TimingModel.
From Coq Require Import QArith Sorted.
Local Open Scope Z_scope.

(** readings in order, all less than 2^31 microseconds (35 minutes) after the first *)
Definition steady (t0 : Z) (ts : list Z) : Prop := Sorted Z.le (t0 :: ts) /\ Forall (fun t => t < t0 + 2 ^ 31) ts.

(** the real times at which the slots of the tasks begin, the first slot at [d0] *)
Fixpoint slots (d0 : Z) (durs : list Z) : list Z :=
  match durs with [] => [] | d :: more => d0 :: slots (d0 + d) more end.

Definition total (l : list Z) : Z := fold_right Z.add 0 l.

(** the successive cycles of one task from boot: the number of cycles so far, its fields, its waits in order *)
Inductive task_cycles : Z -> tstat -> list Z -> Prop :=
| tc_boot l d : task_cycles 0 (mk_ts l 0 d) []
| tc_cycle n st ws e ts st' w rest d : task_cycles n st ws -> wait_until_time e (u32 (n + 1)) st ts = Some (st', w, rest) ->
    task_cycles (n + 1) (mk_ts (num_lates st') (avg_wait st') d) (ws ++ [w]).
