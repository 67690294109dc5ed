(** Propulsion under manual control: PropController.cpp:640-687. *)
From Verif Require Import Base FaultModel FaultHandlerModel PropModel PropSpec.

(** the setting of a valve: orbit.control.valve1..4 for the thrusters, prop.sched_intertank1, 2 between the tanks *)
Definition setting (c : pcfg) (t : tank) (i : nat) : option Z :=
  match t with
  | T1 => nth_error [c_inter1 c; c_inter2 c] i
  | T2 => nth_error (c_sched c) i
  end.
Definition as_set (c : pcfg) (d : drv) : Prop := forall t i v, setting c t i = Some v -> drv_is_open t i d = (0 <? v).

Lemma manual_exec cc c s p : ps_state p = p_manual ->
  let p' := prop_ctrl cc c s p in
  ps_state p' = p_manual /\ ps_fired p' = ps_fired p /\ d_on (ps_drv p') = d_on (ps_drv p) /\ d_sched (ps_drv p') = d_sched (ps_drv p) /\
  ps_drv p' = ps_drv (eval_manual c p).
Proof.
  intros S. unfold prop_ctrl. cbv zeta.
  assert (S2 : forall q, ps_state q = p_manual -> evaluate cc c s (ps_state q) q = (eval_manual c q, p_manual)).
  { intros q ->. reflexivity. }
  set (q := if 0 <? ps_until (check_faults cc s p) then _ else _).
  assert (Q : ps_state q = p_manual /\ ps_fired q = ps_fired p /\ ps_drv q = ps_drv p).
  { subst q. destruct (0 <? _); repeat split; try reflexivity; exact S. }
  destruct Q as (Q1 & Q2 & Q3). rewrite (S2 q Q1). rewrite Q1. change (p_manual =? p_manual) with true. cbv iota.
  unfold eval_manual. cbn [ps_state ps_fired ps_drv ps_set_drv]. rewrite Q1, Q2, Q3. repeat split; try (destruct (ps_drv p); reflexivity).
Qed.

Lemma list2 {A} (l : list A) : length l = 2%nat -> exists a b, l = [a; b].
Proof. destruct l as [|a [|b [|]]]; try discriminate. eauto. Qed.
Lemma list4 {A} (l : list A) : length l = 4%nat -> exists a b c d, l = [a; b; c; d].
Proof. destruct l as [|a [|b [|c [|d [|]]]]]; try discriminate. eauto 8. Qed.

Lemma manual_sets cc c s p : ps_state p = p_manual -> length (d_t1 (ps_drv p)) = 2%nat -> length (d_t2 (ps_drv p)) = 4%nat -> length (c_sched c) = 4%nat ->
  let p' := prop_ctrl cc c s p in
  ps_state p' = p_manual /\ ps_fired p' = ps_fired p /\ as_set c (ps_drv p') /\
  length (d_t1 (ps_drv p')) = 2%nat /\ length (d_t2 (ps_drv p')) = 4%nat /\ d_on (ps_drv p') = d_on (ps_drv p).
Proof.
  intros S L1 L2 L3. cbv zeta. destruct (manual_exec cc c s p S) as (A & B & C & _ & D). split; [exact A|]. split; [exact B|].
  rewrite C, D. clear A B C D. destruct (list2 _ L1) as (a & b & E1), (list4 _ L2) as (e & f & g & h & E2), (list4 _ L3) as (v1 & v2 & v3 & v4 & E3).
  destruct p as [st un fi fa pr ve [t1 t2 sc on]]. cbn [ps_drv d_t1 d_t2] in E1, E2. subst t1 t2. unfold eval_manual, as_set, setting, drv_is_open. rewrite E3.
  cbn [ps_drv ps_set_drv d_t1 d_t2 drv_valve set_nth upd nth length d_on].
  split; [|repeat split].
  intros [|] i v H.
  - destruct i as [|[|i]]; cbn in H |- *; [congruence|congruence|destruct i; discriminate H].
  - destruct i as [|[|[|[|i]]]]; cbn in H |- *; try congruence. destruct i; discriminate H.
Qed.

Lemma ticks_off n d : d_on d = false -> after_ticks n d = d.
Proof. intros O. induction n as [|n IH]; [reflexivity|]. cbn [after_ticks]. rewrite IH. unfold drv_tick. rewrite O. reflexivity. Qed.

(** runs under manual control from [p0] on, with the settings of the last cycle: the ground writes the settings as it likes *)
Inductive by_hand (p0 : pst) : pcfg -> pst -> Prop :=
| hand_first cc c s : length (c_sched c) = 4%nat -> by_hand p0 c (prop_ctrl cc c s p0)
| hand_next c0 p p1 cc c s : by_hand p0 c0 p -> between Nobody p p1 -> length (c_sched c) = 4%nat -> by_hand p0 c (prop_ctrl cc c s p1).

Lemma hand_run p0 c p : by_hand p0 c p -> ps_state p0 = p_manual -> length (d_t1 (ps_drv p0)) = 2%nat -> length (d_t2 (ps_drv p0)) = 4%nat ->
  d_on (ps_drv p0) = false ->
  ps_state p = p_manual /\ ps_fired p = ps_fired p0 /\ forall n, as_set c (after_ticks n (ps_drv p)).
Proof.
  intros H S L1 L2 O.
  assert (X : ps_state p = p_manual /\ ps_fired p = ps_fired p0 /\ as_set c (ps_drv p) /\ length (d_t1 (ps_drv p)) = 2%nat /\ length (d_t2 (ps_drv p)) = 4%nat /\ d_on (ps_drv p) = false).
  { induction H as [cc c s LC|c0 p p1 cc c s H IH B LC].
    - destruct (manual_sets cc c s p0 S L1 L2 LC) as (A1 & A2 & A3 & A4 & A5 & A6). rewrite A6. auto 10.
    - destruct IH as (I1 & I2 & _ & I3 & I4 & I5). destruct B as ((n & D) & _ & _ & F & ST).
      rewrite ticks_off in D by exact I5. rewrite <- D in I3, I4, I5.
      destruct (manual_sets cc c s p1 (eq_trans ST I1) I3 I4 LC) as (A1 & A2 & A3 & A4 & A5 & A6). rewrite A6, A2, F. auto 10. }
  destruct X as (A & B & C & _ & _ & D). split; [exact A|]. split; [exact B|]. intros n. rewrite ticks_off by exact D. exact C.
Qed.
