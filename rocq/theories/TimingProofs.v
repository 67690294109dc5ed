From Verif Require Import Base TimingModel TimingSpec.
From Coq Require Import QArith Lqa Sorted.
Local Open Scope Z_scope.

Lemma u32_mod x : u32 x = x mod 4294967296. Proof. reflexivity. Qed.
Lemma s32_mod x : s32 x = (x + 2147483648) mod 4294967296 - 2147483648. Proof. reflexivity. Qed.

(** distances of less than 2^31 survive the roll-over *)
Lemma delta_exact d t : - 2 ^ 31 <= d - t < 2 ^ 31 -> s32 (u32 (u32 d - micros t)) = d - t.
Proof. intros H. unfold micros. rewrite s32_mod, !u32_mod. change (2 ^ 31) with 2147483648 in H. lia. Qed.
Lemma elapsed_exact r s : 0 <= r - s < 2 ^ 32 -> u32 (micros r - micros s) = r - s.
Proof. intros H. unfold micros. rewrite !u32_mod. change (2 ^ 32) with 4294967296 in H. lia. Qed.

(** the waiting loop ends at the first reading at least [delta] after [s] *)
Lemma wait_loop_exact s delta : 0 <= delta < 2 ^ 31 -> forall ts r rest,
  Forall (fun t => s <= t < s + 2 ^ 32) ts -> wait_loop s delta ts = Some (r, rest) ->
  exists before, ts = before ++ r :: rest /\ Forall (fun t => t < s + delta) before /\ s + delta <= r.
Proof.
  intros HD. induction ts as [|x ts IH]; intros r rest HF H; [discriminate|]. cbn [wait_loop] in H.
  apply Forall_cons_iff in HF. destruct HF as [HX HF]. rewrite elapsed_exact in H by lia.
  destruct (Z.ltb_spec (x - s) delta).
  - destruct (IH r rest HF H) as (b & E & B & L). exists (x :: b). split; [rewrite E; reflexivity|]. split; [constructor; [lia|exact B]|exact L].
  - injection H as <- <-. exists []. split; [reflexivity|]. split; [constructor|lia].
Qed.

Lemma steady_tail t0 x ts : steady t0 (x :: ts) -> t0 <= x < t0 + 2 ^ 31 /\ Sorted Z.le (x :: ts) /\ Forall (fun t => x <= t < t0 + 2 ^ 31) ts.
Proof.
  intros [S F]. apply Forall_cons_iff in F. destruct F as [FX F].
  assert (SS : StronglySorted Z.le (t0 :: x :: ts)) by (apply Sorted_StronglySorted; [intros a b c; lia|exact S]).
  apply StronglySorted_inv in SS. destruct SS as [SS A]. apply Forall_cons_iff in A. destruct A as [A _].
  apply StronglySorted_inv in SS. destruct SS as [_ B].
  split; [lia|]. split; [exact (proj1 (Sorted_inv S))|].
  rewrite Forall_forall in *. intros t I. split; [apply B, I|apply F, I].
Qed.

Lemma steady_app t0 l1 l2 : steady t0 (l1 ++ l2) -> steady t0 l2.
Proof.
  intros [S F]. assert (SS : StronglySorted Z.le (t0 :: l1 ++ l2)) by (apply Sorted_StronglySorted; [intros a b c; lia|exact S]).
  apply StronglySorted_inv in SS. destruct SS as [SS A]. apply Forall_app in F. apply Forall_app in A.
  split; [|apply F]. constructor.
  - apply StronglySorted_Sorted. clear -SS. induction l1 as [|a l1 IH]; [exact SS|]. apply IH. cbn in SS. apply StronglySorted_inv in SS. apply SS.
  - destruct A as [_ A]. destruct l2; constructor. apply Forall_cons_iff in A. apply A.
Qed.

(** one task whose slot begins at the real time [d] *)
Lemma task_exact t0 d cnt dur st ts r e' rest :
  steady t0 ts -> t0 <= d < t0 + 2 ^ 31 -> execute_on_time (u32 d) cnt dur st ts = Some (r, e', rest) ->
  exists t s before x, ts = t :: s :: before ++ x :: tr_begin r :: tr_end r :: rest /\
    tr_wait r = Z.max (d - t) 0 /\ Forall (fun y => y < s + tr_wait r) before /\ s + tr_wait r <= x /\ d <= tr_begin r /\
    num_lates (tr_stat r) = (if d <? t then u32 (num_lates st + 1) else num_lates st) /\
    ct_duration (tr_stat r) = tr_end r - tr_begin r /\ e' = u32 (d + dur) /\ steady t0 rest.
Proof.
  intros SD HD H. unfold execute_on_time, wait_until_time in H. destruct ts as [|t [|s ts]]; try discriminate H.
  destruct (steady_tail _ _ _ SD) as (T1 & ST & FT).
  assert (SD2 : steady t0 (s :: ts)) by (apply (steady_app t0 [t]); exact SD).
  destruct (steady_tail _ _ _ SD2) as (S1 & SS & FS).
  rewrite delta_exact in H by lia. cbn [wait_duration] in H.
  destruct (wait_loop s (Z.max (d - t) 0) ts) as [[x rest1]|] eqn:EW; [|discriminate H].
  destruct rest1 as [|now [|later rest2]]; try discriminate H.
  assert (HP : 0 <= Z.max (d - t) 0 < 2 ^ 31) by lia.
  assert (HF : Forall (fun y => s <= y < s + 2 ^ 32) ts) by (eapply Forall_impl; [|exact FS]; cbv beta; lia).
  destruct (wait_loop_exact s _ HP ts x _ HF EW) as (b & E & B & L).
  cbn [num_lates avg_wait] in H. injection H as <- <- <-. cbn [tr_begin tr_end tr_wait tr_stat num_lates ct_duration].
  subst ts. assert (SD3 : steady t0 (x :: now :: later :: rest2)) by (apply (steady_app t0 (t :: s :: b)); exact SD).
  destruct (steady_tail _ _ _ SD3) as (X1 & _ & FX). apply Forall_cons_iff in FX. destruct FX as [N1 FX].
  assert (SD4 : steady t0 (now :: later :: rest2)) by (apply (steady_app t0 [x]); exact SD3).
  destruct (steady_tail _ _ _ SD4) as (_ & _ & FN). apply Forall_cons_iff in FN. destruct FN as [N2 _].
  assert (TS : t <= s) by (apply Forall_cons_iff in FT; lia).
  exists t, s, b, x. split; [reflexivity|]. split; [reflexivity|]. split; [exact B|]. split; [exact L|]. split; [lia|].
  split; [replace (d - t <? 0) with (d <? t) by lia; reflexivity|].
  split; [apply elapsed_exact; lia|]. split; [rewrite !u32_mod; lia|].
  apply (steady_app t0 [x; now; later]). exact SD3.
Qed.

Lemma total_nonneg l : Forall (fun d => 0 <= d) l -> 0 <= total l.
Proof. induction 1; cbn [total fold_right]; [lia|]. fold (total l). lia. Qed.

Lemma slots_run t0 cnt tasks : forall d ts rs rest, steady t0 ts -> t0 <= d -> Forall (fun p => 0 <= fst p) tasks ->
  d + total (map fst tasks) < t0 + 2 ^ 31 -> run_tasks (u32 d) cnt tasks ts = Some (rs, rest) ->
  Forall2 (fun s r => s <= tr_begin r) (slots d (map fst tasks)) rs /\ steady t0 rest.
Proof.
  induction tasks as [|[dur st] tasks IH]; intros d ts rs rest SD HD HN HT H; cbn [run_tasks map fst slots] in *.
  - injection H as <- <-. split; [constructor|exact SD].
  - apply Forall_cons_iff in HN. cbn [fst] in HN. destruct HN as [HN0 HN].
    assert (HN' : Forall (fun x => 0 <= x) (map fst tasks)) by (rewrite Forall_map; exact HN). apply total_nonneg in HN'.
    unfold total in HT. cbn [fold_right] in HT. fold (total (map fst tasks)) in HT.
    destruct (execute_on_time (u32 d) cnt dur st ts) as [[[r e'] rest1]|] eqn:E1; [|discriminate].
    destruct (task_exact t0 d cnt dur st ts r e' rest1 SD ltac:(lia) E1) as (t & s & b & x & _ & _ & _ & _ & GE & _ & _ & -> & SR).
    destruct (run_tasks (u32 (d + dur)) cnt tasks rest1) as [[rs' rest2]|] eqn:E2; [|discriminate].
    injection H as <- <-. destruct (IH (d + dur) rest1 rs' rest2 SR ltac:(lia) HN ltac:(lia) E2) as (F & S2).
    split; [constructor; assumption|exact S2].
Qed.

Theorem cycle_slots cnt tasks t ts rs cnt' rest : steady t ts -> Forall (fun p => 0 <= fst p) tasks ->
  1100 + total (map fst tasks) < 2 ^ 31 -> control_cycle cnt tasks (t :: ts) = Some (rs, cnt', rest) ->
  Forall2 (fun s r => s <= tr_begin r) (slots (t + 1100) (map fst tasks)) rs.
Proof.
  intros SD HN HT H. unfold control_cycle in H.
  replace (u32 (micros t + 1100)) with (u32 (t + 1100)) in H by (unfold micros; rewrite !u32_mod; lia).
  destruct (run_tasks (u32 (t + 1100)) (u32 (cnt + 1)) tasks ts) as [[rs' rest']|] eqn:E; [|discriminate].
  assert (rs' = rs) by congruence. subst rs'.
  apply (slots_run t (u32 (cnt + 1)) tasks (t + 1100) ts rs rest' SD ltac:(lia) HN ltac:(lia) E).
Qed.

(** a cycle with the flight computer's durations takes at least 169900 microseconds *)
Theorem cycle_length cnt tasks t ts rs cnt' rest : map fst tasks = durations -> steady t ts ->
  control_cycle cnt tasks (t :: ts) = Some (rs, cnt', rest) ->
  exists r, nth_error rs 16 = Some r /\ t + 169900 <= tr_begin r.
Proof.
  intros HM SD H. assert (HN : Forall (fun p => 0 <= fst p) tasks).
  { rewrite <- (Forall_map fst (fun x => 0 <= x)), HM. unfold durations. repeat (constructor; [lia|]). constructor. }
  pose proof (cycle_slots cnt tasks t ts rs cnt' rest SD HN) as C. rewrite HM in C. specialize (C ltac:(cbn; lia) H).
  cbn [slots durations] in C. repeat (apply Forall2_cons_iff in C || idtac).
  do 17 (let X := fresh in inversion C as [|? ? ? ? X C']; subst; clear C; rename C' into C).
  eexists. split; [reflexivity|]. lia.
Qed.

(** ** The average *)
Lemma avg_field st e cnt ts st' w rest : wait_until_time e cnt st ts = Some (st', w, rest) ->
  avg_wait st' = ((avg_wait st * inject_Z cnt + inject_Z w) / inject_Z (u32 (cnt + 1)))%Q.
Proof.
  unfold wait_until_time. destruct ts as [|t ts]; [discriminate|]. destruct (wait_duration _ ts) as [[x r]|]; [|discriminate].
  intros H. injection H as <- <- <-. reflexivity.
Qed.

Lemma inject_pos n : 0 < n -> (0 < inject_Z n)%Q. Proof. intros. change 0%Q with (inject_Z 0). rewrite <- Zlt_Qlt. exact H. Qed.

Lemma total_app a b : total (a ++ b) = total a + total b.
Proof. induction a as [|x a IH]; cbn [app total fold_right]; [reflexivity|]. fold (total (a ++ b)) (total a). lia. Qed.

Lemma avg_sum n st ws : task_cycles n st ws -> n = Z.of_nat (length ws) /\
  (n + 1 < 2 ^ 32 -> (avg_wait st * inject_Z (n + 1) == inject_Z (total ws))%Q).
Proof.
  induction 1 as [l d|n st ws e ts st' w rest d H [L IH] E].
  - split; [reflexivity|]. intros _. cbn [avg_wait]. change (inject_Z (total [])) with 0%Q. ring.
  - split; [rewrite app_length, Nat2Z.inj_add, <- L; reflexivity|]. intros B. cbn [avg_wait]. rewrite (avg_field _ _ _ _ _ _ _ E).
    rewrite !u32_id by lia. rewrite total_app. cbn [total fold_right]. rewrite Z.add_0_r, (inject_Z_plus (total ws) w), <- IH by lia.
    pose proof (inject_pos (n + 1 + 1) ltac:(lia)) as HP.
    assert (X : forall p q, (0 < q -> p / q * q == p)%Q) by (intros p q Hq; field; lra). apply X. exact HP.
Qed.

Theorem average_low n st ws : task_cycles n st ws -> n + 1 < 2 ^ 32 ->
  (avg_wait st == inject_Z (total ws) / inject_Z (n + 1))%Q.
Proof.
  intros H B. destruct (avg_sum n st ws H) as [L A]. specialize (A B). rewrite <- A.
  pose proof (inject_pos (n + 1) ltac:(lia)) as HP.
  assert (X : forall p q, (0 < q -> p == p * q / q)%Q) by (intros p q Hq; field; lra). apply X. exact HP.
Qed.

Theorem average_not_mean n st ws : task_cycles n st ws -> 0 < n -> n + 1 < 2 ^ 32 -> 0 < total ws ->
  (avg_wait st < inject_Z (total ws) / inject_Z n)%Q.
Proof.
  intros H P B T. rewrite (average_low n st ws H B). pose proof (inject_pos n P) as HN. pose proof (inject_pos (n + 1) ltac:(lia)) as HN1.
  pose proof (inject_pos (total ws) T) as HT. rewrite (inject_Z_plus n 1) in *. change (inject_Z 1) with 1%Q in *.
  apply Qlt_shift_div_l; [exact HN|]. assert (X : forall t q, (0 < q -> 0 < t -> t / (q + 1) * q < t)%Q).
  { intros t q Hq Ht. setoid_replace (t / (q + 1) * q)%Q with ((t * q) / (q + 1))%Q by (field; lra). apply Qlt_shift_div_r; nra. }
  apply X; assumption.
Qed.
