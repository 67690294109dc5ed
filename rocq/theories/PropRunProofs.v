From Verif Require Import Base FaultModel FaultHandlerModel PropModel PropSpec PropProofs PropCtrlProofs PropValveProofs.

(** ** Pressurization *)
Definition ticked (a : act) : act := mk_a (a_count a) (a_valve a) (timer_tick (a_timer a)).

(** the possible ends of one evaluation in the pressurizing state *)
Lemma ctrl_pressurizing cc c s p : ps_state p = p_pressurizing ->
  let p' := prop_ctrl cc c s p in
  let u := if 0 <? ps_until p then ps_until p - 1 else ps_until p in
  ps_until p' = u /\
  (ps_state p' = p_pressurizing -> 1 < u /\ s_threshold s = false /\
     exists a' d', fst (act_run T1 (c_t1_valve c) (c_fill c) (c_cool c) (c_max_press c) (ticked (ps_press p)) (ps_drv p)) = Some (a', d') /\
       ps_press p' = a' /\ ps_drv p' = d') /\
  (ps_state p' = p_idle -> u <= 1).
Proof.
  intros HS. cbv zeta. rewrite ctrl_finish, HS. destruct (counted_spec cc s p) as (A & B & C & D & E & F). cbv zeta in *. rewrite HS in A.
  rewrite <- B, <- D, <- F. generalize dependent (counted cc s p). intros q A _ _ _ _ _.
  unfold finish. pose proof (eval_keeps cc c s p_pressurizing q) as K.
  assert (EN : forall next r, ps_until (let '(p4, ok) := can_enter c s next r in if ok then enter next (ps_set_state p4 next) else ps_set_state p4 p_disabled) = ps_until r).
  { intros next r. pose proof (same_can c s next r) as S. destruct (can_enter c s next r) as [p4 ok]. destruct S as (_ & S & _). cbn [fst] in S.
    destruct ok; [|exact S]. unfold enter. destruct (next =? p_pressurizing); [exact S|]. destruct (next =? p_firing); [exact S|]. destruct (next =? p_venting).
    - pose proof (same_dft (ps_set_state p4 next)) as SD. destruct (determine_faulted_tank _) as [x t]. destruct SD as (_ & SD & _). cbn in *. congruence.
    - destruct (_ || _); exact S. }
  assert (EP : forall next r, next <> p_pressurizing -> ps_state (let '(p4, ok) := can_enter c s next r in if ok then enter next (ps_set_state p4 next) else ps_set_state p4 p_disabled) <> p_pressurizing).
  { intros next r N. destruct (can_enter c s next r) as [p4 ok]. destruct ok; [rewrite enter_state; exact N|discriminate]. }
  assert (EI : forall next r, next <> p_idle -> ps_state (let '(p4, ok) := can_enter c s next r in if ok then enter next (ps_set_state p4 next) else ps_set_state p4 p_disabled) <> p_idle).
  { intros next r N. destruct (can_enter c s next r) as [p4 ok]. destruct ok; [rewrite enter_state; exact N|discriminate]. }
  assert (GEN : forall r next, evaluate cc c s p_pressurizing q = (r, next) -> next <> p_pressurizing -> (next = p_idle -> ps_until q <= 1) ->
     let p' := (let '(p3, next) := evaluate cc c s p_pressurizing q in if next =? p_pressurizing then p3 else let '(p4, ok) := can_enter c s next p3 in if ok then enter next (ps_set_state p4 next) else ps_set_state p4 p_disabled) in
     ps_until p' = ps_until q /\ ps_state p' <> p_pressurizing /\ (ps_state p' = p_idle -> ps_until q <= 1)).
  { intros r next HE HN HI. rewrite HE in *. cbn [fst] in K. cbv zeta. destruct (Z.eqb_spec next p_pressurizing); [contradiction|].
    rewrite EN. split; [apply K|]. split; [apply EP, HN|]. intros HI2. destruct (Z.eq_dec next p_idle) as [Q|Q]; [auto|]. destruct (EI next r Q HI2). }
  assert (FIN : forall r next, evaluate cc c s p_pressurizing q = (r, next) -> next <> p_pressurizing -> (next = p_idle -> ps_until q <= 1) ->
     let p' := (let '(p3, next) := evaluate cc c s p_pressurizing q in if next =? p_pressurizing then p3 else let '(p4, ok) := can_enter c s next p3 in if ok then enter next (ps_set_state p4 next) else ps_set_state p4 p_disabled) in
     ps_until p' = ps_until q /\ (ps_state p' = p_pressurizing -> 1 < ps_until q /\ s_threshold s = false /\
     exists a' d', fst (act_run T1 (c_t1_valve c) (c_fill c) (c_cool c) (c_max_press c) (ticked (ps_press q)) (ps_drv q)) = Some (a', d') /\
       ps_press p' = a' /\ ps_drv p' = d') /\ (ps_state p' = p_idle -> ps_until q <= 1)).
  { intros r next HE HN HI. destruct (GEN r next HE HN HI) as (G1 & G2 & G3). split; [exact G1|]. split; [intros X; contradiction|exact G3]. }
  clear GEN. cbv zeta in FIN.
  assert (EE : evaluate cc c s p_pressurizing q = eval_pressurizing cc c s q) by reflexivity.
  unfold eval_pressurizing in EE. destruct (Z.leb_spec (ps_until q) 1) as [U|U].
  { eapply FIN; [exact EE|discriminate|auto]. }
  pose proof (same_hf s q) as S. destruct (can_handling_fault s q) as [q1 []]; cbn [fst] in S.
  { eapply FIN; [exact EE|discriminate|discriminate]. }
  cbv zeta in EE. destruct (s_threshold s) eqn:ET.
  { eapply FIN; [exact EE|discriminate|discriminate]. }
  destruct (negb _). { eapply FIN; [exact EE|discriminate|discriminate]. }
  destruct S as (S1 & S2 & S3 & S4 & S5 & S6). cbn [ps_drv ps_set_press] in EE. rewrite S4, S6 in EE. fold (ticked (ps_press q)) in EE.
  destruct (fst (act_run _ _ _ _ _ _ _)) as [[a' d']|] eqn:AR.
  { rewrite EE. cbn. split; [congruence|]. split; [|intros X; rewrite S1, A in X; discriminate X]. intros _. split; [exact U|]. split; [reflexivity|]. exists a', d'. auto. }
  match type of EE with context [ps_read PressurizeFail ?x] => destruct (ps_read PressurizeFail x) as [p4 []] end; (eapply FIN; [exact EE|discriminate|discriminate]).
Qed.

(** where an attempt is after [n] evaluations: in opening [k] (from 0), [r] evaluations into it *)
Definition attempt (fill cool mx : Z) (n : Z) (p : pst) : Prop :=
  let F := Z.max fill 1 in let C := Z.max cool 1 in
  exists k r v, n - 1 = k * (F + C) + r /\ 0 <= r < F + C /\ 0 <= k < mx /\ (v < 2)%nat /\
    ps_press p = mk_a (k + 1) v (if r <? F then fill - r else cool - (r - F)) /\
    d_t1 (ps_drv p) = set_nth [false; false] v (r <? F).

Lemma two_valves v b : (v < 2)%nat -> nth_error (set_nth [false; false] v b) v = Some b /\ set_nth (set_nth [false; false] v b) v false = [false; false].
Proof. destruct v as [|[|v]]; [auto|auto|lia]. Qed.

Lemma pressing_attempt fill cool mx u n p : 0 <= fill -> 0 <= cool -> 0 <= mx < 2 ^ 32 -> pressing fill cool mx u n p ->
  0 <= n /\ ps_state p = p_pressurizing /\ ps_until p = u - n /\ d_on (ps_drv p) = false /\ (n = 0 \/ attempt fill cool mx n p) /\
  (n = 0 -> a_count (ps_press p) = 0 /\ a_timer (ps_press p) = 0 /\ d_t1 (ps_drv p) = [false; false]).
Proof.
  intros F0 C0 M0. induction 1 as [p P1 P2 P3 P4 P5 P6|n p p1 cc c s HP IH HB HU EF EC EM VC HS].
  - split; [lia|]. split; [exact P1|]. split; [lia|]. split; [exact P5|]. split; [auto|]. auto.
  - destruct IH as (N0 & S0 & U0 & D0 & AT & Z0). destruct HB as ((k & HD) & HP1 & _ & _ & HS1).
    rewrite after_ticks_off in HD by exact D0. rewrite S0 in HS1.
    destruct (ctrl_pressurizing cc c s p1 HS1) as (Q1 & Q2 & _). cbv zeta in Q1, Q2.
    destruct (Q2 HS) as (Q3 & _ & a' & d' & AR & PA & PD). clear Q2. rewrite HP1, HD, EF, EC, EM in AR.
    rewrite HU in *. split; [lia|]. split; [exact HS|]. split; [rewrite Q1; destruct (Z.ltb_spec 0 (ps_until p)); lia|].
    assert (ON : d_on (ps_drv (prop_ctrl cc c s p1)) = false).
    { rewrite PD. revert AR. unfold act_run. destruct (drv_is_open _ _ _); destruct (_ =? 0); try (destruct (_ <=? _)); cbn; intros AR; inversion AR; exact D0. }
    split; [exact ON|]. split; [|lia]. right. clear Q1 Q3 ON HU.
    assert (U32 : forall x, 0 <= x < mx -> u32 (x + 1) = x + 1) by (intros x Hx; apply u32_id; lia).
    destruct AT as [->|(kk & r & v & E1 & E2 & E3 & Ev & E4 & E5)].
    + destruct (Z0 eq_refl) as (Z1 & Z2 & Z3). unfold act_run, ticked in AR. cbn [a_valve a_timer a_count] in AR.
      assert (OP : drv_is_open T1 (a_valve (ps_press p)) (ps_drv p) = false).
      { unfold drv_is_open. rewrite Z3. destruct (a_valve (ps_press p)) as [|[|[|x]]]; reflexivity. }
      rewrite OP, Z1, Z2 in AR. cbn in AR. destruct (Z.leb_spec mx 0); cbn in AR; [discriminate|]. injection AR as AR1 AR2.
      exists 0, 0, (c_t1_valve c). split; [lia|]. split; [lia|]. split; [lia|]. split; [exact VC|].
      destruct (Z.ltb_spec 0 (Z.max fill 1)); [|lia]. split.
      * rewrite PA, <- AR1. f_equal; lia.
      * rewrite PD, <- AR2. cbn. rewrite Z3. reflexivity.
    + unfold attempt. cbv zeta. remember (Z.max fill 1) as FF eqn:HFF. remember (Z.max cool 1) as CC eqn:HCC.
      destruct (two_valves v (r <? FF) Ev) as (TV1 & TV2).
      unfold act_run, ticked in AR. rewrite E4 in AR. cbn [a_valve a_timer a_count] in AR. unfold drv_is_open in AR. rewrite E5, TV1 in AR.
      destruct (Z.ltb_spec r FF) as [L|L].
      * (* open *)
        destruct (Z.eqb_spec (timer_tick (fill - r)) 0) as [T|T]; cbn in AR; injection AR as AR1 AR2.
        -- assert (r = FF - 1) by (unfold timer_tick in T; destruct (Z.ltb_spec 0 (fill - r)); lia).
           exists kk, (r + 1), v. split; [lia|]. split; [lia|]. split; [exact E3|]. split; [exact Ev|].
           destruct (Z.ltb_spec (r + 1) FF); [lia|]. split; [rewrite PA, <- AR1; f_equal; lia|].
           rewrite PD, <- AR2. cbn. rewrite E5, TV2. destruct v as [|[|v]]; [reflexivity|reflexivity|lia].
        -- unfold timer_tick in *. destruct (Z.ltb_spec 0 (fill - r)); [|lia].
           exists kk, (r + 1), v. split; [lia|]. split; [lia|]. split; [exact E3|]. split; [exact Ev|].
           destruct (Z.ltb_spec (r + 1) FF); [|lia]. split; [rewrite PA, <- AR1; f_equal; lia|]. rewrite PD, <- AR2. exact E5.
      * destruct (Z.eqb_spec (timer_tick (cool - (r - FF))) 0) as [T|T].
        -- assert (r = FF + CC - 1) by (unfold timer_tick in T; destruct (Z.ltb_spec 0 (cool - (r - FF))); lia).
           destruct (Z.leb_spec mx (kk + 1)); cbn in AR; [discriminate|]. injection AR as AR1 AR2.
           exists (kk + 1), 0, (c_t1_valve c). split; [lia|]. split; [lia|]. split; [lia|]. split; [exact VC|].
           destruct (Z.ltb_spec 0 FF); [|lia]. split.
           ++ rewrite PA, <- AR1. rewrite U32 by lia. f_equal. lia.
           ++ rewrite PD, <- AR2. cbn. rewrite E5. f_equal. destruct v as [|[|v]]; [reflexivity|reflexivity|lia].
        -- cbn in AR. injection AR as AR1 AR2. unfold timer_tick in *. destruct (Z.ltb_spec 0 (cool - (r - FF))); [|lia].
           exists kk, (r + 1), v. split; [lia|]. split; [lia|]. split; [exact E3|]. split; [exact Ev|].
           destruct (Z.ltb_spec (r + 1) FF); [lia|]. split; [rewrite PA, <- AR1; f_equal; lia|]. rewrite PD, <- AR2. exact E5.
Qed.

(** C32: the valve is open in exactly the first [fill] of each [fill + cool] evaluations, and there are at most [mx] *)
Lemma pressing_schedule fill cool mx u n p : 0 <= fill -> 0 <= cool -> 0 <= mx < 2 ^ 32 -> pressing fill cool mx u n p ->
  let F := Z.max fill 1 in let P := F + Z.max cool 1 in
  n <= mx * P /\
  (1 <= n -> exists v, (v < 2)%nat /\ forall i, nth_error (d_t1 (ps_drv p)) i = Some true <-> i = v /\ (n - 1) mod P < F).
Proof.
  intros F0 C0 M0 HP. cbv zeta. destruct (pressing_attempt _ _ _ _ _ _ F0 C0 M0 HP) as (N0 & _ & _ & _ & [->|(k & r & v & E1 & E2 & E3 & Ev & E4 & E5)] & _).
  { split; [nia|lia]. }
  split; [nia|]. intros _. exists v. split; [exact Ev|]. intros i. rewrite E5, E1.
  rewrite Z.add_comm, Z.mod_add, Z.mod_small by lia.
  destruct (Z.ltb_spec r (Z.max fill 1)).
  - destruct v as [|[|v]], i as [|[|[|i]]]; cbn; intuition (try lia; try discriminate).
  - destruct v as [|[|v]], i as [|[|[|i]]]; cbn; intuition (try lia; try discriminate).
Qed.

Lemma pressing_count fill cool mx u n p : 0 <= fill -> 0 <= cool -> 0 <= mx < 2 ^ 32 -> pressing fill cool mx u n p -> a_count (ps_press p) <= mx.
Proof.
  intros F0 C0 M0 HP. destruct (pressing_attempt _ _ _ _ _ _ F0 C0 M0 HP) as (N0 & _ & _ & _ & [->|(k & r & v & E1 & E2 & E3 & Ev & E4 & E5)] & Z0).
  - rewrite (proj1 (Z0 eq_refl)). lia.
  - rewrite E4. cbn. lia.
Qed.

(** an attempt started with enough cycles left is not given up for lack of time *)
Lemma pressing_in_time fill cool mx u n p p1 cc c s : 1 <= fill -> 1 <= cool -> 0 <= mx < 2 ^ 32 -> mx * (fill + cool) + 3 <= u ->
  pressing fill cool mx u n p -> between Nobody p p1 -> ps_until p1 = ps_until p -> ps_state (prop_ctrl cc c s p1) <> p_idle.
Proof.
  intros F0 C0 M0 HU HP HB EU HI.
  destruct (pressing_attempt fill cool mx u n p) as (N0 & S0 & U0 & _); try assumption; try lia.
  destruct (pressing_schedule fill cool mx u n p) as (B & _); try assumption; try lia.
  rewrite !Z.max_l in B by lia.
  assert (S1 : ps_state p1 = p_pressurizing) by (destruct HB as (_ & _ & _ & _ & HB); congruence).
  destruct (ctrl_pressurizing cc c s p1 S1) as (_ & _ & Q). specialize (Q HI). destruct (Z.ltb_spec 0 (ps_until p1)); lia.
Qed.

(** from waiting, pressurization starts with exactly that many cycles left *)
Lemma starts_in_time cc c s p : 0 <= c_fill c -> 0 <= c_cool c -> 0 <= c_max_press c -> c_max_press c * (c_fill c + c_cool c) + 4 < 2 ^ 32 -> c_fill c + c_cool c < 2 ^ 32 ->
  ps_state p = p_await_pressurizing -> c_max_press c * (c_fill c + c_cool c) + 3 < ps_until p ->
  ps_state (prop_ctrl cc c s p) = p_pressurizing ->
  ps_until (prop_ctrl cc c s p) = c_max_press c * (c_fill c + c_cool c) + 3.
Proof.
  intros F0 C0 M0 B1 B2 HS HU H.
  rewrite ctrl_finish, HS in *. destruct (counted_spec cc s p) as (A & B & _). cbv zeta in A, B. rewrite HS in A. generalize dependent (counted cc s p). intros q H A B.
  unfold finish in *. unfold evaluate in *.
  change (p_await_pressurizing =? p_idle) with false in *. change (p_await_pressurizing =? p_await_pressurizing) with true in *. cbn iota in *.
  pose proof (same_hf s q) as S. destruct (can_handling_fault s q) as [q1 []]; cbn [fst] in S.
  { exfalso. change (p_handling_fault =? p_await_pressurizing) with false in H. cbn iota in H. destruct (can_enter c s p_handling_fault q1) as [? []]; [rewrite enter_state in H|]; discriminate H. }
  destruct (can_pressurizing c s q1) eqn:EC.
  - change (p_pressurizing =? p_await_pressurizing) with false in *. cbn iota in *.
    destruct S as (S1 & S2 & _). unfold can_enter. change (p_pressurizing =? p_idle) with false. change (p_pressurizing =? p_await_pressurizing) with false. change (p_pressurizing =? p_pressurizing) with true. cbn iota.
    rewrite EC. cbn. rewrite S2, B.
    unfold can_pressurizing in EC. rewrite !andb_true_iff in EC. destruct EC as (((_ & EC) & _) & _). apply Z.leb_le in EC. rewrite S2, B in EC.
    assert (MC : u32 (min_cycles_needed c - 1) = c_max_press c * (c_fill c + c_cool c) + 3).
    { unfold min_cycles_needed. rewrite (u32_id (c_fill c + c_cool c)) by lia.
      rewrite (u32_id (c_max_press c * _)) by nia. rewrite (u32_id (_ + 4)) by nia. rewrite u32_id by nia. lia. }
    rewrite MC in EC. destruct (Z.ltb_spec 0 (ps_until p)); nia.
  - change (p_await_pressurizing =? p_await_pressurizing) with true in H. cbn iota in H. destruct S as (S1 & _). rewrite S1, A in H. discriminate H.
Qed.

(** ** Firing *)
Lemma after_ticks_add k n d : after_ticks k (after_ticks n d) = after_ticks (k + n) d.
Proof. induction k as [|k IH]; [reflexivity|]. cbn. rewrite IH. reflexivity. Qed.

(** one evaluation in the firing state *)
Lemma ctrl_firing cc c s p : ps_state p = p_firing ->
  let p' := prop_ctrl cc c s p in
  (ps_state p' = p_firing /\ ps_drv p' = ps_drv p /\ u32 (fold_right Z.add 0 (d_sched (ps_drv p))) <> 0) \/
  (ps_state p' <> p_firing /\ none_open (d_t2 (ps_drv p')) /\ d_on (ps_drv p') = false /\
   (ps_state p' = p_idle -> u32 (fold_right Z.add 0 (d_sched (ps_drv p))) = 0)).
Proof.
  intros HS. cbv zeta. rewrite ctrl_finish, HS. destruct (counted_spec cc s p) as (A & _ & _ & _ & _ & F). cbv zeta in A, F. rewrite HS in A.
  rewrite <- F. generalize dependent (counted cc s p). intros q A _.
  unfold finish, evaluate. change (p_firing =? p_idle) with false. change (p_firing =? p_await_pressurizing) with false. change (p_firing =? p_pressurizing) with false.
  change (p_firing =? p_await_firing) with false. change (p_firing =? p_firing) with true. cbn iota.
  pose proof (same_hf s q) as S. destruct (can_handling_fault s q) as [q1 []]; cbn [fst] in S; destruct S as (S1 & _ & _ & _ & _ & S6).
  - change (p_handling_fault =? p_firing) with false. cbn iota. right.
    match goal with |- context [can_enter c s p_handling_fault ?x] => pose proof (same_can c s p_handling_fault x) as SC; destruct (can_enter c s p_handling_fault x) as [p4 ok] end.
    destruct SC as (_ & _ & _ & _ & _ & SC). cbn [fst] in SC.
    pose proof (reset_quiet (ps_drv q1)) as (R1 & R2 & R3). change (ps_drv (ps_set_drv q1 (drv_reset (ps_drv q1)))) with (drv_reset (ps_drv q1)) in SC.
    destruct ok.
    + change (enter p_handling_fault (ps_set_state p4 p_handling_fault)) with (ps_set_state p4 p_handling_fault). cbn [ps_state ps_set_state ps_drv]. rewrite SC.
      split; [discriminate|]. split; [exact R2|]. split; [exact R3|discriminate].
    + cbn [ps_state ps_set_state ps_drv]. rewrite SC. split; [discriminate|]. split; [exact R2|]. split; [exact R3|discriminate].
  - rewrite S6. destruct (Z.eqb_spec (u32 (fold_right Z.add 0 (d_sched (ps_drv q)))) 0) as [Z0|Z0].
    + change (p_idle =? p_firing) with false. cbn iota. right. unfold can_enter. change (p_idle =? p_idle) with true. cbn iota.
      assert (CL : none_open (d_t2 (drv_disable (ps_drv q)))) by apply closed_none, map_false_closed.
      destruct (s_func s).
      * match goal with |- context [enter p_idle ?x] => change (enter p_idle x) with x end. cbn [ps_state ps_set_state ps_drv ps_set_drv]. split; [discriminate|]. split; [exact CL|]. split; [reflexivity|auto].
      * cbn [ps_state ps_set_state ps_drv ps_set_drv]. split; [discriminate|]. split; [exact CL|]. split; [reflexivity|auto].
    + change (p_firing =? p_firing) with true. cbn iota. left. split; [congruence|]. split; [congruence|exact Z0].
Qed.

Lemma none_false l m : none_open l -> length l = length m -> l = map (fun _ : Z => false) m.
Proof.
  revert m. induction l as [|b l IH]; intros [|x m] H E; try discriminate; [reflexivity|].
  cbn. f_equal.
  - destruct b; [destruct (H O eq_refl)|reflexivity].
  - apply IH; [|injection E; auto]. intros j. apply (H (S j)).
Qed.

Lemma firing_drv l n p : firing_for l n p ->
  ps_state p = p_firing /\ length l = 4%nat /\ Forall (fun v => 0 <= v <= 999) l /\ exists d, loaded l d /\ ps_drv p = after_ticks n d.
Proof.
  induction 1 as [p cc c s ON T2C T2L SS LL LB FI|n k p p1 cc c s HF IH HD HS1 HS].
  - destruct (ctrl_fires cc c s p FI) as (_ & _ & _ & ST & DR). split; [exact ST|]. split; [exact LL|]. split; [exact LB|].
    rewrite SS in DR. unfold drv_start in DR. cbn in DR. eexists. split; [|exact DR]. unfold loaded. cbn. split; [reflexivity|].
    split; [apply none_false; [exact T2C|congruence]|]. split; [reflexivity|]. eapply Forall_impl; [|exact LB]. cbn. lia.
  - destruct IH as (S0 & LL & LB & d & L & E). split; [exact HS|]. split; [exact LL|]. split; [exact LB|]. exists d. split; [exact L|].
    destruct (ctrl_firing cc c s p1 ltac:(congruence)) as [(_ & D & _)|(X & _)]; [|contradiction]. rewrite D, HD, E. apply after_ticks_add.
Qed.

Lemma sum_zero l : Forall (fun x => x = 0) l -> fold_right Z.add 0 l = 0.
Proof. induction 1 as [|x l H _ IH]; cbn; lia. Qed.
Lemma zero_sum l : Forall (fun x => 0 <= x <= 999) l -> (length l <= 4)%nat -> u32 (fold_right Z.add 0 l) = 0 -> Forall (fun x => x = 0) l.
Proof.
  intros F L E. assert (B : 0 <= fold_right Z.add 0 l <= 999 * Z.of_nat (length l)).
  { clear E L. induction F as [|x l H _ IH]; cbn [fold_right length]; lia. }
  rewrite u32_id in E by lia. clear B L. induction F as [|x l H F IH]; constructor; cbn in E.
  - assert (0 <= fold_right Z.add 0 l) by (clear - F; induction F; cbn; lia). lia.
  - apply IH. assert (0 <= fold_right Z.add 0 l) by (clear - F; induction F; cbn; lia). lia.
Qed.

(** C54: firing lasts at most 336 ticks of the loop *)
Lemma firing_bounded l n p : firing_for l n p -> (n < 337)%nat.
Proof.
  intros H. inversion H as [|n0 k p0 p1 cc c s HF HD HS1 HS E1 E2]; [lia|].
  destruct (firing_drv l n0 p0 HF) as (S0 & LL & LB & d & L & E).
  destruct (ctrl_firing cc c s p1 ltac:(congruence)) as [(_ & D & NZ)|(X & _)]; [|contradiction].
  destruct (Nat.lt_ge_cases (k + n0) 337) as [Q|Q]; [exact Q|]. exfalso. apply NZ. rewrite HD, E, after_ticks_add.
  destruct (finished l d (k + n0)%nat L) as (_ & Z0).
  - intros i v HV. rewrite Forall_forall in LB. pose proof (LB v (nth_error_In _ _ HV)).
    assert (i < 4)%nat by (rewrite <- LL; apply nth_error_Some; congruence). assert (v / 3 <= 333) by (Z.div_mod_to_equations; lia). lia.
  - intros ->. discriminate LL.
  - rewrite (sum_zero _ Z0). reflexivity.
Qed.

Lemma firing_left cc c s p : ps_state p = p_firing -> ps_state (prop_ctrl cc c s p) <> p_firing ->
  none_open (d_t2 (ps_drv (prop_ctrl cc c s p))) /\ d_on (ps_drv (prop_ctrl cc c s p)) = false.
Proof. intros HS N. destruct (ctrl_firing cc c s p HS) as [(X & _)|(_ & A & B & _)]; [contradiction|auto]. Qed.

(** C55: what each valve got when firing ends by itself *)
Lemma firing_complete l n p k p1 cc c s i v : firing_for l n p -> ps_drv p1 = after_ticks k (ps_drv p) -> ps_state p1 = ps_state p ->
  ps_state (prop_ctrl cc c s p1) = p_idle -> nth_error l i = Some v ->
  v / 3 - 1 <= Z.of_nat (ticks_open l (k + n) i) <= v / 3 /\ (v mod 3 <> 0 -> Z.of_nat (ticks_open l (k + n) i) = v / 3).
Proof.
  intros HF HD HS1 HI HV. destruct (firing_drv l n p HF) as (S0 & LL & LB & d & L & E).
  destruct (ctrl_firing cc c s p1 ltac:(congruence)) as [(X & _)|(_ & _ & _ & NZ)]; [rewrite HI in X; discriminate X|]. specialize (NZ HI).
  rewrite HD, E, after_ticks_add in NZ. set (N := (k + n)%nat) in *. clearbody N.
  assert (B : 0 <= v <= 999) by (rewrite Forall_forall in LB; apply LB, (nth_error_In _ _ HV)).
  assert (Z0 : left_after l (Z.of_nat N) i = 0).
  { assert (LF : forall j x, nth_error (d_sched (after_ticks N d)) j = Some x -> 0 <= x <= 999).
    { intros j x Hx. destruct (valve_closed_form l d N j L) as (_ & C). rewrite C in Hx. destruct (Nat.ltb_spec j (length l)) as [Q|Q]; [|discriminate]. injection Hx as <-.
      unfold left_after. destruct (nth_error l j) as [w|] eqn:EW; [|lia]. rewrite Forall_forall in LB. pose proof (LB w (nth_error_In _ _ EW)).
      destruct (Z.leb_spec 3 w).
      - destruct (Z.leb_spec (Z.of_nat N) (turn l j)); [lia|]. destruct (Z.leb_spec (Z.of_nat N) (turn l j + w / 3)); [|lia]. Z.div_mod_to_equations; lia.
      - destruct (_ =? 0); lia. }
    assert (LEN : length (d_sched (after_ticks N d)) = 4%nat).
    { destruct (Nat.lt_trichotomy (length (d_sched (after_ticks N d))) 4) as [Q|[Q|Q]]; [|exact Q|]; exfalso.
      - destruct (valve_closed_form l d N (length (d_sched (after_ticks N d))) L) as (_ & C). rewrite (proj2 (nth_error_None _ _) (le_n _)) in C.
        destruct (Nat.ltb_spec (length (d_sched (after_ticks N d))) (length l)); [discriminate|lia].
      - destruct (valve_closed_form l d N 4 L) as (_ & C). apply nth_error_Some in Q. rewrite C, LL in Q. apply Q. reflexivity. }
    apply zero_sum in NZ; [|apply Forall_forall; intros x Hx; apply In_nth_error in Hx; destruct Hx as (j & Hx); eauto|lia].
    destruct (valve_closed_form l d N i L) as (_ & C). rewrite Forall_forall in NZ. destruct (Nat.ltb_spec i (length l)) as [Q|Q].
    - apply NZ. eapply nth_error_In, C.
    - apply nth_error_None in Q. congruence. }
  unfold left_after in Z0. rewrite HV in Z0. unfold ticks_open, open_after. rewrite HV. pose proof (turn_bounds l i) as TB.
  destruct (Z.leb_spec 3 v) as [G|G]; cbn [andb].
  - destruct (Z.leb_spec (Z.of_nat N) (turn l i)); [lia|].
    assert (K : forall b, turn l i <= b -> b < Z.of_nat N -> b <= turn l i + v / 3 ->
       Z.of_nat (length (filter (fun m => (turn l i <? Z.of_nat m) && (Z.of_nat m <=? turn l i + v / 3)) (seq 0 N))) = Z.min (Z.of_nat N - 1) (turn l i + v / 3) - turn l i).
    { intros b B1 B2 B3. rewrite (filter_ext_in _ (fun m => (turn l i <? Z.of_nat m) && (Z.of_nat m <=? Z.min (Z.of_nat N - 1) (turn l i + v / 3)))).
      - rewrite count_interval; lia.
      - intros m Hm. apply in_seq in Hm. f_equal. destruct (Z.leb_spec (Z.of_nat m) (turn l i + v / 3)), (Z.leb_spec (Z.of_nat m) (Z.min (Z.of_nat N - 1) (turn l i + v / 3))); lia. }
    rewrite (K (turn l i)) by (Z.div_mod_to_equations; lia).
    destruct (Z.leb_spec (Z.of_nat N) (turn l i + v / 3)); Z.div_mod_to_equations; lia.
  - rewrite Z.div_small by lia. assert (FE : forall l0 : list nat, filter (fun _ => false) l0 = []) by (induction l0; auto). rewrite FE. cbn. lia.
Qed.
