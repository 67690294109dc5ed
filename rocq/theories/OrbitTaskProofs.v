From Verif Require Import Base FaultModel FaultHandlerModel PropModel PropSpec PropProofs PropCtrlProofs OrbitModel OrbitJointModel OrbitSpec OrbitProofs.
From Coq Require Import QArith Qabs Qround Qminmax Lqa.
Local Open Scope Z_scope.

Definition may_planb (i : oin) : bool :=
  negb (negb (oi_time i) || negb (oi_orbit i) || negb (negb (oi_rel i =? rel_invalid)) || negb (oi_att i)
     || negb ((oi_mission i =? o_follower) || (oi_mission i =? o_follower_ca))).
Lemma may_planb_iff i : may_planb i = true <-> may_plan i.
Proof.
  unfold may_planb, may_plan, rel_invalid, o_follower, o_follower_ca.
  destruct (oi_time i), (oi_orbit i), (oi_att i), (Z.eqb_spec (oi_rel i) 0), (Z.eqb_spec (oi_mission i) 4), (Z.eqb_spec (oi_mission i) 6); cbn;
    split; intros H; try discriminate; try tauto; destruct H as (? & ? & ? & ? & [|]); congruence.
Qed.

Lemma execute_plan i s s' : orbit_execute i s = Some s' -> may_plan i ->
  exists gain Je Jb,
    oi_J i (os_dr s') (os_dv s') (if oi_rel i =? rel_estimating then gain else 1%Q) = (Je, Jb) /\
    gain = match os_gain s with Some g => g | None => (inject_Z (os_n s) / 3)%Q end /\ os_gain s' = Some gain /\
    os_J s' = Je /\ schedule_valves Jb = Some (os_valves s') /\
    os_until s' = match time_till_node (oi_rel i) (os_n s) (oi_theta i) (oi_w i) with
                 | Some t => let cc := (t * 1000 / 170)%Q in
                             if Qle_bool cc (inject_Z (u32 (min_cycles (oi_press i) (oi_fill i) (oi_cool i) + 10))) && (oi_prop i =? o_idle) then Qtrunc cc else os_until s
                 | None => os_until s
                 end.
Proof.
  intros H M. apply may_planb_iff in M. unfold orbit_execute in H. unfold may_planb in M. apply negb_true_iff in M. rewrite M in H.
  set (gain := match os_gain s with Some g => g | None => (inject_Z (os_n s) / 3)%Q end) in *.
  destruct (oi_J i _ _ _) as [Je Jb] eqn:EJ. destruct (schedule_valves Jb) as [v|] eqn:EV; [|discriminate]. injection H as <-.
  exists gain, Je, Jb. cbn [os_dr os_dv os_gain os_J os_valves os_until]. auto 10.
Qed.

Theorem execute_frame i s s' : orbit_execute i s = Some s' -> os_valves s' <> os_valves s \/ os_J s' <> os_J s \/ os_until s' <> os_until s -> may_plan i.
Proof.
  intros H C. apply may_planb_iff. destruct (may_planb i) eqn:M; [reflexivity|]. exfalso. unfold may_planb in M. apply negb_false_iff in M.
  unfold orbit_execute in H. rewrite M in H. injection H as <-. cbn in C. destruct C as [C|[C|C]]; congruence.
Qed.

Theorem execute_smooth i s s' : orbit_execute i s = Some s' ->
  os_dr s' = (if oi_rel i =? 0 then None else smooth (os_alpha s) (oi_dr i) (os_dr s)) /\
  os_dv s' = (if oi_rel i =? 0 then None else smooth (os_alpha s) (oi_dv i) (os_dv s)).
Proof.
  unfold orbit_execute, rel_invalid. intros H. destruct (oi_rel i =? 0); cbn [negb] in H;
  (destruct (_ || _); [injection H as <-; auto|destruct (oi_J i _ _ _) as [Je Jb]; destruct (schedule_valves Jb); [injection H as <-; auto|discriminate]]).
Qed.

Lemma mix_hull alpha lo hi x y : (0 <= alpha <= 1)%Q -> (lo <= x <= hi)%Q -> (lo <= y <= hi)%Q -> (lo <= alpha * x + (1 - alpha) * y <= hi)%Q.
Proof. intros. split; nra. Qed.

Lemma smooth_hull alpha v l s : (0 <= alpha <= 1)%Q -> match l with [] => s = None | _ => exists d, s = Some d /\ hull l d end ->
  exists d, smooth alpha v s = Some d /\ hull (v :: l) d /\ (l = [] -> d = v).
Proof.
  intros A H. destruct l as [|w l].
  - subst s. exists v. split; [reflexivity|]. split; [|reflexivity]. intros lo hi. split; [|split]; intros F; inversion_clear F; assumption.
  - destruct H as [d [-> H]]. eexists. split; [reflexivity|]. split; [|discriminate]. intros lo hi. destruct (H lo hi) as (X & Y & Z).
    cbn [v3x v3y v3z]. split; [|split]; intros F; inversion_clear F; (apply mix_hull; [exact A|assumption|auto]).
Qed.

Theorem oruns_hull l s : oruns l s ->
  match l with
  | [] => os_dr s = None /\ os_dv s = None
  | _ => exists r v, os_dr s = Some r /\ os_dv s = Some v /\ hull (map fst l) r /\ hull (map snd l) v
  end.
Proof.
  induction 1 as [s A B|l s s1 i s' R IH E1 E2 A H]; [auto|].
  destruct (execute_smooth i s1 s' H) as [D V]. rewrite E1 in D. rewrite E2 in V. destruct (oi_rel i =? 0); [auto|].
  destruct (smooth_hull (os_alpha s1) (oi_dr i) (map fst l) (os_dr s) A) as (r & R1 & R2 & _).
  { destruct l; [tauto|]. destruct IH as (r & v & X & _ & Y & _). exists r. auto. }
  destruct (smooth_hull (os_alpha s1) (oi_dv i) (map snd l) (os_dv s) A) as (v & V1 & V2 & _).
  { destruct l; [tauto|]. destruct IH as (r' & v & _ & X & _ & Y). exists v. auto. }
  exists r, v. split; [congruence|]. split; [congruence|]. auto.
Qed.

Theorem oruns_fresh r v s : oruns [(r, v)] s -> os_dr s = Some r /\ os_dv s = Some v.
Proof.
  inversion 1 as [|l s0 s1 i s' R E1 E2 A H0 HL HS]. subst. destruct (oi_rel i =? 0) eqn:E; [discriminate|].
  injection HL as <- <- ->. apply oruns_hull in R. destruct R as [N1 N2]. destruct (execute_smooth i s1 s H0) as [D V]. rewrite E, E1, N1 in D. rewrite E, E2, N2 in V.
  cbn in D, V. auto.
Qed.

(** ** The countdown *)
Lemma min_cycles_needed i : 0 <= oi_press i -> 0 <= oi_fill i -> 0 <= oi_cool i -> oi_fill i + oi_cool i < 2 ^ 32 -> needed i + 10 < 2 ^ 32 ->
  u32 (min_cycles (oi_press i) (oi_fill i) (oi_cool i) + 10) = needed i + 10.
Proof.
  unfold needed, min_cycles. intros. rewrite (u32_id (oi_fill i + oi_cool i)) by lia. assert (0 <= oi_press i * (oi_fill i + oi_cool i)) by nia.
  rewrite (u32_id (oi_press i * _)) by lia. rewrite (u32_id (_ + 4)) by lia. apply u32_id. lia.
Qed.

Lemma next_node_nonneg theta w l t : next_node theta w l = Some t -> (0 <= t)%Q.
Proof.
  unfold next_node. assert (G : forall l b, (forall x, b = Some x -> 0 <= x)%Q -> fold_left (fun best node =>
    let t := ((node - theta) / w)%Q in
    if qlt 0 t && match best with None => true | Some b => qlt t b end then Some t else best) l b = Some t -> (0 <= t)%Q).
  { clear l. induction l as [|x l IH]; cbn [fold_left]; intros b HB E; [exact (HB t E)|]. eapply IH; [|exact E]. intros y. cbv zeta.
    destruct (qlt 0 _) eqn:Q0; cbn [andb]; [|apply HB]. destruct (match b with None => true | Some b0 => _ end); [|apply HB].
    intros Y. injection Y as <-. apply qlt_true in Q0. lra. }
  apply G. discriminate.
Qed.

Theorem countdown_set i s s' : orbit_execute i s = Some s' -> os_until s' <> os_until s ->
  0 <= oi_press i -> 0 <= oi_fill i -> 0 <= oi_cool i -> oi_fill i + oi_cool i < 2 ^ 32 -> needed i + 10 < 2 ^ 32 ->
  may_plan i /\ oi_prop i = p_idle /\ 0 <= os_until s' <= needed i + 10 /\
  exists t, time_till_node (oi_rel i) (os_n s) (oi_theta i) (oi_w i) = Some t /\ (0 < oi_w i -> inject_Z (os_until s') <= t * 1000 / 170 < inject_Z (os_until s' + 1))%Q.
Proof.
  intros H C P F O B1 B2. assert (M : may_plan i) by (eapply execute_frame; eauto). split; [exact M|].
  destruct (execute_plan i s s' H M) as (g & Je & Jb & _ & _ & _ & _ & _ & U).
  rewrite (min_cycles_needed i P F O B1 B2) in U.
  destruct (time_till_node _ _ _ _) as [t|] eqn:ET; [|congruence]. cbv zeta in U.
  set (cc := (t * 1000 / 170)%Q) in *.
  destruct (Qle_bool cc (inject_Z (needed i + 10))) eqn:EL; [|cbn in U; congruence]. destruct (Z.eqb_spec (oi_prop i) o_idle) as [EI|]; [|cbn in U; congruence].
  cbn [andb] in U. split; [exact EI|]. apply Qle_bool_iff in EL.
  assert (T : (0 <= cc)%Q).
  { assert (0 <= t)%Q; [|unfold cc; apply Qle_shift_div_l; lra].
    unfold time_till_node in ET. destruct (oi_rel i =? rel_estimating); eapply next_node_nonneg; exact ET. }
  destruct (Qtrunc_nonneg cc T) as [B N]. rewrite U. split.
  - split; [exact N|]. rewrite Zle_Qle. eapply Qle_trans; [apply B|exact EL].
  - exists t. split; [reflexivity|]. intros _. exact B.
Qed.

(** the countdown leads to a node if the satellite is less than half an orbit past the sun line *)
Theorem node_reached phi theta w t rel n : (0 < w)%Q -> (0 <= phi)%Q -> (theta == Qabs phi)%Q -> time_till_node rel n theta w = Some t ->
  exists node, In node (if rel =? 2 then near_nodes n else far_nodes) /\ (position phi w t == node)%Q.
Proof.
  intros W P T H. rewrite (Qabs_pos phi P) in T. unfold time_till_node, rel_estimating in H. unfold position.
  destruct (rel =? 2); [pose proof (next_node_spec theta w (near_nodes n) W) as S|pose proof (next_node_spec theta w far_nodes W) as S];
  rewrite H in S; destruct S as [[node [I [_ E]]] _]; exists node; (split; [exact I|lra]).
Qed.

Theorem node_missed : exists phi w t, (0 < w /\ time_till_node 1 180 (Qabs phi) w = Some t)%Q /\
  forall node, In node far_nodes -> ~ same_place (position phi w t) node.
Proof.
  exists (- (1 # 2))%Q, (1 # 1)%Q, (1 # 2)%Q. split; [split; [reflexivity|vm_compute; reflexivity]|].
  intros node I [k E]. unfold position in E. cbn [In far_nodes] in I. assert (H : (0 == node + 2 * inject_Z k)%Q) by (rewrite <- E; reflexivity).
  assert (K : forall z, (inject_Z k == z # 6)%Q -> 6 * k = z) by (intros z; unfold inject_Z, Qeq; cbn; lia).
  destruct I as [<-|[<-|[<-|[]]]].
  - specialize (K (-1)). assert (6 * k = -1) by (apply K; lra). lia.
  - specialize (K (-3)). assert (6 * k = -3) by (apply K; lra). lia.
  - specialize (K 1). assert (6 * k = 1) by (apply K; lra). lia.
Qed.

(** ** Number of nodes *)
Theorem near_nodes_few n x : 1 <= n <= 180 ->
  (exists y, In y (near_nodes n) /\ (x == y)%Q) <-> (-1 < x <= 1)%Q /\ exists k, 0 <= k < n /\ same_place x (k # 90).
Proof.
  intros N. split.
  - intros [y [I E]]. apply near_nodes_in in I. destruct I as [i [R ->]]. unfold near_node in E. rewrite u32_id in E by lia.
    destruct (Z.ltb_spec (n - 1) i).
    + split; [lra|]. exists 0. split; [lia|]. exists 0. rewrite E. reflexivity.
    + destruct (qlt 1 (i # 90)) eqn:Q1.
      * apply qlt_true in Q1. assert (i # 90 < 2)%Q by (unfold Qlt; cbn; lia). split; [lra|]. exists i. split; [lia|]. exists (-1). change (inject_Z (-1)) with (-1)%Q. lra.
      * apply qlt_false in Q1. assert (0 <= i # 90)%Q by (unfold Qle; cbn; lia). split; [lra|]. exists i. split; [lia|]. exists 0. change (inject_Z 0) with 0%Q. lra.
  - intros [B [k [R [j E]]]]. exists (near_node n k). split; [apply near_nodes_in; exists k; split; [lia|reflexivity]|].
    unfold near_node. rewrite u32_id by lia. destruct (Z.ltb_spec (n - 1) k); [lia|].
    assert (0 <= k # 90 < 2)%Q by (unfold Qle, Qlt; cbn; lia).
    destruct (qlt 1 (k # 90)) eqn:Q1.
    + apply qlt_true in Q1. assert (inject_Z (-2) < inject_Z j < inject_Z 0)%Q as [J1 J2] by (change (inject_Z (-2)) with (-2)%Q; change (inject_Z 0) with 0%Q; lra).
      rewrite <- Zlt_Qlt in J1, J2. assert (j = -1) by lia. subst j. change (inject_Z (-1)) with (-1)%Q in E. lra.
    + apply qlt_false in Q1. assert (inject_Z (-1) < inject_Z j < inject_Z 1)%Q as [J1 J2] by (change (inject_Z (-1)) with (-1)%Q; change (inject_Z 1) with 1%Q; lra).
      rewrite <- Zlt_Qlt in J1, J2. assert (j = 0) by lia. subst j. change (inject_Z 0) with 0%Q in E. lra.
Qed.

(** the gain reduction keeps the value of the first planned cycle *)
Theorem gain_stays i s s' : orbit_execute i s = Some s' -> os_gain s <> None -> os_gain s' = os_gain s.
Proof.
  intros H N. destruct (may_planb i) eqn:M.
  - apply may_planb_iff in M. destruct (execute_plan i s s' H M) as (g & _ & _ & _ & G & -> & _). destruct (os_gain s); [congruence|contradiction].
  - unfold orbit_execute in H. unfold may_planb in M. apply negb_false_iff in M. rewrite M in H. injection H as <-. reflexivity.
Qed.

(** ** Near-field firings leave less time than the pressurization may take *)
Lemma gap_of nodes theta w t : (forall k, 1 <= k <= 90 -> In (k # 90)%Q nodes) -> (0 <= theta < 1)%Q -> (0 < w)%Q ->
  next_node theta w nodes = Some t -> (w * t <= 1 # 90)%Q.
Proof.
  intros NN T W H. pose proof (next_node_spec theta w nodes W) as S. rewrite H in S. destruct S as [_ MIN].
  set (k := Qfloor (90 * theta) + 1). pose proof (Qfloor_le (90 * theta)) as F1. pose proof (Qlt_floor (90 * theta)) as F2. fold k in F2.
  assert (K : 1 <= k <= 90).
  { assert (inject_Z (Qfloor (90 * theta)) < inject_Z 90)%Q as A by (change (inject_Z 90) with 90%Q; lra). rewrite <- Zlt_Qlt in A.
    assert (inject_Z (-1) < inject_Z (Qfloor (90 * theta)))%Q as B.
    { unfold k in F2. rewrite inject_Z_plus in F2. change (inject_Z 1) with 1%Q in F2. change (inject_Z (-1)) with (-1)%Q. lra. }
    rewrite <- Zlt_Qlt in B. unfold k. lia. }
  assert (E : (inject_Z k == inject_Z (Qfloor (90 * theta)) + 1)%Q) by (unfold k; rewrite inject_Z_plus; reflexivity).
  assert (KQ : (k # 90 == inject_Z k * (1 # 90))%Q) by (unfold inject_Z, Qeq; cbn; lia).
  specialize (NN k K). set (t' := (((k # 90) - theta) / w)%Q).
  assert (AT : (w * t' == (k # 90) - theta)%Q) by (unfold t'; field; lra).
  assert (P : (0 < t')%Q). { unfold t'. apply Qlt_shift_div_l; [exact W|]. lra. }
  specialize (MIN (k # 90)%Q t' NN). assert (A : ahead theta w (k # 90) t') by (split; [exact P|lra]). specialize (MIN A).
  clearbody t' k. assert (w * t <= w * t')%Q by nra. lra.
Qed.

Lemma near_nodes_180 k : 1 <= k <= 90 -> In (k # 90)%Q (near_nodes 180).
Proof.
  intros K. apply near_nodes_in. exists k. split; [lia|].
  unfold near_node. rewrite u32_id by lia. destruct (Z.ltb_spec (180 - 1) k); [lia|]. destruct (qlt 1 (k # 90)) eqn:Q1; [|reflexivity].
  apply qlt_true in Q1. exfalso. revert Q1. unfold Qlt. cbn. lia.
Qed.

Lemma till_near n theta w : time_till_node 2 n theta w = next_node theta w (near_nodes n).
Proof. reflexivity. Qed.

Theorem near_gap theta w t : (0 <= theta < 1)%Q -> (0 < w)%Q -> time_till_node 2 180 theta w = Some t -> (w * t <= 1 # 90)%Q.
Proof. rewrite till_near. apply gap_of. exact near_nodes_180. Qed.

Theorem near_field_short i s s' : orbit_execute i s = Some s' -> os_until s' <> os_until s ->
  oi_press i = 20 -> oi_fill i = 5 -> oi_cool i = 58 -> os_n s = 180 -> oi_rel i = 2 ->
  (0 <= oi_theta i < 1)%Q -> (1 # 3600 <= oi_w i)%Q -> os_until s' <= 235 /\ needed i = 1264.
Proof.
  intros H C P F O N R T W. assert (ND : needed i = 1264) by (unfold needed; rewrite P, F, O; reflexivity). split; [|exact ND].
  destruct (countdown_set i s s' H C) as (_ & _ & [B _] & t & E & S); try lia. rewrite R, N in E.
  assert (W0 : (0 < oi_w i)%Q) by lra. specialize (S W0). pose proof (near_gap _ _ _ T W0 E) as G.
  assert (T0 : (t <= 40)%Q). { destruct (Qlt_le_dec 40 t) as [L|]; [|assumption]. exfalso. assert ((1 # 3600) * 40 < oi_w i * t)%Q by nra. lra. }
  assert (D : (t * 1000 / 170 == t * (100 # 17))%Q) by field. rewrite D in S.
  assert (inject_Z (os_until s') < inject_Z 236)%Q as L by (change (inject_Z 236) with 236%Q; lra). rewrite <- Zlt_Qlt in L. lia.
Qed.

Theorem planned_early i s s' t0 : orbit_execute i s = Some s' -> os_until s' <> os_until s ->
  0 <= oi_press i -> 0 <= oi_fill i -> 0 <= oi_cool i -> oi_fill i + oi_cool i < 2 ^ 32 -> needed i + 10 < 2 ^ 32 -> (0 < oi_w i)%Q ->
  (inject_Z (needed i + 10) < t0 * 1000 / 170)%Q ->
  (forall t, time_till_node (oi_rel i) (os_n s) (oi_theta i) (oi_w i) = Some t -> t0 - 1 <= t)%Q -> needed i + 4 <= os_until s'.
Proof.
  intros H C P F O B1 B2 W L0 L1. destruct (countdown_set i s s' H C P F O B1 B2) as (_ & _ & _ & t & E & S). specialize (S W). specialize (L1 t E).
  assert (D : forall x, (x * 1000 / 170 == x * (100 # 17))%Q) by (intros; field). rewrite D in S, L0.
  rewrite (inject_Z_plus (needed i) 10) in L0. rewrite (inject_Z_plus (os_until s') 1) in S. change (inject_Z 10) with 10%Q in L0. change (inject_Z 1) with 1%Q in S.
  assert (inject_Z (needed i) + 3 < inject_Z (os_until s'))%Q as G by lra.
  change 3%Q with (inject_Z 3) in G. rewrite <- inject_Z_plus in G. rewrite <- Zlt_Qlt in G. lia.
Qed.

(** ** With the propulsion controller *)

Lemma ctrl_until cc c s p : ps_until (prop_ctrl cc c s p) = if 0 <? ps_until p then ps_until p - 1 else ps_until p.
Proof.
  rewrite ctrl_unfold. cbv zeta. destruct (counted_spec cc s p) as (A & B & _). cbv zeta in A, B. rewrite A, <- B.
  pose proof (eval_keeps cc c s (ps_state p) (counted cc s p)) as K. destruct (evaluate _ _ _ _ _) as [p3 next]. cbn [fst] in K. destruct K as (_ & K & _).
  destruct (next =? ps_state p); [lia|]. pose proof (same_can c s next p3) as SC. destruct (can_enter c s next p3) as [p4 ok]. cbn [fst] in SC. destruct SC as (_ & SC & _).
  assert (E : forall q, ps_until (enter next q) = ps_until q).
  { intros q. unfold enter. destruct (next =? p_pressurizing); [reflexivity|]. destruct (next =? p_firing); [reflexivity|]. destruct (next =? p_venting).
    - pose proof (same_dft q) as S. destruct (determine_faulted_tank q) as [r t]. destruct S as (_ & S & _). cbn in *. congruence.
    - destruct (_ || _); reflexivity. }
  destruct ok; [rewrite E|]; cbn; lia.
Qed.

(** no schedule that could be validated: nothing begins *)
Lemma ctrl_invalid cc c s p : not_begun p -> (ps_until p <= 1 \/ Exists (fun v => 1000 < v) (c_sched c)) ->
  not_begun (prop_ctrl cc c s p) /\ ps_fired (prop_ctrl cc c s p) = ps_fired p.
Proof.
  intros (N2 & N3 & N6) IV. assert (F : ps_fired (prop_ctrl cc c s p) = ps_fired p).
  { destruct (Z.eq_dec (ps_fired (prop_ctrl cc c s p)) (ps_fired p)) as [|X]; [assumption|]. destruct (ctrl_fires cc c s p X) as (Y & _). contradiction. }
  split; [|exact F].
  assert (X : forall st, st = p_await_pressurizing \/ st = p_pressurizing -> ps_state (prop_ctrl cc c s p) <> st).
  { intros st ST. pose proof (ctrl_state cc c s p) as CS. cbv zeta in CS. destruct (counted_spec cc s p) as (A & B & _). cbv zeta in A, B.
    remember (counted cc s p) as q. clear Heqq.
    assert (V : forall r, same q r -> validate_schedule c r = false).
    { intros r (_ & S & _). unfold validate_schedule, is_valid_schedule. rewrite S, B. destruct IV as [IV|IV].
      - destruct (Z.ltb_spec 0 (ps_until p)); apply andb_false_intro2; apply Z.ltb_ge; lia.
      - apply andb_false_intro1. destruct (forallb _ _) eqn:FB; [|reflexivity]. rewrite forallb_forall in FB. apply Exists_exists in IV. destruct IV as (x & I & L).
        specialize (FB x I). apply Z.leb_le in FB. lia. }
    destruct (evaluate cc c s (ps_state p) q) as [p3 next] eqn:EV.
    assert (NX : next <> st).
    { intros ->. unfold evaluate in EV.
      assert (CP : forall r, same q r -> can_pressurizing c s r = false /\ can_await_pressurizing c s r = false).
      { intros r S. unfold can_pressurizing, can_await_pressurizing. rewrite (V r S), !andb_false_r. auto. }
      destruct (ps_state p =? p_idle).
      { pose proof (same_hf s q) as S. destruct (can_handling_fault s q) as [r []]; cbn [fst] in S; [destruct ST as [->| ->]; discriminate EV|].
        destruct (CP r S) as [C1 C2]. rewrite C1, C2 in EV. destruct ST as [->| ->]; discriminate EV. }
      destruct (Z.eqb_spec (ps_state p) p_await_pressurizing); [contradiction|]. destruct (Z.eqb_spec (ps_state p) p_pressurizing); [contradiction|].
      destruct (Z.eqb_spec (ps_state p) p_await_firing); [contradiction|]. destruct (ps_state p =? p_firing).
      { destruct (can_handling_fault s q) as [r []]; [|destruct (_ =? 0)]; destruct ST as [->| ->]; discriminate EV. }
      destruct (ps_state p =? p_venting).
      { pose proof (vent_next c q) as VN. rewrite EV in VN. cbn in VN. destruct ST as [->| ->]; intuition discriminate. }
      destruct (ps_state p =? p_handling_fault).
      { destruct (can_venting s q) as [r []]; [destruct ST as [->| ->]; discriminate EV|]. destruct (can_handling_fault s r) as [r2 []]; destruct ST as [->| ->]; discriminate EV. }
      destruct (ps_state p =? p_manual); destruct ST as [->| ->]; discriminate EV. }
    rewrite CS. destruct (next =? ps_state p); [destruct ST as [->| ->]; assumption|]. destruct (snd _); [exact NX|]. destruct ST as [->| ->]; discriminate. }
  split; [apply X; auto|]. split; [apply X; auto|].
  intros E. destruct (ctrl_to_await cc c s p E N6) as (Y & _). contradiction.
Qed.

Lemma ctrl_resting cc c s p : resting p -> resting (prop_ctrl cc c s p) /\ ps_fired (prop_ctrl cc c s p) = ps_fired p.
Proof.
  intros [U N]. destruct (ctrl_invalid cc c s p N) as [A B]; [left; lia|]. split; [|exact B]. split; [|exact A].
  rewrite ctrl_until. destruct (Z.ltb_spec 0 (ps_until p)); lia.
Qed.

(** an impulse too large for the valves is never fired, not even in part *)
Theorem too_large_never_fired l : forall s p s' p', joint_run l (s, p) = Some (s', p') -> not_begun p ->
  Forall (fun y => may_plan (snd y) /\ forall dr dv g v, schedule_valves (snd (oi_J (snd y) dr dv g)) = Some v -> Exists (fun t => 1000 < t) v) l ->
  ps_fired p' = ps_fired p /\ not_begun p'.
Proof.
  induction l as [|[[[cc c] sn] i] l IH]; cbn [joint_run]; intros s p s' p' H R F; [injection H as <- <-; auto|].
  inversion_clear F as [|? ? F1 F2]. cbn [snd] in F1. destruct F1 as [M F1]. destruct (joint_cycle cc c sn i (s, p)) as [[s1 p1]|] eqn:EJ; [|discriminate].
  unfold joint_cycle in EJ. destruct (orbit_execute _ _) as [so|] eqn:EO; [|discriminate]. injection EJ as <- <-.
  destruct (execute_plan _ _ _ EO) as (g & Je & Jb & EJ & _ & _ & _ & SV & _); [exact M|].
  assert (EX : Exists (fun t => 1000 < t) (os_valves so)).
  { cbn in EJ. destruct (oi_rel i =? rel_estimating); eapply F1; rewrite EJ; exact SV. }
  destruct (ctrl_invalid cc (with_sched c (os_valves so)) sn (ps_set_until p (os_until so)) R (or_intror EX)) as [R1 FR].
  destruct (IH _ _ _ _ H R1 F2) as [A B]. split; [|exact B]. rewrite A, FR. reflexivity.
Qed.

(** what a firing that starts was loaded with *)
Theorem fires_current cc c sn i s p s' p' : joint_cycle cc c sn i (s, p) = Some (s', p') -> ps_fired p' <> ps_fired p ->
  d_on (ps_drv p) = false -> Forall (fun v => v = 0 \/ 10 <= v <= 999) (os_valves s') -> d_sched (ps_drv p') = os_valves s' /\ d_on (ps_drv p') = true.
Proof.
  unfold joint_cycle. intros H C O V. destruct (orbit_execute _ _) as [so|]; [|discriminate]. injection H as <- <-.
  destruct (ctrl_fires cc (with_sched c (os_valves so)) sn (ps_set_until p (os_until so)) C) as (_ & _ & _ & _ & ->).
  change (ps_drv (ps_set_until p (os_until so))) with (ps_drv p). change (c_sched (with_sched c (os_valves so))) with (os_valves so).
  destruct (schedule_loaded (os_valves so) (ps_drv p) O V) as [_ L].
  assert (D : d_on (fst (drv_set_schedule (os_valves so) (ps_drv p))) = false) by (unfold drv_set_schedule; rewrite O; destruct (existsb _ _); [exact O|reflexivity]).
  unfold drv_start. rewrite D. cbn. auto.
Qed.

(** nothing planned, and no leave to plan: no firing ever *)
Theorem no_plan_no_firing l : forall s p s' p', joint_run l (s, p) = Some (s', p') -> resting p ->
  Forall (fun y => ~ may_plan (snd y)) l -> ps_fired p' = ps_fired p.
Proof.
  induction l as [|[[[cc c] sn] i] l IH]; cbn [joint_run]; intros s p s' p' H R F; [congruence|].
  inversion_clear F as [|? ? F1 F2]. cbn [snd] in F1. destruct (joint_cycle cc c sn i (s, p)) as [[s1 p1]|] eqn:EJ; [|discriminate].
  unfold joint_cycle in EJ. destruct (orbit_execute _ _) as [so|] eqn:EO; [|discriminate]. injection EJ as <- <-.
  assert (U : os_until so = ps_until p).
  { destruct (Z.eq_dec (os_until so) (ps_until p)) as [|X]; [assumption|]. exfalso. apply F1.
    pose proof (execute_frame _ _ _ EO) as M. cbn in M. apply M. right. right. exact X. }
  assert (RP : resting (ps_set_until p (os_until so))) by (rewrite U; exact R).
  destruct (ctrl_resting cc (with_sched c (os_valves so)) sn _ RP) as [R1 FR]. rewrite (IH _ _ _ _ H R1 F2), FR. reflexivity.
Qed.
