From Verif Require Import Base GPSTimeModel GPSTimeSpec GPSTimeProofs NavModel NavSpec NavProofs.

Section P.
Context (G : gnc) (epoch : Z).
Notation after := (after G epoch).
Notation nav_step := (nav_step G epoch).
Implicit Types (s : nav G) (i : nin G) (h : list (nin G)).

(** what one cycle of the relative estimator leaves behind *)
Definition rel_reset s i : bool :=
  negb (t_valid (v_t G (nav_step s i))) || negb (o_valid G (v_o G (nav_step s i))) || written (r_reset G (v_r G s)) (n_rreset G i).

Lemma rel_reset_false s i : quiet G s -> ~ resets_rel i -> o_valid G (v_o G (nav_step s i)) = true -> rel_reset s i = false.
Proof.
  intros (_ & _ & Q & _) R O. unfold rel_reset. pose proof (chain_o G epoch s i O) as T. rewrite T, O, Q. cbn. apply not_asked. exact R.
Qed.
Lemma rel_reset_back s i : quiet G s -> rel_reset s i = false -> ~ resets_rel i /\ o_valid G (v_o G (nav_step s i)) = true.
Proof.
  intros (_ & _ & Q & _). unfold rel_reset. rewrite Q. intros E. apply orb_false_iff in E. destruct E as [E E3]. apply orb_false_iff in E. destruct E as [_ E2].
  apply negb_false_iff in E2. apply not_asked in E3. split; assumption.
Qed.

Notation now s i := (t_gps (v_t G (nav_step s i))).
Notation wnow s i := (earth_w G (t_ns (v_t G (nav_step s i)))).
Notation opos s i := (o_pos G (v_o G (nav_step s i))).
Notation ovel s i := (o_vel G (v_o G (nav_step s i))).
Definition upd s i := rel_update G (wnow s i) (opos s i) (ovel s i) (v_r G s) i.
Definition upd_est s i : rest G := snd (upd s i).
Definition upd_count s i : Z := snd (fst (upd s i)).
Definition upd_prevns s i : Z := snd (fst (fst (upd s i))).
Definition upd_prev s i : vec G := snd (fst (fst (fst (upd s i)))).
Definition upd_have s i : bool := fst (fst (fst (fst (upd s i)))).
Definition up_t s i := match n_uplink G i with Some (x, _, _) => x | None => r_upt G (v_r G s) end.
Definition up_r s i := match n_uplink G i with Some (_, x, _) => x | None => r_upr G (v_r G s) end.
Definition up_v s i := match n_uplink G i with Some (_, _, x) => x | None => r_upv G (v_r G s) end.
Definition queue s i :=
  queue_uplink G (now s i) (up_t s i) (up_r s i) (up_v s i) (fst (take_uplink G (now s i) (wnow s i) (v_r G s)), r_qr G (v_r G s), r_qv G (v_r G s)).
Definition orb_taken s i : orb G := snd (take_uplink G (now s i) (wnow s i) (v_r G s)).

Lemma rel_cases s i :
  v_r G (nav_step s i) =
  let r := v_r G s in
  if rel_reset s i then
    mk_rst G 0 (r_pos G r) (r_vel G r) (r_rpos G r) (r_rvel G r) false (up_t s i) (up_r s i) (up_v s i) gps_zero (r_qr G r) (r_qv G r)
           (r_have G r) (r_prev G r) (r_prevns G r) (r_count G r) (re_none G) (ob_none G)
  else if re_ok G (upd_est s i) then
    let rp := re_pos G (upd_est s i) in let rv := re_vel G (upd_est s i) in
    let p := vadd G (opos s i) rp in let v := vadd G (ovel s i) rv in
    let drop := predict_limit <? upd_count s i in
    mk_rst G 2 p v rp rv false gps_zero (up_r s i) (up_v s i) (if drop then gps_zero else fst (fst (queue s i))) (snd (fst (queue s i))) (snd (queue s i))
           (upd_have s i) (upd_prev s i) (upd_prevns s i) (if drop then 0 else upd_count s i) (if drop then re_none G else upd_est s i) (ob_make G p v)
  else if ob_ok G (orb_taken s i) then
    let ob := ob_prop G cycle_ns (wnow s i) (orb_taken s i) in
    mk_rst G 1 (ob_pos G ob) (ob_vel G ob) (vsub G (ob_pos G ob) (opos s i)) (vsub G (ob_vel G ob) (ovel s i)) false gps_zero (up_r s i) (up_v s i)
           (fst (fst (queue s i))) (snd (fst (queue s i))) (snd (queue s i))
           (upd_have s i) (upd_prev s i) (upd_prevns s i) (upd_count s i) (upd_est s i) ob
  else mk_rst G 0 (r_pos G r) (r_vel G r) (r_rpos G r) (r_rvel G r) false gps_zero (up_r s i) (up_v s i)
           (fst (fst (queue s i))) (snd (fst (queue s i))) (snd (queue s i))
           (upd_have s i) (upd_prev s i) (upd_prevns s i) (upd_count s i) (upd_est s i) (orb_taken s i).
Proof.
  unfold rel_reset, queue, orb_taken, upd_est, upd_count, upd_prevns, upd_prev, upd_have, upd, up_t, up_r, up_v.
  unfold NavModel.nav_step at 1. cbn [v_r]. unfold rel_step.
  change (time_step G epoch (v_t G s) i) with (v_t G (nav_step s i)).
  change (orbit_step G (v_t G (nav_step s i)) (v_o G s) i) with (v_o G (nav_step s i)). cbv zeta.
  destruct (_ || written _ _); [reflexivity|].
  destruct (take_uplink G _ _ _) as [qt ob]. cbn [fst snd].
  destruct (queue_uplink G _ _ _ _ _) as [[qt' qr] qv]. cbn [fst snd].
  destruct (rel_update G _ _ _ _ _) as [[[[hv pv] pn] ct] est]. cbn [fst snd].
  destruct (re_ok G est); [reflexivity|]. destruct (ob_ok G ob); reflexivity.
Qed.

(** what is published about the other satellite belongs together *)
Lemma published_together h :
  let s := after h in let r := v_r G s in let o := v_o G s in
  (r_state G r = 0 \/ r_state G r = 1 \/ r_state G r = 2) /\
  (r_state G r = 2 -> r_pos G r = vadd G (o_pos G o) (r_rpos G r) /\ r_vel G r = vadd G (o_vel G o) (r_rvel G r)) /\
  (r_state G r = 1 -> r_rpos G r = vsub G (r_pos G r) (o_pos G o) /\ r_rvel G r = vsub G (r_vel G r) (o_vel G o)).
Proof.
  cbv zeta. destruct h as [|i h _] using rev_ind.
  - cbn. repeat split; try (intros; discriminate); auto.
  - rewrite after_snoc. rewrite rel_cases. cbv zeta. destruct (rel_reset _ _); [cbn; repeat split; try (intros; discriminate); auto|].
    destruct (re_ok _ _); [cbn; repeat split; try (intros; discriminate); auto|].
    destruct (ob_ok _ _); cbn; repeat split; try (intros; discriminate); auto.
Qed.

(** ** the running estimate *)
Definition rinv s : Prop :=
  let r := v_r G s in
  0 <= r_count G r <= 5001 /\ (re_ok G (r_est G r) = true -> r_have G r = false /\ r_count G r <= 5000) /\
  (r_state G r = 2 -> r_have G r = false) /\ 0 <= r_prevns G r < 2 ^ 32.

Lemma dns_range i : 0 <= dns G i < 2 ^ 32.
Proof. apply u32_range. Qed.

Lemma upd_facts s i : rinv s ->
  0 <= upd_count s i <= 5001 /\ 0 <= upd_prevns s i < 2 ^ 32 /\ (re_ok G (upd_est s i) = true -> upd_have s i = false).
Proof.
  intros (C & V & St & P). unfold upd_count, upd_prevns, upd_est, upd_have, upd, rel_update.
  destruct (n_mode G i =? 1).
  - destruct (re_ok G (r_est G (v_r G s))) eqn:E; cbn [fst snd].
    + destruct (V eq_refl) as [Hv Hc]. repeat split; try assumption; try lia. intros _. assumption.
    + destruct (r_have G (v_r G s) && _) eqn:Hh; cbn [fst snd].
      * pose proof (u32_range (r_prevns G (v_r G s) + cycle_ns)). repeat split; try lia.
      * pose proof (dns_range i). repeat split; try lia. rewrite E. discriminate.
  - destruct (re_ok G (r_est G (v_r G s))) eqn:E; cbn [fst snd].
    + destruct (V eq_refl) as [Hv Hc]. rewrite u32_id by lia. repeat split; try lia. intros _. assumption.
    + repeat split; try lia. rewrite E. discriminate.
Qed.

Lemma rinv_step s i : rinv s -> rinv (nav_step s i).
Proof.
  intros I. pose proof (upd_facts s i I) as (C & P & H). destruct I as (C0 & V0 & S0 & P0).
  unfold rinv. rewrite rel_cases. cbv zeta. destruct (rel_reset s i).
  { cbn. rewrite re_none_bad. repeat split; try lia; discriminate. }
  destruct (re_ok G (upd_est s i)) eqn:E.
  - specialize (H eq_refl). unfold predict_limit. destruct (5000 <? upd_count s i) eqn:D; cbn [r_count r_est r_have r_state r_prevns].
    + rewrite re_none_bad. repeat split; try lia; try discriminate; try assumption; intros; assumption.
    + repeat split; try lia; try assumption; intros; assumption.
  - destruct (ob_ok _ _); cbn [r_count r_est r_have r_state r_prevns]; rewrite E; repeat split; try lia; discriminate.
Qed.
Lemma after_rinv h : rinv (after h).
Proof.
  induction h as [|i h IH] using rev_ind.
  - unfold rinv. cbn. rewrite re_none_bad. repeat split; try lia; discriminate.
  - rewrite after_snoc. apply rinv_step. exact IH.
Qed.

(** estimating: the estimate was valid in this cycle *)
Lemma estimating_upd s i : r_state G (v_r G (nav_step s i)) = 2 -> rel_reset s i = false /\ re_ok G (upd_est s i) = true.
Proof.
  rewrite rel_cases. cbv zeta. destruct (rel_reset s i); [discriminate|].
  destruct (re_ok G (upd_est s i)); [split; reflexivity|]. destruct (ob_ok _ _); discriminate.
Qed.
(** without RTK no estimate begins *)
Lemma not_rtk_upd s i : ~ rtk i -> re_ok G (upd_est s i) = true -> re_ok G (r_est G (v_r G s)) = true /\ upd_count s i = u32 (r_count G (v_r G s) + 1).
Proof.
  unfold rtk, upd_est, upd_count, upd, rel_update. intros R. destruct (n_mode G i =? 1) eqn:E; [lia|].
  destruct (re_ok G (r_est G (v_r G s))) eqn:K; cbn [fst snd]; [split; reflexivity|]. rewrite K. discriminate.
Qed.

Lemma stale_count h k : Forall (fun j => ~ rtk j) k ->
  re_ok G (r_est G (v_r G (after (h ++ k)))) = true -> Z.of_nat (length k) <= r_count G (v_r G (after (h ++ k))).
Proof.
  induction k as [|j k IH] using rev_ind; intros F K.
  - cbn [length]. destruct (after_rinv (h ++ [])) as ((C & _) & _). exact C.
  - apply Forall_app in F. destruct F as [F Fj]. apply Forall_inv in Fj. specialize (IH F).
    rewrite app_assoc in *. rewrite after_snoc in *. rewrite rel_cases in *. cbv zeta in *.
    destruct (rel_reset _ j); [cbn [r_est] in K; rewrite re_none_bad in K; discriminate|].
    destruct (re_ok G (upd_est _ j)) eqn:E.
    + destruct (not_rtk_upd _ _ Fj E) as [E0 Ec]. specialize (IH E0).
      destruct (predict_limit <? _); cbn [r_est r_count] in *; [rewrite re_none_bad in K; discriminate|].
      rewrite Ec, app_length. cbn [length]. destruct (after_rinv (h ++ k)) as (C & _). rewrite u32_id by lia. lia.
    + destruct (ob_ok _ _); cbn [r_est] in K; congruence.
Qed.
Lemma dropped_in_time h k : Forall (fun j => ~ rtk j) k -> Z.of_nat (length k) >= 5002 -> r_state G (v_r G (after (h ++ k))) <> 2.
Proof.
  intros F L S. destruct k as [|j k _] using rev_ind; [cbn in L; lia|].
  apply Forall_app in F. destruct F as [F Fj]. apply Forall_inv in Fj. rewrite app_length in L. cbn [length] in L.
  rewrite app_assoc, after_snoc in S. apply estimating_upd in S. destruct S as [_ E].
  destruct (not_rtk_upd _ _ Fj E) as [E0 _]. pose proof (stale_count h k F E0) as C.
  destruct (after_rinv (h ++ k)) as (_ & V & _). destruct (V E0) as [_ V']. lia.
Qed.

(** a running estimate survives 5000 cycles after a reading that corrected it *)

Lemma survives h i k : keeps G -> rtk i -> r_state G (v_r G (after h)) = 2 -> r_state G (v_r G (after (h ++ [i]))) = 2 ->
  Forall (fun j => ~ rtk j /\ ~ resets_rel j) k -> Z.of_nat (length k) <= 5000 ->
  (forall n, o_valid G (v_o G (after (h ++ [i] ++ firstn n k))) = true) ->
  r_state G (v_r G (after (h ++ [i] ++ k))) = 2.
Proof.
  intros K R S0 S1 F L O.
  assert (B : r_state G (v_r G (after (h ++ [i] ++ k))) = 2 /\
              (Z.of_nat (length k) <= 5000 -> re_ok G (r_est G (v_r G (after (h ++ [i] ++ k)))) = true /\ r_count G (v_r G (after (h ++ [i] ++ k))) = Z.of_nat (length k))).
  { induction k as [|j k IH] using rev_ind.
    - rewrite app_nil_r. split; [assumption|]. intros _. rewrite after_snoc in S1. pose proof (estimating_upd _ _ S1) as [Rr E].
      rewrite after_snoc, rel_cases. cbv zeta. rewrite Rr, E.
      destruct (after_rinv h) as (_ & V & Hs & _). specialize (Hs S0).
      assert (E0 : re_ok G (r_est G (v_r G (after h))) = true).
      { revert E. unfold upd_est, upd, rel_update. rewrite Hs. unfold rtk in R. rewrite R. cbn.
        destruct (re_ok G (r_est G (v_r G (after h)))) eqn:E1; [reflexivity|]. cbn. congruence. }
      assert (Ec : upd_count (after h) i = 0).
      { unfold upd_count, upd, rel_update. unfold rtk in R. rewrite R. cbn. rewrite E0. reflexivity. }
      rewrite Ec. cbn. split; [exact E|reflexivity].
    - rewrite app_length in L. cbn [length] in L. apply Forall_app in F. destruct F as [F Fj]. apply Forall_inv in Fj. destruct Fj as [Fr Fn].
      assert (O' : forall n, o_valid G (v_o G (after (h ++ [i] ++ firstn n k))) = true).
      { intros n. destruct (Nat.le_gt_cases n (length k)) as [Le|Gt].
        - specialize (O n). rewrite firstn_app in O. replace (n - length k)%nat with 0%nat in O by lia. cbn [firstn] in O. rewrite app_nil_r in O. exact O.
        - specialize (O (length k)). rewrite firstn_app in O. replace (length k - length k)%nat with 0%nat in O by lia. cbn [firstn] in O.
          rewrite app_nil_r, firstn_all in O. rewrite firstn_all2 by lia. exact O. }
      destruct IH as [S IH]; [assumption|lia|assumption|]. destruct IH as [E C]; [lia|].
      pose proof (O (length (k ++ [j]))) as Oj. rewrite firstn_all in Oj.
      replace (h ++ [i] ++ k ++ [j]) with ((h ++ [i] ++ k) ++ [j]) in * by (rewrite <- !app_assoc; reflexivity).
      rewrite after_snoc in *.
      pose proof (rel_reset_false _ _ (after_quiet G epoch (h ++ [i] ++ k)) Fn Oj) as Rr.
      assert (Ee : re_ok G (upd_est (after (h ++ [i] ++ k)) j) = true /\ upd_count (after (h ++ [i] ++ k)) j = Z.of_nat (length k) + 1).
      { unfold upd_est, upd_count, upd, rel_update. unfold rtk in Fr. destruct (n_mode G j =? 1) eqn:M; [lia|]. rewrite E. cbn [fst snd].
        split; [apply K; exact E|]. rewrite C. apply u32_id. lia. }
      destruct Ee as [Ee Ec]. rewrite rel_cases. cbv zeta. rewrite Rr, Ee, Ec. rewrite app_length. cbn [length]. unfold predict_limit.
      destruct (5000 <? Z.of_nat (length k) + 1) eqn:D; cbn [r_state r_est r_count]; split; try reflexivity; intros; [lia|].
      split; [exact Ee|lia]. }
  apply B.
Qed.

(** ** starting the estimate *)
Lemma started h i j : rtk i -> rtk j -> fresh i -> ~ resets_rel i -> o_valid G (v_o G (after (h ++ [i]))) = true ->
  r_state G (v_r G (after (h ++ [i]))) <> 2 -> r_state G (v_r G (after (h ++ [i; j]))) = 2 ->
  let s := after (h ++ [i; j]) in
  let e := re_init G (earth_w G (t_ns (v_t G s))) (o_pos G (v_o G s)) (o_vel G (v_o G s)) (vneg G (n_base G j))
             (vneg G (vrate G (n_base G j) (n_base G i) (170000000 + age i))) (170000000 + age i) in
  r_rpos G (v_r G s) = re_pos G e /\ r_rvel G (v_r G s) = re_vel G e.
Proof.
  intros Ri Rj Fi Ni Oi Si Sj. cbv zeta. replace (h ++ [i; j]) with ((h ++ [i]) ++ [j]) in * by (rewrite <- app_assoc; reflexivity).
  rewrite (after_snoc G epoch (h ++ [i]) j) in *. set (s1 := after (h ++ [i])) in *.
  pose proof (estimating_upd _ _ Sj) as [Rr E].
  assert (Rs : rel_reset (after h) i = false).
  { apply rel_reset_false; [apply after_quiet|assumption|]. unfold s1 in Oi. rewrite after_snoc in Oi. exact Oi. }
  assert (Ei : re_ok G (upd_est (after h) i) = false).
  { unfold s1 in Si. rewrite after_snoc, rel_cases in Si. cbv zeta in Si. rewrite Rs in Si.
    destruct (re_ok G (upd_est (after h) i)); [|reflexivity]. contradiction Si. reflexivity. }
  assert (F1 : r_est G (v_r G s1) = upd_est (after h) i /\ r_have G (v_r G s1) = upd_have (after h) i /\
               r_prev G (v_r G s1) = upd_prev (after h) i /\ r_prevns G (v_r G s1) = upd_prevns (after h) i).
  { unfold s1. rewrite after_snoc, rel_cases. cbv zeta. rewrite Rs, Ei. destruct (ob_ok _ _); repeat split. }
  destruct F1 as (F1 & F2 & F3 & F4).
  assert (Hh : r_have G (v_r G s1) = true).
  { destruct (r_have G (v_r G s1)) eqn:Hh; [reflexivity|]. exfalso. revert E. unfold upd_est, upd, rel_update. unfold rtk in Rj. rewrite Rj. cbn [Z.eqb Pos.eqb].
    rewrite F1, Ei, Hh. cbn [andb snd]. congruence. }
  assert (Hp : upd_prev (after h) i = n_base G i /\ upd_prevns (after h) i = age i).
  { rewrite F2 in Hh. revert Hh Ei. unfold upd_have, upd_prev, upd_prevns, upd_est, upd, rel_update. unfold rtk in Ri. rewrite Ri. cbn [Z.eqb Pos.eqb].
    destruct (re_ok G (r_est G (v_r G (after h)))) eqn:E0; cbn [fst snd].
    - intros Hv _. destruct (after_rinv h) as (_ & V & _). destruct (V E0) as [V' _]. congruence.
    - destruct (r_have G (v_r G (after h)) && _); cbn [fst snd]; [discriminate|]. intros _ _. split; [reflexivity|]. apply dns_age. exact Fi. }
  destruct Hp as [Hp1 Hp2]. rewrite Hp1 in F3. rewrite Hp2 in F4.
  assert (Ns : u32 (r_prevns G (v_r G s1) + cycle_ns) = 170000000 + age i).
  { rewrite F4. unfold fresh in Fi. unfold age, cycle_ns. rewrite u32_id; lia. }
  assert (Ev : upd_est s1 j = re_init G (wnow s1 j) (opos s1 j) (ovel s1 j) (vneg G (n_base G j))
             (vneg G (vrate G (n_base G j) (n_base G i) (170000000 + age i))) (170000000 + age i)).
  { unfold upd_est, upd, rel_update. unfold rtk in Rj. rewrite Rj. cbn [Z.eqb Pos.eqb]. rewrite F1, Ei. cbv zeta. rewrite Hh, Ns.
    replace (170000000 + age i <=? 10 * cycle_ns) with true.
    2:{ symmetry. apply Z.leb_le. unfold fresh in Fi. unfold age, cycle_ns. lia. }
    cbn [andb snd]. rewrite F3. reflexivity. }
  rewrite rel_cases. cbv zeta. rewrite Rr, E. cbn [r_rpos r_rvel]. rewrite Ev. split; reflexivity.
Qed.

Lemma started_elapsed h i j : rtk i -> rtk j -> fresh i -> n_delta G j = 0 -> ~ resets_rel i -> o_valid G (v_o G (after (h ++ [i]))) = true ->
  r_state G (v_r G (after (h ++ [i]))) <> 2 -> r_state G (v_r G (after (h ++ [i; j]))) = 2 ->
  let s := after (h ++ [i; j]) in
  let e := re_init G (earth_w G (t_ns (v_t G s))) (o_pos G (v_o G s)) (o_vel G (v_o G s)) (vneg G (n_base G j))
             (vneg G (vrate G (n_base G j) (n_base G i) (elapsed i j))) (elapsed i j) in
  r_rpos G (v_r G s) = re_pos G e /\ r_rvel G (v_r G s) = re_vel G e.
Proof.
  intros Ri Rj Fi D. replace (elapsed i j) with (170000000 + age i) by (unfold elapsed, age; lia). apply started; assumption.
Qed.

(** ** uplinked orbits of the other satellite *)
Lemma gt_g_set a b : g_set a = true -> g_set b = true -> gt_g a b = (gtime_ns b <? gtime_ns a).
Proof. intros A B. unfold gt_g, lt_g, eq_g, lt_n, eq_n. rewrite A, B. lia. Qed.
Lemma time_set h : t_valid (v_t G (after h)) = true -> g_set (t_gps (v_t G (after h))) = true.
Proof.
  destruct h as [|i h _] using rev_ind; [discriminate|]. rewrite after_snoc, time_cases by apply after_quiet.
  destruct (written _ _); [discriminate|]. cbv zeta. destruct (has_fix G i); reflexivity.
Qed.

(** no estimate: none ever began *)
Lemma no_rtk_no_estimate h : Forall (fun j => ~ rtk j) h -> re_ok G (r_est G (v_r G (after h))) = false.
Proof.
  induction h as [|i h IH] using rev_ind; intros F; [apply re_none_bad|].
  apply Forall_app in F. destruct F as [F Fi]. apply Forall_inv in Fi. specialize (IH F).
  rewrite after_snoc, rel_cases. cbv zeta. destruct (rel_reset _ _); [apply re_none_bad|].
  destruct (re_ok G (upd_est _ i)) eqn:E; [apply not_rtk_upd in E; [destruct E; congruence|assumption]|]. destruct (ob_ok _ _); exact E.
Qed.
Lemma no_rtk_upd h i : Forall (fun j => ~ rtk j) h -> ~ rtk i -> re_ok G (upd_est (after h) i) = false.
Proof.
  intros F R. destruct (re_ok G (upd_est (after h) i)) eqn:E; [|reflexivity]. apply not_rtk_upd in E; [|assumption].
  rewrite no_rtk_no_estimate in E by assumption. destruct E; discriminate.
Qed.
(** what waits in the queue, or for the queue, while only uplinks for times later than [T] came *)
Definition waits (T t : gtime) : Prop := t = gps_zero \/ (g_set t = true /\ gtime_ns T < gtime_ns t).
Lemma later_waits T h : Forall (later_uplink T) h -> waits T (r_upt G (v_r G (after h))) /\ waits T (r_qt G (v_r G (after h))).
Proof.
  induction h as [|i h IH] using rev_ind; intros F; [split; left; reflexivity|].
  apply Forall_app in F. destruct F as [F Fi]. apply Forall_inv in Fi. destruct (IH F) as [U Q].
  assert (Ut : waits T (up_t (after h) i)).
  { unfold up_t. unfold later_uplink in Fi. destruct (n_uplink G i) as [[[t x] y]|]; [right; exact Fi|exact U]. }
  assert (Qu : waits T (fst (fst (queue (after h) i)))).
  { unfold queue, queue_uplink. destruct (_ && _); [exact Ut|]. cbn [fst]. unfold take_uplink. destruct (_ && _); [left; reflexivity|exact Q]. }
  rewrite after_snoc, rel_cases. cbv zeta. destruct (rel_reset _ _); [cbn; split; [exact Ut|left; reflexivity]|].
  destruct (re_ok _ _); [destruct (_ <? _); (split; [left; reflexivity|]); [left; reflexivity|exact Qu]|].
  destruct (ob_ok _ _); (split; [left; reflexivity|exact Qu]).
Qed.

Definition pos_time (t : gtime) : Prop := g_set t = true /\ 0 < gtime_ns t.
Lemma zero_set : g_set gps_zero = true /\ gtime_ns gps_zero = 0.
Proof. split; reflexivity. Qed.

Lemma uplink_used h i k j T r v :
  n_uplink G i = Some (T, r, v) -> g_set T = true ->
  Forall (later_uplink T) h -> Forall (later_uplink T) k ->
  Forall (fun x => ~ rtk x) (h ++ [i] ++ k ++ [j]) -> Forall (fun x => ~ resets_rel x) ([i] ++ k ++ [j]) ->
  (forall n, o_valid G (v_o G (after (h ++ [i] ++ firstn n (k ++ [j])))) = true) ->
  gtime_ns (t_gps (v_t G (after (h ++ [i])))) < gtime_ns T ->
  (forall n, gtime_ns (t_gps (v_t G (after (h ++ [i] ++ firstn n k)))) <= gtime_ns T) ->
  let s := after (h ++ [i] ++ k ++ [j]) in
  let late := gtime_ns (t_gps (v_t G s)) - gtime_ns T in
  0 < late < 340000000 ->
  let w := earth_w G (t_ns (v_t G s)) in
  let ob := ob_prop G (late - 170000000) w (ob_make G r v) in
  ob_ok G ob = true ->
  r_state G (v_r G s) = 1 /\ r_pos G (v_r G s) = ob_pos G (ob_prop G 170000000 w ob) /\ r_vel G (v_r G s) = ob_vel G (ob_prop G 170000000 w ob).
Proof.
  intros U TS Uh Uk R NR O Tn Tk. cbv zeta. intros La Ob.
  assert (O0 : forall n, o_valid G (v_o G (after (h ++ [i] ++ firstn n k))) = true).
  { intros n. destruct (Nat.le_gt_cases n (length k)) as [Le|Gt].
    - specialize (O n). rewrite firstn_app in O. replace (n - length k)%nat with 0%nat in O by lia. cbn [firstn] in O. rewrite app_nil_r in O. exact O.
    - specialize (O (length k)). rewrite firstn_app in O. replace (length k - length k)%nat with 0%nat in O by lia. cbn [firstn] in O.
      rewrite app_nil_r, firstn_all in O. rewrite firstn_all2 by lia. exact O. }
  apply Forall_app in R. destruct R as [Rh R]. apply Forall_app in R. destruct R as [Ri R]. apply Forall_app in R. destruct R as [Rk Rj]. apply Forall_inv in Ri, Rj.
  apply Forall_app in NR. destruct NR as [Ni NR]. apply Forall_app in NR. destruct NR as [Nk Nj]. apply Forall_inv in Ni, Nj.
  assert (VT : forall n, g_set (t_gps (v_t G (after (h ++ [i] ++ firstn n k)))) = true).
  { intros n. apply time_set. destruct (after_chain G epoch (h ++ [i] ++ firstn n k)) as (C & _). apply C. apply O0. }
  assert (PT : 0 < gtime_ns T).
  { pose proof (gtime_ns_range (t_gps (v_t G (after (h ++ [i]))))) as R0. unfold in64 in R0. lia. }
  (* queued after i, and as long as its time has not come *)
  assert (Q : forall n, let r' := v_r G (after (h ++ [i] ++ firstn n k)) in
    r_upt G r' = gps_zero /\ r_qt G r' = T /\ r_qr G r' = r /\ r_qv G r' = v).
  { intros n. cbv zeta. specialize (O0). revert n.
    assert (Q0 : forall n, (n <= length k)%nat -> let r' := v_r G (after (h ++ [i] ++ firstn n k)) in
      r_upt G r' = gps_zero /\ r_qt G r' = T /\ r_qr G r' = r /\ r_qv G r' = v).
    { induction n as [|n IHn]; intros Ln; cbv zeta.
      - cbn [firstn]. rewrite app_nil_r. specialize (O0 0%nat). specialize (VT 0%nat). cbn [firstn] in O0, VT. rewrite app_nil_r in O0, VT.
        destruct (later_waits T h Uh) as [_ Qt]. rewrite after_snoc in *.
        assert (Qu : queue (after h) i = (T, r, v)).
        { unfold queue, up_t, up_r, up_v. rewrite U.
          pose proof (gtime_ns_range (t_gps (v_t G (nav_step (after h) i)))) as Rg. unfold in64 in Rg.
          assert (Tq : fst (take_uplink G (t_gps (v_t G (nav_step (after h) i))) (wnow (after h) i) (v_r G (after h))) = r_qt G (v_r G (after h))).
          { unfold take_uplink. destruct Qt as [->|[Q1 Q2]]; [reflexivity|]. rewrite (gt_g_set _ (r_qt G (v_r G (after h)))) by assumption.
            replace (gtime_ns (r_qt G (v_r G (after h))) <? _) with false by lia. rewrite andb_false_r. reflexivity. }
          change (now (after h) i) with (t_gps (v_t G (nav_step (after h) i))). rewrite Tq. unfold queue_uplink. rewrite (gt_g_set T) by (try assumption; reflexivity). rewrite (gt_g_set T) by assumption.
          change (gtime_ns gps_zero) with 0.
          replace (0 <? gtime_ns T) with true by lia. replace (gtime_ns (t_gps (v_t G (nav_step (after h) i))) <? gtime_ns T) with true by lia.
          destruct Qt as [->|[Q1 Q2]]; [reflexivity|]. unfold lt_g, lt_n. rewrite Q1, TS.
          replace (gtime_ns T <? _) with true by lia. rewrite orb_true_r. reflexivity. }
        rewrite rel_cases. cbv zeta. rewrite (rel_reset_false _ _ (after_quiet G epoch h) Ni O0).
        rewrite (no_rtk_upd h i Rh Ri). rewrite Qu. destruct (ob_ok G (orb_taken (after h) i)); repeat split; reflexivity.
      - destruct (nth_error k n) as [x|] eqn:X; [|apply nth_error_None in X; lia].
        assert (Fs : firstn (S n) k = firstn n k ++ [x]).
        { clear - X. revert n X. induction k as [|y k IH]; intros [|n] X; try discriminate; cbn in X |- *; [congruence|]. f_equal. apply IH. exact X. }
        destruct IHn as (U1 & U2 & U3 & U4); [lia|].
        pose proof (O0 (S n)) as Ox. pose proof (VT (S n)) as Vx. pose proof (Tk (S n)) as Tx. rewrite Fs in *.
        replace (h ++ [i] ++ firstn n k ++ [x]) with ((h ++ [i] ++ firstn n k) ++ [x]) in * by (rewrite <- !app_assoc; reflexivity).
        rewrite after_snoc in *. set (s := after (h ++ [i] ++ firstn n k)) in *.
        assert (Xin : In x k) by (apply nth_error_In with n; assumption).
        pose proof (proj1 (Forall_forall _ _) Rk x Xin) as Rx. pose proof (proj1 (Forall_forall _ _) Nk x Xin) as Nx. pose proof (proj1 (Forall_forall _ _) Uk x Xin) as Ux.
        cbv beta in Rx, Nx, Ux.
        assert (Ri' : Forall (fun x => ~ rtk x) (h ++ [i] ++ firstn n k)).
        { apply Forall_app. split; [assumption|]. apply Forall_app. split; [constructor; [assumption|constructor]|].
          apply Forall_forall. intros y Hy. apply (proj1 (Forall_forall _ _) Rk). rewrite <- (firstn_skipn n k). apply in_or_app. left. exact Hy. }
        assert (Qu : queue s x = (T, r, v)).
        { unfold queue. assert (Wx : waits T (up_t s x)).
          { unfold up_t. unfold later_uplink in Ux. destruct (n_uplink G x) as [[[t a] b]|]; [right; exact Ux|left; exact U1]. }
          unfold take_uplink. rewrite U2, U3, U4. change (now s x) with (t_gps (v_t G (nav_step s x))).
          rewrite (gt_g_set _ T) by assumption. replace (gtime_ns T <? gtime_ns (t_gps (v_t G (nav_step s x)))) with false by lia.
          rewrite andb_false_r. cbn [fst]. unfold queue_uplink.
          destruct Wx as [->|[W1 W2]]; [reflexivity|]. rewrite (gt_g_set T) by (try assumption; reflexivity). change (gtime_ns gps_zero) with 0.
          replace (0 <? gtime_ns T) with true by lia. unfold lt_g, lt_n. rewrite TS, W1. replace (gtime_ns (up_t s x) <? gtime_ns T) with false by lia.
          cbn [negb orb]. rewrite !andb_false_r. reflexivity. }
        pose proof (rel_reset_false s x (after_quiet G epoch _) Nx Ox) as Rr.
        pose proof (no_rtk_upd _ _ Ri' Rx) as Ru. fold s in Ru.
        rewrite rel_cases. cbv zeta. rewrite Rr, Ru, Qu. destruct (ob_ok G (orb_taken s x)); repeat split; reflexivity. }
    intros n. destruct (Nat.le_gt_cases n (length k)) as [Le|Gt]; [apply Q0; assumption|].
    rewrite firstn_all2 by lia. specialize (Q0 (length k) (Nat.le_refl _)). rewrite firstn_all in Q0. exact Q0. }
  specialize (Q (length k)). rewrite firstn_all in Q. cbv zeta in Q. destruct Q as (U1 & U2 & U3 & U4).
  pose proof (O (length (k ++ [j]))) as Oj. rewrite firstn_all in Oj.
  replace (h ++ [i] ++ k ++ [j]) with ((h ++ [i] ++ k) ++ [j]) in * by (rewrite <- !app_assoc; reflexivity).
  assert (Vj : g_set (t_gps (v_t G (after ((h ++ [i] ++ k) ++ [j])))) = true).
  { apply time_set. destruct (after_chain G epoch ((h ++ [i] ++ k) ++ [j])) as (C & _). apply C. exact Oj. }
  assert (Rp : Forall (fun x => ~ rtk x) (h ++ [i] ++ k)).
  { apply Forall_app. split; [assumption|]. apply Forall_app. split; [constructor; [assumption|constructor]|assumption]. }
  rewrite after_snoc in *. set (s := after (h ++ [i] ++ k)) in *.
  pose proof (gtime_ns_range T) as RT. unfold in64 in RT. pose proof (gtime_ns_range (t_gps (v_t G (nav_step s j)))) as RJ. unfold in64 in RJ.
  assert (Sub : gtime_ns (sub_g (t_gps (v_t G (nav_step s j))) T) = gtime_ns (t_gps (v_t G (nav_step s j))) - gtime_ns T).
  { unfold sub_g, sub_n, lt_n. rewrite Vj. replace (gtime_ns (t_gps (v_t G (nav_step s j))) <? gtime_ns T) with false by lia.
    rewrite u64_id by lia. apply ns_of_ns. unfold in64. lia. }
  assert (Ot : orb_taken s j = ob_prop G (gtime_ns (t_gps (v_t G (nav_step s j))) - gtime_ns T - 170000000) (earth_w G (t_ns (v_t G (nav_step s j)))) (ob_make G r v)).
  { unfold orb_taken, take_uplink. rewrite U2, U3, U4. rewrite (gt_g_set T) by (try assumption; reflexivity). rewrite (gt_g_set _ T) by assumption.
    change (gtime_ns gps_zero) with 0. replace (0 <? gtime_ns T) with true by lia.
    replace (gtime_ns T <? gtime_ns (t_gps (v_t G (nav_step s j)))) with true by lia. cbn [andb snd]. cbv zeta. rewrite Sub.
    unfold cycle_ns. replace (gtime_ns (t_gps (v_t G (nav_step s j))) - gtime_ns T <? 2 * 170000000) with true by lia. reflexivity. }
  pose proof (rel_reset_false s j (after_quiet G epoch _) Nj Oj) as Rr.
  pose proof (no_rtk_upd _ _ Rp Rj) as Ru. fold s in Ru.
  rewrite rel_cases. cbv zeta. rewrite Rr, Ru, Ot, Ob. repeat split; reflexivity.
Qed.

(** ... and the time of an uplink is not missed as long as no GPS reading corrects the clock *)
Lemma uplink_not_missed h i k j T r v :
  n_uplink G i = Some (T, r, v) -> g_set T = true -> gtime_ns T + 170000000 < 2 ^ 64 ->
  Forall (later_uplink T) h -> Forall (later_uplink T) k ->
  Forall (fun x => ~ rtk x) (h ++ [i] ++ k ++ [j]) -> Forall (fun x => ~ resets_rel x) ([i] ++ k ++ [j]) ->
  (forall n, o_valid G (v_o G (after (h ++ [i] ++ firstn n (k ++ [j])))) = true) ->
  gtime_ns (t_gps (v_t G (after (h ++ [i])))) < gtime_ns T ->
  (forall n, gtime_ns (t_gps (v_t G (after (h ++ [i] ++ firstn n k)))) <= gtime_ns T) ->
  ~ gps_fix j ->
  let s := after (h ++ [i] ++ k ++ [j]) in
  let late := gtime_ns (t_gps (v_t G s)) - gtime_ns T in
  0 < late ->
  let w := earth_w G (t_ns (v_t G s)) in
  let ob := ob_prop G (late - 170000000) w (ob_make G r v) in
  ob_ok G ob = true ->
  r_state G (v_r G s) = 1 /\ r_pos G (v_r G s) = ob_pos G (ob_prop G 170000000 w ob) /\ r_vel G (v_r G s) = ob_vel G (ob_prop G 170000000 w ob).
Proof.
  intros U TS TB Uh Uk R NR O Tn Tk Nf. cbv zeta. intros La Ob. apply (uplink_used h i k j T r v); try assumption. split; [assumption|].
  pose proof (Tk (length k)) as Te. rewrite firstn_all in Te.
  replace (h ++ [i] ++ k ++ [j]) with ((h ++ [i] ++ k) ++ [j]) in * by (rewrite <- !app_assoc; reflexivity).
  pose proof (O (length (k ++ [j]))) as Oj. rewrite firstn_all in Oj.
  replace (h ++ [i] ++ k ++ [j]) with ((h ++ [i] ++ k) ++ [j]) in Oj by (rewrite <- !app_assoc; reflexivity).
  destruct (after_chain G epoch ((h ++ [i] ++ k) ++ [j])) as (C & _). specialize (C Oj).
  rewrite after_snoc in *. rewrite time_cases in * by apply after_quiet.
  destruct (written false (n_treset G j)); [discriminate|]. cbv zeta in *. rewrite (proj2 (has_fix_not G j) Nf) in *. cbn [t_gps t_valid] in *.
  pose proof (gtime_ns_range (t_gps (v_t G (after (h ++ [i] ++ k))))) as Rg. unfold in64 in Rg.
  unfold add_n, cycle_ns in *. rewrite u64_id in * by lia. rewrite ns_of_ns in * by (unfold in64; lia). lia.
Qed.
End P.
