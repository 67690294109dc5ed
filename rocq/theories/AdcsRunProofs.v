(** Proofs about the attitude computer's loop with bus messages arriving at any moment. *)
From Verif Require Import Base AdcsModel AdcsSpec AdcsConvProofs AdcsRecvProofs AdcsActProofs.
From Coq Require Import QArith Qabs Lqa.
Local Open Scope Z_scope.

(** ** What a message can change *)


Ltac rx_cases :=
  repeat match goal with
    | |- context [match ?l with [] => _ | _ :: _ => _ end] => destruct l
    | |- context [if ?c then _ else _] => destruct c
    | |- context [let '(_, _) := ?p in _] => destruct p
    end.
Ltac recv_solve m :=
  destruct m as [|a l]; [try (cbn [recv]; tauto)|]; cbn [addr recv] in *;
  repeat match goal with |- context [if a =? ?k then _ else _] => destruct (Z.eqb_spec a k); [try (exfalso; congruence)|] end;
  unfold rx_mode, rx_ptr, rx_rwa_mode, rx_rwa_cmd, rx_sflt, rx_rflt, rx_mtr_mode, rx_mtr_cmd, rx_mtr_lim, rx_ssa_mode, rx_ssa_flt,
         rx_m1, rx_m2, rx_mflt, rx_gflt, rx_tflt, rx_pwm, rx_des, rx_rst, rx_dis;
  rx_cases.

Lemma recv_rmode z m r : addr m <> 1 -> r_mode (recv z m r) = r_mode r.
Proof. intros H. recv_solve m; try reflexivity. Qed.
Lemma recv_mmode z m r : addr m <> 10 -> m_mode (r_mtr (recv z m r)) = m_mode (r_mtr r).
Proof. intros H. recv_solve m; try reflexivity. Qed.
Lemma recv_mtr_flag z m r : m_flg (r_mtr r) = true -> m_flg (r_mtr (recv z m r)) = true.
Proof. intros H. recv_solve m; first [reflexivity|exact H]. Qed.
Lemma recv_mtr_clean z m r : m_flg (r_mtr (recv z m r)) = false ->
  m_cmd (r_mtr (recv z m r)) = m_cmd (r_mtr r) /\ m_lim (r_mtr (recv z m r)) = m_lim (r_mtr r) /\ m_flg (r_mtr r) = false.
Proof. recv_solve m; cbn; intros X; first [discriminate|auto]. Qed.
Lemma recv_wmode z m r : addr m <> 3 -> w_mode (r_rwa (recv z m r)) = w_mode (r_rwa r).
Proof. intros H. recv_solve m; try reflexivity. Qed.
Lemma recv_rwa_flag z m r : w_flg (r_rwa r) = true -> w_flg (r_rwa (recv z m r)) = true.
Proof. intros H. recv_solve m; first [reflexivity|exact H]. Qed.
Lemma recv_rwa_clean z m r : w_flg (r_rwa (recv z m r)) = false ->
  w_cmd (r_rwa (recv z m r)) = w_cmd (r_rwa r) /\ w_flg (r_rwa r) = false.
Proof. recv_solve m; cbn; intros X; first [discriminate|auto]. Qed.
Lemma recv_rwa_off z m r : addr m <> 3 -> w_mode (r_rwa r) <> 1 -> w_mode (r_rwa r) <> 2 ->
  w_flg (r_rwa (recv z m r)) = w_flg (r_rwa r).
Proof.
  intros H A B. destruct (Z.eq_dec (addr m) 4) as [E|N].
  - destruct m as [|a l]; [reflexivity|]. cbn [addr] in E. subst a. change (recv z (4 :: l) r) with (rx_rwa_cmd z l r).
    unfold rx_rwa_cmd. destruct (length l <? 6)%nat; [reflexivity|]. destruct (rd16x3 z l).
    apply Z.eqb_neq in A, B. rewrite A, B. reflexivity.
  - recv_solve m; try reflexivity.
Qed.
Lemma recv_rst z m r : addr m <> 28 -> h_rst (r_hav (recv z m r)) = h_rst (r_hav r) /\ h_rflg (r_hav (recv z m r)) = h_rflg (r_hav r).
Proof. intros H. recv_solve m; try (split; reflexivity). Qed.
Lemma recv_dis z m r : addr m <> 29 -> h_dis (r_hav (recv z m r)) = h_dis (r_hav r) /\ h_dflg (r_hav (recv z m r)) = h_dflg (r_hav r).
Proof. intros H. recv_solve m; try (split; reflexivity). Qed.
Lemma recv_smode z m r : addr m <> 14 -> s_mode (r_ssa (recv z m r)) = s_mode (r_ssa r).
Proof. intros H. recv_solve m; try reflexivity. Qed.
(** no message changes a reading *)
Lemma recv_readings z m r :
  w_spd (r_rwa (recv z m r)) = w_spd (r_rwa r) /\ w_rmp (r_rwa (recv z m r)) = w_rmp (r_rwa r) /\
  s_vec (r_ssa (recv z m r)) = s_vec (r_ssa r) /\ s_volt (r_ssa (recv z m r)) = s_volt (r_ssa r) /\
  i_b1 (r_imu (recv z m r)) = i_b1 (r_imu r) /\ i_b2 (r_imu (recv z m r)) = i_b2 (r_imu r) /\
  i_gyr (r_imu (recv z m r)) = i_gyr (r_imu r) /\ i_tmp (r_imu (recv z m r)) = i_tmp (r_imu r) /\
  h_tab (r_hav (recv z m r)) = h_tab (r_hav r).
Proof. recv_solve m; repeat split. Qed.
Lemma recv_mtr z m r : addr m <> 10 -> addr m <> 11 -> addr m <> 12 -> r_mtr (recv z m r) = r_mtr r.
Proof. intros H1 H2 H3. recv_solve m; try reflexivity. Qed.
Lemma recv_rwa z m r : addr m <> 3 -> addr m <> 4 ->
  w_mode (r_rwa (recv z m r)) = w_mode (r_rwa r) /\ w_cmd (r_rwa (recv z m r)) = w_cmd (r_rwa r) /\ w_flg (r_rwa (recv z m r)) = w_flg (r_rwa r).
Proof. intros H1 H2. recv_solve m; repeat split. Qed.

(** ** Runs *)

Lemma brun_app ld b l1 l2 : brun ld b (l1 ++ l2) = obind (brun ld b l1) (fun b => brun ld b l2).
Proof.
  revert b. induction l1 as [|v l1 IH]; intros b; [reflexivity|]. simpl. destruct (bexec ld b v) as [b1|]; simpl; [apply IH|reflexivity].
Qed.

Lemma brun_app_inv ld b l1 l2 b2 : brun ld b (l1 ++ l2) = Some b2 -> exists b1, brun ld b l1 = Some b1 /\ brun ld b1 l2 = Some b2.
Proof. rewrite brun_app. destruct (brun ld b l1) as [b1|]; simpl; [|discriminate]. eauto. Qed.

Lemma brun_inv ld (I : box -> Prop) (ok : bev -> Prop) :
  (forall b v b', ok v -> I b -> bexec ld b v = Some b' -> I b') ->
  forall l b b', Forall ok l -> I b -> brun ld b l = Some b' -> I b'.
Proof.
  intros H l. induction l as [|v l IH]; intros b b' F Ib R; simpl in R.
  - injection R as <-. exact Ib.
  - destruct (bexec ld b v) as [b1|] eqn:E; simpl in R; [|discriminate]. inversion F; subst.
    eapply IH; [eassumption| |exact R]. eapply H; eassumption.
Qed.

(** A pending request is served within a bounded number of steps of the loop *)
Lemma serve ld (I : box -> Prop) (mu : box -> nat) (Done : box -> senv -> Prop) (ok : bev -> Prop) :
  (forall b v b', (forall e, v <> Step e) -> ok v -> I b -> bexec ld b v = Some b' -> I b' /\ (mu b' <= mu b)%nat) ->
  (forall b e b', I b -> bstep ld e b = Some b' -> Done b e \/ (I b' /\ (mu b' < mu b)%nat)) ->
  (forall b, I b -> (0 < mu b)%nat) ->
  forall l b b', Forall ok l -> I b -> brun ld b l = Some b' -> (mu b <= n_steps l)%nat ->
  exists l1 e l2 b1, l = l1 ++ Step e :: l2 /\ brun ld b l1 = Some b1 /\ Done b1 e.
Proof.
  intros H1 H2 H3 l. induction l as [|v l IH]; intros b b' F Ib R M.
  - cbn in M. specialize (H3 b Ib). lia.
  - simpl in R. destruct (bexec ld b v) as [b1|] eqn:E; simpl in R; [|discriminate]. inversion F as [|? ? F1 F2]; subst.
    assert (C : (exists e, v = Step e /\ Done b e) \/ (I b1 /\ (mu b1 <= n_steps l)%nat)).
    { destruct v as [z m|i|e].
      - right. destruct (H1 b (Rx z m) b1 ltac:(discriminate) F1 Ib E) as [A B]. split; [exact A|]. cbn in M |- *. unfold n_steps in *. lia.
      - right. destruct (H1 b (Fail i) b1 ltac:(discriminate) F1 Ib E) as [A B]. split; [exact A|]. cbn in M |- *. unfold n_steps in *. lia.
      - destruct (H2 b e b1 Ib E) as [D|[A B]]; [left; eauto|right]. split; [exact A|]. unfold n_steps in *. cbn in M. lia. }
    destruct C as [[e [-> D]] | [A B]].
    + exists [], e, l, b. repeat split. exact D.
    + destruct (IH b1 b' F2 A R B) as [l1 [e [l2 [b2 [X [Y Z']]]]]]. exists (v :: l1), e, l2, b2. subst l. repeat split.
      * simpl. rewrite E. exact Y.
      * exact Z'.
Qed.

Definition ord (p : bpc) : nat :=
  match p with
  | PImu => 0 | PImuPub => 1 | PImuM1 => 2 | PImuM2 => 3 | PImuTmp => 4
  | PMtrMode => 5 | PMtrFlag => 6 | PMtrClear => 7 | PMtrRdM => 8 | PMtrRd0 => 9 | PMtrRd1 => 10 | PMtrRd2 => 11 | PMtrChk => 12 | PMtrAct => 13
  | PRwaMode => 14 | PRwaFlag => 15 | PRwaClear => 16 | PRwaRdM => 17 | PRwaRd0 => 18 | PRwaRd1 => 19 | PRwaRd2 => 20 | PRwaChk => 21
  | PRwaSense => 22 | PRwaPub => 23
  | PSsa => 24 | PSsaPub => 25 | PSsaMode => 26 | PSsaCalc => 27
  | PHavt => 28 | PRstFlag => 29 | PRstClear => 30 | PRstRd => 31 | PRstChk => 32 | PDisFlag => 33 | PDisClear => 34 | PDisRd => 35 | PDisChk => 36
  end.

(** [g]: the loop is on its way to act on the request; [c] the last point before that, [x] the one after acting *)
Definition mu (c x : nat) (g : box -> bool) (b : box) : nat :=
  if g b then x - ord (pc b) else if (ord (pc b) <=? c)%nat then x - ord (pc b) else 37 - ord (pc b) + x.

(** ** Rods *)

Definition rod_good (b : box) : bool :=
  match pc b with
  | PMtrRdM => negb (m_flg (r_mtr (rg b)))
  | PMtrRd0 | PMtrRd1 | PMtrRd2 | PMtrChk => negb (m_flg (r_mtr (rg b))) && negb (l_mode b =? 1)
  | PMtrAct => negb (l_mode b =? 1)
  | _ => false
  end.
Definition rod_pending (b : box) : Prop :=
  r_mode (rg b) = 1 /\ m_mode (r_mtr (rg b)) <> 1 /\ (m_flg (r_mtr (rg b)) = true \/ rod_good b = true).
Definition rod_mu := mu 7 14 rod_good.

Ltac bcbn := cbn [rg dv pc l_mode l_cmd l_tab at_pc b_rg b_dv b_lm b_lc b_lt] in *.
Ltac step_cases b E :=
  destruct b as [r h p lm lc lt]; unfold bstep in E; bcbn; destruct p;
  repeat (match type of E with
          | context [if ?c then _ else _] => destruct c eqn:?
          | context [rwa_actuate ?a ?b ?c ?d] => let h' := fresh "h'" in destruct (rwa_actuate a b c d) as [h'|] eqn:?; cbn [option_map] in E; [|discriminate E]
          | context [sun_calc ?a ?b] => destruct (sun_calc a b) as [? ?] eqn:?
          end);
  (match type of E with Some ?x = Some ?y => assert (E' : y = x) by congruence; subst y; clear E end); bcbn.
Ltac ifs :=
  repeat match goal with
    | |- context [if ?c then _ else _] =>
        match c with context [if _ then _ else _] => fail 1 | context [match _ with PImu => _ | _ => _ end] => fail 1 | _ => idtac end;
        match type of c with bool => destruct c eqn:? end; cbn [negb andb orb] in *
    | H : context [if ?c then _ else _] |- _ =>
        match c with context [if _ then _ else _] => fail 1 | context [match _ with PImu => _ | _ => _ end] => fail 1 | _ => idtac end;
        match type of c with bool => destruct c eqn:? end; cbn [negb andb orb] in *
    end.
Ltac bfix :=
  repeat match goal with
    | H : negb _ = true |- _ => apply negb_true_iff in H
    | H : negb _ = false |- _ => apply negb_false_iff in H
    | H : (_ && _)%bool = true |- _ => apply andb_true_iff in H; destruct H
    | H : (_ && _)%bool = false |- _ => apply andb_false_iff in H; destruct H
    | H : (_ =? _) = true |- _ => apply Z.eqb_eq in H
    | H : (_ =? _) = false |- _ => apply Z.eqb_neq in H
    end.

Lemma mu_pos c x g b : (c < x)%nat -> (g b = true -> ord (pc b) < x)%nat -> (0 < mu c x g b)%nat.
Proof.
  intros H G. unfold mu. destruct (g b); [specialize (G eq_refl); lia|].
  destruct (Nat.leb_spec (ord (pc b)) c); [lia|]. destruct (pc b); cbn; lia.
Qed.

Ltac serve_solve :=
  bfix; ifs; bfix; try congruence; try discriminate;
  try (left; repeat split; assumption);
  try (right; cbn; repeat split; try assumption; try (left; assumption); try tauto; try (apply Z.eqb_neq; assumption); lia).

Lemma rod_serve_step ld b e b' : rod_pending b -> bstep ld e b = Some b' ->
  (pc b = PMtrAct /\ l_mode b <> 1) \/ (rod_pending b' /\ (rod_mu b' < rod_mu b)%nat).
Proof.
  unfold rod_pending, rod_mu, mu, rod_good. intros [A [B C]] E. step_cases b E.
  all: try (destruct (m_flg (r_mtr r)) eqn:F; cbn [negb andb] in *; destruct C as [C|C]; try discriminate C).
  all: serve_solve.
Qed.


Lemma rod_serve_quiet ld b v b' : (forall e, v <> Step e) -> avoids [1; 10; 11; 12] v -> rod_pending b -> bexec ld b v = Some b' ->
  rod_pending b' /\ (rod_mu b' <= rod_mu b)%nat.
Proof.
  intros N T [A [B C]] E. destruct v as [z m|i|e]; [| |exfalso; apply (N e); reflexivity]; cbn [bexec] in E.
  - cbn [avoids In] in T. assert (E' : b' = b_rg b (recv z m (rg b)) (pc b)) by congruence. subst b'.
    unfold rod_pending, rod_mu, mu, rod_good in *. bcbn.
    rewrite (recv_mtr z m (rg b)), (recv_rmode z m (rg b)) by (intros X; rewrite X in T; tauto).
    split; [split; [exact A|split; [exact B|exact C]]|]. apply Nat.le_refl.
  - assert (E' : rg b' = rg b /\ pc b' = pc b /\ l_mode b' = l_mode b).
    { destruct (bus_dev i); injection E as <-; repeat split. }
    destruct E' as [E1 [E2 E3]]. unfold rod_pending, rod_mu, mu, rod_good in *. rewrite E1, E2, E3.
    split; [split; [exact A|split; [exact B|exact C]]|]. apply Nat.le_refl.
Qed.

(** rods stay off as long as the mode does *)
Definition in_rods (p : bpc) : bool := (8 <? ord p)%nat && (ord p <? 14)%nat.
Definition rods_off (b : box) : Prop :=
  m_mode (r_mtr (rg b)) <> 1 /\ (in_rods (pc b) = true -> l_mode b <> 1) /\
  forall i, (i < 3)%nat -> fn (dv b) (3 + i) = true -> rod (dv b) i = 0.

Lemma gyr_keeps e a b c d h : let h' := gyr_update e a b c d h in
  fn h' = fn h /\ rod h' = rod h /\ wcw h' = wcw h /\ wccw h' = wccw h /\ spd_rd h' = spd_rd h /\ rmp_rd h' = rmp_rd h /\ volts h' = volts h /\
  b1_rd h' = b1_rd h /\ b2_rd h' = b2_rd h /\ cal2 h' = cal2 h.
Proof.
  unfold gyr_update. cbv zeta. destruct (fn h 0) eqn:F.
  - destruct (e_gyr e) as [[t w]|]; cbn [fn hw_gyr]; destruct (negb (fn h 18)), (negb (fn h 0)); try (repeat split; fail).
    all: match goal with |- context [if ?c then _ else _] => destruct c end; repeat split.
  - destruct (negb (fn h 18)); rewrite ?F; repeat split.
Qed.

Lemma imu_keeps e i h : let h' := imu_update e i h in
  fn h' = fn h /\ rod h' = rod h /\ wcw h' = wcw h /\ wccw h' = wccw h /\ spd_rd h' = spd_rd h /\ rmp_rd h' = rmp_rd h /\ volts h' = volts h.
Proof.
  cbv zeta. unfold imu_update.
  destruct (gyr_keeps e (i_gflt i) (i_des i) (i_tflt i) (i_pwm i) h) as [A [B [C [D [E [F [G _]]]]]]].
  remember (gyr_update e (i_gflt i) (i_des i) (i_tflt i) (i_pwm i) h) as h1. clear Heqh1.
  assert (H1 : forall f, fn (mag1_update e f h1) = fn h1 /\ rod (mag1_update e f h1) = rod h1 /\ wcw (mag1_update e f h1) = wcw h1 /\
    wccw (mag1_update e f h1) = wccw h1 /\ spd_rd (mag1_update e f h1) = spd_rd h1 /\ rmp_rd (mag1_update e f h1) = rmp_rd h1 /\ volts (mag1_update e f h1) = volts h1).
  { intros f. unfold mag1_update. destruct (negb (fn h1 1)); [repeat split|]. destruct (e_b1 e); repeat split. }
  assert (H2 : forall m f h, fn (mag2_update e m f h) = fn h /\ rod (mag2_update e m f h) = rod h /\ wcw (mag2_update e m f h) = wcw h /\
    wccw (mag2_update e m f h) = wccw h /\ spd_rd (mag2_update e m f h) = spd_rd h /\ rmp_rd (mag2_update e m f h) = rmp_rd h /\ volts (mag2_update e m f h) = volts h).
  { intros m f g. unfold mag2_update. destruct (negb (fn g 2)); [repeat split|]. cbv zeta. destruct (m =? 1); destruct (e_b2 e); repeat split. }
  specialize (H1 (i_mflt i)). specialize (H2 (i_m2 i) (i_mflt i) (mag1_update e (i_mflt i) h1)).
  destruct H1 as [H1 [H1a [H1b [H1c [H1d [H1e H1f]]]]]]. destruct H2 as [H2 [H2a [H2b [H2c [H2d [H2e H2f]]]]]].
  repeat split; congruence.
Qed.

(** what a reset or disable command does to rod [i], in terms of the view *)
Lemma rod_of_view i h : (i < 3)%nat -> dev_view (3 + i) h = (fn h (3 + i), rod h i, (false, false), 0).
Proof. intros H. destruct i as [|[|[|i]]]; [reflexivity|reflexivity|reflexivity|lia]. Qed.
Lemma wheel_of_view i h : (i < 3)%nat -> dev_view (7 + i) h = (fn h (7 + i), 0, (wcw h i, wccw h i), 0).
Proof. intros H. destruct i as [|[|[|i]]]; [reflexivity|reflexivity|reflexivity|lia]. Qed.

Lemma table_rod e t h i : (i < 3)%nat ->
  (fn (exec_reset e t h) (3 + i) = fn h (3 + i) /\ rod (exec_reset e t h) i = rod h i \/
   Z.testbit t (Z.of_nat (3 + i)) = true /\ fn (exec_reset e t h) (3 + i) = true /\ rod (exec_reset e t h) i = 0) /\
  (fn (exec_disable e t h) (3 + i) = fn h (3 + i) /\ rod (exec_disable e t h) i = rod h i \/
   Z.testbit t (Z.of_nat (3 + i)) = true /\ fn (exec_disable e t h) (3 + i) = false /\ rod (exec_disable e t h) i = 0).
Proof.
  intros Hi. assert (Hn : (3 + i < n_dev)%nat) by (unfold n_dev; lia).
  assert (NB : bus_dev (3 + i) = false) by (destruct i as [|[|[|i]]]; try reflexivity; lia).
  destruct (reset_table_effect e t h (3 + i) Hn) as [A B]. destruct (disable_table_effect e t h (3 + i) Hn) as [C D].
  rewrite (rod_of_view i (exec_reset e t h) Hi) in A, B. rewrite (rod_of_view i (exec_disable e t h) Hi) in C, D.
  rewrite (rod_of_view i h Hi) in A, C. unfold idle_view in *. cbn [Nat.add] in *.
  destruct (Z.testbit t (Z.of_nat (S (S (S i))))) eqn:T.
  - destruct (B eq_refl) as [f [B1 [B2 _]]]. specialize (D eq_refl). specialize (B2 NB). subst f.
    injection B1 as B3 B4. injection D as D3 D4. split; right; (split; [reflexivity|]); split; assumption.
  - specialize (A eq_refl). specialize (C eq_refl). injection A as A3 A4. injection C as C3 C4. split; left; split; assumption.
Qed.

Lemma table_wheel e t h i : (i < 3)%nat ->
  (fn (exec_reset e t h) (7 + i) = fn h (7 + i) /\ wcw (exec_reset e t h) i = wcw h i /\ wccw (exec_reset e t h) i = wccw h i \/
   Z.testbit t (Z.of_nat (7 + i)) = true /\ fn (exec_reset e t h) (7 + i) = true /\ stopped (exec_reset e t h) i) /\
  (fn (exec_disable e t h) (7 + i) = fn h (7 + i) /\ wcw (exec_disable e t h) i = wcw h i /\ wccw (exec_disable e t h) i = wccw h i \/
   Z.testbit t (Z.of_nat (7 + i)) = true /\ fn (exec_disable e t h) (7 + i) = false /\ stopped (exec_disable e t h) i).
Proof.
  intros Hi. assert (Hn : (7 + i < n_dev)%nat) by (unfold n_dev; lia).
  assert (NB : bus_dev (7 + i) = false) by (destruct i as [|[|[|i]]]; try reflexivity; lia).
  destruct (reset_table_effect e t h (7 + i) Hn) as [A B]. destruct (disable_table_effect e t h (7 + i) Hn) as [C D].
  rewrite (wheel_of_view i (exec_reset e t h) Hi) in A, B. rewrite (wheel_of_view i (exec_disable e t h) Hi) in C, D.
  rewrite (wheel_of_view i h Hi) in A, C. unfold idle_view, stopped in *. cbn [Nat.add] in *.
  destruct (Z.testbit t (Z.of_nat (S (S (S (S (S (S (S i))))))))) eqn:T.
  - destruct (B eq_refl) as [f [B1 [B2 _]]]. specialize (D eq_refl). specialize (B2 NB). subst f.
    injection B1 as B3 B4 B5. injection D as D3 D4 D5. split; right; (split; [reflexivity|]); (split; [assumption|split; assumption]).
  - specialize (A eq_refl). specialize (C eq_refl). injection A as A3 A4 A5. injection C as C3 C4 C5. split; left; (split; [assumption|split; assumption]).
Qed.

Lemma fail_rod_wheel i b b' ld : bexec ld b (Fail i) = Some b' ->
  rg b' = rg b /\ pc b' = pc b /\ l_mode b' = l_mode b /\ l_cmd b' = l_cmd b /\ l_tab b' = l_tab b /\
  (forall k, bus_dev k = false -> fn (dv b') k = fn (dv b) k) /\ rod (dv b') = rod (dv b) /\ wcw (dv b') = wcw (dv b) /\ wccw (dv b') = wccw (dv b) /\
  heat (dv b') = heat (dv b) /\ (forall k, fn (dv b') k = true -> fn (dv b) k = true).
Proof.
  cbn [bexec]. destruct (bus_dev i) eqn:B; intros E; assert (E' := E); injection E' as <-; repeat split.
  - intros k K. cbn. unfold fup. destruct (Nat.eqb_spec k i); [congruence|reflexivity].
  - intros k. cbn. unfold fup. destruct (Nat.eqb_spec k i); [discriminate|auto].
  - auto.
Qed.

Lemma dev_bus i : (i < 3)%nat -> bus_dev (3 + i) = false /\ bus_dev (7 + i) = false.
Proof. destruct i as [|[|[|i]]]; intros; [split; reflexivity|split; reflexivity|split; reflexivity|lia]. Qed.

Lemma rods_off_inv ld b v b' : avoids [10] v -> rods_off b -> bexec ld b v = Some b' -> rods_off b'.
Proof.
  intros T [A [B C]] E. destruct v as [z m|i|e].
  - cbn [bexec] in E. assert (E' : b' = b_rg b (recv z m (rg b)) (pc b)) by congruence. subst b'. unfold rods_off. bcbn.
    rewrite recv_mmode by (cbn [avoids In] in T; intros X; rewrite X in T; tauto). auto.
  - apply fail_rod_wheel in E. destruct E as [E1 [E2 [E3 [_ [_ [E4 [E5 _]]]]]]]. unfold rods_off. rewrite E1, E2, E3, E5.
    split; [exact A|split; [exact B|]]. intros k Hk. destruct (dev_bus k Hk) as [D _]. rewrite (E4 _ D). apply C. exact Hk.
  - cbn [bexec] in E. unfold rods_off in *. step_cases b E.
    all: try (split; [exact A|split; [first [exact B | intros _; exact (B eq_refl) | discriminate] |exact C]]).
    + split; [exact A|split; [discriminate|]]. destruct (imu_keeps e (r_imu r) h) as [K1 [K2 _]]. rewrite K1, K2. exact C.
    + split; [exact A|split; [intros _; exact A|exact C]].
    + split; [exact A|split; [discriminate|]]. specialize (B eq_refl). intros i Hi F.
      destruct (mtr_actuate_rest ld lm lc (m_lim (r_mtr r)) h) as [K _]. rewrite K in F.
      rewrite mtr_actuate_rod by exact Hi. rewrite F. apply Z.eqb_neq in B. rewrite B. reflexivity.
    + split; [exact A|split; [discriminate|]].
      match goal with H : rwa_actuate _ _ _ _ = Some _ |- _ => apply rwa_actuate_rest in H; destruct H as [[K1 [K2 _]] _] end.
      rewrite K1, K2. exact C.
    + split; [exact A|split; [discriminate|]]. intros i Hi F. destruct (table_rod e lt h i Hi) as [[[X Y]|[_ [X Y]]] _]; [|exact Y].
      rewrite Y. apply C; [exact Hi|]. rewrite <- X. exact F.
    + split; [exact A|split; [discriminate|]]. intros i Hi F. destruct (table_rod e lt h i Hi) as [_ [[X Y]|[_ [X Y]]]]; [|exact Y].
      rewrite Y. apply C; [exact Hi|]. rewrite <- X. exact F.
Qed.

Theorem rods_off_served ld b l1 l2 b' :
  r_mode (rg b) = 1 -> m_mode (r_mtr (rg b)) <> 1 -> m_flg (r_mtr (rg b)) = true ->
  Forall (avoids [1; 10; 11; 12]) l1 -> (43 <= n_steps l1)%nat -> Forall (avoids [10]) l2 ->
  brun ld b (l1 ++ l2) = Some b' -> forall i, (i < 3)%nat -> fn (dv b') (3 + i) = true -> rod (dv b') i = 0.
Proof.
  intros A B C T1 N T2 R.
  assert (P : rod_pending b) by (split; [exact A|split; [exact B|left; exact C]]).
  destruct (brun_app_inv _ _ _ _ _ R) as [bm [R1 R2]].
  destruct (serve ld rod_pending rod_mu (fun b _ => rod_pending b /\ pc b = PMtrAct /\ l_mode b <> 1) (avoids [1; 10; 11; 12]))
     with (l := l1) (b := b) (b' := bm) as [la [e [lb [b1 [X [Y [D0 [D1 D2]]]]]]]]; try assumption.
  { intros. eapply rod_serve_quiet; eassumption. }
  { intros b0 e0 b0' I0 S0. destruct (rod_serve_step ld b0 e0 b0' I0 S0); [left; tauto|right; assumption]. }
  { intros g _. apply mu_pos; [lia|]. unfold rod_good. destruct (pc g); cbn; intros; lia || discriminate. }
  { unfold rod_mu, mu. destruct (rod_good b), (pc b); cbn; lia. }
  (* the state right after acting *)
  assert (R3 : exists b2, bstep ld e b1 = Some b2 /\ brun ld b2 (lb ++ l2) = Some b').
  { rewrite X, <- app_assoc in R. destruct (brun_app_inv _ _ _ _ _ R) as [b1' [Y' R3]]. assert (b1' = b1) by congruence. subst b1'.
    cbn [app brun bexec] in R3. destruct (bstep ld e b1) as [b2|]; [|discriminate R3]. exists b2. split; [reflexivity|exact R3]. }
  destruct R3 as [b2 [S R3]].
  assert (O : rods_off b2).
  { destruct D0 as [_ [D0 _]]. unfold bstep in S. rewrite D1 in S. injection S as <-. unfold rods_off. bcbn.
    split; [exact D0|split; [discriminate|]]. intros i Hi F.
    destruct (mtr_actuate_rest ld (l_mode b1) (l_cmd b1) (m_lim (r_mtr (rg b1))) (dv b1)) as [K _]. rewrite K in F.
    rewrite mtr_actuate_rod by exact Hi. rewrite F. apply Z.eqb_neq in D2. rewrite D2. reflexivity. }
  assert (T3 : Forall (avoids [10]) (lb ++ l2)).
  { apply Forall_app. split; [|exact T2]. rewrite X in T1. apply Forall_app in T1. destruct T1 as [_ T1]. inversion T1; subst.
    eapply Forall_impl; [|eassumption]. intros [z m|k|g]; cbn; tauto. }
  destruct (brun_inv ld rods_off (avoids [10]) (rods_off_inv ld) _ _ _ T3 O R3) as [_ [_ Z']]. exact Z'.
Qed.
