(** More proofs about the attitude computer's loop: wheels, hardware table, what is left alone. *)
From Verif Require Import Base AdcsModel AdcsSpec AdcsConvProofs AdcsRecvProofs AdcsActProofs AdcsRunProofs.
From Coq Require Import QArith Qabs Lqa.
Local Open Scope Z_scope.

Ltac rx_subst E b' := cbn [bexec] in E; match type of E with Some ?x = Some ?y => assert (E' : y = x) by congruence; subst y; clear E end.

Ltac av T := let X := fresh in intros X; rewrite X in T; cbn in T; tauto.

(** ** Wheels *)

Definition off_mode (m : Z) : bool := negb (m =? 1) && negb (m =? 2).
Lemma off_mode_spec m : off_mode m = true <-> m <> 1 /\ m <> 2.
Proof. unfold off_mode. rewrite andb_true_iff, !negb_true_iff, !Z.eqb_neq. tauto. Qed.

Definition rwa_good (b : box) : bool :=
  match pc b with
  | PRwaRdM => negb (w_flg (r_rwa (rg b)))
  | PRwaRd0 | PRwaRd1 | PRwaRd2 | PRwaChk => negb (w_flg (r_rwa (rg b))) && off_mode (l_mode b)
  | _ => false
  end.
Definition rwa_pending (b : box) : Prop :=
  r_mode (rg b) = 1 /\ off_mode (w_mode (r_rwa (rg b))) = true /\ (w_flg (r_rwa (rg b)) = true \/ rwa_good b = true).
Definition rwa_mu := mu 16 22 rwa_good.
Definition rwa_done (b : box) : Prop := pc b = PRwaChk /\ off_mode (l_mode b) = true /\ w_flg (r_rwa (rg b)) = false.

Lemma rwa_serve_step ld b e b' : rwa_pending b -> bstep ld e b = Some b' ->
  rwa_done b \/ (rwa_pending b' /\ (rwa_mu b' < rwa_mu b)%nat).
Proof.
  unfold rwa_pending, rwa_mu, mu, rwa_good, rwa_done. intros [A [B C]] E. step_cases b E.
  all: try (destruct (w_flg (r_rwa r)) eqn:F; cbn [negb andb] in *; destruct C as [C|C]; try discriminate C).
  all: serve_solve.
Qed.

Lemma rwa_serve_quiet ld b v b' : (forall e, v <> Step e) -> avoids [1; 3] v -> rwa_pending b -> bexec ld b v = Some b' ->
  rwa_pending b' /\ (rwa_mu b' <= rwa_mu b)%nat.
Proof.
  intros N T [A [B C]] E. destruct v as [z m|i|e]; [| |exfalso; apply (N e); reflexivity].
  - cbn [avoids In] in T. rx_subst E b'.
    unfold rwa_pending, rwa_mu, mu, rwa_good in *. bcbn.
    apply off_mode_spec in B. destruct B as [B1 B2].
    assert (T1 : addr m <> 1) by av T. assert (T3 : addr m <> 3) by av T.
    rewrite (recv_rwa_off z m (rg b) T3 B1 B2), (recv_wmode z m (rg b) T3), (recv_rmode z m (rg b) T1).
    split; [split; [exact A|split; [apply off_mode_spec; auto|exact C]]|]. apply Nat.le_refl.
  - apply fail_rod_wheel in E. destruct E as [E1 [E2 [E3 _]]].
    unfold rwa_pending, rwa_mu, mu, rwa_good in *. rewrite E1, E2, E3.
    split; [split; [exact A|split; [exact B|exact C]]|]. apply Nat.le_refl.
Qed.

Definition in_wheels (p : bpc) : bool := (17 <? ord p)%nat && (ord p <? 22)%nat.
Definition wheels_off (b : box) : Prop :=
  off_mode (w_mode (r_rwa (rg b))) = true /\ (in_wheels (pc b) = true -> off_mode (l_mode b) = true) /\
  forall i, (i < 3)%nat -> fn (dv b) (7 + i) = true -> stopped (dv b) i.

Lemma wheels_off_inv ld b v b' : avoids [3] v -> wheels_off b -> bexec ld b v = Some b' -> wheels_off b'.
Proof.
  intros T [A [B C]] E. destruct v as [z m|i|e].
  - rx_subst E b'. unfold wheels_off. bcbn.
    rewrite recv_wmode by (cbn [avoids In] in T; intros X; rewrite X in T; tauto). auto.
  - apply fail_rod_wheel in E. destruct E as [E1 [E2 [E3 [_ [_ [E4 [_ [E5 [E6 _]]]]]]]]]. unfold wheels_off, stopped in *. rewrite E1, E2, E3, E5, E6.
    split; [exact A|split; [exact B|]]. intros k Hk. destruct (dev_bus k Hk) as [_ D]. rewrite (E4 _ D). apply C. exact Hk.
  - cbn [bexec] in E. unfold wheels_off in *. step_cases b E.
    all: try (split; [exact A|split; [first [exact B | intros _; exact (B eq_refl) | discriminate] |exact C]]).
    + split; [exact A|split; [discriminate|]]. unfold stopped in *. destruct (imu_keeps e (r_imu r) h) as [K1 [_ [K2 [K3 _]]]]. rewrite K1, K2, K3. exact C.
    + split; [exact A|split; [discriminate|]]. unfold stopped in *.
      destruct (mtr_actuate_rest ld lm lc (m_lim (r_mtr r)) h) as [K1 [K2 [K3 _]]]. rewrite K1, K2, K3. exact C.
    + split; [exact A|split; [intros _; exact A|exact C]].
    + split; [exact A|split; [discriminate|]]. specialize (B eq_refl). apply off_mode_spec in B. destruct B as [B1 B2]. intros i Hi F.
      match goal with H : rwa_actuate _ _ _ _ = Some _ |- _ => pose proof (rwa_actuate_rest _ _ _ _ _ H) as [[K _] _]; pose proof (disabled_stops _ _ _ _ _ i B1 B2 Hi H) as [D _] end.
      rewrite K in F. apply D. exact F.
    + split; [exact A|split; [discriminate|]]. intros i Hi F. destruct (table_wheel e lt h i Hi) as [[[X [Y Y']]|[_ [X Y]]] _]; [|exact Y].
      unfold stopped. rewrite Y, Y'. apply C; [exact Hi|]. rewrite <- X. exact F.
    + split; [exact A|split; [discriminate|]]. intros i Hi F. destruct (table_wheel e lt h i Hi) as [_ [[X [Y Y']]|[_ [X Y]]]]; [|exact Y].
      unfold stopped. rewrite Y, Y'. apply C; [exact Hi|]. rewrite <- X. exact F.
Qed.

Lemma run_split ld b l1 e lb l2 b1 b' : brun ld b ((l1 ++ Step e :: lb) ++ l2) = Some b' -> brun ld b l1 = Some b1 ->
  exists b2, bstep ld e b1 = Some b2 /\ brun ld b2 (lb ++ l2) = Some b'.
Proof.
  intros R Y. rewrite <- app_assoc in R. destruct (brun_app_inv _ _ _ _ _ R) as [b1' [Y' R3]]. assert (b1' = b1) by congruence. subst b1'.
  cbn [app brun bexec] in R3. destruct (bstep ld e b1) as [b2|]; [|discriminate R3]. exists b2. split; [reflexivity|exact R3].
Qed.

Theorem wheels_off_served ld b l1 l2 b' :
  r_mode (rg b) = 1 -> w_mode (r_rwa (rg b)) <> 1 -> w_mode (r_rwa (rg b)) <> 2 -> w_flg (r_rwa (rg b)) = true ->
  Forall (avoids [1; 3]) l1 -> (43 <= n_steps l1)%nat -> Forall (avoids [3]) l2 ->
  brun ld b (l1 ++ l2) = Some b' -> forall i, (i < 3)%nat -> fn (dv b') (7 + i) = true -> stopped (dv b') i.
Proof.
  intros A B1 B2 C T1 N T2 R.
  assert (P : rwa_pending b) by (split; [exact A|split; [apply off_mode_spec; auto|left; exact C]]).
  destruct (brun_app_inv _ _ _ _ _ R) as [bm [R1 R2]].
  destruct (serve ld rwa_pending rwa_mu (fun b _ => rwa_pending b /\ rwa_done b) (avoids [1; 3]))
     with (l := l1) (b := b) (b' := bm) as [la [e [lb [b1 [X [Y [D0 [D1 [D2 D3]]]]]]]]]; try assumption.
  { intros. eapply rwa_serve_quiet; eassumption. }
  { intros b0 e0 b0' I0 S0. destruct (rwa_serve_step ld b0 e0 b0' I0 S0); [left; tauto|right; assumption]. }
  { intros g _. apply mu_pos; [lia|]. unfold rwa_good. destruct (pc g); cbn; intros; lia || discriminate. }
  { unfold rwa_mu, mu. destruct (rwa_good b), (pc b); cbn; lia. }
  rewrite X in R. destruct (run_split _ _ _ _ _ _ _ _ R Y) as [b2 [S R3]].
  assert (O : wheels_off b2).
  { destruct D0 as [_ [D0 _]]. unfold bstep in S. rewrite D1, D3 in S.
    destruct (rwa_actuate e (l_mode b1) (l_cmd b1) (dv b1)) as [h'|] eqn:EA; cbn [option_map] in S; [|discriminate S]. injection S as <-.
    unfold wheels_off. bcbn. split; [exact D0|split; [discriminate|]]. intros i Hi F.
    apply off_mode_spec in D2. destruct D2 as [M1 M2]. destruct (rwa_actuate_rest _ _ _ _ _ EA) as [[K _] _].
    destruct (disabled_stops _ _ _ _ _ i M1 M2 Hi EA) as [Z' _]. apply Z'. rewrite <- K. exact F. }
  assert (T3 : Forall (avoids [3]) (lb ++ l2)).
  { apply Forall_app. split; [|exact T2]. rewrite X in T1. apply Forall_app in T1. destruct T1 as [_ T1]. inversion T1; subst.
    eapply Forall_impl; [|eassumption]. intros [z m|k|g]; cbn; tauto. }
  destruct (brun_inv ld wheels_off (avoids [3]) (wheels_off_inv ld) _ _ _ T3 O R3) as [_ [_ Z']]. exact Z'.
Qed.

(** Nothing moves the wheels while no command is pending and the mode is off *)
Definition no_cmd (b : box) : Prop :=
  off_mode (w_mode (r_rwa (rg b))) = true /\ w_flg (r_rwa (rg b)) = false /\ (16 <=? ord (pc b))%nat && (ord (pc b) <? 24)%nat = false /\
  h_rflg (r_hav (rg b)) = false /\ h_dflg (r_hav (rg b)) = false /\ (30 <=? ord (pc b))%nat && negb (ord (pc b) =? 33)%nat = false.

Definition wheels_same (wc wcc : nat -> bool) (sp rp sr rr : vec) (b : box) : Prop :=
  no_cmd b /\ wcw (dv b) = wc /\ wccw (dv b) = wcc /\ w_spd (r_rwa (rg b)) = sp /\ w_rmp (r_rwa (rg b)) = rp /\ spd_rd (dv b) = sr /\ rmp_rd (dv b) = rr.

Lemma wheels_same_inv ld wc wcc sp rp sr rr b v b' : avoids [3; 28; 29] v -> wheels_same wc wcc sp rp sr rr b -> bexec ld b v = Some b' ->
  wheels_same wc wcc sp rp sr rr b'.
Proof.
  intros T [[A [B [C [D1 [D2 D3]]]]] [W1 [W2 [W3 [W4 [W5 W6]]]]]] E. destruct v as [z m|i|e].
  - rx_subst E b'. cbn [avoids In] in T. unfold wheels_same, no_cmd. bcbn.
    assert (T3 : addr m <> 3) by av T. assert (T4 : addr m <> 28) by av T. assert (T5 : addr m <> 29) by av T.
    destruct (recv_readings z m (rg b)) as [Q1 [Q2 _]]. destruct (recv_rst z m (rg b) T4) as [_ Q3]. destruct (recv_dis z m (rg b) T5) as [_ Q4].
    apply off_mode_spec in A. destruct A as [A1 A2].
    rewrite (recv_rwa_off z m (rg b) T3 A1 A2), (recv_wmode z m (rg b) T3), Q1, Q2, Q3, Q4.
    repeat split; try assumption. apply off_mode_spec. auto.
  - assert (K : spd_rd (dv b') = spd_rd (dv b) /\ rmp_rd (dv b') = rmp_rd (dv b)).
    { cbn [bexec] in E. destruct (bus_dev i); injection E as <-; split; reflexivity. }
    destruct K as [K1 K2]. apply fail_rod_wheel in E. destruct E as [E1 [E2 [_ [_ [_ [_ [_ [E5 [E6 _]]]]]]]]].
    unfold wheels_same, no_cmd. rewrite E1, E2, E5, E6, K1, K2. repeat split; assumption.
  - cbn [bexec] in E. unfold wheels_same, no_cmd in *. step_cases b E; try discriminate C; try discriminate D3.
    all: try (cbn in *; congruence).
    all: try (repeat split; (assumption || reflexivity)).
    + destruct (imu_keeps e (r_imu r) h) as [K1 [_ [K2 [K3 [K4 [K5 _]]]]]]. rewrite K2, K3, K4, K5. repeat split; assumption.
    + destruct (mtr_actuate_rest ld lm lc (m_lim (r_mtr r)) h) as [K1 [K2 [K3 [_ [_ [_ [_ [_ [_ [K4 [K5 _]]]]]]]]]]]. rewrite K2, K3, K4, K5. repeat split; assumption.
Qed.
