(** Concrete flights for the refutations and examples of PropertiesChain. *)
From Verif Require Import Base FaultModel FaultHandlerModel FaultHandlerSpec FaultHandlerProofs FaultEscalationProofs
  MissionModel MissionSpec MissionProofs MissionWitness ChainModel ChainSpec ChainProofs.

(** persistence 1 for all, as the constructors of the tasks have it *)
Definition ones (i : fid) : Z := 1.
Definition is_owned (i : fid) : bool := existsb (fid_eq i) owned.
(** an uneventful environment with the faults evaluated; the ground may have chosen the mission state [s] *)
Definition calm (s : Z) (o : obs) (c : craft) : world :=
  let w := quiet d_follower p_idle one_day (c_world c) in
  let h := wh w in
  with_h w (mk_h (hc h) (set_mission (hb h) s)
                 (fun i => if is_owned i then fault_evaluate (hc h) (told o (c_vbatt c) i) (hf (wh (c_world c)) i) else fault_make 100)
                 (hq h) (hk h) (hv h) true).
Lemma is_owned_in i : In i owned -> is_owned i = true.
Proof. unfold is_owned. cbn. intuition; subst; reflexivity. Qed.
Lemma calm_env g s o c : (g = false -> s = wmission (c_world c)) -> environment g (c_world c) (calm s o c).
Proof. intros H. unfold environment. repeat split. exact H. Qed.
Lemma calm_step g s o inp c x : (g = false -> s = wmission (c_world c)) -> mission_execute inp (calm s o c) = Some x ->
  craft_cycle g o inp c (calm s o c) (mk_craft (match o_hk o with Some v => v | None => c_vbatt c end) x).
Proof.
  intros G X. split; [apply calm_env; exact G|]. split; [|split; [exact X|reflexivity]].
  intros i Hi. cbn [calm wh with_h hf]. rewrite (is_owned_in i Hi). reflexivity.
Qed.
Lemma calm_standby s o c : ~ response_standby (calm s o c).
Proof.
  intros (_ & _ & [(_ & X)|[(_ & X)|[(X & _)|[X|X]]]]); try discriminate X.
  destruct X as [(_ & _ & X)|[(X & _)|((X & _) & _)]].
  - unfold silent_for in X. cbn in X. rewrite Z.sub_diag in X. vm_compute in X. apply X. reflexivity.
  - discriminate X.
  - vm_compute in X. apply X. reflexivity.
Qed.
Lemma calm_safehold s o c : (forall i, In i owned -> In s (guarded i) -> ~ faulted (wh (calm s o c)) i) -> ~ response_safehold (calm s o c).
Proof.
  intros H (_ & [(G & X)|[(G & i & Hi & X)|[(G & X)|(_ & X & _)]]]).
  - apply (H LowBatt); [cbn; auto|exact G|exact X].
  - assert (In i owned) by (cbn in *; intuition). apply (H i); auto. cbn in Hi. destruct Hi as [<-|[<-|[<-|[<-|[]]]]]; exact G.
  - apply (H AttEstimator); [cbn; auto 10|exact G|exact X].
  - discriminate X.
Qed.

Definition cold : craft := mk_craft 8000 (mission_construct 1
  (mk_world (mk_h 0 (mk_bus m_startup p_idle 0 false 0 20 0 0) (fun _ => fault_make 1) (mk_q 0 0 true) (mk_k true one_day 100 0)
                  (mk_v 20 0 false) true)
            (mk_m a_zero_torque d_follower true true true 0 one_day 106 true false false false 0 0 false))).
Lemma cold_booted : booted ones 8000 cold.
Proof. split; [eexists; eexists; reflexivity|]. repeat split. Qed.
Lemma ones_ok : forall j, In j owned -> 0 <= ones j < 2 ^ 32.
Proof. intros. unfold ones. lia. Qed.

(** a dying battery, read in every cycle *)
Definition dying : obs := mk_obs (Some 5000) 7300 (fun _ => false).
(** housekeeping data not readable *)
Definition blind : obs := mk_obs None 7300 (fun _ => false).

Lemma present_other v o i n : o_cond o = (fun _ => false) -> i <> LowBatt -> present_for v i (repeat o n) = 0.
Proof. intros E N. destruct n; [reflexivity|]. cbn [repeat present_for present]. rewrite E. destruct i; auto; contradiction. Qed.

(** one more cycle of docking *)
Lemma docking_first : exists c, flight ones 8000 (repeat dying 1) c /\ wmission (c_world c) = m_docking /\ wcc (c_world c) = 1 /\
  mm_have_entry (wm (c_world c)) = true /\ mm_enter_docking (wm (c_world c)) = 1 /\ mm_adcs (wm (c_world c)) = a_startup.
Proof.
  destruct (mission_execute no_inputs (calm m_docking dying cold)) as [x|] eqn:E; [|vm_compute in E; discriminate E].
  exists (mk_craft 5000 x).
  split; [exact (fl_cycle _ _ [] cold true dying no_inputs _ _ (fl_boot _ _ _ cold_booted) (calm_step true _ _ _ _ _ ltac:(discriminate) E))|].
  clear -E. vm_compute in E. injection E as <-. repeat split.
Qed.

Lemma docking_more n : Z.of_nat n <= one_day -> exists c, flight ones 8000 (repeat dying (S n)) c /\ wmission (c_world c) = m_docking /\
  wcc (c_world c) = 1 + Z.of_nat n /\ mm_have_entry (wm (c_world c)) = true /\ mm_enter_docking (wm (c_world c)) = 1.
Proof.
  induction n as [|n IH]; intros L; [destruct docking_first as (c & F & A & B & D & G & _); exists c; auto|].
  destruct (IH ltac:(lia)) as (c & F & A & B & D & G).
  assert (OD : one_day < 2 ^ 31) by (vm_compute; reflexivity).
  set (w1 := calm m_docking dying c).
  assert (NR : no_response w1).
  { split; [|apply calm_standby]. apply calm_safehold. intros i _ HG. exfalso. clear -HG.
    destruct i; cbn in HG; repeat (destruct HG as [HG|HG]; [discriminate HG|]); exact HG. }
  destruct (no_response_dispatch no_inputs w1 NR) as (h & E & M & C).
  assert (M1 : wmission w1 = m_docking) by reflexivity. rewrite M1 in E.
  change (dispatch no_inputs m_docking (with_h w1 h)) with (Some (dispatch_docking no_inputs (with_h w1 h))) in E.
  destruct (dispatch_docking_spec no_inputs (with_h w1 h)) as (S1 & S2 & S3).
  assert (W : wcc (with_h w1 h) = 2 + Z.of_nat n).
  { rewrite C. unfold w1. cbn [calm wcc wh with_h hc quiet]. change (hc (wh (c_world c))) with (wcc (c_world c)). rewrite B, u32_id; lia. }
  assert (HE : mm_have_entry (wm (with_h w1 h)) = true) by exact D.
  assert (EE : mm_enter_docking (wm (with_h w1 h)) = 1) by exact G.
  assert (LL : mm_dock_limit (wm (with_h w1 h)) = one_day) by reflexivity.
  rewrite HE, EE, LL, W in S1. change (i_docked no_inputs) with false in S1. cbv iota in S1. rewrite u32_id in S1 by lia.
  replace (one_day <? 2 + Z.of_nat n - 1) with false in S1 by lia. rewrite M, M1 in S1.
  destruct (S2 eq_refl) as (S4 & S5); [rewrite M, M1; exact S1|rewrite M, M1; discriminate|].
  rewrite HE, EE in S5.
  eexists. split; [exact (fl_cycle _ _ _ c false dying no_inputs w1 _ F (calm_step false _ _ _ _ _ (fun _ => eq_sym A) E))|].
  cbn [c_world]. repeat split; auto. rewrite S3, W. lia.
Qed.

(** in standby with unreadable housekeeping data *)
Definition good : obs := mk_obs (Some 8000) 7300 (fun _ => false).
Lemma blind_read n : last_read 8000 (repeat blind n) = 8000.
Proof. induction n; auto. Qed.
Lemma blind_present n i : present_for 8000 i (repeat blind n) = 0.
Proof. destruct n; [reflexivity|]. cbn [repeat present_for present]. rewrite blind_read. destruct i; reflexivity. Qed.
Lemma standby_blind n : Z.of_nat n < 2 ^ 32 - 2 -> exists c, flight ones 8000 (repeat blind (S n)) c /\
  wmission (c_world c) = m_follower /\ wcc (c_world c) = 1 + Z.of_nat n.
Proof.
  induction n as [|n IH]; intros L.
  - destruct (mission_execute no_inputs (calm m_follower blind cold)) as [x|] eqn:E; [|vm_compute in E; discriminate E].
    exists (mk_craft 8000 x).
    split; [exact (fl_cycle _ _ [] cold true blind no_inputs _ _ (fl_boot _ _ _ cold_booted) (calm_step true _ _ _ _ _ ltac:(discriminate) E))|].
    clear -E. vm_compute in E. injection E as <-. repeat split.
  - destruct (IH ltac:(lia)) as (c & F & A & B). set (w1 := calm m_follower blind c).
    assert (FF : forall i, In i owned -> ~ faulted (wh w1) i).
    { intros i Hi FI. destruct (mission_execute no_inputs w1) as [x|] eqn:E.
      - pose proof (calm_step false m_follower blind no_inputs c x (fun _ => eq_sym A) E) as ST.
        assert (LL : Z.of_nat (length (blind :: repeat blind (S n))) < 2 ^ 32) by (cbn [length]; rewrite repeat_length; lia).
        apply (proj1 (faulted_iff ones 8000 _ c false blind no_inputs w1 _ i ones_ok F LL ST Hi)) in FI.
        change (blind :: repeat blind (S n)) with (repeat blind (S (S n))) in FI. rewrite blind_present in FI. unfold ones in FI. lia.
      - clear -E. unfold mission_execute in E. destruct (main_execute main_machines (wh w1)) as [h r].
        change (wmission w1) with m_follower in E. cbn in E. destruct r; discriminate E. }
    assert (NR : no_response w1).
    { split; [|apply calm_standby]. apply calm_safehold. intros i Hi _. apply FF. exact Hi. }
    destruct (no_response_dispatch no_inputs w1 NR) as (h & E & M & C). change (wmission w1) with m_follower in E.
    change (dispatch no_inputs m_follower (with_h w1 h)) with (Some (with_h w1 h)) in E.
    eexists. split; [exact (fl_cycle _ _ _ c false blind no_inputs w1 _ F (calm_step false _ _ _ _ _ (fun _ => eq_sym A) E))|].
    cbn [c_world]. split; [exact M|]. rewrite C. unfold w1. cbn [calm wcc wh with_h hc quiet].
    change (hc (wh (c_world c))) with (wcc (c_world c)). rewrite B, u32_id; lia.
Qed.

(** standby with a dying battery: three cycles *)
Definition run1 (g : bool) (s : Z) (o : obs) (inp : inputs) (c : craft) : option craft :=
  match mission_execute inp (calm s o c) with
  | Some x => Some (mk_craft (match o_hk o with Some v => v | None => c_vbatt c end) x)
  | None => None
  end.
Lemma run1_step g s o inp c c' : (g = false -> s = wmission (c_world c)) -> run1 g s o inp c = Some c' -> craft_cycle g o inp c (calm s o c) c'.
Proof.
  intros G X. unfold run1 in X. destruct (mission_execute inp (calm s o c)) as [x|] eqn:E; [|discriminate]. injection X as <-.
  apply calm_step; assumption.
Qed.
Definition went (r : option craft) : craft := match r with Some c => c | None => cold end.
Lemma went_on r : (match r with Some _ => true | None => false end) = true -> r = Some (went r).
Proof. destruct r; [reflexivity|discriminate]. Qed.
