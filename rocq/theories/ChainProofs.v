From Verif Require Import Base FaultModel FaultHandlerModel FaultHandlerSpec FaultHandlerProofs FaultEscalationProofs
  MissionModel MissionSpec MissionProofs MissionWitness ChainModel ChainSpec.

(** ** What reading does to a fault *)
Section Keep.
Context (P : fault -> Prop) (C : forall f, P f -> P (fst (fault_read f))).

Lemma keep_is i j h : P (hf h i) -> P (hf (fst (is_faulted j h)) i).
Proof.
  intros H. unfold is_faulted. pose proof (C (hf h j)) as K. destruct (fault_read (hf h j)) as [f b]. cbn in *. unfold fupd.
  destruct (fid_eq j i) eqn:E; auto. apply K. replace j with i by (destruct i, j; (reflexivity || discriminate E)). exact H.
Qed.
Lemma keep_simple i j l r h : P (hf h i) -> P (hf (fst (simple_execute j l r h)) i).
Proof.
  intros H. unfold simple_execute. destruct (existsb _ _); auto. pose proof (keep_is i j h H) as K. destruct (is_faulted j h). exact K.
Qed.
Lemma keep_quake i h : P (hf h i) -> P (hf (fst (quake_execute h)) i).
Proof. intros H. destruct (quake_same h) as (_ & _ & _ & _ & _ & -> & _). exact H. Qed.
Lemma keep_piksi i h : i <> PiksiDead -> P (hf h i) -> P (hf (fst (piksi_execute h)) i).
Proof. intros N H. destruct (piksi_same h) as (_ & _ & _ & _ & E). rewrite E; auto. Qed.
Lemma keep_tanks i h : P (hf h i) -> P (hf (fst (both_tanks h)) i).
Proof.
  intros H. unfold both_tanks. pose proof (keep_is i Tank1Hot h H) as K1. destruct (is_faulted Tank1Hot h) as [h1 t1]. cbn in K1.
  pose proof (keep_is i Tank2Hot h1 K1) as K2. destruct (is_faulted Tank2Hot h1) as [h2 t2]. cbn in K2. destruct t2; auto.
  pose proof (keep_is i Overpressure h2 K2) as K3. destruct (is_faulted Overpressure h2). exact K3.
Qed.
Lemma keep_prop i h : P (hf h i) -> P (hf (fst (prop_execute h)) i).
Proof.
  intros H. unfold prop_execute. set (h0 := if v_not_init (hv h) then _ else h).
  assert (H0 : P (hf h0 i)) by (unfold h0; destruct (v_not_init (hv h)); exact H). clearbody h0.
  destruct (negb _ && negb _); auto. pose proof (keep_tanks i h0 H0) as K. destruct (both_tanks h0) as [h1 b]. cbn in K.
  cbn [fst]. destruct b; [|exact K]. unfold v_both. destruct (_ =? 0); [exact K|]. destruct (_ =? p_handling_fault); [|exact K].
  destruct (_ <? _); exact K.
Qed.
Definition keeps i (m : machine) : Prop := forall h, P (hf h i) -> P (hf (fst (m h)) i).
Lemma keep_run i ms : Forall (keeps i) ms -> forall h r, P (hf h i) -> P (hf (fst (run_machines ms h r)) i).
Proof.
  induction 1 as [|m ms Hm _ IH]; intros h r H; cbn; auto. specialize (Hm h H). destruct (m h) as [h' x]. cbn in Hm.
  destruct x; auto.
Qed.
Lemma keep_main i h : i <> PiksiDead -> P (hf h i) -> P (hf (fst (main_execute main_machines h)) i).
Proof.
  intros N H. unfold main_execute. destruct (negb _); auto. apply keep_run; auto.
  repeat apply Forall_cons; try apply Forall_nil; intros x Hx;
  (apply keep_simple || apply keep_quake || apply keep_piksi || apply keep_prop); auto.
Qed.
Lemma keep_any i l : forall h, P (hf h i) -> P (hf (fst (any_faulted l h)) i).
Proof.
  induction l as [|j l IH]; intros h H; cbn [any_faulted]; auto. pose proof (keep_is i j h H) as K.
  destruct (is_faulted j h) as [h' b]. cbn in K. destruct b; auto.
Qed.

Lemma hf_transition2 s a w : hf (wh (transition2 s a w)) = hf (wh w).
Proof. unfold transition2, set_mission_state. destruct (s =? m_safehold); destruct (_ || _); reflexivity. Qed.
Lemma hf_transition3 s a p w : hf (wh (transition3 s a p w)) = hf (wh w).
Proof. etransitivity; [|apply (hf_transition2 s a (upd_m w (fun m => m_set_sph_dcdc m (negb (p =? p_disabled)))))]. reflexivity. Qed.

Lemma keep_dispatch inp s w w' i : P (hf (wh w) i) -> dispatch inp s w = Some w' -> P (hf (wh w') i).
Proof.
  intros H E. unfold dispatch in E.
  repeat match type of E with (if ?c then _ else _) = _ => destruct c end; try (injection E as <-);
  unfold dispatch_detumble, dispatch_standby, dispatch_far, dispatch_close_approach, dispatch_docking, dispatch_safehold;
  repeat match goal with |- context [if ?c then _ else _] => destruct c end; cbn [upd_m with_m wh]; rewrite ?hf_transition2; auto.
  unfold dispatch_startup in E. destruct (_ =? kill_switch_value); [discriminate|]. destruct (_ <? _).
  - destruct (_ =? 0); injection E as <-; exact H.
  - set (w2 := if _ =? r_disabled then _ else _) in E.
    assert (H2 : P (hf (wh w2) i)) by (unfold w2; destruct (_ =? r_disabled); exact H). clearbody w2.
    pose proof (keep_any i hardware_faults (wh w2) H2) as K. destruct (any_faulted hardware_faults (wh w2)) as [h b]. cbn [fst] in K.
    destruct b; injection E as <-; rewrite hf_transition3; exact K.
Qed.

Lemma keep_execute inp w w' i : i <> PiksiDead -> P (hf (wh w) i) -> mission_execute inp w = Some w' -> P (hf (wh w') i).
Proof.
  intros N H E. unfold mission_execute in E. pose proof (keep_main i (wh w) N H) as K.
  destruct (main_execute main_machines (wh w)) as [h r]. cbn [fst] in K.
  assert (K1 : P (hf (wh (with_h w h)) i)) by exact K.
  destruct (negb _); [destruct r|]; try (eapply keep_dispatch; eassumption).
  - injection E as <-. cbn [upd_m with_m wh]. rewrite hf_transition3. exact K.
  - destruct (negb _ && _ && _ && _); [|eapply keep_dispatch; eassumption].
    injection E as <-. cbn [upd_m with_m wh]. rewrite hf_transition2. exact K.
Qed.
End Keep.

(** ** A fault no one commands counts the cycles its condition has been present *)
Definition counts (pi n now : Z) (f : fault) : Prop :=
  ft_num f = n /\ 0 <= ft_last f <= now /\ ft_prev_o f = false /\ ft_prev_s f = false /\ ft_override f = false /\
  ft_suppress f = false /\ ft_unsignal f = false /\ ft_persistence f = pi.

Lemma counts_read pi n now f : counts pi n now f -> counts pi n now (fst (fault_read f)).
Proof.
  intros (A & B & C1 & C2 & C3 & C4 & C5 & D). destruct f as [fl num last po ps ov su un pe]. cbn in *. subst. unfold counts. cbn. repeat split; auto; lia.
Qed.
Lemma counts_faulted pi n now f : counts pi n now f -> snd (fault_read f) = (pi <? n).
Proof. intros (A & B & C1 & C2 & C3 & C4 & C5 & D). destruct f as [fl num last po ps ov su un pe]. cbn in *. subst. reflexivity. Qed.
Lemma counts_evaluate pi n now f (b : bool) : counts pi n now f -> 0 <= n <= now -> now + 1 < 2 ^ 32 ->
  counts pi (if b then 1 + n else 0) (now + 1) (fault_evaluate (now + 1) b f).
Proof.
  intros (A & B & C1 & C2 & C3 & C4 & C5 & D) R W. destruct f as [fl num last po ps ov su un pe]. cbn in *. subst.
  unfold fault_evaluate, fault_signal, fault_unsignal. destruct b; cbn.
  - replace (last <? now + 1) with true by lia. cbn. unfold counts. cbn. rewrite u32_id by lia. repeat split; auto; lia.
  - unfold counts. cbn. repeat split; auto; lia.
Qed.

Lemma present_for_bound v i os : 0 <= present_for v i os <= Z.of_nat (length os).
Proof. induction os as [|o os IH]; cbn [present_for length]; [lia|]. destruct (present v i (o :: os)); lia. Qed.

Definition tracks (p : fid -> Z) (v : Z) (os : list obs) (c : craft) : Prop :=
  wcc (c_world c) = Z.of_nat (length os) /\ c_vbatt c = last_read v os /\
  forall i, In i owned -> counts (p i) (present_for v i os) (wcc (c_world c)) (hf (wh (c_world c)) i).

Lemma owned_not_piksi i : In i owned -> i <> PiksiDead.
Proof. cbn. intuition; subst; discriminate. Qed.

Lemma cc_transition2 s a w : wcc (transition2 s a w) = wcc w.
Proof. unfold transition2, set_mission_state. destruct (s =? m_safehold); destruct (_ || _); reflexivity. Qed.
Lemma cc_transition3 s a q w : wcc (transition3 s a q w) = wcc w.
Proof. etransitivity; [|apply (cc_transition2 s a (upd_m w (fun m => m_set_sph_dcdc m (negb (q =? p_disabled)))))]. reflexivity. Qed.
Lemma cc_dispatch inp s w w' : dispatch inp s w = Some w' -> wcc w' = wcc w.
Proof.
  intros Y. unfold dispatch in Y.
  repeat match type of Y with (if ?c then _ else _) = _ => destruct c end; try (injection Y as <-);
  unfold dispatch_detumble, dispatch_standby, dispatch_far, dispatch_close_approach, dispatch_docking, dispatch_safehold;
  repeat match goal with |- context [if ?c then _ else _] => destruct c end;
  try reflexivity; try (etransitivity; [apply cc_transition2|reflexivity]);
  try (etransitivity; [|apply cc_transition2]; reflexivity).
  unfold dispatch_startup in Y. destruct (_ =? kill_switch_value); [discriminate|]. destruct (_ <? _).
  - destruct (_ =? 0); injection Y as <-; reflexivity.
  - set (w2 := if _ =? r_disabled then _ else _) in Y.
    assert (H2 : wcc w2 = wcc w) by (unfold w2; destruct (_ =? r_disabled); reflexivity). clearbody w2.
    pose proof (any_faulted_same hardware_faults (wh w2)) as ((Q & _) & _). destruct (any_faulted hardware_faults (wh w2)) as [hh b]. cbn in Q.
    destruct b; injection Y as <-; rewrite cc_transition3; unfold wcc in *; cbn; congruence.
Qed.
Lemma execute_cc inp w w' : mission_execute inp w = Some w' -> wcc w' = wcc w.
Proof.
  intros X. unfold mission_execute in X. destruct (main_split w) as (h & r & M & H1 & _). rewrite M in X.
  assert (G : wcc (with_h w h) = wcc w) by exact H1.
  destruct (negb ((wmission w =? m_startup) || (wmission w =? m_manual))); [destruct r|].
  - rewrite (cc_dispatch _ _ _ _ X); exact G.
  - injection X as X. rewrite <- X. etransitivity; [apply (cc_transition3 m_safehold a_startup p_disabled (with_h w h))|exact G].
  - destruct (negb _ && negb _ && negb _ && negb _); [|rewrite (cc_dispatch _ _ _ _ X); exact G].
    injection X as X. rewrite <- X. etransitivity; [apply (cc_transition2 m_standby a_point_standby (with_h w h))|exact G].
  - rewrite (cc_dispatch _ _ _ _ X); exact G.
Qed.
(** what the mission manager finds in a cycle, and what it leaves *)
Lemma cycle_counts p v os c g o inp w1 c' : tracks p v os c -> Z.of_nat (length (o :: os)) < 2 ^ 32 -> craft_cycle g o inp c w1 c' ->
  wcc w1 = Z.of_nat (length (o :: os)) /\
  (forall i, In i owned -> counts (p i) (present_for v i (o :: os)) (wcc w1) (hf (wh w1) i)) /\ tracks p v (o :: os) c'.
Proof.
  intros (A & B & D) L (E & F & X & V). destruct E as (E1 & _). cbn [length] in L.
  assert (W : wcc w1 = wcc (c_world c) + 1) by (rewrite E1, u32_id by lia; reflexivity).
  assert (W' : wcc (c_world c') = wcc w1) by (apply (execute_cc inp); exact X).
  assert (Q : forall i, In i owned -> counts (p i) (present_for v i (o :: os)) (wcc w1) (hf (wh w1) i)).
  { intros i Hi. rewrite (F i Hi), W. pose proof (present_for_bound v i os) as PB.
    pose proof (counts_evaluate _ _ _ _ (told o (c_vbatt c) i) (D i Hi) ltac:(lia) ltac:(lia)) as R.
    cbn [present_for]. replace (present v i (o :: os)) with (told o (c_vbatt c) i); [exact R|]. rewrite B. reflexivity. }
  split; [cbn [length]; lia|]. split; [exact Q|].
  split; [cbn [length]; lia|]. split; [cbn [last_read]; rewrite V, B; reflexivity|]. intros i Hi. rewrite W'.
  apply (keep_execute (counts (p i) (present_for v i (o :: os)) (wcc w1)) (counts_read _ _ _) inp w1); auto. apply owned_not_piksi; auto.
Qed.

Lemma flight_tracks p v os c : (forall i, In i owned -> 0 <= p i < 2 ^ 32) -> flight p v os c -> Z.of_nat (length os) < 2 ^ 32 -> tracks p v os c.
Proof.
  intros HP. induction 1 as [c (_ & A & B & D)|os c g o inp w1 c' HF IH HC]; intros L.
  - split; [exact A|]. split; [exact B|]. intros i Hi. rewrite (D i Hi), A. unfold counts, fault_make. cbn. rewrite u32_id by auto. repeat split; auto; lia.
  - apply (cycle_counts p v os c g o inp w1 c'); auto. apply IH. cbn [length] in L. lia.
Qed.

Lemma faulted_iff p v os c g o inp w1 c' i : (forall j, In j owned -> 0 <= p j < 2 ^ 32) -> flight p v os c -> Z.of_nat (length (o :: os)) < 2 ^ 32 ->
  craft_cycle g o inp c w1 c' -> In i owned -> faulted (wh w1) i <-> p i < present_for v i (o :: os).
Proof.
  intros HP HF L HC Hi. assert (L' : Z.of_nat (length os) < 2 ^ 32) by (cbn [length] in L; lia).
  destruct (cycle_counts p v os c g o inp w1 c' (flight_tracks p v os c HP HF L') L HC) as (_ & Q & _).
  unfold faulted. rewrite (counts_faulted _ _ _ _ (Q i Hi)). rewrite Z.ltb_lt. reflexivity.
Qed.

Lemma guarded_wants w i : In (wmission w) (guarded i) -> faulted (wh w) i -> wants_safehold (wh w).
Proof.
  intros G F. unfold wants_safehold. fold (wmission w). destruct i; cbn [guarded] in G; try contradiction; auto;
  right; left; (split; [exact G|]); eexists; (split; [|exact F]); cbn; auto 10.
Qed.
Lemma guarded_running w i : In (wmission w) (guarded i) -> wmission w <> m_startup /\ wmission w <> m_manual.
Proof. generalize (wmission w). intros s G. destruct i; cbn [guarded In] in G; unfold m_startup, m_manual; repeat (destruct G as [<- | G]; [split; discriminate|]); contradiction. Qed.

(** ** Response in time *)
Lemma timely p v os c g o inp w1 c' i : (forall j, In j owned -> 0 <= p j < 2 ^ 32) -> flight p v os c ->
  Z.of_nat (length (o :: os)) < 2 ^ 32 -> craft_cycle g o inp c w1 c' -> h_enabled (wh w1) = true ->
  In i owned -> In (wmission w1) (guarded i) -> p i < present_for v i (o :: os) -> safe (c_world c').
Proof.
  intros HP HF L HC EN Hi G T. apply (faulted_iff p v os c g o inp w1 c' i HP HF L HC Hi) in T.
  destruct (guarded_running w1 i G) as [N1 N2]. destruct HC as (_ & _ & X & _).
  destruct (safehold_disarms inp w1 (c_world c')) as (D & _); auto. split; auto. apply (guarded_wants w1 i); auto.
  unfold disarmed in D. unfold safe. tauto.
Qed.

(** ** Response for a cause only *)
Lemma cause p v os c g o inp w1 c' : (forall j, In j owned -> 0 <= p j < 2 ^ 32) -> flight p v os c ->
  Z.of_nat (length (o :: os)) < 2 ^ 32 -> craft_cycle g o inp c w1 c' -> wmission w1 <> m_safehold -> wmission (c_world c') = m_safehold ->
  (exists i, In i owned /\ In (wmission w1) (guarded i) /\ p i < present_for v i (o :: os)) \/ radio_lost w1 \/ ~ 0 <= wmission w1 <= 11.
Proof.
  intros HP HF L HC N S. pose proof HC as (_ & _ & X & _). apply mission_edge in X. rewrite S in X.
  assert (R : response_safehold w1 \/ ~ 0 <= wmission w1 <= 11).
  { remember m_safehold as t eqn:Ht. destruct X; try (discriminate Ht); try contradiction; auto; right; unfold m_manual, m_startup in *; lia. }
  destruct R as [(_ & R)|R]; [|auto]. unfold wants_safehold in R. fold (wmission w1) in R.
  assert (K : forall i, In i owned -> faulted (wh w1) i -> p i < present_for v i (o :: os)).
  { intros i Hi F. apply (faulted_iff p v os c g o inp w1 c' i HP HF L HC Hi). exact F. }
  destruct R as [(G & F)|[(G & i & Hi & F)|[(G & F)|R]]].
  - left. exists LowBatt. split; [cbn; auto|]. split; [exact G|]. apply K; [cbn; auto|exact F].
  - left. exists i. assert (In i owned) by (cbn in *; intuition). split; auto. split; [|apply K; auto].
    cbn in Hi. destruct Hi as [<-|[<-|[<-|[<-|[]]]]]; exact G.
  - left. exists AttEstimator. split; [cbn; auto 10|]. split; [exact G|]. apply K; [cbn; auto 10|exact F].
  - right. left. exact R.
Qed.

(** ** The battery *)
Lemma low_for v theta n : forall o os, (n <= length os)%nat ->
  Forall (fun x => o_threshold x = theta) (o :: firstn n os) ->
  Forall (fun x => exists y, o_hk x = Some y /\ y < theta) (firstn n os) -> Z.of_nat n <= present_for v LowBatt (o :: os).
Proof.
  induction n as [|n IH]; intros o os L T H.
  - pose proof (present_for_bound v LowBatt (o :: os)). lia.
  - destruct os as [|o1 os]; [cbn in L; lia|]. cbn [firstn] in *. inversion T as [|? ? T0 T1]; subst. inversion H as [|? ? (y & Hy & Ly) H1]; subst.
    cbn [length] in L. specialize (IH o1 os ltac:(lia) T1 H1). cbn [present_for present last_read]. cbn [present_for present] in IH. rewrite Hy.
    replace (y <? o_threshold o) with true by lia. lia.
Qed.

Lemma low_battery p v theta os c g o inp w1 c' : (forall j, In j owned -> 0 <= p j < 2 ^ 32) -> flight p v os c ->
  Z.of_nat (length (o :: os)) < 2 ^ 32 -> craft_cycle g o inp c w1 c' -> h_enabled (wh w1) = true ->
  In (wmission w1) (guarded LowBatt) -> p LowBatt < Z.of_nat (length os) ->
  Forall (fun x => o_threshold x = theta) (o :: firstn (Z.to_nat (p LowBatt + 1)) os) ->
  Forall (fun x => exists y, o_hk x = Some y /\ y < theta) (firstn (Z.to_nat (p LowBatt + 1)) os) -> safe (c_world c').
Proof.
  intros HP HF L HC EN G N T H. apply (timely p v os c g o inp w1 c' LowBatt HP HF L HC EN); auto; [cbn; auto|].
  assert (P0 : 0 <= p LowBatt) by (apply HP; cbn; auto).
  pose proof (low_for v theta (Z.to_nat (p LowBatt + 1)) o os ltac:(lia) T H). lia.
Qed.

(** ** The check at the end of the deployment wait *)
Lemma any_counts pn nn now l : forall h, (forall i, In i l -> counts (pn i) (nn i) now (hf h i)) ->
  snd (any_faulted l h) = existsb (fun i => pn i <? nn i) l.
Proof.
  induction l as [|j l IH]; intros h H; cbn [any_faulted existsb]; auto.
  pose proof (counts_faulted _ _ _ _ (H j (or_introl eq_refl))) as R.
  assert (K : forall i, In i l -> counts (pn i) (nn i) now (hf (fst (is_faulted j h)) i)).
  { intros i Hi. apply (keep_is (counts (pn i) (nn i) now) (counts_read _ _ _)). apply H. right. exact Hi. }
  unfold is_faulted in *. destruct (fault_read (hf h j)) as [f b]. cbn [snd fst] in *. subst b.
  destruct (pn j <? nn j); [reflexivity|]. cbn [orb]. apply IH. exact K.
Qed.

Lemma deployment p v os c g o inp w1 c' : (forall j, In j owned -> 0 <= p j < 2 ^ 32) -> flight p v os c ->
  Z.of_nat (length (o :: os)) < 2 ^ 32 -> craft_cycle g o inp c w1 c' -> wmission w1 = m_startup -> wmission (c_world c') <> m_startup ->
  wmission (c_world c') = (if existsb (fun i => p i <? present_for v i (o :: os)) hardware then m_initialization_hold else m_detumble) /\
  mm_adcs (wm (c_world c')) = a_detumble /\ wprop (c_world c') = p_idle /\ mm_sph_dcdc (wm (c_world c')) = true.
Proof.
  intros HP HF L HC S N. assert (L' : Z.of_nat (length os) < 2 ^ 32) by (cbn [length] in L; lia).
  destruct (cycle_counts p v os c g o inp w1 c' (flight_tracks p v os c HP HF L') L HC) as (_ & Q & _).
  destruct HC as (_ & _ & X & _). unfold mission_execute in X. rewrite S in X.
  assert (K : forall i, In i hardware -> counts (p i) (present_for v i (o :: os)) (wcc w1) (hf (fst (main_execute main_machines (wh w1))) i)).
  { intros i Hi. assert (Ho : In i owned) by (cbn in *; intuition). apply (keep_main (counts _ _ _) (counts_read _ _ _)); [apply owned_not_piksi|]; auto. }
  pose proof (main_same (wh w1)) as (_ & B & _).
  destruct (main_execute main_machines (wh w1)) as [h r]. cbn [fst] in K, B.
  change (dispatch_startup (with_h w1 h) = Some (c_world c')) in X. unfold dispatch_startup in X.
  destruct (_ =? kill_switch_value); [discriminate|]. destruct (_ <? _).
  - exfalso. apply N. destruct (_ =? 0); injection X as X; rewrite <- X; unfold wmission in *; cbn; congruence.
  - set (w2 := if _ =? r_disabled then _ else _) in X.
    assert (K2 : forall i, In i hardware -> counts (p i) (present_for v i (o :: os)) (wcc w1) (hf (wh w2) i)).
    { unfold w2. destruct (_ =? r_disabled); exact K. } clearbody w2.
    pose proof (any_counts p (fun i => present_for v i (o :: os)) (wcc w1) hardware (wh w2) K2) as R.
    change hardware_faults with hardware in X. destruct (any_faulted hardware (wh w2)) as [h2 b]. cbn [snd] in R. rewrite R in X.
    destruct (existsb _ hardware); injection X as X; rewrite <- X; repeat split.
Qed.
