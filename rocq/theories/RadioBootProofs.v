From Verif Require Import Base EEPROMModel EEPROMProofs FaultModel FaultHandlerModel MissionModel MissionProofs MissionWitness PowerRunProofs SavedProofs KillProofs RadioBootModel.
From Coq Require Import List.
Open Scope Z_scope.

Definition off (h : hworld) : Prop := b_radio (hb h) = r_disabled /\ q_state (hq h) = q_unfaulted.
Lemma off_read i h : off h -> off (fst (is_faulted i h)).
Proof. intros H. unfold is_faulted. destruct (fault_read (hf h i)). exact H. Qed.
Lemma off_simple i l r h : off h -> off (fst (simple_execute i l r h)).
Proof.
  intros H. unfold simple_execute. destruct (existsb _ l); [|exact H]. pose proof (off_read i h H) as O. destruct (is_faulted i h). exact O.
Qed.
Lemma off_quake h : off h -> off (fst (quake_execute h)).
Proof.
  intros [A B]. unfold quake_execute. destruct (negb _); [split; assumption|]. cbv zeta. rewrite B. change (q_unfaulted =? q_unfaulted) with true. cbv iota.
  unfold q_disp_unfaulted, radio_is_disabled. rewrite A. change (r_disabled =? r_disabled) with true. split; assumption.
Qed.
Lemma off_piksi h : off h -> off (fst (piksi_execute h)).
Proof.
  intros H. unfold piksi_execute. destruct (negb (k_enabled (hk h))); [exact H|]. cbv zeta.
  set (h1 := with_f h _). assert (O1 : off h1) by exact H. pose proof (off_read PiksiDead h1 O1) as O2. destruct (is_faulted PiksiDead h1) as [h2 d]. cbn [fst] in O2.
  destruct d; [exact O2|]. clear O1. set (h3 := if b_piksi (hb h) =? k_fixed_rtk then _ else h2).
  assert (O3 : off h3) by (subst h3; destruct (b_piksi (hb h) =? k_fixed_rtk); exact O2). clearbody h3.
  match goal with |- off (fst (if ?b then _ else _)) => destruct b end; exact O3.
Qed.
Lemma off_both h : off h -> off (fst (both_tanks h)).
Proof.
  intros H. unfold both_tanks. pose proof (off_read Tank1Hot h H) as O1. destruct (is_faulted Tank1Hot h) as [h1 t1]. cbn [fst] in O1.
  pose proof (off_read Tank2Hot h1 O1) as O2. destruct (is_faulted Tank2Hot h1) as [h2 t2]. cbn [fst] in O2. destruct t2; [exact O2|].
  pose proof (off_read Overpressure h2 O2) as O3. destruct (is_faulted Overpressure h2) as [h3 t3]. exact O3.
Qed.
Lemma off_prop h : off h -> off (fst (prop_execute h)).
Proof.
  intros H. unfold prop_execute. cbv zeta. set (h0 := if v_not_init (hv h) then _ else h). assert (O0 : off h0) by (subst h0; destruct (v_not_init (hv h)); exact H).
  destruct (_ && _); [exact O0|]. pose proof (off_both h0 O0) as O1. destruct (both_tanks h0) as [h1 b]. cbn [fst] in *.
  destruct b; [|exact O1]. unfold v_both. destruct (_ =? 0); [exact O1|]. destruct (_ =? p_handling_fault); [|exact O1]. cbv zeta. destruct (_ <? _); exact O1.
Qed.
Lemma off_run ms : Forall (fun m : machine => forall h, off h -> off (fst (m h))) ms -> forall h r, off h -> off (fst (run_machines ms h r)).
Proof.
  induction 1 as [|m ms H F IH]; intros h r O; [exact O|]. cbn [run_machines]. pose proof (H h O) as O1. destruct (m h) as [h' x]. cbn [fst] in O1.
  destruct x; [apply IH; exact O1|exact O1|apply IH; exact O1] || (destruct x; try exact O1; apply IH; exact O1).
Qed.
Lemma off_main h : off h -> off (fst (main_execute main_machines h)).
Proof.
  intros O. unfold main_execute. destruct (negb _); [exact O|]. apply off_run; [|exact O].
  repeat (apply Forall_cons; [intros x X; first [apply off_simple|apply off_quake|apply off_piksi|apply off_prop]; exact X|]). constructor.
Qed.

Definition woff (w : world) : Prop := off (wh w).
Lemma off_set s w : woff w -> woff (set_mission_state s w).
Proof. intros H. unfold set_mission_state. cbv zeta. destruct (s =? m_safehold), ((s =? m_leader_close_approach) || (s =? m_follower_close_approach)); exact H. Qed.
Lemma off_t2 s a w : woff w -> woff (transition2 s a w).
Proof. intros H. unfold transition2. cbv zeta. apply (off_set s). destruct (s =? m_safehold); exact H. Qed.
Lemma off_t3 s a p w : woff w -> woff (transition3 s a p w).
Proof. intros H. unfold transition3. cbv zeta. exact (off_t2 s a (upd_m w _) H). Qed.
Lemma off_m w f : woff w -> woff (upd_m w f).
Proof. intros H. exact H. Qed.
Lemma off_dispatch i s w w' : dispatch i s w = Some w' -> s <> m_startup -> woff w -> woff w'.
Proof.
  unfold dispatch. intros H N O. destruct (Z.eqb_spec s m_startup) as [E|_]; [exfalso; exact (N E)|].
  repeat (match type of H with (if ?b then _ else _) = _ => destruct b end; [injection H as <-|]); [..|injection H as <-];
  unfold dispatch_detumble, dispatch_standby, dispatch_far, dispatch_close_approach, dispatch_docking, dispatch_safehold; cbv zeta;
  repeat match goal with |- context [if ?b then _ else _] => destruct b end;
  repeat first [exact O|apply off_m|apply off_t2].
Qed.
Lemma off_execute i w w' : mission_execute i w = Some w' -> wmission w <> m_startup -> woff w -> woff w'.
Proof.
  unfold mission_execute. intros H N O. pose proof (off_main (wh w) O) as OM. destruct (main_execute main_machines (wh w)) as [h r]. cbn [fst] in OM. cbv zeta in H.
  assert (O1 : woff (with_h w h)) by exact OM.
  clear OM. destruct (negb _); [|exact (off_dispatch _ _ _ _ H N O1)]. destruct r.
  all: match type of H with
       | dispatch _ _ _ = _ => exact (off_dispatch _ _ _ _ H N O1)
       | Some _ = _ => injection H as <-; exact (off_m _ _ (off_t3 _ _ _ _ O1))
       | _ => destruct (_ && _); [injection H as <-; exact (off_m _ _ (off_t2 _ _ _ O1))|exact (off_dispatch _ _ _ _ H N O1)]
       end.
Qed.
Lemma silent_off n w w' : silent n w w' -> wmission w <> m_startup -> radio_at_boot w -> wmission w' <> m_startup /\ radio_at_boot w'.
Proof.
  induction 1 as [w|n w w1 w2 i w3 H IH HE HR HQ HX]; intros N O; [split; assumption|]. destruct (IH N O) as [N1 [R1 Q1]]. destruct HE as (_ & EM & _). specialize (EM eq_refl).
  assert (N2 : wmission w2 <> m_startup) by congruence. split; [exact (no_startup i w2 w3 N2 HX)|].
  refine (off_execute i w2 w3 HX N2 _). split; [exact (HR R1)|congruence].
Qed.

(** the way through startup *)
Lemma reads_radio l : forall h, b_radio (hb (fst (any_faulted l h))) = b_radio (hb h).
Proof.
  induction l as [|i l IH]; intros h; [reflexivity|]. cbn [any_faulted]. unfold is_faulted. destruct (fault_read (hf h i)) as [f b]. destruct b; [reflexivity|]. rewrite IH. reflexivity.
Qed.
Lemma radio_t3 s a p w : s <> m_safehold -> wradio (transition3 s a p w) = wradio w.
Proof.
  intros N. unfold transition3, transition2, set_mission_state. cbv zeta. apply Z.eqb_neq in N. rewrite N. destruct ((s =? m_leader_close_approach) || (s =? m_follower_close_approach)); reflexivity.
Qed.
Lemma startup_radio i w w' : wmission w = m_startup -> 106 <= mm_elapsed (wm w) -> mission_execute i w = Some w' -> wradio w' <> r_disabled.
Proof.
  intros ES EL HX. unfold mission_execute in HX. destruct (main_execute main_machines (wh w)) as [h r]. rewrite ES in HX.
  change (negb ((m_startup =? m_startup) || (m_startup =? m_manual))) with false in HX. cbv iota zeta in HX.
  unfold dispatch in HX. rewrite Z.eqb_refl in HX. unfold dispatch_startup in HX. cbn [with_h wm] in HX.
  destruct (mm_kill (wm w) =? kill_switch_value); [discriminate|].
  assert (L : (mm_elapsed (wm w) <? deployment_wait_batch_thresh) = false) by (change deployment_wait_batch_thresh with 106; lia). rewrite L in HX. cbv zeta in HX.
  set (w2 := if wradio _ =? r_disabled then _ else _) in HX.
  assert (R2 : wradio w2 <> r_disabled).
  { subst w2. match goal with |- context [wradio ?x =? r_disabled] => destruct (Z.eqb_spec (wradio x) r_disabled) as [E|E] end; [discriminate|exact E]. }
  pose proof (reads_radio hardware_faults (wh w2)) as RR. destruct (any_faulted hardware_faults (wh w2)) as [h2 f]. cbn [fst] in RR.
  destruct f; injection HX as <-; rewrite radio_t3 by discriminate; unfold wradio in *; cbn [with_h upd_m with_m wh]; rewrite RR; exact R2.
Qed.
Lemma startup_ends l w0 w e0 : history l w0 w -> Forall (fun g => g = false) l -> wmission w0 = m_startup -> wcc w0 = 0 -> mm_elapsed (wm w0) = e0 -> 0 <= e0 <= 106 ->
  Z.of_nat (length l) = 100 * (106 - e0) + 1 -> wradio w <> r_disabled.
Proof.
  intros HH F M C E B N. destruct HH as [w|l w0 w1 g i w2 HH (x & EN & HX)]; [cbn in N; exfalso; lia|].
  apply Forall_app in F. destruct F as [F1 F2]. apply Forall_inv in F2. subst g. rewrite app_length in N. cbn [length] in N.
  destruct (deployment_history l w0 w1 HH F1 M C e0 E B) as [D _]. destruct (D ltac:(lia)) as (D1 & D2 & _).
  destruct EN as (_ & E2 & _ & _ & _ & _ & E3 & _). specialize (E2 eq_refl).
  apply (startup_radio i x w2); [congruence| |exact HX]. rewrite E3, D2. replace (Z.of_nat (length l)) with ((106 - e0) * 100) by lia. rewrite Z.div_mul by lia. lia.
Qed.

(** silent cycles can always follow *)
Lemma silent_exist n : forall w, exists w', silent n w w'.
Proof.
  induction n as [|n IH]; intros w; [exists w; constructor|]. destruct (IH w) as [w1 H].
  set (w2 := mk_world (with_q (with_b (wh (quiet d_undecided p_idle one_day w1)) (set_radio (hb (wh (quiet d_undecided p_idle one_day w1))) (wradio w1)))
                              (mk_q (q_state (hq (wh w1))) (q_entry (hq (wh w1))) true)) (wm (quiet d_undecided p_idle one_day w1))).
  destruct (mission_execute no_inputs w2) as [w3|] eqn:E.
  - exists w3. refine (silent_S n w w1 w2 no_inputs w3 H _ _ _ E); [|intros R; exact R|reflexivity]. unfold environment. repeat split.
  - exfalso. refine (not_killed _ _ _ E). discriminate.
Qed.

Section Nine.
Variable fs : list pfield.
Hypothesis table_ok : Forall (fun f => 0 < pf_period f /\ one_byte (pf_ty f) = true /\ (pf_state f = true -> pf_ty f = EUChar)) fs /\
  Forall (fun f => 0 < pf_period f) fs /\ length fs = 9%nat.
Hypothesis table_at : forall i, nth_error fs i = nth_error nine i.
Lemma docked_deaf e b defaults : bytes e -> Z.of_nat (length e) = 4096 -> nth_error e 25 = Some b -> b = m_docking \/ b = m_docked -> length defaults = 9%nat ->
  exists r, eeprom_init fs defaults e = Some r /\ nth_error r 5 = Some b /\
    forall n w w', nth_error r 5 = Some (wmission w) -> radio_at_boot w -> silent n w w' -> wradio w' = r_disabled.
Proof.
  intros HB HL E B HD.
  assert (K : exists k, nth_error e 40 = Some k).
  { destruct (nth_error e 40) eqn:X; [eexists; reflexivity|]. apply nth_error_None in X. clear - X HL. lia. }
  assert (D : exists d, nth_error defaults 5 = Some d).
  { destruct (nth_error defaults 5) eqn:X; [eexists; reflexivity|]. apply nth_error_None in X. clear - X HD. lia. }
  destruct K as [k K]. destruct D as [d D].
  assert (N : b <> 255 \/ k <> 255) by (left; destruct B as [-> | ->]; discriminate).
  destruct (restored fs table_ok table_at e defaults b k d HB HL HD D E K N) as (r & R & _ & R5).
  assert (Q : (b =? 8) || (b =? 9) = true) by (destruct B as [-> | ->]; reflexivity). rewrite Q in R5.
  exists r. split; [exact R|]. split; [exact R5|]. intros n w w' W O S. rewrite R5 in W. injection W as W.
  refine (proj1 (proj2 (silent_off n w w' S _ O))). rewrite <- W. destruct B as [-> | ->]; discriminate.
Qed.
End Nine.
