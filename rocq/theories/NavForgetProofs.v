From Verif Require Import Base GPSTimeModel NavModel NavSpec NavProofs.

Section P.
Context (G : gnc) (epoch : Z).
Notation after := (after G epoch).
Notation nav_step := (nav_step G epoch).
Implicit Types (s : nav G) (i : nin G) (h : list (nin G)).

(** two satellites with different pasts that publish the same time, orbit and attitude *)
Definition agree_t (t t' : tst) : Prop := t_valid t = t_valid t' /\ (t_valid t = true -> t_gps t = t_gps t' /\ t_ns t = t_ns t').
Definition agree_o (o o' : ost G) : Prop :=
  o_valid G o = o_valid G o' /\ (o_valid G o = true -> o_pos G o = o_pos G o' /\ o_vel G o = o_vel G o') /\ o_est G o = o_est G o'.
Definition agree_a (a a' : atst G) : Prop :=
  a_valid G a = a_valid G a' /\ (a_valid G a = true -> a_q G a = a_q G a' /\ a_w G a = a_w G a') /\
  a_st G a = a_st G a' /\ a_est G a = a_est G a' /\ a_slip G a = a_slip G a'.
Definition agree s s' : Prop := quiet G s /\ quiet G s' /\ agree_t (v_t G s) (v_t G s') /\ agree_o (v_o G s) (v_o G s') /\ agree_a (v_a G s) (v_a G s').

Lemma agree_time s s' i : agree s s' -> agree_t (v_t G (nav_step s i)) (v_t G (nav_step s' i)).
Proof.
  intros (Q & Q' & (V & T) & _). rewrite !time_cases by assumption. cbv zeta. destruct (written false (n_treset G i)).
  - split; [reflexivity|discriminate].
  - destruct (has_fix G i); unfold agree_t; cbn [t_valid t_gps t_ns].
    + repeat split.
    + rewrite <- V. split; [reflexivity|]. intros E. rewrite E. destruct (T E) as [-> _]. split; reflexivity.
Qed.

Lemma agree_orbit t t' o o' i : agree_t t t' -> o_reset G o = false -> o_reset G o' = false -> agree_o o o' ->
  agree_o (orbit_step G t o i) (orbit_step G t' o' i).
Proof.
  intros (V & T) Q Q' (V1 & P & E). unfold orbit_step. rewrite Q, Q', <- V. destruct (t_valid t) eqn:Ev; cbn [negb].
  2:{ cbn [orb]. repeat split; cbn; try reflexivity; discriminate. }
  destruct (T eq_refl) as [_ <-]. cbn [orb]. destruct (written false (n_oreset G i)).
  { repeat split; cbn; try reflexivity; discriminate. }
  cbv zeta. rewrite <- E. destruct (oe_ok G (if has_fix G i then _ else _)).
  - repeat split; reflexivity.
  - repeat split; cbn; try reflexivity; discriminate.
Qed.

Lemma agree_att t t' o o' a a' i : agree_t t t' -> agree_o o o' -> a_reset G a = false -> a_reset G a' = false -> agree_a a a' ->
  agree_a (att_step G t o a i) (att_step G t' o' a' i).
Proof.
  intros (V & T) (V1 & P & _) Q Q' (W & Wq & S & E & L). unfold att_step. cbv zeta.
  rewrite Q, Q', <- V, <- V1, <- L, <- S, <- E.
  destruct (t_valid t) eqn:Ev; cbn [negb orb].
  2:{ unfold agree_a; cbn. split; [reflexivity|]. split; [discriminate|]. repeat split. }
  destruct (T eq_refl) as [_ <-].
  destruct (o_valid G o) eqn:Ov; cbn [negb orb].
  2:{ unfold agree_a; cbn. split; [reflexivity|]. split; [discriminate|]. repeat split. }
  destruct (P eq_refl) as [<- _].
  destruct (n_mag1_ok G i || n_mag2_ok G i) eqn:Hb; cbn [negb orb].
  2:{ rewrite !orb_true_r. cbn [orb]. unfold agree_a; cbn. repeat split; try reflexivity; try discriminate; try (intros; reflexivity). }
  destruct (_ || written _ _).
  { unfold agree_a; cbn. repeat split; try reflexivity; try discriminate; try (intros; reflexivity). }
  destruct (if as_ok G (a_st G a) then _ else _) as [st est].
  destruct (ae_ok G est); unfold agree_a; cbn; repeat split; try reflexivity; try discriminate; try (intros; reflexivity).
Qed.

Lemma agree_step s s' i : agree s s' -> agree (nav_step s i) (nav_step s' i).
Proof.
  intros H. pose proof (agree_time s s' i H) as T. destruct H as ((Q1 & Q2 & _ & Q4) & (Q1' & Q2' & _ & Q4') & _ & O & A).
  split; [apply step_quiet|]. split; [apply step_quiet|]. split; [exact T|].
  assert (O' : agree_o (v_o G (nav_step s i)) (v_o G (nav_step s' i))) by (apply agree_orbit; assumption).
  split; [exact O'|]. apply agree_att; assumption.
Qed.
Lemma agree_run s s' h : agree s s' -> agree (nav_run G epoch s h) (nav_run G epoch s' h).
Proof. revert s s'. induction h as [|i h IH]; intros s s' H; [exact H|]. apply IH. apply agree_step. exact H. Qed.

Lemma reset_agree s s' i : quiet G s -> quiet G s' -> resets_time i -> agree (nav_step s i) (nav_step s' i).
Proof.
  intros Q Q' R. split; [apply step_quiet|]. split; [apply step_quiet|].
  assert (T : t_valid (v_t G (nav_step s i)) = false) by (rewrite time_cases by assumption; rewrite (proj2 (asked _) R); reflexivity).
  assert (T' : t_valid (v_t G (nav_step s' i)) = false) by (rewrite time_cases by assumption; rewrite (proj2 (asked _) R); reflexivity).
  split; [split; [congruence|rewrite T; discriminate]|].
  unfold NavModel.nav_step in *. cbn [v_t v_o v_a] in *. unfold orbit_step, att_step. cbv zeta. rewrite T, T'. cbn [negb orb].
  split; [repeat split; cbn; try reflexivity; discriminate|].
  unfold agree_a; cbn. split; [reflexivity|]. split; [discriminate|]. repeat split.
Qed.

Lemma forget_time h h' i k : resets_time i ->
  let s := after (h ++ i :: k) in let s' := after (h' ++ i :: k) in
  (t_valid (v_t G s) = t_valid (v_t G s') /\
   (t_valid (v_t G s) = true -> t_gps (v_t G s) = t_gps (v_t G s') /\ t_ns (v_t G s) = t_ns (v_t G s'))) /\
  (o_valid G (v_o G s) = o_valid G (v_o G s') /\
   (o_valid G (v_o G s) = true -> o_pos G (v_o G s) = o_pos G (v_o G s') /\ o_vel G (v_o G s) = o_vel G (v_o G s'))) /\
  (a_valid G (v_a G s) = a_valid G (v_a G s') /\
   (a_valid G (v_a G s) = true -> a_q G (v_a G s) = a_q G (v_a G s') /\ a_w G (v_a G s) = a_w G (v_a G s'))).
Proof.
  intros R. cbv zeta. change (h ++ i :: k) with (h ++ [i] ++ k). change (h' ++ i :: k) with (h' ++ [i] ++ k).
  rewrite !app_assoc. rewrite !(after_app G epoch (_ ++ [i])), !after_snoc.
  assert (A : agree (nav_step (after h) i) (nav_step (after h') i)) by (apply reset_agree; try apply after_quiet; assumption).
  apply (agree_run _ _ k) in A. destruct A as (_ & _ & T & (O1 & O2 & _) & (A1 & A2 & _)).
  split; [exact T|]. split; split; assumption.
Qed.
End P.
