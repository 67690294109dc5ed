From Verif Require Import Base GPSTimeModel GPSTimeSpec GPSTimeProofs NavModel NavSpec.

Section P.
Context (G : gnc) (epoch : Z).
Notation after := (after G epoch).
Notation nav_step := (nav_step G epoch).
Implicit Types (s : nav G) (i : nin G) (h : list (nin G)).

Lemma after_app h h' : after (h ++ h') = nav_run G epoch (after h) h'.
Proof. unfold NavModel.after, nav_run. apply fold_left_app. Qed.
Lemma after_snoc h i : after (h ++ [i]) = nav_step (after h) i.
Proof. rewrite after_app. reflexivity. Qed.

Lemma has_fix_spec i : has_fix G i = true <-> gps_fix i.
Proof. unfold has_fix, gps_fix. lia. Qed.
Lemma has_fix_not i : has_fix G i = false <-> ~ gps_fix i.
Proof. rewrite <- has_fix_spec. destruct (has_fix G i); intuition congruence. Qed.
Lemma asked o : written false o = true <-> o = Some true.
Proof. destruct o as [[]|]; cbn; intuition congruence. Qed.
Lemma not_asked o : written false o = false <-> o <> Some true.
Proof. destruct o as [[]|]; cbn; intuition congruence. Qed.
Lemma asked_dec (o : option bool) : {o = Some true} + {o <> Some true}.
Proof. destruct o as [[]|]; [left; reflexivity|right; discriminate|right; discriminate]. Qed.

(** command flags are consumed in the cycle they are set *)
Definition quiet s : Prop := t_reset (v_t G s) = false /\ o_reset G (v_o G s) = false /\ r_reset G (v_r G s) = false /\ a_reset G (v_a G s) = false.
Lemma step_quiet s i : quiet (nav_step s i).
Proof.
  unfold quiet, NavModel.nav_step. cbn [v_t v_o v_r v_a].
  repeat split.
  - unfold time_step. destruct (written _ _); reflexivity.
  - unfold orbit_step. cbv zeta. destruct (_ || _); [reflexivity|]. destruct (oe_ok G (if has_fix G i then _ else _)); reflexivity.
  - unfold rel_step. cbv zeta. destruct (_ || _); [reflexivity|].
    destruct (take_uplink _ _ _ _) as [qt ob]. destruct (queue_uplink _ _ _ _ _ _) as [[qt' qr] qv].
    destruct (rel_update _ _ _ _ _ _) as [[[[hv pv] pn] ct] est].
    destruct (re_ok G est); [reflexivity|]. destruct (ob_ok G ob); reflexivity.
  - unfold att_step. cbv zeta. destruct (_ || written _ _); [reflexivity|].
    destruct (if as_ok G _ then _ else _) as [st est]. destruct (ae_ok G est); reflexivity.
Qed.
Lemma after_quiet h : quiet (after h).
Proof. destruct h as [|i h] using rev_ind; [repeat split; reflexivity|]. rewrite after_snoc. apply step_quiet. Qed.

(** ** time *)
Lemma time_cases s i : quiet s ->
  v_t G (nav_step s i) =
  if written false (n_treset G i) then mk_tst false (t_gps (v_t G s)) (t_ns (v_t G s)) false
  else let g := if has_fix G i then add_n (n_time G i) (dns G i) else add_n (t_gps (v_t G s)) cycle_ns in
       let v := if has_fix G i then true else t_valid (v_t G s) in
       mk_tst v g (if v then u64 (gtime_ns g - epoch) else t_ns (v_t G s)) false.
Proof. intros (Q & _). cbn [NavModel.nav_step v_t]. unfold time_step. rewrite Q. reflexivity. Qed.

Lemma time_valid_iff h : t_valid (v_t G (after h)) = true <-> time_known h.
Proof.
  induction h as [|i h IH] using rev_ind.
  - split; [discriminate|]. intros (h1 & i & h2 & E & _). destruct h1; discriminate.
  - rewrite after_snoc, time_cases by apply after_quiet.
    destruct (asked_dec (n_treset G i)) as [A|A].
    + rewrite (proj2 (asked _) A). cbn [t_valid]. split; [discriminate|].
      intros (h1 & j & h2 & E & F & R & Rs). destruct h2 as [|k h2 _] using rev_ind.
      * apply app_inj_tail in E. destruct E as [_ ->]. contradiction.
      * change (h1 ++ j :: h2 ++ [k]) with (h1 ++ (j :: h2) ++ [k]) in E. rewrite app_assoc in E.
        apply app_inj_tail in E. destruct E as [_ ->]. apply Forall_app in Rs. destruct Rs as [_ Rs]. apply Forall_inv in Rs. contradiction.
    + rewrite (proj2 (not_asked _) A). cbv zeta. cbn [t_valid].
      destruct (has_fix G i) eqn:F.
      * split; [|reflexivity]. intros _. exists h, i, []. rewrite <- has_fix_spec. repeat split; try assumption. constructor.
      * rewrite IH. split.
        -- intros (h1 & j & h2 & -> & F' & R & Rs). exists h1, j, (h2 ++ [i]). rewrite <- app_assoc. repeat split; try assumption.
           apply Forall_app. split; [assumption|]. constructor; [assumption|constructor].
        -- intros (h1 & j & h2 & E & F' & R & Rs). destruct h2 as [|k h2 _] using rev_ind.
           ++ apply app_inj_tail in E. destruct E as [_ ->]. apply has_fix_not in F. contradiction.
           ++ change (h1 ++ j :: h2 ++ [k]) with (h1 ++ (j :: h2) ++ [k]) in E. rewrite app_assoc in E.
              apply app_inj_tail in E. destruct E as [-> ->]. apply Forall_app in Rs. destruct Rs as [Rs _].
              exists h1, j, h2. repeat split; assumption.
Qed.

Lemma dns_age i : fresh i -> dns G i = age i.
Proof. unfold fresh, dns, age. intros H. apply u32_id. lia. Qed.

(** the published time: last GPS reading, carried on cycle by cycle *)
Lemma time_value h1 i h2 : gps_fix i -> fresh i -> Forall (fun j => ~ gps_fix j) h2 -> Forall (fun j => ~ resets_time j) (i :: h2) ->
  gtime_ns (n_time G i) + age i + 170000000 * Z.of_nat (length h2) < 2 ^ 64 ->
  let t := v_t G (after (h1 ++ i :: h2)) in
  t_valid t = true /\ g_set (t_gps t) = true /\ normal (t_gps t) /\
  gtime_ns (t_gps t) = gtime_ns (n_time G i) + age i + 170000000 * Z.of_nat (length h2) /\
  t_ns t = u64 (gtime_ns (t_gps t) - epoch).
Proof.
  intros F Fr NF NR B. pose proof (gtime_ns_range (n_time G i)) as Rg. unfold in64 in Rg.
  pose proof (Forall_inv NR) as R0. apply Forall_inv_tail in NR.
  assert (A0 : 0 <= age i <= 100000000) by (revert Fr; unfold fresh, age; lia).
  induction h2 as [|j h2 IH] using rev_ind.
  - cbv zeta. change (h1 ++ [i]) with (h1 ++ [i]). rewrite after_snoc, time_cases by apply after_quiet.
    rewrite (proj2 (not_asked _) R0). cbv zeta. rewrite (proj2 (has_fix_spec i) F). cbn [t_valid t_gps t_ns].
    rewrite dns_age by assumption. unfold add_n. cbn [length] in B. rewrite u64_id by lia.
    assert (I : in64 (gtime_ns (n_time G i) + age i)) by (unfold in64; lia).
    destruct (of_ns_spec _ I) as (N & S & _). rewrite ns_of_ns by assumption. cbn [length].
    split; [reflexivity|]. split; [assumption|]. split; [assumption|]. split; [lia|reflexivity].
  - rewrite app_length in B. cbn [length] in B. apply Forall_app in NF. destruct NF as [NF NFj]. apply Forall_app in NR. destruct NR as [NR NRj].
    apply Forall_inv in NFj. apply Forall_inv in NRj.
    specialize (IH NF). cbv zeta in IH |- *. destruct IH as (V & S & N & T & _); [assumption|lia|].
    change (h1 ++ i :: h2 ++ [j]) with (h1 ++ (i :: h2) ++ [j]). rewrite app_assoc.
    rewrite after_snoc, time_cases by apply after_quiet.
    rewrite (proj2 (not_asked _) NRj). cbv zeta. rewrite (proj2 (has_fix_not j) NFj). cbn [t_valid t_gps t_ns]. rewrite V.
    unfold add_n. rewrite T. rewrite u64_id by (unfold cycle_ns; lia).
    assert (I : in64 (gtime_ns (n_time G i) + age i + 170000000 * Z.of_nat (length h2) + cycle_ns)) by (unfold in64, cycle_ns; lia).
    destruct (of_ns_spec _ I) as (N' & S' & _). rewrite ns_of_ns by assumption. rewrite app_length. cbn [length]. unfold cycle_ns in *.
    split; [reflexivity|]. split; [assumption|]. split; [assumption|]. split; [lia|reflexivity].
Qed.

(** ** who depends on whom *)
Lemma chain_o s i : o_valid G (v_o G (nav_step s i)) = true -> t_valid (v_t G (nav_step s i)) = true.
Proof.
  unfold NavModel.nav_step. cbn [v_t v_o]. unfold orbit_step. cbv zeta. destruct (t_valid _); [reflexivity|]. cbn [negb orb o_valid]. discriminate.
Qed.
Lemma chain_r s i : r_state G (v_r G (nav_step s i)) <> 0 -> o_valid G (v_o G (nav_step s i)) = true.
Proof.
  unfold NavModel.nav_step. cbn [v_t v_o v_r]. unfold rel_step. cbv zeta. destruct (o_valid _ _); [reflexivity|].
  rewrite orb_true_r. cbn [orb r_state]. intros H. contradiction H. reflexivity.
Qed.
Lemma chain_a s i : a_valid G (v_a G (nav_step s i)) = true ->
  o_valid G (v_o G (nav_step s i)) = true /\ n_gyr_ok G i = true /\ (n_mag1_ok G i = true \/ n_mag2_ok G i = true) /\ ~ resets_att i.
Proof.
  unfold NavModel.nav_step. cbn [v_t v_o v_a]. unfold att_step. cbv zeta.
  destruct (_ || written _ _) eqn:E; [discriminate|]. intros _.
  apply orb_false_iff in E. destruct E as [E E5]. apply orb_false_iff in E. destruct E as [E E4]. apply orb_false_iff in E. destruct E as [E E3].
  apply orb_false_iff in E. destruct E as [_ E2].
  apply negb_false_iff in E2, E3, E4. apply orb_prop in E4. repeat split; try assumption.
  unfold resets_att. intros A. rewrite A in E5. discriminate.
Qed.
Lemma after_chain h :
  let s := after h in
  (o_valid G (v_o G s) = true -> t_valid (v_t G s) = true) /\
  (r_state G (v_r G s) <> 0 -> o_valid G (v_o G s) = true) /\
  (a_valid G (v_a G s) = true -> o_valid G (v_o G s) = true).
Proof.
  destruct h as [|i h _] using rev_ind; cbv zeta.
  - cbn. repeat split; congruence.
  - rewrite after_snoc. split; [apply chain_o|]. split; [apply chain_r|]. intros H. apply chain_a in H. apply H.
Qed.
Lemma after_attitude h i : a_valid G (v_a G (after (h ++ [i]))) = true ->
  n_gyr_ok G i = true /\ (n_mag1_ok G i = true \/ n_mag2_ok G i = true).
Proof. rewrite after_snoc. intros H. apply chain_a in H. tauto. Qed.

(** a reset is obeyed in the same cycle *)
Lemma reset_obeyed h i :
  let s := after (h ++ [i]) in
  (resets_time i -> t_valid (v_t G s) = false /\ o_valid G (v_o G s) = false /\ r_state G (v_r G s) = 0 /\ a_valid G (v_a G s) = false) /\
  (resets_orbit i -> o_valid G (v_o G s) = false /\ r_state G (v_r G s) = 0 /\ a_valid G (v_a G s) = false) /\
  (resets_rel i -> r_state G (v_r G s) = 0) /\ (resets_att i -> a_valid G (v_a G s) = false).
Proof.
  cbv zeta. destruct (after_chain (h ++ [i])) as (C1 & C2 & C3).
  assert (O : o_valid G (v_o G (after (h ++ [i]))) = false -> r_state G (v_r G (after (h ++ [i]))) = 0 /\ a_valid G (v_a G (after (h ++ [i]))) = false).
  { intros E. rewrite E in C2, C3. split.
    - destruct (Z.eq_dec (r_state G (v_r G (after (h ++ [i])))) 0) as [e|n]; [exact e|]. apply C2 in n. discriminate.
    - destruct (a_valid _ _); [|reflexivity]. symmetry. apply C3. reflexivity. }
  repeat match goal with |- _ /\ _ => split end; try (intros R).
  - assert (T : t_valid (v_t G (after (h ++ [i]))) = false).
    { rewrite after_snoc, time_cases by apply after_quiet. rewrite (proj2 (asked _) R). reflexivity. }
    rewrite T in C1. assert (E : o_valid G (v_o G (after (h ++ [i]))) = false) by (destruct (o_valid _ _); [symmetry; apply C1; reflexivity|reflexivity]).
    split; [assumption|]. split; [assumption|]. apply O. assumption.
  - assert (E : o_valid G (v_o G (after (h ++ [i]))) = false).
    { rewrite after_snoc. destruct (after_quiet h) as (_ & Q & _). cbn [NavModel.nav_step v_o]. unfold orbit_step. cbv zeta.
      rewrite Q. rewrite (proj2 (asked _) R). rewrite orb_true_r. reflexivity. }
    split; [assumption|]. apply O. assumption.
  - rewrite after_snoc. destruct (after_quiet h) as (_ & _ & Q & _). cbn [NavModel.nav_step v_r]. unfold rel_step. cbv zeta.
    rewrite Q. rewrite (proj2 (asked _) R). rewrite orb_true_r. reflexivity.
  - rewrite after_snoc. destruct (after_quiet h) as (_ & _ & _ & Q). cbn [NavModel.nav_step v_a]. unfold att_step. cbv zeta.
    rewrite Q. rewrite (proj2 (asked _) R). rewrite orb_true_r. reflexivity.
Qed.
End P.
