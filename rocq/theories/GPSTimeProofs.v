From Verif Require Import Base BitArrayModel BitArrayProofs IntSerModel IntSerSpec IntSerProofs GPSTimeModel GPSTimeSpec.

Lemma ns_in_week_val : ns_in_week = 604800000000000.
Proof. reflexivity. Qed.

Lemma u64_lin a b : u64 (u64 a + u64 b) = u64 (a + b).
Proof. unfold u64, uwrap. rewrite <- Zplus_mod. reflexivity. Qed.

Lemma gtime_ns_instant_wrap g : gtime_ns g = u64 (instant g).
Proof. unfold gtime_ns. rewrite u64_lin. f_equal. unfold instant. rewrite ns_in_week_val. lia. Qed.

Lemma gtime_ns_instant g : in64 (instant g) -> gtime_ns g = instant g.
Proof. intros H. rewrite gtime_ns_instant_wrap. apply u64_id. exact H. Qed.

Lemma gtime_ns_range g : in64 (gtime_ns g).
Proof. unfold gtime_ns, u64. apply uwrap_range. lia. Qed.

Lemma of_ns_spec t :
  in64 t -> normal (gtime_of_ns t) /\ g_set (gtime_of_ns t) = true /\ instant (gtime_of_ns t) = t.
Proof.
  unfold in64. intros H. unfold gtime_of_ns. cbv zeta. rewrite ns_in_week_val.
  assert (H1 : 0 <= t / 604800000000000 < 2 ^ 16) by lia.
  rewrite (u16_id (t / 604800000000000)) by exact H1.
  rewrite (u64_id (t / 604800000000000 * 604800000000000)) by lia.
  rewrite (u64_id (t - _)) by lia.
  rewrite u32_id by lia.
  unfold s32. rewrite swrap_id by (change (32 - 1) with 31; lia).
  unfold normal, instant. cbn [g_wn g_tow g_ns g_set]. repeat split; lia.
Qed.

Lemma normal_inj a b :
  normal a -> normal b -> instant a = instant b -> g_set a = g_set b -> a = b.
Proof.
  destruct a as [w1 t1 n1 s1], b as [w2 t2 n2 s2]. unfold normal, instant. cbn [g_wn g_tow g_ns g_set].
  intros H1 H2 H3 ->. assert (n1 = n2) by lia. assert (t1 = t2) by lia. assert (w1 = w2) by lia. congruence.
Qed.

Lemma of_ns_instant g :
  normal g -> in64 (instant g) -> g_set g = true -> gtime_of_ns (gtime_ns g) = g.
Proof.
  intros N I S. rewrite gtime_ns_instant by assumption.
  destruct (of_ns_spec _ I) as (N' & S' & I'). apply normal_inj; try assumption. congruence.
Qed.

Lemma ns_of_ns t : in64 t -> gtime_ns (gtime_of_ns t) = t.
Proof.
  intros H. destruct (of_ns_spec _ H) as (_ & _ & I'). rewrite gtime_ns_instant; rewrite I'; auto.
Qed.

Lemma add_spec g t :
  in64 (instant g) -> in64 (instant g + t) ->
  normal (add_n g t) /\ g_set (add_n g t) = true /\ instant (add_n g t) = instant g + t.
Proof.
  intros H1 H2. unfold add_n. rewrite gtime_ns_instant by assumption. rewrite u64_id by exact H2.
  apply of_ns_spec. assumption.
Qed.

Lemma sub_enough g t :
  g_set g = true -> in64 (instant g) -> 0 <= t <= instant g ->
  normal (sub_n g t) /\ g_set (sub_n g t) = true /\ instant (sub_n g t) = instant g - t.
Proof.
  intros S H1 H2. unfold sub_n, lt_n. rewrite S, gtime_ns_instant by assumption.
  unfold in64 in *. destruct (Z.ltb_spec (instant g) t); [lia|].
  rewrite u64_id by lia. apply of_ns_spec. unfold in64. lia.
Qed.

Lemma sub_too_much g t :
  g_set g = true -> in64 (instant g) -> instant g < t -> g_set (sub_n g t) = false.
Proof.
  intros S H1 H2. unfold sub_n, lt_n. rewrite S, gtime_ns_instant by assumption.
  destruct (Z.ltb_spec (instant g) t); [reflexivity|lia].
Qed.

Lemma add_sub g t :
  normal g -> g_set g = true -> 0 <= t -> in64 (instant g) -> in64 (instant g + t) ->
  sub_n (add_n g t) t = g.
Proof.
  intros N S T H1 H2. destruct (add_spec g t H1 H2) as (N' & S' & I').
  assert (X : 0 <= t <= instant (add_n g t)) by (unfold in64 in *; lia).
  destruct (sub_enough (add_n g t) t S') as (N2 & S2 & I2); [rewrite I'; assumption|exact X|].
  apply normal_inj; try assumption; [lia|congruence].
Qed.

Lemma compare_set a b :
  g_set a = true -> g_set b = true -> in64 (instant a) -> in64 (instant b) ->
  (eq_g a b = true <-> instant a = instant b) /\ (ne_g a b = true <-> instant a <> instant b) /\
  (lt_g a b = true <-> instant a < instant b) /\ (gt_g a b = true <-> instant a > instant b) /\
  (le_g a b = true <-> instant a <= instant b) /\ (ge_g a b = true <-> instant a >= instant b).
Proof.
  intros Sa Sb Ia Ib. unfold ge_g, le_g, gt_g, ne_g, eq_g, lt_g, eq_n, lt_n.
  rewrite Sa, Sb, !gtime_ns_instant by assumption. lia.
Qed.

Lemma unset_eq_lt a b : g_set a = false \/ g_set b = false -> eq_g a b = false /\ lt_g a b = false.
Proof. unfold eq_g, lt_g, eq_n, lt_n. intros [->| ->]; destruct (g_set a), (g_set b); auto. Qed.

Lemma unset_gt a b : g_set a = false \/ g_set b = false -> gt_g a b = true /\ le_g a b = false /\ ge_g a b = true.
Proof.
  intros H. destruct (unset_eq_lt a b H) as [E1 E2]. unfold le_g, ge_g, gt_g. rewrite E1, E2. auto.
Qed.

(** ** Serializer *)

Lemma copy_at_app pre mid post src :
  length src = length mid -> copy_at (pre ++ mid ++ post) (length pre) src = Some (pre ++ src ++ post).
Proof.
  revert pre mid; induction src as [|b src IH]; intros pre mid H.
  - destruct mid; [|discriminate]. reflexivity.
  - destruct mid as [|m mid]; [discriminate|]. cbn [copy_at].
    rewrite upd_app_r by lia. rewrite Nat.sub_diag. cbn [app upd].
    replace (pre ++ b :: mid ++ post) with ((pre ++ [b]) ++ mid ++ post) by (rewrite <- app_assoc; reflexivity).
    replace (S (length pre)) with (length (pre ++ [b])) by (rewrite app_length; cbn; lia).
    rewrite IH by (cbn in H; lia). rewrite <- !app_assoc. reflexivity.
Qed.

Lemma sub_bits_app pre mid post :
  sub_bits (pre ++ mid ++ post) (length pre) (length mid) = Some mid.
Proof.
  unfold sub_bits. rewrite !app_length.
  replace (Nat.leb _ _) with true by (symmetry; apply Nat.leb_le; lia).
  rewrite skipn_app, skipn_all, Nat.sub_diag. cbn [skipn app].
  rewrite firstn_app, firstn_all, Nat.sub_diag. cbn [firstn]. rewrite app_nil_r. reflexivity.
Qed.

(** shape of every serializer reachable from the constructor *)
Definition gser_shape (s : gser) : Prop :=
  is_ty (gs_wn s) = UInt /\ is_min (gs_wn s) = 2000 /\ is_max (gs_wn s) = 3000 /\ length (is_bits (gs_wn s)) = 10%nat /\
  is_ty (gs_tow s) = UInt /\ is_min (gs_tow s) = 0 /\ is_max (gs_tow s) = 604800000 /\ length (is_bits (gs_tow s)) = 30%nat /\
  is_ty (gs_ns s) = SInt /\ is_min (gs_ns s) = -1000000 /\ is_max (gs_ns s) = 1000000 /\ length (is_bits (gs_ns s)) = 21%nat /\
  length (gs_bits s) = 62%nat.

Lemma gser_make_shape : exists s, gser_make = Some s /\ gser_shape s.
Proof. eexists. split; [vm_compute; reflexivity|]. unfold gser_shape. ground. Qed.

Lemma inner_ok s :
  gser_shape s ->
  (declared (gs_wn s) /\ arith_safe (gs_wn s)) /\ (declared (gs_tow s) /\ arith_safe (gs_tow s)) /\
  (declared (gs_ns s) /\ arith_safe (gs_ns s)).
Proof.
  intros (A1&A2&A3&A4&B1&B2&B3&B4&C1&C2&C3&C4&_). unfold declared, arith_safe.
  rewrite A1, A2, A3, A4, B1, B2, B3, B4, C1, C2, C3, C4. cbn [ity_min ity_max ity_bits]. lia.
Qed.

Lemma serialize_fields s v s' :
  declared s -> arith_safe s -> serialize s v = Some s' ->
  is_ty s' = is_ty s /\ is_min s' = is_min s /\ is_max s' = is_max s /\ length (is_bits s') = length (is_bits s).
Proof.
  intros D A E. rewrite serialize_spec in E by assumption. injection E as <-. cbn. 
  rewrite val_bits_length. auto.
Qed.

Lemma inner_roundtrip s v s' :
  declared s -> arith_safe s -> is_max s - is_min s <= 2 ^ Z.of_nat (length (is_bits s)) - 1 ->
  serialize s v = Some s' -> deserialize s' = Some (clamp (is_min s) (is_max s) v).
Proof. intros D A X E. destruct (roundtrip_exact s v D A X) as (s2 & E1 & E2). congruence. Qed.

Lemma set_bits_same s : set_bits s (is_bits s) = s.
Proof. unfold set_bits, assign. rewrite Nat.eqb_refl. destruct s; reflexivity. Qed.

(** A set time survives up to clamping to the telemetry range. *)
Lemma gser_roundtrip_set s g dest :
  gser_shape s -> g_set g = true ->
  exists s', gserialize s g = Some s' /\ gser_shape s' /\
    gdeserialize s' dest =
      Some (mk_gtime (clamp 2000 3000 (g_wn g)) (clamp 0 604800000 (g_tow g))
                     (clamp (-1000000) 1000000 (g_ns g)) true).
Proof.
  intros SH S. destruct (inner_ok s SH) as ((DW & AW) & (DT & AT) & (DN & AN)).
  pose proof SH as (A1&A2&A3&A4&B1&B2&B3&B4&C1&C2&C3&C4&L).
  destruct (serialize (gs_wn s) (g_wn g)) as [w|] eqn:EW; [|rewrite serialize_spec in EW by assumption; discriminate].
  destruct (serialize (gs_tow s) (g_tow g)) as [t|] eqn:ET; [|rewrite serialize_spec in ET by assumption; discriminate].
  destruct (serialize (gs_ns s) (g_ns g)) as [n|] eqn:EN; [|rewrite serialize_spec in EN by assumption; discriminate].
  pose proof (serialize_fields _ _ _ DW AW EW) as (W1&W2&W3&W4).
  pose proof (serialize_fields _ _ _ DT AT ET) as (T1&T2&T3&T4).
  pose proof (serialize_fields _ _ _ DN AN EN) as (N1&N2&N3&N4).
  assert (RW : deserialize w = Some (clamp 2000 3000 (g_wn g))).
  { rewrite <- A2, <- A3. eapply inner_roundtrip; eauto. rewrite A2, A3, A4. vm_compute. discriminate. }
  assert (RT : deserialize t = Some (clamp 0 604800000 (g_tow g))).
  { rewrite <- B2, <- B3. eapply inner_roundtrip; eauto. rewrite B2, B3, B4. vm_compute. discriminate. }
  assert (RN : deserialize n = Some (clamp (-1000000) 1000000 (g_ns g))).
  { rewrite <- C2, <- C3. eapply inner_roundtrip; eauto. rewrite C2, C3, C4. vm_compute. discriminate. }
  unfold gserialize. rewrite S, EW, ET, EN.
  destruct (gs_bits s) as [|b0 bs] eqn:EB; [discriminate|]. cbn [length] in L. cbn [upd]. cbv zeta.
  assert (SP : exists m1 m2 m3, bs = m1 ++ m2 ++ m3 /\ length m1 = length (is_bits w) /\
             length m2 = length (is_bits t) /\ length m3 = length (is_bits n)).
  { exists (firstn 10 bs), (firstn 30 (skipn 10 bs)), (skipn 30 (skipn 10 bs)).
    rewrite !firstn_skipn. split; [reflexivity|].
    rewrite !firstn_length, !skipn_length, W4, T4, N4, A4, B4, C4. lia. }
  destruct SP as (m1 & m2 & m3 & -> & L1 & L2 & L3).
  change (true :: m1 ++ m2 ++ m3) with ([true] ++ m1 ++ (m2 ++ m3)).
  change 1%nat with (length [true]) at 1. rewrite copy_at_app by congruence.
  replace ([true] ++ is_bits w ++ m2 ++ m3) with (([true] ++ is_bits w) ++ m2 ++ m3) by (rewrite <- app_assoc; reflexivity).
  replace (1 + length (is_bits w))%nat with (length ([true] ++ is_bits w)) by (rewrite app_length; reflexivity).
  rewrite copy_at_app by congruence.
  replace (([true] ++ is_bits w) ++ is_bits t ++ m3) with ((([true] ++ is_bits w) ++ is_bits t) ++ m3 ++ [])
    by (rewrite app_nil_r, <- !app_assoc; reflexivity).
  replace (length ([true] ++ is_bits w) + length (is_bits t))%nat with (length (([true] ++ is_bits w) ++ is_bits t))
    by (rewrite app_length; reflexivity).
  rewrite copy_at_app by congruence.
  eexists. split; [reflexivity|]. split.
  { unfold gser_shape; cbn [gs_wn gs_tow gs_ns gs_bits].
    rewrite W1, W2, W3, W4, T1, T2, T3, T4, N1, N2, N3, N4, !app_length, W4, T4, N4, A4, B4, C4. cbn [length].
    repeat split; congruence || lia. }
  unfold gdeserialize. cbn [gs_bits gs_wn gs_tow gs_ns]. rewrite app_nil_r, <- !app_assoc. cbn [app].
  change (true :: is_bits w ++ is_bits t ++ is_bits n) with ([true] ++ is_bits w ++ (is_bits t ++ is_bits n)).
  cbv zeta.
  replace (sub_bits ([true] ++ is_bits w ++ is_bits t ++ is_bits n) 1 (length (is_bits w))) with (Some (is_bits w))
    by (symmetry; apply (sub_bits_app [true])).
  replace (sub_bits ([true] ++ is_bits w ++ is_bits t ++ is_bits n) (1 + length (is_bits w)) (length (is_bits t)))
    with (Some (is_bits t)).
  2:{ symmetry. replace ([true] ++ is_bits w ++ is_bits t ++ is_bits n) with
        (([true] ++ is_bits w) ++ is_bits t ++ is_bits n) by (rewrite <- app_assoc; reflexivity).
      replace (1 + length (is_bits w))%nat with (length ([true] ++ is_bits w)) by (rewrite app_length; reflexivity).
      apply sub_bits_app. }
  replace (sub_bits ([true] ++ is_bits w ++ is_bits t ++ is_bits n)
             (1 + length (is_bits w) + length (is_bits t)) (length (is_bits n)))
    with (Some (is_bits n)).
  2:{ symmetry. replace ([true] ++ is_bits w ++ is_bits t ++ is_bits n) with
        (([true] ++ is_bits w ++ is_bits t) ++ is_bits n ++ []) by (rewrite app_nil_r, <- !app_assoc; reflexivity).
      replace (1 + length (is_bits w) + length (is_bits t))%nat with (length ([true] ++ is_bits w ++ is_bits t))
        by (rewrite !app_length; cbn [length]; lia).
      apply sub_bits_app. }
  cbn [app]. rewrite !set_bits_same, RW, RT, RN. rewrite u16_id; [reflexivity|]. unfold clamp; lia.
Qed.

Lemma clamp_same lo hi v : lo <= v <= hi -> clamp lo hi v = v.
Proof. unfold clamp; lia. Qed.

Lemma gser_roundtrip_unset s g dest :
  gser_shape s -> g_set g = false ->
  exists s' d, gserialize s g = Some s' /\ gser_shape s' /\ gdeserialize s' dest = Some d /\ g_set d = false.
Proof.
  intros SH S. unfold gserialize. rewrite S. pose proof SH as (A1&A2&A3&A4&B1&B2&B3&B4&C1&C2&C3&C4&L).
  destruct (gs_bits s) as [|b bs] eqn:E; [discriminate|]. cbn [upd]. do 2 eexists.
  split; [reflexivity|]. split; [|split; [reflexivity|reflexivity]].
  unfold gser_shape; cbn [gs_wn gs_tow gs_ns gs_bits]. cbn [length] in *. repeat split; assumption.
Qed.

Lemma gser_scanned_unset_loses s dest wn tow ns d s' :
  gser_shape s -> g_set dest = false ->
  gdeserialize_scanned s dest wn tow ns = Some (d, s') -> g_set d = false.
Proof.
  intros SH S. unfold gdeserialize_scanned. cbv zeta. destruct (gserialize _ _); [|discriminate].
  intros H. injection H as <- <-. exact S.
Qed.

(** every reachable serializer state has the constructor's shape *)
Inductive gser_reach : gser -> Prop :=
| gr_init s : gser_make = Some s -> gser_reach s
| gr_ser s g s' : gser_reach s -> gserialize s g = Some s' -> gser_reach s'.

Lemma gser_reach_shape s : gser_reach s -> gser_shape s.
Proof.
  induction 1 as [s E|s g s' R IH E].
  - destruct gser_make_shape as (s0 & E0 & H). congruence.
  - destruct (g_set g) eqn:S.
    + destruct (gser_roundtrip_set s g gtime_default IH S) as (s2 & E2 & H2 & _). congruence.
    + destruct (gser_roundtrip_unset s g gtime_default IH S) as (s2 & d & E2 & H2 & _). congruence.
Qed.
