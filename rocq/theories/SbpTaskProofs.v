(** The GPS control task: what it publishes, and the serial port. *)
From Verif Require Import Base SbpModel SbpSpec SbpCrcProofs SbpParseProofs SbpStreamProofs SbpProofs.

Ltac Zify.zify_post_hook ::= Z.div_mod_to_equations.

Lemma read_bytes_feed k bytes : wf (k_sbp k) -> Forall is_byte bytes -> bytes <> [] ->
  let s := fst (feed (k_sbp k) bytes) in let evs := snd (feed (k_sbp k) bytes) in
  let k1 := fold_left callback evs (with_sbp (clear_updates k) s) in
  read_bytes k bytes = Some
    (if existsb corrupt evs then 3
     else if k_time_u k1 && k_pos_u k1 && k_vel_u k1 && negb (k_base_u k1) then 0
     else if k_time_u k1 && k_pos_u k1 && k_vel_u k1 && k_base_u k1 then 1 else 2, k1).
Proof.
  intros W B N. cbv zeta. unfold read_bytes. destruct bytes as [|b t]; [congruence|].
  change (k_sbp (clear_updates k)) with (k_sbp k). rewrite drain_feed by assumption.
  rewrite copies_inside by (apply feed_ok; assumption). reflexivity.
Qed.

Lemma fold_callback_sbp evs : forall k, k_sbp (fold_left callback evs k) = k_sbp k.
Proof.
  induction evs as [|e evs IH]; intros k; cbn [fold_left]; [reflexivity|]. rewrite IH.
  destruct e as [ty se n buf|]; [|reflexivity]. cbn [callback].
  destruct (is_type ty 0 1); [reflexivity|]. destruct (is_type ty 0 2); [reflexivity|].
  destruct (is_type ty 4 2); [reflexivity|]. destruct (is_type ty 2 2); reflexivity.
Qed.

(** one read *)
Lemma read_bytes_spec k bytes : wf (k_sbp k) -> Forall is_byte bytes ->
  exists r k', read_bytes k bytes = Some (r, k') /\ k_sbp k' = fst (feed (k_sbp k) bytes).
Proof.
  intros W B. destruct bytes as [|b t].
  - exists 4, (clear_updates k). split; reflexivity.
  - rewrite read_bytes_feed by (assumption || discriminate). eexists _, _. split; [reflexivity|]. rewrite fold_callback_sbp. reflexivity.
Qed.

Lemma gps_cycle_total k q delta bytes : wf (k_sbp k) -> Forall is_byte bytes ->
  exists k' q', gps_cycle (k, q) (delta, bytes) = Some (k', q') /\ k_sbp k' = fst (feed (k_sbp k) bytes) /\ wf (k_sbp k').
Proof.
  intros W B. destruct (read_bytes_spec k bytes W B) as (r & k' & E & S). unfold gps_cycle. cbn [fst snd]. rewrite E.
  eexists _, _. split; [reflexivity|]. split; [exact S|]. rewrite S. apply feed_wf; assumption.
Qed.

Lemma gps_cycles_feed cs : forall k q, wf (k_sbp k) -> Forall (Forall is_byte) (map snd cs) ->
  exists k' q', gps_cycles (k, q) cs = Some (k', q') /\ k_sbp k' = fst (feed (k_sbp k) (concat (map snd cs))) /\ wf (k_sbp k').
Proof.
  induction cs as [|[d b] cs IH]; intros k q W B.
  - exists k, q. split; [reflexivity|]. split; [reflexivity|exact W].
  - cbn [map concat snd] in *. inversion B; subst. destruct (gps_cycle_total k q d b W ltac:(assumption)) as (k1 & q1 & E1 & S1 & W1).
    cbn [gps_cycles]. rewrite E1. destruct (IH k1 q1 W1 ltac:(assumption)) as (k2 & q2 & E2 & S2 & W2). rewrite E2.
    exists k2, q2. split; [reflexivity|]. split; [|exact W2]. rewrite S2, S1, feed_app. reflexivity.
Qed.

(** the published data *)
Definition data (q : gps_fields) := (q_time q, q_pos q, q_vel q, q_base q).

Definition published (q : gps_fields) (delta : Z) (items : list item) (q' : gps_fields) : Prop :=
  q_delta q' = delta /\
  ((3 <= q_state q' /\ data q' = data q) \/
   exists pt pp pv, usable delta items pt pp pv /\
     q_time q' = Some (time_value pt) /\ q_pos q' = Some (doubles pp) /\ q_vel q' = Some (ints pv) /\
     ((q_state q' = 0 /\ last_payload ty_base items = None /\ q_base q' = q_base q) \/
      (exists pb, last_payload ty_base items = Some pb /\ tow pb = tow_time pt /\ q_base q' = Some (ints pb) /\
         (q_state q' = 1 /\ fix_mode pb = 1 \/ q_state q' = 2 /\ fix_mode pb = 0)))).

Lemma signed32_s32 x : 0 <= x < 4294967296 -> s32 x = signed32 x.
Proof. intros H. unfold s32, swrap, uwrap, signed32. change (2 ^ 32) with 4294967296. change (2 ^ (32 - 1)) with 2147483648. destruct (Z.ltb_spec x 2147483648); lia. Qed.

Lemma num_range p off n : Forall is_byte p -> (n <= 4)%nat -> 0 <= num p off n < 4294967296.
Proof.
  intros B N. unfold num. assert (X : Forall is_byte (firstn n (skipn off p))).
  { rewrite <- (firstn_skipn off p) in B. apply Forall_app in B as [_ B]. rewrite <- (firstn_skipn n (skipn off p)) in B. apply Forall_app in B as [B _]. exact B. }
  pose proof (little_range _ X) as R. rewrite firstn_length in R.
  assert (256 ^ Z.of_nat (Nat.min n (length (skipn off p))) <= 256 ^ 4) by (apply Z.pow_le_mono_r; lia). change (256 ^ 4) with 4294967296 in *. lia.
Qed.

(** payloads are made of bytes of the stream, or of the parser's buffer: every number of 32 bits is reduced by [s32] anyway *)
Lemma s32_num p off : Forall is_byte p -> s32 (num p off 4) = snum p off.
Proof. intros B. apply signed32_s32. apply num_range; [assumption|lia]. Qed.

Definition byte_payloads (items : list item) : Prop := forall t sender p, In (Good t sender p) items -> Forall is_byte p.

Lemma messages_bytes l is : messages l is -> Forall is_byte l -> byte_payloads is.
Proof.
  induction 1 as [|b t is Hb M IH|ty se payload t is T S M IH|ty se payload c0 c1 t is T S C M IH|]; intros B t' s' p' HI;
    try (cbn [In] in HI; contradiction).
  - inversion B; subst. eapply IH; eassumption.
  - unfold framed in B. apply Forall_app in B as [B1 B2]. destruct HI as [E|HI]; [|eapply IH; eassumption].
    injection E as <- <- <-. apply Forall_inv_tail in B1. apply Forall_app in B1 as [B1 _]. unfold body in B1.
    apply Forall_app in B1 as [_ B1]. apply Forall_app in B1 as [_ B1]. apply Forall_app in B1 as [_ B1]. exact B1.
  - destruct HI as [E|HI]; [discriminate|]. apply Forall_inv_tail in B. apply Forall_app in B as [_ B]. apply Forall_app in B as [_ B]. eapply IH; eassumption.
Qed.

Lemma pick_in ty items : forall acc p, fold_left (pick ty) items acc = Some p -> acc = Some p \/ exists sender, In (Good ty sender p) items.
Proof.
  induction items as [|it items IH]; intros acc p H; cbn [fold_left] in H; [auto|]. destruct (IH _ _ H) as [E|(se & E)].
  - destruct it as [t se q|]; cbn [pick] in E; [|auto]. destruct (list_eq_dec Z.eq_dec t ty) as [->|]; [|auto]. injection E as <-.
    right. exists se. left. reflexivity.
  - right. exists se. right. exact E.
Qed.
Lemma last_in ty items p : last_payload ty items = Some p -> exists sender, In (Good ty sender p) items.
Proof. rewrite last_pick. intros H. destruct (pick_in _ _ _ _ H) as [E|E]; [discriminate|exact E]. Qed.

Theorem cycle_published k q delta bytes : wf (k_sbp k) -> Forall is_byte bytes ->
  let items := map view (snd (feed (k_sbp k) bytes)) in
  full_length items -> byte_payloads items ->
  exists k' q', gps_cycle (k, q) (delta, bytes) = Some (k', q') /\ published q delta items q' /\
    (forall pt pp pv, usable delta items pt pp pv ->
       (last_payload ty_base items = None -> q_state q' = 0) /\
       (forall pb, last_payload ty_base items = Some pb -> tow pb = tow_time pt ->
          (fix_mode pb = 1 -> q_state q' = 1) /\ (fix_mode pb = 0 -> q_state q' = 2))).
Proof.
  intros W B items F BP. unfold gps_cycle. cbn [fst snd]. destruct bytes as [|b0 bytes].
  { cbn [read_bytes]. eexists _, _. split; [reflexivity|]. split.
    - unfold published, piksi_execute. rewrite Bool.andb_false_r. cbn. split; [reflexivity|]. left. split; [cbv; discriminate|reflexivity].
    - intros pt pp pv (_ & _ & U & _). discriminate. }
  rewrite read_bytes_feed by (assumption || discriminate).
  set (evs := snd (feed (k_sbp k) (b0 :: bytes))) in *. set (s := fst (feed (k_sbp k) (b0 :: bytes))).
  set (k1 := fold_left callback evs (with_sbp (clear_updates k) s)).
  assert (L : left_by (with_sbp (clear_updates k) s) k1 (last_payload ty_time items) (last_payload ty_pos items) (last_payload ty_vel items) (last_payload ty_base items)).
  { unfold k1. rewrite !last_pick. apply callbacks_left; [|apply feed_ok; assumption|exact F]. constructor; reflexivity. }
  destruct L as [_ Lt Ltu Lp Lpu Lv Lvu Lb Lbu].
  eexists _, _. split; [reflexivity|].
  assert (Rt : forall p, last_payload ty_time items = Some p -> time_tow k1 = tow_time p /\ time_of k1 = time_value p).
  { intros p E. rewrite E in Lt. cbn [opt] in Lt. destruct (last_in _ _ _ E) as (se & I). pose proof (BP _ _ _ I).
    unfold time_tow, time_of, tow_time, time_value. rewrite Lt, !field_num, !num_firstn by lia. rewrite s32_num by assumption. split; reflexivity. }
  assert (Rp : forall p, last_payload ty_pos items = Some p -> pos_tow k1 = tow p /\ pos_xyz k1 = doubles p /\ pos_nsats k1 = sats_used p).
  { intros p E. rewrite E in Lp. cbn [opt] in Lp. unfold pos_tow, pos_xyz, pos_nsats, tow, doubles, sats_used.
    rewrite Lp, !field_num, !num_firstn by lia. repeat split. }
  assert (Rv : forall p, last_payload ty_vel items = Some p -> vel_tow k1 = tow p /\ vel_xyz k1 = ints p).
  { intros p E. rewrite E in Lv. cbn [opt] in Lv. destruct (last_in _ _ _ E) as (se & I). pose proof (BP _ _ _ I).
    unfold vel_tow, vel_xyz, tow, ints. rewrite Lv, !field_num, !num_firstn by lia. rewrite !s32_num by assumption. repeat split. }
  assert (Rb : forall p, last_payload ty_base items = Some p -> base_tow k1 = tow p /\ base_xyz k1 = ints p /\ base_flags k1 = fix_mode p).
  { intros p E. rewrite E in Lb. cbn [opt] in Lb. destruct (last_in _ _ _ E) as (se & I). pose proof (BP _ _ _ I).
    unfold base_tow, base_xyz, base_flags, tow, ints, fix_mode. rewrite Lb, !field_num, !num_firstn by lia. rewrite !s32_num by assumption. repeat split. }
  clear Lt Lp Lv Lb. rewrite Ltu, Lpu, Lvu, Lbu.
  assert (Bad_ev : In Bad items <-> existsb corrupt evs = true) by (symmetry; apply existsb_bad).
  unfold published, usable.
  destruct (existsb corrupt evs) eqn:X.
  { assert (IB : In Bad items) by (apply Bad_ev; reflexivity). split; [|intros pt pp pv (U & _); contradiction].
    unfold piksi_execute. rewrite Bool.andb_false_r. cbn. split; [reflexivity|]. left. split; [cbv; discriminate|reflexivity]. }
  assert (NB : ~ In Bad items) by (rewrite Bad_ev; discriminate). clear Bad_ev X.
  destruct (last_payload ty_time items) as [pt|] eqn:Et; [|split; [|intros ? ? ? (_ & _ & U & _); discriminate]; cbn [isSome andb];
    unfold piksi_execute; rewrite Bool.andb_false_r; cbn; split; [reflexivity|]; left; split; [cbv; discriminate|reflexivity]].
  destruct (last_payload ty_pos items) as [pp|] eqn:Ep; [|split; [|intros ? ? ? (_ & _ & _ & U & _); discriminate]; cbn [isSome andb];
    unfold piksi_execute; rewrite Bool.andb_false_r; cbn; split; [reflexivity|]; left; split; [cbv; discriminate|reflexivity]].
  destruct (last_payload ty_vel items) as [pv|] eqn:Ev; [|split; [|intros ? ? ? (_ & _ & _ & _ & U & _); discriminate]; cbn [isSome andb];
    unfold piksi_execute; rewrite Bool.andb_false_r; cbn; split; [reflexivity|]; left; split; [cbv; discriminate|reflexivity]].
  destruct (Rt pt eq_refl) as [T1 T2]. destruct (Rp pp eq_refl) as (P1 & P2 & P3). destruct (Rv pv eq_refl) as (V1 & V2).
  cbn [isSome andb].
  destruct (last_payload ty_base items) as [pb|] eqn:Eb; cbn [isSome negb].
  - destruct (Rb pb eq_refl) as (B1 & B2 & B3). unfold piksi_execute. rewrite T1, T2, P1, P2, P3, V1, V2, B1, B2, B3.
    unfold md_threshold. destruct (Z.ltb_spec 100000 delta) as [D|D]; cbn [andb].
    { cbn. split; [split; [reflexivity|]; left; split; [cbv; discriminate|reflexivity]|]. intros ? ? ? (_ & U & _). lia. }
    change (1 =? 5) with false. change (1 =? 4) with false. change (1 =? 3) with false. change (1 =? 2) with false. change (1 =? 1) with true. change (1 =? 0) with false. cbn [orb].
    destruct (Z.eqb_spec (tow_time pt) (tow pp)) as [A1|A1]; cbn [andb negb].
    2:{ split; [split; [reflexivity|]; left; split; [cbv; discriminate|reflexivity]|]. intros ? ? ? (_ & _ & U1 & U2 & U3 & U4 & _). congruence. }
    destruct (Z.eqb_spec (tow_time pt) (tow pv)) as [A2|A2]; cbn [andb negb].
    2:{ split; [split; [reflexivity|]; left; split; [cbv; discriminate|reflexivity]|]. intros ? ? ? (_ & _ & U1 & U2 & U3 & _ & U4 & _). congruence. }
    destruct (Z.eqb_spec (tow_time pt) (tow pb)) as [A3|A3]; cbn [andb negb].
    2:{ split; [split; [reflexivity|]; left; split; [cbv; discriminate|reflexivity]|]. intros ? ? ? (_ & _ & U1 & U2 & U3 & _ & U4 & _).
        split; [discriminate|]. intros pb' E' U5. congruence. }
    destruct (Z.ltb_spec (sats_used pp) 4) as [A4|A4].
    { split; [split; [reflexivity|]; left; split; [cbv; discriminate|reflexivity]|]. intros ? ? ? (_ & _ & U1 & U2 & U3 & _ & _ & U4).
      injection U2 as <-. lia. }
    destruct (Z.eqb_spec (fix_mode pb) 1) as [M1|M1].
    { split; [split; [reflexivity|]; right; exists pt, pp, pv; cbn [q_state q_time q_pos q_vel q_base]; repeat split; try assumption; try lia; right; exists pb; repeat split; auto|].
      intros ? ? ? _. split; [discriminate|]. intros pb' E' _. injection E' as <-. split; [reflexivity|congruence]. }
    destruct (Z.eqb_spec (fix_mode pb) 0) as [M0|M0].
    { split; [split; [reflexivity|]; right; exists pt, pp, pv; cbn [q_state q_time q_pos q_vel q_base]; repeat split; try assumption; try lia; right; exists pb; repeat split; auto|].
      intros ? ? ? _. split; [discriminate|]. intros pb' E' _. injection E' as <-. split; [congruence|reflexivity]. }
    split; [split; [reflexivity|]; left; split; [cbv; discriminate|reflexivity]|]. intros ? ? ? _. split; [discriminate|]. intros pb' E' _. injection E' as <-. split; congruence.
  - unfold piksi_execute. rewrite T1, T2, P1, P2, P3, V1, V2.
    unfold md_threshold. destruct (Z.ltb_spec 100000 delta) as [D|D]; cbn [andb].
    { cbn. split; [split; [reflexivity|]; left; split; [cbv; discriminate|reflexivity]|]. intros ? ? ? (_ & U & _). lia. }
    change (0 =? 5) with false. change (0 =? 4) with false. change (0 =? 3) with false. change (0 =? 2) with false. change (0 =? 1) with false. change (0 =? 0) with true. cbn [orb].
    destruct (Z.eqb_spec (tow_time pt) (tow pp)) as [A1|A1]; cbn [andb negb].
    2:{ split; [split; [reflexivity|]; left; split; [cbv; discriminate|reflexivity]|]. intros ? ? ? (_ & _ & U1 & U2 & U3 & U4 & _). congruence. }
    destruct (Z.eqb_spec (tow_time pt) (tow pv)) as [A2|A2]; cbn [andb negb].
    2:{ split; [split; [reflexivity|]; left; split; [cbv; discriminate|reflexivity]|]. intros ? ? ? (_ & _ & U1 & U2 & U3 & _ & U4 & _). congruence. }
    destruct (Z.ltb_spec (sats_used pp) 4) as [A4|A4].
    { split; [split; [reflexivity|]; left; split; [cbv; discriminate|reflexivity]|]. intros ? ? ? (_ & _ & U1 & U2 & U3 & _ & _ & U4).
      injection U2 as <-. lia. }
    split; [split; [reflexivity|]; right; exists pt, pp, pv; cbn [q_state q_time q_pos q_vel q_base]; repeat split; try assumption; try lia; left; repeat split; auto|].
    intros ? ? ? _. split; [reflexivity|discriminate].
Qed.

(** *** after any history *)
Theorem history_published k0 q0 cs : piksi_boot k0 -> Forall (Forall is_byte) (map snd cs) ->
  exists k q items0, gps_cycles (k0, q0) cs = Some (k, q) /\ messages (concat (map snd cs)) items0 /\
    forall delta bytes, Forall is_byte bytes ->
    exists k' q' items, gps_cycle (k, q) (delta, bytes) = Some (k', q') /\
      messages (concat (map snd cs) ++ bytes) (items0 ++ items) /\
      (full_length items -> published q delta items q' /\
        (forall pt pp pv, usable delta items pt pp pv ->
           (last_payload ty_base items = None -> q_state q' = 0) /\
           (forall pb, last_payload ty_base items = Some pb -> tow pb = tow_time pt ->
              (fix_mode pb = 1 -> q_state q' = 1) /\ (fix_mode pb = 0 -> q_state q' = 2)))).
Proof.
  intros Bt B. pose proof (boot_wf _ Bt) as W0. destruct (gps_cycles_feed cs k0 q0 W0 B) as (k & q & E & S & W).
  set (l0 := concat (map snd cs)) in *.
  assert (B0 : Forall is_byte l0). { unfold l0. clear - B. induction B; cbn [concat]; [constructor|]. apply Forall_app. split; assumption. }
  exists k, q, (map view (snd (feed (k_sbp k0) l0))). split; [exact E|].
  assert (MM : forall l, Forall is_byte l -> messages l (map view (snd (feed (k_sbp k0) l)))).
  { intros l Hl. destruct (messages_total l Hl) as (is & M). rewrite (feed_messages _ _ M _ W0 (proj1 Bt) Hl). exact M. }
  split; [apply MM; assumption|]. intros delta bytes Hb.
  assert (M : messages (l0 ++ bytes) (map view (snd (feed (k_sbp k0) l0)) ++ map view (snd (feed (k_sbp k) bytes)))).
  { rewrite <- map_app. replace (snd (feed (k_sbp k0) l0) ++ snd (feed (k_sbp k) bytes)) with (snd (feed (k_sbp k0) (l0 ++ bytes))).
    - apply MM. apply Forall_app. split; assumption.
    - rewrite feed_app, <- S. reflexivity. }
  destruct (gps_cycle_total k q delta bytes W Hb) as (k' & q' & E' & _ & _).
  exists k', q', (map view (snd (feed (k_sbp k) bytes))). split; [exact E'|]. split; [exact M|].
  intros F. assert (BP : byte_payloads (map view (snd (feed (k_sbp k) bytes)))).
  { intros t s p Hp. eapply (messages_bytes _ _ M); [apply Forall_app; split; assumption|]. apply in_or_app. right. exact Hp. }
  destruct (cycle_published k q delta bytes W Hb F BP) as (k2 & q2 & E2 & P & U). rewrite E' in E2. injection E2 as -> ->. split; assumption.
Qed.
