(** The theorems on the GPS link, put together. *)
From Verif Require Import Base SbpModel SbpSpec SbpCrcProofs SbpParseProofs SbpStreamProofs SbpProofs SbpTaskProofs SbpPortProofs SbpWitness.

Ltac Zify.zify_post_hook ::= Z.div_mod_to_equations.

Lemma delivered_one s l s' e : wf s -> Forall is_byte l -> feed s l = (s', e) -> delivered s [l] = Some (s', [e]).
Proof. intros W B E. cbn [delivered]. rewrite drain_feed by assumption. rewrite E. reflexivity. Qed.

Lemma is55 l : Forall is_byte l -> Forall is_byte (0x55 :: l).
Proof. intros H. constructor; [unfold is_byte; lia|assumption]. Qed.

Lemma checksum_noticed s ty sender payload c0 c1 :
  parser_boot s -> two ty -> two sender -> Forall is_byte (body ty sender payload) -> is_byte c0 -> is_byte c1 ->
  c0 + 256 * c1 <> remainder (body ty sender payload) ->
  exists s', delivered s [0x55 :: body ty sender payload ++ [c0; c1]] = Some (s', [[Corrupt]]).
Proof.
  intros Bt T S B C0 C1 N. pose proof (boot_wf s Bt) as W.
  pose proof (feed_bad s ty sender payload c0 c1 W (proj1 Bt) T S (is55 _ B) C0 C1 N) as F.
  destruct (feed s (0x55 :: body ty sender payload ++ [c0; c1])) as [s' e] eqn:E. cbn [snd] in F. subst e.
  exists s'. apply delivered_one; [assumption| |assumption]. apply is55, Forall_app. split; [assumption|]. repeat (apply Forall_cons || apply Forall_nil); assumption.
Qed.

Lemma burst_noticed s ty sender payload ty' sender' payload' a w w' z :
  parser_boot s -> two ty -> two sender -> two ty' -> two sender' -> length payload' = length payload ->
  Forall is_byte (body ty sender payload) -> Forall is_byte (body ty' sender' payload') ->
  bits (body ty sender payload) = a ++ w ++ z -> bits (body ty' sender' payload') = a ++ w' ++ z ->
  length w = 16%nat -> length w' = 16%nat -> w <> w' ->
  let c := remainder (body ty sender payload) in
  exists s', delivered s [framed ty' sender' payload' c] = Some (s', [[Corrupt]]).
Proof.
  intros Bt T S T' S' L B B' E E' Lw Lw' N c. unfold framed. destruct (remainder_bytes (body ty sender payload)) as (R1 & R2 & R3).
  apply checksum_noticed; try assumption. unfold c. rewrite R3. eapply burst_remainder; eassumption.
Qed.

Lemma lxor_low r : 0 <= r -> Z.lxor r 0xA1 mod 256 = Z.lxor (r mod 256) 0xA1 /\ Z.lxor r 0xA1 / 256 = r / 256.
Proof.
  intros H. split.
  - change 256 with (2 ^ 8). apply Z.bits_inj'. intros n Hn. rewrite !Z.lxor_spec. destruct (Z.lt_ge_cases n 8).
    + rewrite !Z.mod_pow2_bits_low by lia. rewrite Z.lxor_spec. reflexivity.
    + rewrite !Z.mod_pow2_bits_high by lia. rewrite (Z.bits_above_log2 0xA1 n); [reflexivity|lia|]. change (Z.log2 0xA1) with 7. lia.
  - change 256 with (2 ^ 8). rewrite <- !Z.shiftr_div_pow2 by lia. rewrite Z.shiftr_lxor. change (Z.shiftr 0xA1 8) with 0. apply Z.lxor_0_r.
Qed.

Lemma lxor_byte a b : is_byte a -> is_byte b -> is_byte (Z.lxor a b).
Proof. unfold is_byte. intros A B. change 256 with (2 ^ 8) in *. apply lxor_small; lia. Qed.

Lemma adjacent_unnoticed s ty sender payload b : parser_boot s -> two ty -> two sender ->
  Forall is_byte (body ty sender (payload ++ [b])) ->
  let c := remainder (body ty sender (payload ++ [b])) in
  let damaged := 0x55 :: body ty sender (payload ++ [Z.lxor b 0x89]) ++ [Z.lxor (c mod 256) 0xA1; c / 256] in
  exists s' e, delivered s [damaged] = Some (s', [[e]]) /\ view e = Good ty sender (payload ++ [Z.lxor b 0x89]) /\ Z.lxor b 0x89 <> b.
Proof.
  intros Bt T S B c damaged.
  assert (Eb : forall x, body ty sender (payload ++ [x]) = (ty ++ sender ++ [Z.of_nat (length payload + 1)] ++ payload) ++ [x]).
  { intros x. unfold body. rewrite app_length. cbn [length]. rewrite <- !app_assoc. reflexivity. }
  destruct (remainder_bytes (body ty sender (payload ++ [b]))) as (R1 & R2 & R3). fold c in R1, R2, R3.
  assert (Hc : 0 <= c) by (unfold is_byte in *; lia).
  assert (Er : remainder (body ty sender (payload ++ [Z.lxor b 0x89])) = Z.lxor c 0xA1).
  { unfold c. rewrite !Eb. apply remainder_snoc. rewrite <- Eb. exact B. }
  assert (Hb : is_byte b). { rewrite Eb in B. apply Forall_app in B as [_ B]. exact (Forall_inv B). }
  assert (B' : Forall is_byte (body ty sender (payload ++ [Z.lxor b 0x89]))).
  { rewrite Eb in *. apply Forall_app in B as [B _]. apply Forall_app. split; [exact B|]. constructor; [|constructor]. apply lxor_byte; [assumption|unfold is_byte; lia]. }
  destruct (lxor_low c Hc) as [X1 X2].
  assert (C0 : is_byte (Z.lxor (c mod 256) 0xA1)) by (apply lxor_byte; [assumption|unfold is_byte; lia]).
  pose proof (boot_wf s Bt) as W.
  destruct (feed_message s ty sender (payload ++ [Z.lxor b 0x89]) (Z.lxor (c mod 256) 0xA1) (c / 256) W (proj1 Bt) T S (is55 _ B') C0 R2) as (s' & e & F & _ & _ & V & _).
  exists s', e. split; [|split].
  - apply delivered_one; [assumption| |exact F]. apply is55, Forall_app. split; [assumption|]. repeat (apply Forall_cons || apply Forall_nil); assumption.
  - rewrite V, Er, <- X1, <- X2.
    replace (Z.lxor c 0xA1 mod 256 + 256 * (Z.lxor c 0xA1 / 256)) with (Z.lxor c 0xA1) by lia. rewrite Z.eqb_refl. reflexivity.
  - intros X. apply (f_equal (Z.lxor b)) in X. rewrite Z.lxor_nilpotent, <- Z.lxor_assoc, Z.lxor_nilpotent, Z.lxor_0_l in X. discriminate.
Qed.

(** *** consequences of [history_published] *)
Ltac hist k0 q0 cs Bt B :=
  destruct (history_published k0 q0 cs Bt B) as (k & q & items0 & E & M & H);
  exists k, q, items0; split; [exact E|]; split; [exact M|]; intros delta bytes Hb;
  destruct (H delta bytes Hb) as (k' & q' & items & E' & M' & F);
  exists k', q', items; split; [exact E'|]; split; [exact M'|].

Lemma full_published k0 q0 cs : piksi_boot k0 -> Forall (Forall is_byte) (map snd cs) ->
  exists k q items0, gps_cycles (k0, q0) cs = Some (k, q) /\ messages (concat (map snd cs)) items0 /\
    forall delta bytes, Forall is_byte bytes ->
    exists k' q' items, gps_cycle (k, q) (delta, bytes) = Some (k', q') /\ messages (concat (map snd cs) ++ bytes) (items0 ++ items) /\
      (full_length items -> published q delta items q').
Proof. intros Bt B. hist k0 q0 cs Bt B. intros L. apply F. exact L. Qed.

Lemma same_instant k0 q0 cs : piksi_boot k0 -> Forall (Forall is_byte) (map snd cs) ->
  exists k q items0, gps_cycles (k0, q0) cs = Some (k, q) /\ messages (concat (map snd cs)) items0 /\
    forall delta bytes, Forall is_byte bytes ->
    exists k' q' items, gps_cycle (k, q) (delta, bytes) = Some (k', q') /\ messages (concat (map snd cs) ++ bytes) (items0 ++ items) /\
      (full_length items ->
       (3 <= q_state q' /\ data q' = data q) \/
       exists pt pp pv, ~ In Bad items /\ delta <= 100000 /\
         last_payload ty_time items = Some pt /\ last_payload ty_pos items = Some pp /\ last_payload ty_vel items = Some pv /\
         tow_time pt = tow pp /\ tow_time pt = tow pv /\ 4 <= sats_used pp /\
         q_time q' = Some (time_value pt) /\ q_pos q' = Some (doubles pp) /\ q_vel q' = Some (ints pv) /\
         (q_state q' = 0 /\ q_base q' = q_base q \/
          exists pb, last_payload ty_base items = Some pb /\ tow pb = tow_time pt /\ q_base q' = Some (ints pb) /\
            (q_state q' = 1 /\ fix_mode pb = 1 \/ q_state q' = 2 /\ fix_mode pb = 0))).
Proof.
  intros Bt B. hist k0 q0 cs Bt B. intros L. destruct (F L) as [[_ [P|(pt & pp & pv & U & P1 & P2 & P3 & P4)]] _]; [left; exact P|right].
  exists pt, pp, pv. unfold usable in U. repeat (split; [tauto|]). destruct P4 as [(P4 & _ & P5)|P4]; [left|right]; tauto.
Qed.

Lemma complete_used k0 q0 cs : piksi_boot k0 -> Forall (Forall is_byte) (map snd cs) ->
  exists k q items0, gps_cycles (k0, q0) cs = Some (k, q) /\ messages (concat (map snd cs)) items0 /\
    forall delta bytes, Forall is_byte bytes ->
    exists k' q' items, gps_cycle (k, q) (delta, bytes) = Some (k', q') /\ messages (concat (map snd cs) ++ bytes) (items0 ++ items) /\
      (full_length items -> forall pt pp pv, usable delta items pt pp pv ->
         (last_payload ty_base items = None -> q_state q' = 0) /\
         (forall pb, last_payload ty_base items = Some pb -> tow pb = tow_time pt ->
            (fix_mode pb = 1 -> q_state q' = 1) /\ (fix_mode pb = 0 -> q_state q' = 2))).
Proof. intros Bt B. hist k0 q0 cs Bt B. intros L. apply F. exact L. Qed.

Lemma thousandfold k0 q0 cs : piksi_boot k0 -> Forall (Forall is_byte) (map snd cs) ->
  exists k q items0, gps_cycles (k0, q0) cs = Some (k, q) /\ messages (concat (map snd cs)) items0 /\
    forall delta bytes, Forall is_byte bytes ->
    exists k' q' items, gps_cycle (k, q) (delta, bytes) = Some (k', q') /\ messages (concat (map snd cs) ++ bytes) (items0 ++ items) /\
      (full_length items ->
        (q_vel q' = q_vel q \/ exists pv, last_payload ty_vel items = Some pv /\ q_vel q' = Some (ints pv)) /\
        (q_base q' = q_base q \/ exists pb, last_payload ty_base items = Some pb /\ q_base q' = Some (ints pb))).
Proof.
  intros Bt B. hist k0 q0 cs Bt B. intros L. destruct (F L) as [[_ [[_ P]|(pt & pp & pv & U & P1 & P2 & P3 & P4)]] _].
  - unfold data in P. injection P as _ _ P5 P6. auto.
  - split; [right; exists pv; unfold usable in U; tauto|]. destruct P4 as [(_ & _ & P4)|(pb & P4 & _ & P5 & _)]; [left; exact P4|right; exists pb; auto].
Qed.

Lemma damaged_unchanged k0 q0 cs : piksi_boot k0 -> Forall (Forall is_byte) (map snd cs) ->
  exists k q items0, gps_cycles (k0, q0) cs = Some (k, q) /\ messages (concat (map snd cs)) items0 /\
    forall delta bytes, Forall is_byte bytes ->
    exists k' q' items, gps_cycle (k, q) (delta, bytes) = Some (k', q') /\ messages (concat (map snd cs) ++ bytes) (items0 ++ items) /\
      (In Bad items -> data q' = data q /\ q_state q' = 6).
Proof.
  intros Bt B. pose proof (boot_wf _ Bt) as W0. destruct (gps_cycles_feed cs k0 q0 W0 B) as (k & q & E & S & W).
  set (l0 := concat (map snd cs)) in *.
  assert (B0 : Forall is_byte l0). { unfold l0. clear - B. induction B; cbn [concat]; [constructor|]. apply Forall_app. split; assumption. }
  assert (MM : forall l, Forall is_byte l -> messages l (map view (snd (feed (k_sbp k0) l)))).
  { intros l Hl. destruct (messages_total l Hl) as (is & M). rewrite (feed_messages _ _ M _ W0 (proj1 Bt) Hl). exact M. }
  exists k, q, (map view (snd (feed (k_sbp k0) l0))). split; [exact E|]. split; [apply MM; assumption|]. intros delta bytes Hb.
  destruct (gps_cycle_total k q delta bytes W Hb) as (k' & q' & E' & _ & _).
  exists k', q', (map view (snd (feed (k_sbp k) bytes))). split; [exact E'|]. split.
  - rewrite <- map_app. replace (snd (feed (k_sbp k0) l0) ++ snd (feed (k_sbp k) bytes)) with (snd (feed (k_sbp k0) (l0 ++ bytes))).
    + apply MM. apply Forall_app. split; assumption.
    + rewrite feed_app, <- S. reflexivity.
  - intros I. apply existsb_bad in I. destruct bytes as [|b bytes]; [cbn in I; discriminate|].
    unfold gps_cycle in E'. cbn [fst snd] in E'. rewrite read_bytes_feed in E' by (assumption || discriminate). rewrite I in E'. injection E' as <- <-.
    unfold piksi_execute. rewrite Bool.andb_false_r. cbn. split; reflexivity.
Qed.

(** *** cases *)
Ltac witness_stream :=
  match goal with |- messages ?l ?is =>
    let X := fresh in
    assert (X : Forall is_byte l) by (apply Forall_forall; intros x Hx; vm_compute in Hx; unfold is_byte;
      repeat (destruct Hx as [<-|Hx]; [lia|]); contradiction);
    destruct (messages_total l X) as (is' & M');
    pose proof (feed_messages _ _ M' some_parser (boot_wf _ some_parser_boot) eq_refl X) as F';
    let Y := fresh in assert (Y : is' = is) by (rewrite <- F'; vm_compute; reflexivity); rewrite <- Y; exact M'
  end.

Lemma short_message_used : exists k q, gps_cycles (gps0, gps_boot) [(500, msg_log ++ msg_time ++ msg_short ++ msg_vel)] = Some (k, q) /\
  messages (msg_log ++ msg_time ++ msg_short ++ msg_vel) [Good [0x01; 0x04] me (repeat 7 40); Good ty_time me pay_time; Good ty_pos me tow4; Good ty_vel me pay_vel] /\
  q_state q = 0 /\ q_pos q = Some [504684633242211481; 506381209866536711; 506381209866536711].
Proof. eexists _, _. split; [vm_compute; reflexivity|]. split; [witness_stream|]. split; reflexivity. Qed.
Lemma two_readings : exists k q, gps_cycles (gps0, gps_boot) [(500, msg_time ++ msg_pos); (500, msg_vel ++ msg_base)] = Some (k, q) /\
  messages ((msg_time ++ msg_pos) ++ msg_vel ++ msg_base) [Good ty_time me pay_time; Good ty_pos me pay_pos; Good ty_vel me pay_vel; Good ty_base me pay_base] /\
  q_state q = 3 /\ data q = (None, None, None, None).
Proof. eexists _, _. split; [vm_compute; reflexivity|]. split; [witness_stream|]. split; reflexivity. Qed.
Lemma unrelated_damage : exists k q, gps_cycles (gps0, gps_boot) [(500, burst ++ 0x55 :: body [0x01; 0x04] me [7] ++ [0; 0])] = Some (k, q) /\
  messages (burst ++ 0x55 :: body [0x01; 0x04] me [7] ++ [0; 0]) [Good ty_time me pay_time; Good ty_pos me pay_pos; Good ty_vel me pay_vel; Good ty_base me pay_base; Bad] /\
  q_state q = 6 /\ data q = (None, None, None, None).
Proof. eexists _, _. split; [vm_compute; reflexivity|]. split; [witness_stream|]. split; reflexivity. Qed.

Lemma burst_case : exists k q, gps_cycles (gps0, gps_boot) [(500, burst)] = Some (k, q) /\ q_state q = 1 /\ q_time q = Some (2128, 345618432, 0) /\
  full_length [Good ty_time me pay_time; Good ty_pos me pay_pos; Good ty_vel me pay_vel; Good ty_base me pay_base].
Proof.
  eexists _, _. split; [vm_compute; reflexivity|]. split; [reflexivity|]. split; [reflexivity|].
  intros t s p H. repeat (destruct H as [H|H]; [injection H as <- <- <-; repeat split; intros X; try discriminate X; vm_compute; lia|]). contradiction.
Qed.
Lemma velocity_unit : exists k q, gps_cycles (gps0, gps_boot) [(500, burst)] = Some (k, q) /\
  ints pay_vel = [7600 * 1000; 0; 0] /\ q_vel q <> Some [7600; 0; 0].
Proof. eexists _, _. split; [vm_compute; reflexivity|]. split; [vm_compute; reflexivity|]. discriminate. Qed.
Lemma baseline_unit : exists k q, gps_cycles (gps0, gps_boot) [(500, burst)] = Some (k, q) /\
  ints pay_base = [1000 * 1000; 0; 0] /\ q_base q <> Some [1000; 0; 0].
Proof. eexists _, _. split; [vm_compute; reflexivity|]. split; [vm_compute; reflexivity|]. discriminate. Qed.

Lemma pause_delay : exists p l p', i_queue p = [] /\ i_last_bytes p = 0 /\ 100 < u32 (u32 (i_count p + 1) - i_last_count p) /\
  length l = 110%nat /\ take_bytes (ticks p (msg_time :: l)) = Some (msg_time ++ concat l, p') /\ i_delta p' = 800.
Proof.
  exists (mk_port [] 0 1700 30 0), (repeat [] 101 ++ [msg_pos ++ msg_vel] ++ repeat [] 8). eexists.
  split; [reflexivity|]. split; [reflexivity|]. split; [vm_compute; reflexivity|]. split; [reflexivity|]. split; vm_compute; reflexivity.
Qed.
Lemma early_delay : exists p l p', i_queue p = [] /\ i_last_bytes p = 0 /\
  length l = 10%nat /\ take_bytes (ticks p (msg_time :: l)) = Some (msg_time ++ concat l, p') /\ i_delta p' = 6000.
Proof.
  exists (mk_port [] 0 49 0 0), (repeat [] 10). eexists.
  split; [reflexivity|]. split; [reflexivity|]. split; [reflexivity|]. split; vm_compute; reflexivity.
Qed.
