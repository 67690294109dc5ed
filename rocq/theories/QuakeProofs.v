From Verif Require Import Base QuakeModel QuakeSpec.

(** ** C42 *)
Lemma checksum_from_eq l : forall s, checksum_from s l = match l with [] => s | _ => u16 (s + fold_right Z.add 0 l) end.
Proof.
  induction l as [|c t IH]; intros s; [reflexivity|]. cbn [checksum_from fold_right]. rewrite IH. unfold u16, uwrap.
  destruct t as [|c2 t]; [cbn [fold_right]; rewrite Z.add_0_r; reflexivity|]. rewrite Zplus_mod_idemp_l. f_equal. lia.
Qed.
Lemma checksum_sum l : checksum l = sum_bytes l.
Proof. unfold checksum. rewrite checksum_from_eq. unfold sum_bytes, u16, uwrap. destruct l; reflexivity. Qed.

Lemma sum_app a b : fold_right Z.add 0 (a ++ b) = fold_right Z.add 0 a + fold_right Z.add 0 b.
Proof. induction a as [|x a IH]; cbn; lia. Qed.
Lemma sum_bytes_one a b b' c : byte b -> byte b' -> b <> b' -> sum_bytes (a ++ b :: c) <> sum_bytes (a ++ b' :: c).
Proof.
  unfold sum_bytes, byte. rewrite !sum_app. cbn [fold_right]. intros H H' N E.
  set (x := fold_right Z.add 0 a) in *. set (y := fold_right Z.add 0 c) in *. clearbody x y.
  pose proof (Z.div_mod (x + (b + y)) 65536 ltac:(lia)). pose proof (Z.div_mod (x + (b' + y)) 65536 ltac:(lia)). nia.
Qed.
Lemma sum_bytes_range l : 0 <= sum_bytes l < 65536. Proof. apply Z.mod_pos_bound. lia. Qed.

(** reading a frame of the right size *)
Lemma get_frame e q n0 n1 m h l : e_rx e = [n0; n1] ++ m ++ [h; l] -> q_len q <= e_avail e + 4 ->
  256 * n0 + n1 = Z.of_nat (length m) -> (length m <= 340)%nat ->
  get_sbdrb e q = (q_set_msg q (pad 341 m), if u16 (256 * h + l) =? sum_bytes m then rs_ok else rs_bad_checksum).
Proof.
  intros RX AV SZ LE. unfold get_sbdrb. cbv zeta. destruct (Z.ltb_spec (e_avail e + 4) (q_len q)); [lia|].
  replace (256 * rd e 0 + rd e 1) with (Z.of_nat (length m)) by (unfold rd; rewrite RX; cbn [app nth]; lia).
  destruct (Z.ltb_spec (Z.of_nat (length m)) 0); [lia|]. destruct (Z.ltb_spec 340 (Z.of_nat (length m))); [lia|]. cbn [orb].
  rewrite Nat2Z.id. unfold rd_bytes. rewrite RX. cbn [app skipn]. rewrite firstn_app, Nat.sub_diag, firstn_O, app_nil_r, firstn_all.
  unfold rd. rewrite RX. change ([n0; n1] ++ m ++ [h; l]) with (n0 :: n1 :: (m ++ [h; l])).
  change (nth (2 + length m) (n0 :: n1 :: m ++ [h; l]) (-1)) with (nth (length m) (m ++ [h; l]) (-1)).
  change (nth (S (2 + length m)) (n0 :: n1 :: m ++ [h; l]) (-1)) with (nth (S (length m)) (m ++ [h; l]) (-1)).
  rewrite (app_nth2 m [h; l] (-1) (le_n (length m))), Nat.sub_diag. rewrite (app_nth2 m [h; l] (-1) (Nat.le_succ_diag_r (length m))).
  replace (S (length m) - length m)%nat with 1%nat by lia. cbn [nth].
  cbn [q_msg q_set_msg]. unfold max_msg_size. change (340 + 1)%nat with 341%nat. unfold pad at 1.
  rewrite firstn_app, Nat.sub_diag, firstn_O, app_nil_r, firstn_all, checksum_sum.
  destruct (_ =? _); reflexivity.
Qed.

Lemma frame_accepted e q m : Forall byte m -> (length m <= 340)%nat -> arrives (wire m) e q ->
  get_sbdrb e q = (q_set_msg q (pad 341 m), rs_ok).
Proof.
  intros F LE (RX & AV). unfold wire in RX. cbv zeta in RX.
  rewrite (get_frame e q _ _ _ _ _ RX AV); [|pose proof (Z.div_mod (Z.of_nat (length m)) 256 ltac:(lia)); lia|exact LE].
  pose proof (sum_bytes_range m) as R. pose proof (Z.div_mod (sum_bytes m) 256 ltac:(lia)) as D.
  rewrite u16_id by lia. replace (256 * (sum_bytes m / 256) + sum_bytes m mod 256) with (sum_bytes m) by lia. rewrite Z.eqb_refl. reflexivity.
Qed.

Lemma corrupted_message_detected e q a b b' c : Forall byte (a ++ b :: c) -> byte b' -> b <> b' -> (length (a ++ b :: c) <= 340)%nat ->
  let m := a ++ b :: c in
  arrives ([Z.of_nat (length m) / 256; Z.of_nat (length m) mod 256] ++ (a ++ b' :: c) ++ [sum_bytes m / 256; sum_bytes m mod 256]) e q ->
  snd (get_sbdrb e q) = rs_bad_checksum.
Proof.
  intros F B' N LE m (RX & AV).
  assert (LL : length (a ++ b' :: c) = length m) by (unfold m; rewrite !app_length; reflexivity).
  rewrite (get_frame e q _ _ _ _ _ RX AV); [|rewrite LL; pose proof (Z.div_mod (Z.of_nat (length m)) 256 ltac:(lia)); lia|rewrite LL; exact LE].
  cbn [snd]. pose proof (sum_bytes_range m) as R. pose proof (Z.div_mod (sum_bytes m) 256 ltac:(lia)) as D.
  rewrite u16_id by lia. replace (256 * (sum_bytes m / 256) + sum_bytes m mod 256) with (sum_bytes m) by lia.
  destruct (Z.eqb_spec (sum_bytes m) (sum_bytes (a ++ b' :: c))) as [E|E]; [|reflexivity].
  exfalso. revert E. unfold m. apply sum_bytes_one; [|exact B'|exact N]. rewrite Forall_forall in F. apply F. apply in_elt.
Qed.

Lemma corrupted_checksum_detected e q m h l : Forall byte m -> (length m <= 340)%nat -> byte h -> byte l ->
  256 * h + l <> sum_bytes m ->
  arrives ([Z.of_nat (length m) / 256; Z.of_nat (length m) mod 256] ++ m ++ [h; l]) e q -> snd (get_sbdrb e q) = rs_bad_checksum.
Proof.
  intros F LE H L N (RX & AV). unfold byte in *.
  rewrite (get_frame e q _ _ _ _ _ RX AV); [|pose proof (Z.div_mod (Z.of_nat (length m)) 256 ltac:(lia)); lia|exact LE].
  cbn [snd]. rewrite u16_id by lia. destruct (Z.eqb_spec (256 * h + l) (sum_bytes m)); [contradiction|reflexivity].
Qed.

(** ** C26 *)
Lemma qct_config_keeps e q : let '(q1, _, _) := qct_config e q in q_state q1 = q_state q /\ q_entry q1 = q_entry q.
Proof. unfold qct_config. destruct (if q_fn q =? 0 then _ else _) as [err o]. destruct (err =? rs_ok); auto. Qed.
Lemma qct_sbdwb_keeps e q : let '(q1, _, _) := qct_sbdwb e q in q_state q1 = q_state q /\ q_entry q1 = q_entry q.
Proof. unfold qct_sbdwb. destruct (if q_fn q =? 0 then _ else _) as [err o]. destruct (err =? rs_ok); auto. Qed.
Lemma qct_sbdix_keeps e q : let '(q1, _, _) := qct_sbdix e q in q_state q1 = q_state q /\ q_entry q1 = q_entry q.
Proof.
  unfold qct_sbdix. assert (K : forall r : rad * Z * list rout, (let '(q1, _, _) := r in q_state q1 = q_state q /\ q_entry q1 = q_entry q) ->
    let '(q2, _, _) := (let '(q1, err, o) := r in (if err =? rs_ok then q_set_fn q1 ((q_fn q1 + 1) mod 2) else q1, err, o)) in q_state q2 = q_state q /\ q_entry q2 = q_entry q).
  { intros [[q1 err] o] H. destruct (err =? rs_ok); exact H. }
  apply K. destruct (q_fn q =? 0); [destruct (send e CExchange); cbn; auto|]. destruct (q_fn q =? 1); [|cbn; auto].
  destruct (_ <? _); [cbn; auto|]. destruct (_ <=? _); [cbn; auto|]. destruct (e_parse e) as [[[? ?] ?]|]; cbn; auto.
Qed.
Lemma get_sbdrb_keeps e q : q_state (fst (get_sbdrb e q)) = q_state q /\ q_entry (fst (get_sbdrb e q)) = q_entry q /\ q_len (fst (get_sbdrb e q)) = q_len q /\ q_fn (fst (get_sbdrb e q)) = q_fn q.
Proof.
  unfold get_sbdrb. destruct (_ <? _); [cbn; auto|]. cbv zeta. destruct (_ || _); [cbn; auto|]. destruct (_ =? _); cbn; auto.
Qed.
Lemma qct_sbdrb_keeps e q : let '(q1, _, _) := qct_sbdrb e q in q_state q1 = q_state q /\ q_entry q1 = q_entry q.
Proof.
  unfold qct_sbdrb. assert (K : forall r : rad * Z * list rout, (let '(q1, _, _) := r in q_state q1 = q_state q /\ q_entry q1 = q_entry q) ->
    let '(q2, _, _) := (let '(q1, err, o) := r in (if err =? rs_ok then q_set_fn q1 ((q_fn q1 + 1) mod 2) else q1, err, o)) in q_state q2 = q_state q /\ q_entry q2 = q_entry q).
  { intros [[q1 err] o] H. destruct (err =? rs_ok); exact H. }
  apply K. destruct (q_fn q =? 0); [destruct (send e CRead); cbn; auto|]. destruct (q_fn q =? 1); [|cbn; auto].
  pose proof (get_sbdrb_keeps e q) as G. destruct (get_sbdrb e q) as [q1 s]. cbn in *. tauto.
Qed.

(** a phase that is not left was within its budget *)
Lemma config_stays mx cc e q : q_state q = r_config -> q_state (fst (radio_exec mx cc e q)) = r_config ->
  q_entry (fst (radio_exec mx cc e q)) = q_entry q /\ age cc q <= 5.
Proof.
  intros S. unfold radio_exec. rewrite S. cbn [Z.eqb r_config r_disabled Pos.eqb]. change (r_config =? r_disabled) with false. change (r_config =? r_config) with true. cbn iota.
  unfold m_config, no_more_cycles, max_phase_cycles. destruct (Z.ltb_spec 5 (age cc q)); [discriminate|].
  pose proof (qct_config_keeps e q) as K. destruct (qct_config e q) as [[q1 err] o]. destruct (actual_error err); [discriminate|].
  destruct (has_finished cc q1); [discriminate|]. cbn. intros _. destruct K. split; [assumption|lia].
Qed.
Lemma read_stays mx cc e q : q_state q = r_read -> q_state (fst (radio_exec mx cc e q)) = r_read ->
  q_entry (fst (radio_exec mx cc e q)) = q_entry q /\ age cc q <= 5.
Proof.
  intros S. unfold radio_exec. rewrite S. change (r_read =? r_disabled) with false. change (r_read =? r_config) with false. change (r_read =? r_wait) with false.
  change (r_read =? r_transceive) with false. change (r_read =? r_read) with true. cbn iota.
  unfold m_read, no_more_cycles, max_phase_cycles. destruct (Z.ltb_spec 5 (age cc q)); [discriminate|].
  pose proof (qct_sbdrb_keeps e q) as K. destruct (qct_sbdrb e q) as [[q1 err] o]. destruct (actual_error err); [discriminate|].
  destruct (has_finished cc q1); [discriminate|]. cbn. intros _. destruct K. split; [assumption|lia].
Qed.
Lemma write_stays mx cc e q : q_state q = r_write -> q_state (fst (radio_exec mx cc e q)) = r_write ->
  q_entry (fst (radio_exec mx cc e q)) = q_entry q /\ age cc q <= 5.
Proof.
  intros S. unfold radio_exec. rewrite S. change (r_write =? r_disabled) with false. change (r_write =? r_config) with false. change (r_write =? r_wait) with false.
  change (r_write =? r_transceive) with false. change (r_write =? r_read) with false. change (r_write =? r_write) with true. cbn iota.
  unfold m_write, no_more_cycles, max_phase_cycles. destruct (Z.ltb_spec 5 (age cc q)); [discriminate|].
  set (x := if just_entered cc q then _ else _). assert (KX : q_state (fst x) = q_state q /\ q_entry (fst x) = q_entry q).
  { unfold x. destruct (just_entered cc q); [|auto]. destruct (Nat.eqb (q_idx q) 0); cbn; auto. }
  destruct x as [q0 o0]. cbn [fst] in KX.
  pose proof (qct_sbdwb_keeps e q0) as K. destruct (qct_sbdwb e q0) as [[q1 err] o]. destruct (actual_error err); [discriminate|].
  destruct (has_finished cc q1); [discriminate|]. cbn [fst]. intros _. destruct K, KX. split; [congruence|lia].
Qed.
Lemma transceive_stays mx cc e q : q_state q = r_transceive -> q_state (fst (radio_exec mx cc e q)) = r_transceive ->
  q_entry (fst (radio_exec mx cc e q)) = q_entry q /\ age cc q <= e_max_transceive e.
Proof.
  intros S. unfold radio_exec. rewrite S. change (r_transceive =? r_disabled) with false. change (r_transceive =? r_config) with false. change (r_transceive =? r_wait) with false.
  change (r_transceive =? r_transceive) with true. cbn iota.
  unfold m_transceive, no_more_cycles. destruct (Z.ltb_spec (e_max_transceive e) (age cc q)); [discriminate|].
  pose proof (qct_sbdix_keeps e q) as K. destruct (qct_sbdix e q) as [[q1 err] o]. destruct (actual_error err); [discriminate|].
  destruct (has_finished cc q1).
  - destruct (4 <? q_mo q1).
    + unfold no_comms. destruct (_ <? _); [|discriminate]. cbn. intros _. destruct K. split; [assumption|lia].
    + cbn. destruct (q_mt q1 =? 1); discriminate.
  - cbn. intros _. destruct K. split; [assumption|lia].
Qed.
Lemma wait_stays mx cc e q : q_state q = r_wait -> e_cycling e = false -> q_state (fst (radio_exec mx cc e q)) = r_wait ->
  q_entry (fst (radio_exec mx cc e q)) = q_entry q /\ age cc q <= e_max_wait e.
Proof.
  intros S P. unfold radio_exec. rewrite S. change (r_wait =? r_disabled) with false. change (r_wait =? r_config) with false. change (r_wait =? r_wait) with true. cbn iota.
  unfold m_wait, no_more_cycles. rewrite P. destruct (Z.ltb_spec (e_max_wait e) (age cc q)); cbn [negb orb].
  - destruct (q_flag q); discriminate.
  - cbn. intros _. split; [reflexivity|lia].
Qed.

Lemma stays_bound mx (ok : renv -> Prop) st B : 0 <= B < 2 ^ 32 - 1 ->
  (forall cc e q, ok e -> q_state q = st -> q_state (fst (radio_exec mx cc e q)) = st ->
     q_entry (fst (radio_exec mx cc e q)) = q_entry q /\ age cc q <= B) ->
  forall n cc q, stays mx ok st n cc q -> q_state q = st /\ 0 <= n <= B + 1 /\ (0 < n -> age cc q <= B /\ n <= age cc q + 1).
Proof.
  intros HB K. induction 1 as [cc q S|n cc q e H IH O S]; [split; [exact S|]; lia|].
  destruct IH as (S0 & N0 & IH). split; [exact S|].
  destruct (K _ _ _ O S0 S) as (E & A). unfold age in *. rewrite E.
  assert (ST : 0 < n -> u32 (u32 (cc + 1) - q_entry q) = u32 (cc - q_entry q) + 1).
  { intros HN. destruct (IH HN) as (A0 & _). pose proof (u32_range (cc - q_entry q)). rewrite <- (u32_id (u32 (cc - q_entry q) + 1)) by lia.
    unfold u32, uwrap. rewrite Zminus_mod_idemp_l, Zplus_mod_idemp_l. f_equal. lia. }
  pose proof (u32_range (u32 (cc + 1) - q_entry q)). destruct (Z.eq_dec n 0) as [->|NZ]; [lia|].
  specialize (ST ltac:(lia)). specialize (IH ltac:(lia)). lia.
Qed.

Lemma phases_end mx ok st n cc q : In st [r_config; r_write; r_read] -> stays mx ok st n cc q -> n <= 6.
Proof.
  intros I H. assert (0 <= n <= 5 + 1); [|lia].
  refine (proj1 (proj2 (stays_bound mx ok st 5 ltac:(lia) _ n cc q H))). intros cc0 e q0 _ S.
  destruct I as [<-|[<-|[<-|[]]]]; [apply config_stays|apply write_stays|apply read_stays]; assumption.
Qed.
Lemma transceive_ends mx T n cc q : 0 <= T < 2 ^ 32 - 1 -> stays mx (fun e => e_max_transceive e <= T) r_transceive n cc q -> n <= T + 1.
Proof.
  intros HT H. refine (proj2 (proj1 (proj2 (stays_bound mx _ r_transceive T HT _ n cc q H)))). intros cc0 e q0 O S S'.
  destruct (transceive_stays mx cc0 e q0 S S'). split; [assumption|lia].
Qed.
Lemma wait_ends mx W n cc q : 0 <= W < 2 ^ 32 - 1 -> stays mx (fun e => e_max_wait e <= W /\ e_cycling e = false) r_wait n cc q -> n <= W + 1.
Proof.
  intros HT H. refine (proj2 (proj1 (proj2 (stays_bound mx _ r_wait W HT _ n cc q H)))). intros cc0 e q0 (O & P) S S'.
  destruct (wait_stays mx cc0 e q0 S P S'). split; [assumption|lia].
Qed.

(** ** Disabled *)
Lemma disabled_quiet mx cc e q : q_state q = r_disabled -> snd (radio_exec mx cc e q) = [] /\ q_state (fst (radio_exec mx cc e q)) = r_disabled.
Proof. intros S. unfold radio_exec. rewrite S. split; reflexivity. Qed.
Lemma wait_quiet mx cc e q : q_state q = r_wait -> snd (radio_exec mx cc e q) = [].
Proof.
  intros S. unfold radio_exec. rewrite S. change (r_wait =? r_disabled) with false. change (r_wait =? r_config) with false. change (r_wait =? r_wait) with true. cbn iota.
  unfold m_wait. destruct (_ || _); [reflexivity|]. destruct (q_flag q); reflexivity.
Qed.

(** ** C27 *)
Definition slices (s : list Z) (n : nat) : list (list Z) := map (slice s) (seq 0 n).
Lemma slices_S s n : slices s (S n) = slices s n ++ [slice s n].
Proof. unfold slices. rewrite seq_S, map_app. reflexivity. Qed.

(** where the radio is in the delivery of the snapshot [sn] of which [d] packets were delivered and [pd] waits *)
Definition place (k : nat) (cc : Z) (q : rad) (h : heard) : Prop :=
  let n := length (h_got h) in
  (q_state q = r_transceive -> exists s, h_snap h = Some s /\ h_pending h = Some (slice s n) /\ (n < k)%nat /\ q_idx q = ((n + 1) mod k)%nat /\ (q_fn q = 0 \/ q_fn q = 1)) /\
  (q_state q = r_read -> q_idx q = 0%nat \/ (q_idx q = n /\ (n < k)%nat /\ h_snap h <> None)) /\
  (q_state q = r_write ->
     (q_fn q = 0 /\ q_entry q = cc /\ (q_idx q = 0%nat \/ (q_idx q = n /\ (n < k)%nat /\ h_snap h <> None))) \/
     (exists s, h_snap h = Some s /\ q_off q = (packet_size * n)%nat /\ (n < k)%nat /\ q_idx q = ((n + 1) mod k)%nat /\
        ((q_fn q = 1 /\ 1 <= age cc q <= 5) \/ (q_fn q = 2 /\ 2 <= age cc q <= 5 /\ h_pending h = Some (slice s n))))).
Definition delivers (k : nat) (h : heard) : Prop :=
  (length (h_got h) <= k)%nat /\ match h_snap h with Some s => h_got h = slices s (length (h_got h)) | None => h_got h = [] end.
Definition buffered (q : rad) (h : heard) : Prop := forall s, h_snap h = Some s -> q_buf q = s.

Lemma age_next cc q : age cc q <= 5 -> age (u32 (cc + 1)) q = age cc q + 1.
Proof.
  unfold age. intros A. pose proof (u32_range (cc - q_entry q)). rewrite <- (u32_id (u32 (cc - q_entry q) + 1)) by lia.
  unfold u32, uwrap. rewrite Zminus_mod_idemp_l, Zplus_mod_idemp_l. f_equal. lia.
Qed.
Lemma age_fresh cc q : q_entry q = cc -> age (u32 (cc + 1)) q = 1.
Proof. intros E. unfold age. rewrite E. unfold u32, uwrap. rewrite Zminus_mod_idemp_l. replace (cc + 1 - cc) with 1 by lia. reflexivity. Qed.

(** a transition to a phase that has nothing pending *)
Ltac off_states := unfold place, r_transceive, r_read, r_write; cbn [q_state transition handle_err q_set_state q_set_fn q_set_entry q_set_flag q_set_err q_set_idx r_wait r_config r_disabled]; repeat split; intros; discriminate.

Lemma place_idle k cc q h st : st <> r_transceive -> st <> r_read -> st <> r_write -> q_state q = st -> place k cc q h.
Proof. intros A B C S. unfold place. rewrite S. repeat split; intros; contradiction. Qed.
Lemma place_fresh k cc q h : q_state q = r_write -> q_fn q = 0 -> q_entry q = cc -> q_idx q = 0%nat -> place k cc q h.
Proof.
  intros S F E I. unfold place. rewrite S. repeat split; intros X; try discriminate X. left. auto.
Qed.

Lemma hear_cmds (o : list rout) : Forall (fun x => match x with OCmd _ => True | _ => False end) o -> forall h, fold_left hear o h = h.
Proof. induction 1 as [|x o X F IH]; intros h; [reflexivity|]. destruct x; try contradiction. apply IH. Qed.
Lemma send_cmds e c : Forall (fun x => match x with OCmd _ => True | _ => False end) (snd (send e c)).
Proof. unfold send. destruct (e_w e); repeat constructor. Qed.

Definition inv27 (k : nat) (cc : Z) (q : rad) (h : heard) : Prop := place k cc q h /\ delivers k h /\ buffered q h.

Lemma config_step k cc e q h : q_state q = r_config -> delivers k h -> buffered q h ->
  inv27 k cc (fst (m_config cc e q)) (fold_left hear (snd (m_config cc e q)) h).
Proof.
  intros S D B. unfold m_config. destruct (no_more_cycles _ _ _).
  { cbn [fst snd fold_left]. split; [apply (place_idle _ _ _ _ r_wait); [discriminate|discriminate|discriminate|reflexivity]|]. split; [exact D|exact B]. }
  assert (O : let '(q1, _, o) := qct_config e q in Forall (fun x => match x with OCmd _ => True | _ => False end) o /\ q_buf q1 = q_buf q /\ q_state q1 = r_config).
  { unfold qct_config. assert (F : Forall (fun x => match x with OCmd _ => True | _ => False end) (snd (if q_fn q =? 0 then send e CFactory
      else if q_fn q =? 1 then (if e_avail e =? 0 then (rs_port_unavailable, []) else send e CSetup)
      else if q_fn q =? 2 then let s := consume e s_setup in if s =? rs_ok then send e CClear else (s, [])
      else if q_fn q =? 3 then (consume e s_cleared, []) else (rs_wrong_order, [])))).
    { destruct (q_fn q =? 0); [apply send_cmds|]. destruct (q_fn q =? 1); [destruct (e_avail e =? 0); [constructor|apply send_cmds]|].
      destruct (q_fn q =? 2); [cbv zeta; destruct (_ =? rs_ok); [apply send_cmds|constructor]|]. destruct (q_fn q =? 3); constructor. }
    destruct (if q_fn q =? 0 then _ else _) as [err o]. cbn [snd] in F. destruct (err =? rs_ok); auto. }
  destruct (qct_config e q) as [[q1 err] o]. destruct O as (O & BB & S1).
  assert (B1 : buffered q1 h) by (intros s X; rewrite BB; apply B, X).
  destruct (actual_error err).
  { cbn [fst snd]. rewrite hear_cmds by exact O. split; [apply (place_idle _ _ _ _ r_wait); [discriminate|discriminate|discriminate|reflexivity]|]. split; [exact D|exact B1]. }
  destruct (has_finished cc q1); cbn [fst snd]; rewrite hear_cmds by exact O.
  - split; [apply place_fresh; reflexivity|]. split; [exact D|exact B1].
  - split; [apply (place_idle _ _ _ _ r_config); [discriminate|discriminate|discriminate|exact S1]|]. split; [exact D|exact B1].
Qed.

Lemma wait_step k cc e q h : q_state q <> r_transceive -> q_state q <> r_read -> q_state q <> r_write -> delivers k h -> buffered q h ->
  inv27 k cc (fst (m_wait cc e q)) (fold_left hear (snd (m_wait cc e q)) h).
Proof.
  intros S1 S2 S3 D B. unfold m_wait. destruct (_ || _).
  { cbn [fst snd fold_left]. split; [apply (place_idle _ _ _ _ (q_state q)); auto|]. split; assumption. }
  destruct (q_flag q); cbn [fst snd fold_left].
  - split; [apply (place_idle _ _ _ _ r_config); [discriminate|discriminate|discriminate|reflexivity]|]. split; assumption.
  - split; [apply place_fresh; reflexivity|]. split; assumption.
Qed.

Lemma read_step k cc e q h c0 : q_state q = r_read -> place k c0 q h -> delivers k h -> buffered q h ->
  inv27 k cc (fst (m_read cc e q)) (fold_left hear (snd (m_read cc e q)) h).
Proof.
  intros S P0 D B.
  assert (P : q_idx q = 0%nat \/ (q_idx q = length (h_got h) /\ (length (h_got h) < k)%nat /\ h_snap h <> None)) by (apply P0, S).
  unfold m_read. destruct (no_more_cycles _ _ _).
  { cbn [fst snd fold_left]. split; [apply (place_idle _ _ _ _ r_wait); [discriminate|discriminate|discriminate|reflexivity]|]. split; [exact D|exact B]. }
  assert (O : let '(q1, _, o) := qct_sbdrb e q in Forall (fun x => match x with OCmd _ => True | _ => False end) o /\ q_buf q1 = q_buf q /\ q_state q1 = r_read /\ q_idx q1 = q_idx q).
  { unfold qct_sbdrb.
    assert (X : let '(q1, _, o) := (if q_fn q =? 0 then let '(s, o) := send e CRead in (q_set_msg q (repeat 0 (max_msg_size + 1)), s, o)
      else if q_fn q =? 1 then let '(q1, s) := get_sbdrb e q in (q1, s, []) else (q, rs_wrong_order, [])) in
      Forall (fun x => match x with OCmd _ => True | _ => False end) o /\ q_buf q1 = q_buf q /\ q_state q1 = r_read /\ q_idx q1 = q_idx q).
    { destruct (q_fn q =? 0); [pose proof (send_cmds e CRead); destruct (send e CRead); auto|]. destruct (q_fn q =? 1); [|auto].
      unfold get_sbdrb. destruct (_ <? _); [auto|]. cbv zeta. destruct (_ || _); [auto|]. destruct (_ =? _); auto. }
    destruct (if q_fn q =? 0 then _ else _) as [[q1 err] o]. destruct (err =? rs_ok); exact X. }
  destruct (qct_sbdrb e q) as [[q1 err] o]. destruct O as (O & BB & S1 & I1).
  assert (B1 : buffered q1 h) by (intros s X; rewrite BB; apply B, X).
  destruct (actual_error err).
  { cbn [fst snd]. rewrite hear_cmds by exact O. split; [apply (place_idle _ _ _ _ r_wait); [discriminate|discriminate|discriminate|reflexivity]|]. split; [exact D|exact B1]. }
  destruct (has_finished cc q1); cbn [fst snd].
  - rewrite fold_left_app, (hear_cmds o O). cbn [fold_left hear].
    split; [|split; [exact D|exact B1]]. unfold place. cbn [q_state transition q_set_state]. repeat split; intros X; try discriminate X.
    left. split; [reflexivity|]. split; [reflexivity|]. cbn. rewrite I1. exact P.
  - rewrite hear_cmds by exact O. split; [|split; [exact D|exact B1]]. unfold place. rewrite S1. repeat split; intros X; try discriminate X.
    rewrite I1. exact P.
Qed.

Lemma transceive_step k cc e q h c0 : (1 <= k)%nat -> q_state q = r_transceive -> place k c0 q h -> delivers k h -> buffered q h ->
  inv27 k cc (fst (m_transceive cc e q)) (fold_left hear (snd (m_transceive cc e q)) h).
Proof.
  intros K St P0 D B. destruct (proj1 P0 St) as (s & SN & PD & LT & IX & FN). clear P0.
  unfold m_transceive. destruct (no_more_cycles _ _ _).
  { cbn [fst snd fold_left]. split; [apply (place_idle _ _ _ _ r_wait); [discriminate|discriminate|discriminate|reflexivity]|]. split; [exact D|exact B]. }
  assert (O : let '(q1, _, o) := qct_sbdix e q in Forall (fun x => match x with OCmd _ => True | _ => False end) o /\ q_buf q1 = q_buf q /\ q_state q1 = r_transceive /\ q_idx q1 = q_idx q /\ (q_fn q1 = 0 \/ q_fn q1 = 1)).
  { unfold qct_sbdix.
    assert (X : let '(q1, _, o) := (if q_fn q =? 0 then let '(s, o) := send e CExchange in (q_set_sbdix q 0 0 0, s, o)
      else if q_fn q =? 1 then
        if e_avail e <? 26 then (q, rs_port_unavailable, [])
        else if 128 <=? e_avail e then (q, rs_unexpected, [])
        else match e_parse e with Some (a, b, c) => (q_set_sbdix q a b c, rs_ok, []) | None => (q, rs_unexpected, []) end
      else (q, rs_wrong_order, [])) in
      Forall (fun x => match x with OCmd _ => True | _ => False end) o /\ q_buf q1 = q_buf q /\ q_state q1 = r_transceive /\ q_idx q1 = q_idx q /\ q_fn q1 = q_fn q).
    { destruct (q_fn q =? 0); [pose proof (send_cmds e CExchange); destruct (send e CExchange); auto 6|]. destruct (q_fn q =? 1); [|auto 6].
      destruct (_ <? _); [auto 6|]. destruct (_ <=? _); [auto 6|]. destruct (e_parse e) as [[[? ?] ?]|]; auto 6. }
    destruct (if q_fn q =? 0 then _ else _) as [[q1 err] o]. destruct X as (X1 & X2 & X3 & X4 & X5).
    assert (FF : (q_fn q1 + 1) mod 2 = 0 \/ (q_fn q1 + 1) mod 2 = 1) by (rewrite X5; destruct FN as [-> | ->]; [right|left]; reflexivity).
    destruct (err =? rs_ok); cbn; auto 6. rewrite X5. auto 6. }
  destruct (qct_sbdix e q) as [[q1 err] o]. destruct O as (O & BB & S1 & I1 & F1).
  assert (B1 : buffered q1 h) by (intros s' X; rewrite BB; apply B, X).
  assert (STAY : inv27 k cc q1 h).
  { split; [|split; [exact D|exact B1]]. unfold place. rewrite S1. repeat split; intros X; try discriminate X. exists s. rewrite I1. auto. }
  destruct (actual_error err).
  { cbn [fst snd]. rewrite hear_cmds by exact O. split; [apply (place_idle _ _ _ _ r_wait); [discriminate|discriminate|discriminate|reflexivity]|]. split; [exact D|exact B1]. }
  destruct (has_finished cc q1); [|cbn [fst snd]; rewrite hear_cmds by exact O; exact STAY].
  destruct (4 <? q_mo q1).
  - cbn [fst snd]. rewrite hear_cmds by exact O. unfold no_comms. cbv zeta. destruct (_ <? _); [exact STAY|].
    split; [apply place_fresh; reflexivity|]. split; [exact D|exact B1].
  - cbn [fst snd]. rewrite fold_left_app, (hear_cmds o O). cbn [fold_left hear]. rewrite PD.
    destruct D as (DL & DS). rewrite SN in DS.
    assert (NEXT : q_idx q1 = 0%nat \/ (q_idx q1 = S (length (h_got h)) /\ (S (length (h_got h)) < k)%nat /\ h_snap h <> None)).
    { rewrite I1, IX. destruct (Nat.eq_dec (length (h_got h) + 1) k) as [E|N].
      - left. rewrite E. apply Nat.mod_same. lia.
      - right. rewrite Nat.mod_small by lia. split; [lia|]. split; [lia|]. rewrite SN. discriminate. }
    split; [|split].
    + unfold place. cbn [h_got h_snap h_pending]. rewrite app_length. cbn [length]. rewrite Nat.add_1_r.
      destruct (q_mt (q_set_checkin q1 cc) =? 1); cbn [q_state transition q_set_state]; repeat split; intros X; try discriminate X.
      * exact NEXT.
      * left. split; [reflexivity|]. split; [reflexivity|]. exact NEXT.
    + unfold delivers. cbn [h_got h_snap]. rewrite app_length. cbn [length]. rewrite Nat.add_1_r. split; [lia|].
      rewrite SN, slices_S, <- DS. reflexivity.
    + intros s' X. cbn [h_snap] in X. change (q_buf q1 = s'). apply B1. exact X.
Qed.

Lemma write_step mx cc e q h : (packet_size <= mx)%nat -> q_state q = r_write ->
  inv27 (mx / packet_size) cc q h ->
  inv27 (mx / packet_size) (u32 (cc + 1)) (fst (m_write mx (u32 (cc + 1)) e q)) (fold_left hear (snd (m_write mx (u32 (cc + 1)) e q)) h).
Proof.
  intros MX S (P0 & D & B). pose proof (proj2 (proj2 P0) S) as P. clear P0.
  assert (K : (1 <= mx / packet_size)%nat) by (apply Nat.div_le_lower_bound; unfold packet_size in *; lia).
  set (k := (mx / packet_size)%nat) in *.
  unfold m_write. destruct (no_more_cycles _ _ _) eqn:NM.
  { cbn [fst snd fold_left]. split; [apply (place_idle _ _ _ _ r_wait); [discriminate|discriminate|discriminate|reflexivity]|]. split; [exact D|exact B]. }
  unfold no_more_cycles, max_phase_cycles in NM. apply Z.ltb_ge in NM.
  (* after the optional copies *)
  set (x := if just_entered _ q then _ else _).
  remember (fold_left hear (snd x) h) as h0 eqn:HH.
  assert (X : delivers k h0 /\ buffered (fst x) h0 /\ q_state (fst x) = r_write /\ q_entry (fst x) = q_entry q /\ q_fn (fst x) = q_fn q /\
     exists s, h_snap h0 = Some s /\ q_off (fst x) = (packet_size * length (h_got h0))%nat /\ (length (h_got h0) < k)%nat /\
       q_idx (fst x) = ((length (h_got h0) + 1) mod k)%nat /\
       ((q_fn q = 0 /\ age (u32 (cc + 1)) q = 1) \/ (q_fn q = 1 /\ 2 <= age (u32 (cc + 1)) q <= 5) \/
        (q_fn q = 2 /\ 3 <= age (u32 (cc + 1)) q <= 5 /\ h_pending h0 = Some (slice s (length (h_got h0)))))).
  { rewrite HH. unfold x. destruct P as [(F & E & I)|(s & SN & OF & LT & IX & PH)].
    - pose proof (age_fresh cc q E) as A. unfold just_entered. rewrite F, A. cbn [Z.eqb andb Z.leb Pos.compare Pos.compare_cont].
      change (1 <=? 1) with true. cbn iota.
      destruct (Nat.eqb_spec (q_idx q) 0) as [Z0|NZ].
      + cbn [fst snd fold_left hear]. unfold copy_packet, copy_snapshot. cbn [q_state q_entry q_fn q_idx q_off q_buf q_set_idx q_set_off q_set_buf h_snap h_got h_pending length].
        split; [split; [cbn; lia|reflexivity]|]. split; [intros s X; injection X as <-; reflexivity|]. split; [exact S|]. split; [reflexivity|]. split; [exact F|].
        exists (firstn mx (e_mem e)). rewrite Z0. split; [reflexivity|]. split; [reflexivity|]. split; [lia|]. split; [reflexivity|]. left. auto.
      + destruct I as [I|(I & LT & SN)]; [contradiction|]. cbn [fst snd fold_left]. unfold copy_packet. cbn [q_state q_entry q_fn q_idx q_off q_buf q_set_idx q_set_off].
        split; [exact D|]. split; [exact B|]. split; [exact S|]. split; [reflexivity|]. split; [exact F|].
        destruct (h_snap h) as [s|] eqn:E1; [|congruence]. exists s. rewrite I. auto 10.
    - assert (NF : just_entered (u32 (cc + 1)) q = false).
      { unfold just_entered. destruct PH as [(-> & _)|(-> & _)]; reflexivity. }
      rewrite NF. cbn [fst snd fold_left]. split; [exact D|]. split; [exact B|]. split; [exact S|]. split; [reflexivity|]. split; [reflexivity|].
      exists s. split; [exact SN|]. split; [exact OF|]. split; [exact LT|]. split; [exact IX|]. right.
      destruct PH as [(F & A)|(F & A & PD)]; rewrite age_next in NM |- * by lia; [left|right]; repeat split; auto; lia. }
  clear P D B. destruct x as [q0 o0]. cbn [fst snd] in X, HH |- *.
  destruct X as (D & B & S0 & E0 & F0 & s & SN & OF & LT & IX & PH).
  assert (A0 : age (u32 (cc + 1)) q0 = age (u32 (cc + 1)) q) by (unfold age; rewrite E0; reflexivity).
  (* the radio step *)
  destruct (qct_sbdwb e q0) as [[q1 err] o] eqn:QQ.
  assert (Y : q_state q1 = r_write /\ q_buf q1 = q_buf q0 /\ q_entry q1 = q_entry q0 /\ q_idx q1 = q_idx q0 /\ q_off q1 = q_off q0 /\
    exists h1, fold_left hear o h0 = h1 /\ h_snap h1 = h_snap h0 /\ h_got h1 = h_got h0 /\
    (actual_error err = true \/
     (q_fn q1 = 1 /\ 1 <= age (u32 (cc + 1)) q <= 5) \/
     (q_fn q1 = 2 /\ 2 <= age (u32 (cc + 1)) q <= 5 /\ h_pending h1 = Some (slice s (length (h_got h1)))) \/
     (q_fn q1 = 0 /\ 3 <= age (u32 (cc + 1)) q <= 5 /\ h_pending h1 = Some (slice s (length (h_got h1)))))).
  { unfold qct_sbdwb in QQ. rewrite F0 in QQ. destruct PH as [(F & A)|[(F & A)|(F & A & PD)]]; rewrite F in QQ.
    - change (0 =? 0) with true in QQ. cbn iota in QQ. unfold send in QQ. destruct (e_w e).
      + change (rs_ok =? rs_ok) with true in QQ. injection QQ as <- <- <-. cbn. repeat (split; [auto; fail|]). exists h0. repeat (split; [reflexivity|]). right; left. split; [reflexivity|lia].
      + change (rs_write_fail =? rs_ok) with false in QQ. injection QQ as <- <- <-. repeat (split; [auto; fail|]). exists h0. repeat (split; [reflexivity|]). left. reflexivity.
    - change (1 =? 0) with false in QQ. change (1 =? 1) with true in QQ. cbn iota in QQ. cbv zeta in QQ.
      destruct (consume e s_ready =? rs_ok) eqn:CO.
      + destruct (e_w e).
        * change (rs_ok =? rs_ok) with true in QQ. injection QQ as <- <- <-. cbn [q_set_fn q_state q_buf q_entry q_idx q_off q_fn]. repeat (split; [auto; fail|]).
          eexists. split; [reflexivity|]. cbn [fold_left hear h_snap h_got h_pending]. split; [reflexivity|]. split; [reflexivity|]. right; right; left. split; [reflexivity|]. split; [lia|].
          unfold message, slice. rewrite (B s SN), OF. reflexivity.
        * change (rs_write_fail =? rs_ok) with false in QQ. injection QQ as <- <- <-. repeat (split; [auto; fail|]). exists h0. repeat (split; [reflexivity|]). left. reflexivity.
      + rewrite CO in QQ. injection QQ as <- <- <-. repeat (split; [auto; fail|]). exists h0. repeat (split; [reflexivity|]).
        destruct (actual_error (consume e s_ready)); [left; reflexivity|]. right; left. split; [congruence|lia].
    - change (2 =? 0) with false in QQ. change (2 =? 1) with false in QQ. change (2 =? 2) with true in QQ. cbn iota in QQ.
      destruct (get_sbdwb e =? rs_ok) eqn:CO.
      + injection QQ as <- <- <-. cbn. repeat (split; [auto; fail|]). exists h0. repeat (split; [reflexivity|]). right; right; right. split; [reflexivity|]. split; [lia|exact PD].
      + injection QQ as <- <- <-. repeat (split; [auto; fail|]). exists h0. repeat (split; [reflexivity|]).
        destruct (actual_error (get_sbdwb e)); [left; reflexivity|]. right; right; left. split; [congruence|]. split; [lia|exact PD]. }
  clear PH QQ. destruct Y as (S1 & B1 & E1 & I1 & O1 & h1 & HH1 & SN1 & G1 & Y).
  assert (HF : fold_left hear (o0 ++ o) h = h1) by (rewrite fold_left_app, <- HH; exact HH1).
  assert (D1 : delivers k h1) by (unfold delivers in *; rewrite SN1, G1; exact D).
  assert (BB : buffered q1 h1) by (intros s' Z; rewrite B1; apply B; congruence).
  assert (A1 : age (u32 (cc + 1)) q1 = age (u32 (cc + 1)) q) by (unfold age; rewrite E1, E0; reflexivity).
  destruct (actual_error err) eqn:AE.
  { cbn [fst snd]. rewrite HF. split; [apply (place_idle _ _ _ _ r_wait); [discriminate|discriminate|discriminate|reflexivity]|]. split; [exact D1|exact BB]. }
  destruct Y as [Y|Y]; [discriminate Y|].
  unfold has_finished. rewrite A1. destruct Y as [(F & A)|[(F & A & PD)|(F & A & PD)]]; rewrite F.
  - change (1 =? 0) with false. cbn [andb fst snd]. rewrite HF. split; [|split; [exact D1|exact BB]].
    unfold place. rewrite S1. repeat split; intros Z; try discriminate Z. right. exists s. rewrite SN1, G1, O1, I1, A1, F. repeat (split; [auto; fail|]). left. split; [reflexivity|lia].
  - change (2 =? 0) with false. cbn [andb fst snd]. rewrite HF. split; [|split; [exact D1|exact BB]].
    unfold place. rewrite S1. repeat split; intros Z; try discriminate Z. right. exists s. rewrite SN1, O1, I1, A1, F, PD, !G1. repeat (split; [auto; fail|]). right. split; [reflexivity|]. split; [lia|reflexivity].
  - change (0 =? 0) with true. destruct (Z.ltb_spec 1 (age (u32 (cc + 1)) q)) as [_|]; [|lia]. cbn [andb fst snd]. rewrite HF.
    split; [|split; [exact D1|exact BB]].
    unfold place. cbn [q_state transition q_set_state]. repeat split; intros Z; try discriminate Z. exists s. rewrite SN1, PD, !G1. repeat (split; [auto; fail|]).
    cbn. rewrite I1. auto.
Qed.

Lemma exec_step mx cc e q h : (packet_size <= mx)%nat -> inv27 (mx / packet_size) cc q h ->
  inv27 (mx / packet_size) (u32 (cc + 1)) (fst (radio_exec mx (u32 (cc + 1)) e q)) (fold_left hear (snd (radio_exec mx (u32 (cc + 1)) e q)) h).
Proof.
  intros MX I. pose proof I as (P & D & B).
  assert (K : (1 <= mx / packet_size)%nat) by (apply Nat.div_le_lower_bound; unfold packet_size in *; lia).
  unfold radio_exec. destruct (Z.eqb_spec (q_state q) r_disabled) as [S|S0].
  { cbn [fst snd fold_left]. split; [apply (place_idle _ _ _ _ r_disabled); [discriminate|discriminate|discriminate|reflexivity]|]. split; [exact D|exact B]. }
  destruct (Z.eqb_spec (q_state q) r_config) as [S|S1]; [apply config_step; assumption|].
  destruct (Z.eqb_spec (q_state q) r_wait) as [S|S2]; [apply wait_step; rewrite ?S; try discriminate; assumption|].
  destruct (Z.eqb_spec (q_state q) r_transceive) as [S|S3]; [apply (transceive_step _ _ _ _ _ cc); assumption|].
  destruct (Z.eqb_spec (q_state q) r_read) as [S|S4]; [apply (read_step _ _ _ _ _ cc); assumption|].
  destruct (Z.eqb_spec (q_state q) r_write) as [S|S5]; [apply write_step; assumption|].
  apply wait_step; assumption.
Qed.

Lemma run_inv mx q0 c0 o q cc : (packet_size <= mx)%nat -> q_state q0 = r_disabled -> rrun mx q0 c0 o q cc -> inv27 (mx / packet_size) cc q (hear_all o).
Proof.
  intros MX S0. induction 1 as [|o q cc q1 e q2 o2 H IH EXO EX].
  - split; [apply (place_idle _ _ _ _ r_disabled); [discriminate|discriminate|discriminate|exact S0]|]. split; [split; [cbn; lia|reflexivity]|]. intros s X. discriminate X.
  - assert (I1 : inv27 (mx / packet_size) cc q1 (hear_all o)).
    { destruct EXO as [->|[->| ->]]; [exact IH| |]; destruct IH as (P & D & B); (split; [|split; [exact D|exact B]]).
      - apply (place_idle _ _ _ _ r_config); [discriminate|discriminate|discriminate|reflexivity].
      - apply (place_idle _ _ _ _ r_disabled); [discriminate|discriminate|discriminate|reflexivity]. }
    pose proof (exec_step mx cc e q1 (hear_all o) MX I1) as ST. rewrite EX in ST. cbn [fst snd] in ST. unfold hear_all in *. rewrite fold_left_app. exact ST.
Qed.

Lemma delivery mx q0 c0 o q cc : (packet_size <= mx)%nat -> q_state q0 = r_disabled -> rrun mx q0 c0 o q cc ->
  (length (h_got (hear_all o)) <= mx / packet_size)%nat /\
  match h_snap (hear_all o) with Some s => h_got (hear_all o) = map (slice s) (seq 0 (length (h_got (hear_all o)))) | None => h_got (hear_all o) = [] end.
Proof. intros MX S0 R. destruct (run_inv _ _ _ _ _ _ MX S0 R) as (_ & D & _). exact D. Qed.

Lemma firstn_skipn_add (s : list Z) : forall a b, firstn a s ++ firstn b (skipn a s) = firstn (a + b) s.
Proof.
  induction s as [|x s IH]; intros a b; [rewrite skipn_nil, !firstn_nil; reflexivity|]. destruct a; [reflexivity|]. cbn. rewrite IH. reflexivity.
Qed.
Lemma concat_slices s n : concat (map (slice s) (seq 0 n)) = firstn (packet_size * n) s.
Proof.
  induction n as [|n IH]; [rewrite Nat.mul_0_r; reflexivity|]. rewrite seq_S, map_app, concat_app, IH. cbn [map concat app]. rewrite app_nil_r.
  unfold slice. rewrite firstn_skipn_add. f_equal. cbn [Nat.add]. rewrite Nat.mul_succ_r. reflexivity.
Qed.

Lemma slice_snapshot (snap rest : list Z) n : (packet_size * n <= max_snapshot (length snap))%nat ->
  firstn (packet_size * n) (firstn (max_snapshot (length snap)) (snap ++ rest)) = firstn (packet_size * n) (snap ++ rest).
Proof. intros L. rewrite firstn_firstn, Nat.min_l by exact L. reflexivity. Qed.

(** all of the snapshot fits the packets exactly for these sizes *)
Lemma sizes_covered size : (size <= packet_size * (max_snapshot size / packet_size))%nat <-> (size < 70 \/ size mod 70 = 0 \/ size mod 70 = 69)%nat.
Proof.
  unfold max_snapshot, packet_size. rewrite (Nat.div_mod size 70 ltac:(lia)) at 1. pose proof (Nat.mod_upper_bound size 70 ltac:(lia)) as U.
  destruct (le_lt_dec 70 (size + 1)) as [L|L].
  - rewrite Nat.max_l by exact L. pose proof (Nat.div_mod (size + 1) 70 ltac:(lia)) as E. pose proof (Nat.mod_upper_bound (size + 1) 70 ltac:(lia)).
    pose proof (Nat.div_mod size 70 ltac:(lia)). nia.
  - rewrite Nat.max_r by lia. rewrite (Nat.div_small size 70), (Nat.mod_small size 70) by lia. change (70 / 70)%nat with 1%nat. lia.
Qed.

(** ** Check-in time *)
Lemma no_checkin_cmds (o : list rout) c : Forall (fun x => match x with OCmd _ => True | _ => False end) o -> ~ In (OCheckin c) o.
Proof. intros F I. rewrite Forall_forall in F. exact (F _ I). Qed.

Lemma config_outs cc e q : Forall (fun x => match x with OCmd _ => True | _ => False end) (snd (m_config cc e q)) /\ q_checkin (fst (m_config cc e q)) = q_checkin q /\ q_mt_len (fst (m_config cc e q)) = q_mt_len q.
Proof.
  unfold m_config. destruct (no_more_cycles _ _ _); [cbn; auto|]. unfold qct_config.
  assert (F : Forall (fun x => match x with OCmd _ => True | _ => False end) (snd (if q_fn q =? 0 then send e CFactory
      else if q_fn q =? 1 then (if e_avail e =? 0 then (rs_port_unavailable, []) else send e CSetup)
      else if q_fn q =? 2 then let s := consume e s_setup in if s =? rs_ok then send e CClear else (s, [])
      else if q_fn q =? 3 then (consume e s_cleared, []) else (rs_wrong_order, [])))).
  { destruct (q_fn q =? 0); [apply send_cmds|]. destruct (q_fn q =? 1); [destruct (e_avail e =? 0); [constructor|apply send_cmds]|].
    destruct (q_fn q =? 2); [cbv zeta; destruct (_ =? rs_ok); [apply send_cmds|constructor]|]. destruct (q_fn q =? 3); constructor. }
  destruct (if q_fn q =? 0 then _ else _) as [err o]. cbn [snd] in F.
  destruct (err =? rs_ok), (actual_error err); match goal with |- context [if has_finished cc ?x then _ else _] => destruct (has_finished cc x) | _ => idtac end; cbn; auto.
Qed.

Lemma write_outs mx cc e q : (forall c, ~ In (OCheckin c) (snd (m_write mx cc e q))) /\ (forall l, ~ In (OPublish l) (snd (m_write mx cc e q))) /\
  q_checkin (fst (m_write mx cc e q)) = q_checkin q /\ q_mt_len (fst (m_write mx cc e q)) = q_mt_len q.
Proof.
  set (good := fun x : rout => match x with OCmd _ | OData _ _ | OCopy _ => True | _ => False end).
  assert (X : Forall good (snd (m_write mx cc e q)) /\ q_checkin (fst (m_write mx cc e q)) = q_checkin q /\ q_mt_len (fst (m_write mx cc e q)) = q_mt_len q).
  { unfold m_write. destruct (no_more_cycles _ _ _); [cbn; auto|].
    set (x := if just_entered cc q then _ else _).
    assert (KX : Forall good (snd x) /\ q_checkin (fst x) = q_checkin q /\ q_mt_len (fst x) = q_mt_len q).
    { unfold x. destruct (just_entered cc q); [|cbn; auto]. destruct (Nat.eqb (q_idx q) 0); cbn; auto. split; [repeat constructor|auto]. }
    destruct x as [q0 o0]. cbn [fst snd] in KX. destruct KX as (F0 & C0 & L0).
    assert (KY : let '(q1, _, o) := qct_sbdwb e q0 in Forall good o /\ q_checkin q1 = q_checkin q0 /\ q_mt_len q1 = q_mt_len q0).
    { unfold qct_sbdwb. assert (F : Forall good (snd (if q_fn q0 =? 0 then send e (CWrite 70)
        else if q_fn q0 =? 1 then
          let s := consume e s_ready in
          if s =? rs_ok then (if e_w e then (rs_ok, [OData (message q0) (checksum (message q0))]) else (rs_write_fail, []))
          else (s, [])
        else if q_fn q0 =? 2 then (get_sbdwb e, []) else (rs_wrong_order, [])))).
      { destruct (q_fn q0 =? 0); [unfold send; destruct (e_w e); repeat constructor|]. destruct (q_fn q0 =? 1); [cbv zeta; destruct (_ =? rs_ok); [destruct (e_w e)|]; repeat constructor|].
        destruct (q_fn q0 =? 2); constructor. }
      destruct (if q_fn q0 =? 0 then _ else _) as [err o]. cbn [snd] in F. destruct (err =? rs_ok); cbn; auto. }
    destruct (qct_sbdwb e q0) as [[q1 err] o]. destruct KY as (F1 & C1 & L1).
    assert (FF : Forall good (o0 ++ o)) by (apply Forall_app; auto).
    destruct (actual_error err); [cbn; rewrite C1, L1; auto|]. destruct (has_finished cc q1); cbn; rewrite C1, L1; auto. }
  destruct X as (F & C & L). rewrite Forall_forall in F. split; [intros c I; exact (F _ I)|]. split; [intros l I; exact (F _ I)|]. auto.
Qed.

Lemma read_outs cc e q : (forall c, ~ In (OCheckin c) (snd (m_read cc e q))) /\ q_checkin (fst (m_read cc e q)) = q_checkin q /\
  ((forall l, ~ In (OPublish l) (snd (m_read cc e q))) /\ q_mt_len (fst (m_read cc e q)) = q_mt_len q \/
   (q_fn q = 1 /\ snd (get_sbdrb e q) = rs_ok /\ snd (m_read cc e q) = [OPublish (u32 (q_len q))] /\ q_mt_len (fst (m_read cc e q)) = u32 (q_len q) /\
    q_msg (fst (m_read cc e q)) = q_msg (fst (get_sbdrb e q)))).
Proof.
  unfold m_read. destruct (no_more_cycles _ _ _); [cbn; tauto|]. unfold qct_sbdrb.
  destruct (Z.eqb_spec (q_fn q) 0) as [F|F0].
  - unfold send. destruct (e_w e).
    + change (rs_ok =? rs_ok) with true. cbn iota. change (actual_error rs_ok) with false. cbn iota. unfold has_finished. cbn [q_fn q_set_fn q_set_msg]. rewrite F.
      change ((0 + 1) mod 2 =? 0) with false. cbn [andb fst snd]. split; [intros c [I|I]; [discriminate I|destruct I]|]. split; [reflexivity|]. left. split; [intros l [I|I]; [discriminate I|destruct I]|reflexivity].
    + change (rs_write_fail =? rs_ok) with false. cbn iota. change (actual_error rs_write_fail) with true. cbn. tauto.
  - destruct (Z.eqb_spec (q_fn q) 1) as [F|F1].
    + pose proof (get_sbdrb_keeps e q) as (K1 & K2 & K3 & K4).
      assert (K5 : q_checkin (fst (get_sbdrb e q)) = q_checkin q /\ q_mt_len (fst (get_sbdrb e q)) = q_mt_len q).
      { unfold get_sbdrb. destruct (_ <? _); [cbn; tauto|]. cbv zeta. destruct (_ || _); [cbn; tauto|]. destruct (_ =? _); cbn; tauto. }
      destruct (get_sbdrb e q) as [q1 s]. cbn [fst snd] in *. destruct K5 as (K5 & K6).
      destruct (Z.eqb_spec s rs_ok) as [->|NE].
      * change (actual_error rs_ok) with false. cbn iota. match goal with |- context [if has_finished cc ?x then _ else _] => destruct (has_finished cc x) end.
        -- cbn. split; [intros c [I|I]; [discriminate I|destruct I]|]. split; [exact K5|]. right. rewrite K3. auto 6.
        -- cbn. split; [tauto|]. split; [exact K5|]. left. split; [tauto|exact K6].
      * destruct (actual_error s); [cbn; split; [tauto|]; split; [exact K5|]; left; split; [tauto|exact K6]|].
        assert (NF : has_finished cc q1 = false) by (unfold has_finished; rewrite K4, F; reflexivity). rewrite NF. cbn. split; [tauto|]. split; [exact K5|]. left. split; [tauto|exact K6].
    + change (rs_wrong_order =? rs_ok) with false. cbn iota. change (actual_error rs_wrong_order) with true. cbn. tauto.
Qed.

Lemma transceive_outs cc e q : (forall l, ~ In (OPublish l) (snd (m_transceive cc e q))) /\ q_mt_len (fst (m_transceive cc e q)) = q_mt_len q /\
  ((forall c, ~ In (OCheckin c) (snd (m_transceive cc e q))) /\ q_checkin (fst (m_transceive cc e q)) = q_checkin q \/
   (q_fn q = 1 /\ 26 <= e_avail e < 128 /\ (exists mo mt len, e_parse e = Some (mo, mt, len) /\ mo <= 4) /\
    snd (m_transceive cc e q) = [OCheckin cc] /\ q_checkin (fst (m_transceive cc e q)) = cc)).
Proof.
  unfold m_transceive. destruct (no_more_cycles _ _ _); [cbn; tauto|]. unfold qct_sbdix.
  destruct (Z.eqb_spec (q_fn q) 0) as [F|F0].
  - unfold send. destruct (e_w e).
    + change (rs_ok =? rs_ok) with true. cbn iota. change (actual_error rs_ok) with false. cbn iota. unfold has_finished. cbn [q_fn q_set_fn q_set_sbdix]. rewrite F.
      change ((0 + 1) mod 2 =? 0) with false. cbn [andb fst snd]. split; [intros c [I|I]; [discriminate I|destruct I]|]. split; [reflexivity|]. left. split; [intros l [I|I]; [discriminate I|destruct I]|reflexivity].
    + change (rs_write_fail =? rs_ok) with false. cbn iota. change (actual_error rs_write_fail) with true. cbn. tauto.
  - destruct (Z.eqb_spec (q_fn q) 1) as [F|F1].
    + assert (NF : forall q', q_fn q' = 1 -> has_finished cc q' = false) by (intros q' E; unfold has_finished; rewrite E; reflexivity).
      destruct (Z.ltb_spec (e_avail e) 26) as [|A1].
      { change (rs_port_unavailable =? rs_ok) with false. cbn iota. change (actual_error rs_port_unavailable) with false. cbn iota. rewrite (NF q F). cbn. tauto. }
      destruct (Z.leb_spec 128 (e_avail e)) as [|A2].
      { change (rs_unexpected =? rs_ok) with false. cbn iota. change (actual_error rs_unexpected) with true. cbn. tauto. }
      destruct (e_parse e) as [[[a b] c]|] eqn:EP.
      * change (rs_ok =? rs_ok) with true. cbn iota. change (actual_error rs_ok) with false. cbn iota. match goal with |- context [if has_finished cc ?x then _ else _] => destruct (has_finished cc x) end; [|cbn; tauto].
        cbn [q_mo q_set_fn q_set_sbdix]. destruct (Z.ltb_spec 4 a) as [|A4].
        -- unfold no_comms. cbv zeta. destruct (_ <? _); cbn; tauto.
        -- cbn. split; [intros l [I|I]; [discriminate I|destruct I]|]. split; [reflexivity|]. right. repeat split; auto. exists a, b, c. auto.
      * change (rs_unexpected =? rs_ok) with false. cbn iota. change (actual_error rs_unexpected) with true. cbn. tauto.
    + change (rs_wrong_order =? rs_ok) with false. cbn iota. change (actual_error rs_wrong_order) with true. cbn. tauto.
Qed.

Lemma wait_outs cc e q : snd (m_wait cc e q) = [] /\ q_checkin (fst (m_wait cc e q)) = q_checkin q /\ q_mt_len (fst (m_wait cc e q)) = q_mt_len q.
Proof. unfold m_wait. destruct (_ || _); [cbn; auto|]. destruct (q_flag q); cbn; auto. Qed.

(** an exchange the network acknowledged, seen from outside: the exchange is under way and its answer is complete *)
Lemma checkin_only_on_exchange mx cc e q : q_checkin (fst (radio_exec mx cc e q)) <> q_checkin q \/ (exists c, In (OCheckin c) (snd (radio_exec mx cc e q))) ->
  q_state q = r_transceive /\ q_fn q = 1 /\ 26 <= e_avail e < 128 /\ (exists mo mt len, e_parse e = Some (mo, mt, len) /\ mo <= 4) /\
  q_checkin (fst (radio_exec mx cc e q)) = cc.
Proof.
  unfold radio_exec. intros H.
  destruct (Z.eqb_spec (q_state q) r_disabled) as [S|S0]; [cbn in H; destruct H as [H|[c []]]; congruence|].
  destruct (Z.eqb_spec (q_state q) r_config) as [S|S1].
  { destruct (config_outs cc e q) as (F & C & _). destruct H as [H|[c H]]; [congruence|]. destruct (no_checkin_cmds _ _ F H). }
  destruct (Z.eqb_spec (q_state q) r_wait) as [S|S2].
  { destruct (wait_outs cc e q) as (F & C & _). destruct H as [H|[c H]]; [congruence|]. rewrite F in H. destruct H. }
  destruct (Z.eqb_spec (q_state q) r_transceive) as [S|S3].
  { destruct (transceive_outs cc e q) as (_ & _ & [(N & C)|(F & A & P & O & C)]); [|auto]. destruct H as [H|[c H]]; [congruence|]. destruct (N _ H). }
  destruct (Z.eqb_spec (q_state q) r_read) as [S|S4].
  { destruct (read_outs cc e q) as (N & C & _). destruct H as [H|[c H]]; [congruence|]. destruct (N _ H). }
  destruct (Z.eqb_spec (q_state q) r_write) as [S|S5].
  { destruct (write_outs mx cc e q) as (N & _ & C & _). destruct H as [H|[c H]]; [congruence|]. destruct (N _ H). }
  destruct (wait_outs cc e (q_set_flag q true)) as (F & C & _). destruct H as [H|[c H]]; [cbn in C; congruence|]. rewrite F in H. destruct H.
Qed.

(** ** Published length *)
Lemma publish_only_on_read mx cc e q l : In (OPublish l) (snd (radio_exec mx cc e q)) ->
  q_state q = r_read /\ q_fn q = 1 /\ snd (get_sbdrb e q) = rs_ok /\ l = u32 (q_len q) /\ q_mt_len (fst (radio_exec mx cc e q)) = l /\
  q_msg (fst (radio_exec mx cc e q)) = q_msg (fst (get_sbdrb e q)).
Proof.
  unfold radio_exec. intros H.
  destruct (Z.eqb_spec (q_state q) r_disabled) as [S|S0]; [destruct H|].
  destruct (Z.eqb_spec (q_state q) r_config) as [S|S1].
  { destruct (config_outs cc e q) as (F & _). rewrite Forall_forall in F. destruct (F _ H). }
  destruct (Z.eqb_spec (q_state q) r_wait) as [S|S2].
  { destruct (wait_outs cc e q) as (F & C & _). rewrite F in H. destruct H. }
  destruct (Z.eqb_spec (q_state q) r_transceive) as [S|S3].
  { destruct (transceive_outs cc e q) as (N & _). destruct (N _ H). }
  destruct (Z.eqb_spec (q_state q) r_read) as [S|S4].
  { destruct (read_outs cc e q) as (_ & _ & [(N & _)|(F & G & O & L & M)]); [destruct (N _ H)|]. rewrite O in H. destruct H as [H|[]]. injection H as <-. auto 6. }
  destruct (Z.eqb_spec (q_state q) r_write) as [S|S5].
  { destruct (write_outs mx cc e q) as (_ & N & _). destruct (N _ H). }
  destruct (wait_outs cc e (q_set_flag q true)) as (F & C & _). rewrite F in H. destruct H.
Qed.

(** a frame that arrives in full and was announced with its true length is published with that length *)
Lemma published_frame mx cc e q m l : Forall byte m -> (length m <= 340)%nat -> arrives (wire m) e q -> q_len q = Z.of_nat (length m) ->
  In (OPublish l) (snd (radio_exec mx cc e q)) ->
  l = Z.of_nat (length m) /\ firstn (Z.to_nat l) (q_msg (fst (radio_exec mx cc e q))) = m.
Proof.
  intros F LE A QL H. destruct (publish_only_on_read _ _ _ _ _ H) as (_ & _ & _ & L & _ & M).
  rewrite QL, u32_id in L by lia. split; [exact L|]. rewrite M, L, Nat2Z.id, (frame_accepted _ _ _ F LE A). cbn [fst q_msg q_set_msg]. unfold pad.
  rewrite firstn_app, Nat.sub_diag, firstn_O, app_nil_r. apply firstn_all.
Qed.

Lemma rsim_run_from mx q0 c0 es : forall o q cc, rrun mx q0 c0 o q cc ->
  let '(o', q', cc') := rsim mx es q cc in rrun mx q0 c0 (o ++ o') q' cc'.
Proof.
  induction es as [|[x e] t IH]; intros o q cc R; cbn [rsim]; [rewrite app_nil_r; exact R|].
  destruct (radio_exec mx (u32 (cc + 1)) e (outside x q)) as [q2 o2] eqn:E.
  assert (R2 : rrun mx q0 c0 (o ++ o2) q2 (u32 (cc + 1))).
  { refine (rrun_cons _ _ _ _ _ _ _ _ _ _ R _ E). destruct x as [[]|]; cbn; auto. }
  specialize (IH _ _ _ R2). destruct (rsim mx t q2 (u32 (cc + 1))) as [[o' q'] cc']. rewrite app_assoc. exact IH.
Qed.
Lemma rsim_run mx q0 c0 es : let '(o, q, cc) := rsim mx es q0 c0 in rrun mx q0 c0 o q cc.
Proof. exact (rsim_run_from mx q0 c0 es [] q0 c0 (rrun_nil _ _ _)). Qed.

(** what the ground has is a prefix of the memory the snapshot starts at *)
Lemma delivered_prefix size q0 c0 o q cc mem : q_state q0 = r_disabled -> rrun (max_snapshot size) q0 c0 o q cc ->
  h_snap (hear_all o) = Some (firstn (max_snapshot size) mem) ->
  concat (h_got (hear_all o)) = firstn (packet_size * length (h_got (hear_all o))) mem /\
  (length (h_got (hear_all o)) <= max_snapshot size / packet_size)%nat.
Proof.
  intros S R SN. assert (MX : (packet_size <= max_snapshot size)%nat) by (unfold max_snapshot; lia).
  destruct (delivery _ _ _ _ _ _ MX S R) as (L & D). split; [|exact L]. rewrite SN in D. rewrite D at 1. rewrite concat_slices, firstn_firstn. f_equal.
  apply Nat.min_l. transitivity (packet_size * (max_snapshot size / packet_size))%nat; [apply Nat.mul_le_mono_l, L|apply Nat.mul_div_le]. unfold packet_size. lia.
Qed.

Lemma covered size q0 c0 o q cc snap rest : length snap = size -> (size < 70 \/ size mod 70 = 0 \/ size mod 70 = 69)%nat ->
  q_state q0 = r_disabled -> rrun (max_snapshot size) q0 c0 o q cc ->
  h_snap (hear_all o) = Some (firstn (max_snapshot size) (snap ++ rest)) ->
  length (h_got (hear_all o)) = (max_snapshot size / packet_size)%nat ->
  firstn size (concat (h_got (hear_all o))) = snap.
Proof.
  intros LS SZ S R SN LG. destruct (delivered_prefix _ _ _ _ _ _ _ S R SN) as (D & _). rewrite D, LG, firstn_firstn.
  apply sizes_covered in SZ. rewrite Nat.min_l by exact SZ. rewrite <- LS, firstn_app, Nat.sub_diag, firstn_O, app_nil_r. apply firstn_all.
Qed.

Lemma lost_tail size q0 c0 o q cc mem : ~ (size < 70 \/ size mod 70 = 0 \/ size mod 70 = 69)%nat ->
  q_state q0 = r_disabled -> rrun (max_snapshot size) q0 c0 o q cc ->
  h_snap (hear_all o) = Some (firstn (max_snapshot size) mem) -> (length (concat (h_got (hear_all o))) < size)%nat.
Proof.
  intros SZ S R SN. destruct (delivered_prefix _ _ _ _ _ _ _ S R SN) as (D & L). rewrite D.
  rewrite <- sizes_covered in SZ. eapply Nat.le_lt_trans; [apply firstn_le_length|]. eapply Nat.le_lt_trans; [apply Nat.mul_le_mono_l, L|]. lia.
Qed.

(** ** The copy *)
Lemma copy_content mx cc e q l : In (OCopy l) (snd (radio_exec mx cc e q)) -> l = firstn mx (e_mem e).
Proof.
  assert (CM : forall o, Forall (fun x => match x with OCmd _ => True | _ => False end) o -> ~ In (OCopy l) o).
  { intros o F H. rewrite Forall_forall in F. exact (F _ H). }
  unfold radio_exec. intros H.
  destruct (q_state q =? r_disabled); [destruct H|].
  destruct (q_state q =? r_config).
  { destruct (config_outs cc e q) as (F & _). destruct (CM _ F H). }
  destruct (q_state q =? r_wait); [rewrite (proj1 (wait_outs cc e q)) in H; destruct H|].
  destruct (q_state q =? r_transceive).
  { revert H. unfold m_transceive. destruct (no_more_cycles _ _ _); [intros []|]. unfold qct_sbdix.
    destruct (q_fn q =? 0).
    - unfold send. destruct (e_w e); cbn iota; (destruct (actual_error _); [cbn; intuition discriminate|]);
        (match goal with |- context [if has_finished cc ?x then _ else _] => destruct (has_finished cc x) end; [destruct (4 <? _)|]; cbn; intuition discriminate).
    - assert (X : forall (r : rad * Z * list rout), snd r = [] -> In (OCopy l) (snd (let '(q1, err, o) := (let '(q1, err, o) := r in (if err =? rs_ok then q_set_fn q1 ((q_fn q1 + 1) mod 2) else q1, err, o)) in
         if actual_error err then (handle_err cc err q1, o) else if has_finished cc q1 then
           if 4 <? q_mo q1 then (no_comms cc e q1, o) else let q2 := q_set_checkin q1 cc in (transition cc (if q_mt q2 =? 1 then r_read else r_write) q2, o ++ [OCheckin cc]) else (q1, o))) -> l = firstn mx (e_mem e)).
      { intros [[q1 err] o] E. cbn [snd] in E. subst o. destruct (actual_error err); [intros []|].
        match goal with |- context [if has_finished cc ?x then _ else _] => destruct (has_finished cc x) end; [|intros []].
        destruct (4 <? _); cbn; intuition discriminate. }
      apply X. destruct (q_fn q =? 1); [|reflexivity]. destruct (_ <? _); [reflexivity|]. destruct (_ <=? _); [reflexivity|]. destruct (e_parse e) as [[[? ?] ?]|]; reflexivity. }
  destruct (q_state q =? r_read).
  { revert H. unfold m_read. destruct (no_more_cycles _ _ _); [intros []|]. unfold qct_sbdrb.
    assert (X : forall (r : rad * Z * list rout), Forall (fun x => match x with OCmd _ => True | _ => False end) (snd r) -> In (OCopy l) (snd (let '(q1, err, o) := (let '(q1, err, o) := r in (if err =? rs_ok then q_set_fn q1 ((q_fn q1 + 1) mod 2) else q1, err, o)) in
         if actual_error err then (handle_err cc err q1, o) else if has_finished cc q1 then
           (transition cc r_write (q_set_mt_len q1 (u32 (q_len q1))), o ++ [OPublish (u32 (q_len q1))]) else (q1, o))) -> l = firstn mx (e_mem e)).
    { intros [[q1 err] o] F. cbn [snd] in F. pose proof (CM _ F) as N.
      destruct (actual_error err); [intros H; destruct (N H)|].
      match goal with |- context [if has_finished cc ?x then _ else _] => destruct (has_finished cc x) end; [|intros H; destruct (N H)].
      cbn [snd]. rewrite in_app_iff. intros [H|[H|[]]]; [destruct (N H)|discriminate H]. }
    apply X. destruct (q_fn q =? 0); [unfold send; destruct (e_w e); repeat constructor|]. destruct (q_fn q =? 1); [|constructor]. destruct (get_sbdrb e q); constructor. }
  destruct (q_state q =? r_write); [|rewrite (proj1 (wait_outs cc e (q_set_flag q true))) in H; destruct H].
  revert H. unfold m_write. destruct (no_more_cycles _ _ _); [intros []|].
  set (x := if just_entered cc q then _ else _).
  assert (KX : In (OCopy l) (snd x) -> l = firstn mx (e_mem e)).
  { unfold x. destruct (just_entered cc q); [|intros []]. destruct (Nat.eqb (q_idx q) 0); cbn; [|intros []]. intros [E|[]]. injection E as <-. reflexivity. }
  destruct x as [q0 o0]. cbn [snd] in KX. unfold qct_sbdwb.
  assert (X : forall (r : Z * list rout), ~ In (OCopy l) (snd r) -> In (OCopy l) (snd (let '(q1, err, o) := (let '(err, o) := r in (if err =? rs_ok then q_set_fn q0 ((q_fn q0 + 1) mod 3) else q0, err, o)) in
      if actual_error err then (handle_err cc err q1, o0 ++ o) else if has_finished cc q1 then (transition cc r_transceive q1, o0 ++ o) else (q1, o0 ++ o))) -> l = firstn mx (e_mem e)).
  { intros [err o] N. cbn [snd] in N. destruct (actual_error err); [|match goal with |- context [if has_finished cc ?x then _ else _] => destruct (has_finished cc x) end];
    cbn [snd]; rewrite in_app_iff; tauto. }
  apply X. destruct (q_fn q0 =? 0); [unfold send; destruct (e_w e); cbn; intuition discriminate|].
  destruct (q_fn q0 =? 1); [cbv zeta; destruct (_ =? rs_ok); [destruct (e_w e)|]; cbn; intuition discriminate|]. destruct (q_fn q0 =? 2); intros [].
Qed.
