From Verif Require Import Base QuakeModel QuakeSpec QuakeProofs.

(** A run used in the examples: configuration, then two packets of a snapshot of [n] bytes exchanged. *)
Definition ex_snap (n : nat) : list Z := map (fun i => Z.of_nat i mod 256) (seq 1 n).
Definition ex_env (mem rx : list Z) (p : option (Z * Z * Z)) : renv := mk_re true (Z.of_nat (length rx)) rx p false 1 500 mem.
Definition ex_packet (mem : list Z) : list (option bool * renv) :=
  map (pair None) [ex_env mem [] None; ex_env mem s_ready None; ex_env mem [48; 13; 10; 48; 13] None;
                   ex_env mem [] None; ex_env mem (repeat 48 30) (Some (0, 0, 0))].
Definition ex_config (mem : list Z) : list (option bool * renv) :=
  [(Some true, ex_env mem [] None); (None, ex_env mem [48] None); (None, ex_env mem s_setup None); (None, ex_env mem s_cleared None)].
Definition ex_run (n : nat) : list rout * rad * Z :=
  let mem := ex_snap n ++ repeat 255 400 in rsim (max_snapshot n) (ex_config mem ++ ex_packet mem ++ ex_packet mem) (radio_init n 0) 0.

Lemma ex_run_ok n : let '(o, q, cc) := ex_run n in rrun (max_snapshot n) (radio_init n 0) 0 o q cc.
Proof. apply rsim_run. Qed.

(** * C26: the radio manager never stalls *)
Theorem C26_config_write_read_end : forall mx ok st n cc q, In st [r_config; r_write; r_read] -> stays mx ok st n cc q -> n <= 6.
Proof. exact phases_end. Qed.
Print Assumptions C26_config_write_read_end.

Theorem C26_exchange_ends : forall mx T n cc q, 0 <= T < 2 ^ 32 - 1 ->
  stays mx (fun e => e_max_transceive e <= T) r_transceive n cc q -> n <= T + 1.
Proof. exact transceive_ends. Qed.
Print Assumptions C26_exchange_ends.

Theorem C26_wait_ends : forall mx W n cc q, 0 <= W < 2 ^ 32 - 1 ->
  stays mx (fun e => e_max_wait e <= W /\ e_cycling e = false) r_wait n cc q -> n <= W + 1.
Proof. exact wait_ends. Qed.
Print Assumptions C26_wait_ends.

Theorem C26_disabled_sends_nothing : forall mx cc e q, q_state q = r_disabled ->
  snd (radio_exec mx cc e q) = [] /\ q_state (fst (radio_exec mx cc e q)) = r_disabled.
Proof. exact disabled_quiet. Qed.
Print Assumptions C26_disabled_sends_nothing.

Example C26_example : exists q cc, stays 201 (fun _ => True) r_config 5 cc q.
Proof.
  pose (e := ex_env [] [] None). pose (q0 := q_set_state (radio_init 200 7) r_config).
  pose proof (stays_0 201 (fun _ => True) r_config 7 q0 eq_refl) as H.
  pose (q1 := fst (radio_exec 201 (u32 (7 + 1)) e q0)).
  assert (H1 : stays 201 (fun _ => True) r_config (0 + 1) (u32 (7 + 1)) q1) by exact (stays_S _ _ _ 0 7 q0 e H I (eq_refl r_config <: q_state q1 = r_config)).
  change (0 + 1) with 1 in H1. change (u32 (7 + 1)) with 8 in H1 at 1.
  pose (q2 := fst (radio_exec 201 (u32 (8 + 1)) e q1)).
  assert (H2 : stays 201 (fun _ => True) r_config (1 + 1) (u32 (8 + 1)) q2) by exact (stays_S _ _ _ 1 8 q1 e H1 I (eq_refl r_config <: q_state q2 = r_config)).
  change (1 + 1) with 2 in H2. change (u32 (8 + 1)) with 9 in H2 at 1.
  pose (q3 := fst (radio_exec 201 (u32 (9 + 1)) e q2)).
  assert (H3 : stays 201 (fun _ => True) r_config (2 + 1) (u32 (9 + 1)) q3) by exact (stays_S _ _ _ 2 9 q2 e H2 I (eq_refl r_config <: q_state q3 = r_config)).
  change (2 + 1) with 3 in H3. change (u32 (9 + 1)) with 10 in H3 at 1.
  pose (q4 := fst (radio_exec 201 (u32 (10 + 1)) e q3)).
  assert (H4 : stays 201 (fun _ => True) r_config (3 + 1) (u32 (10 + 1)) q4) by exact (stays_S _ _ _ 3 10 q3 e H3 I (eq_refl r_config <: q_state q4 = r_config)).
  change (3 + 1) with 4 in H4. change (u32 (10 + 1)) with 11 in H4 at 1.
  pose (q5 := fst (radio_exec 201 (u32 (11 + 1)) e q4)).
  assert (H5 : stays 201 (fun _ => True) r_config (4 + 1) (u32 (11 + 1)) q5) by exact (stays_S _ _ _ 4 11 q4 e H4 I (eq_refl r_config <: q_state q5 = r_config)).
  change (4 + 1) with 5 in H5. change (u32 (11 + 1)) with 12 in H5 at 1.
  exists q5, 12. exact H5.
Qed.

(** * C27: every byte of a telemetry snapshot is transmitted *)
Theorem C27_packets_are_consecutive_slices : forall mx q0 c0 o q cc, (packet_size <= mx)%nat -> q_state q0 = r_disabled ->
  rrun mx q0 c0 o q cc ->
  (length (h_got (hear_all o)) <= mx / packet_size)%nat /\
  match h_snap (hear_all o) with
  | Some s => h_got (hear_all o) = map (slice s) (seq 0 (length (h_got (hear_all o))))
  | None => h_got (hear_all o) = []
  end.
Proof. exact delivery. Qed.
Print Assumptions C27_packets_are_consecutive_slices.

Theorem C27_covered_for_some_sizes_partial : forall size q0 c0 o q cc snap rest, length snap = size ->
  (size < 70 \/ size mod 70 = 0 \/ size mod 70 = 69)%nat -> q_state q0 = r_disabled ->
  rrun (max_snapshot size) q0 c0 o q cc ->
  h_snap (hear_all o) = Some (firstn (max_snapshot size) (snap ++ rest)) ->
  length (h_got (hear_all o)) = (max_snapshot size / packet_size)%nat ->
  firstn size (concat (h_got (hear_all o))) = snap.
Proof. exact covered. Qed.
Print Assumptions C27_covered_for_some_sizes_partial.

(** for all other sizes the end of the snapshot is never sent *)
Theorem C27_tail_never_sent_refuted : forall size q0 c0 o q cc mem, ~ (size < 70 \/ size mod 70 = 0 \/ size mod 70 = 69)%nat ->
  q_state q0 = r_disabled -> rrun (max_snapshot size) q0 c0 o q cc ->
  h_snap (hear_all o) = Some (firstn (max_snapshot size) mem) -> (length (concat (h_got (hear_all o))) < size)%nat.
Proof. exact lost_tail. Qed.
Print Assumptions C27_tail_never_sent_refuted.

Example C27_example_covered : exists o q cc, rrun (max_snapshot 140) (radio_init 140 0) 0 o q cc /\
  length (h_got (hear_all o)) = (max_snapshot 140 / packet_size)%nat /\
  h_snap (hear_all o) = Some (firstn (max_snapshot 140) (ex_snap 140 ++ repeat 255 400)).
Proof.
  pose proof (ex_run_ok 140) as R. destruct (ex_run 140) as [[o q] cc] eqn:E. exists o, q, cc. split; [exact R|].
  vm_compute in E. injection E as <- _ _. vm_compute. auto.
Qed.
Example C27_example_lost : exists o q cc, rrun (max_snapshot 150) (radio_init 150 0) 0 o q cc /\
  length (h_got (hear_all o)) = (max_snapshot 150 / packet_size)%nat /\
  h_snap (hear_all o) = Some (firstn (max_snapshot 150) (ex_snap 150 ++ repeat 255 400)).
Proof.
  pose proof (ex_run_ok 150) as R. destruct (ex_run 150) as [[o q] cc] eqn:E. exists o, q, cc. split; [exact R|].
  vm_compute in E. injection E as <- _ _. vm_compute. auto.
Qed.

(** * C42: the checksum detects every single-byte corruption *)
Theorem C42_intact_message_accepted : forall e q m, Forall byte m -> (length m <= 340)%nat -> arrives (wire m) e q ->
  get_sbdrb e q = (q_set_msg q (pad 341 m), rs_ok).
Proof. exact frame_accepted. Qed.
Print Assumptions C42_intact_message_accepted.

Theorem C42_changed_byte_detected : forall e q a b b' c, Forall byte (a ++ b :: c) -> byte b' -> b <> b' -> (length (a ++ b :: c) <= 340)%nat ->
  let m := a ++ b :: c in
  arrives ([Z.of_nat (length m) / 256; Z.of_nat (length m) mod 256] ++ (a ++ b' :: c) ++ [sum_bytes m / 256; sum_bytes m mod 256]) e q ->
  snd (get_sbdrb e q) = rs_bad_checksum.
Proof. exact corrupted_message_detected. Qed.
Print Assumptions C42_changed_byte_detected.

Theorem C42_changed_checksum_detected : forall e q m h l, Forall byte m -> (length m <= 340)%nat -> byte h -> byte l ->
  256 * h + l <> sum_bytes m ->
  arrives ([Z.of_nat (length m) / 256; Z.of_nat (length m) mod 256] ++ m ++ [h; l]) e q -> snd (get_sbdrb e q) = rs_bad_checksum.
Proof. exact corrupted_checksum_detected. Qed.
Print Assumptions C42_changed_checksum_detected.

(** limits: two swapped bytes pass, and so does a message of zeros cut short by its length byte *)
Example C42_example_swap : let e m := ex_env [] ([0; 2] ++ m ++ [0; 3]) None in
  snd (get_sbdrb (e [1; 2]) (radio_init 100 0)) = rs_ok /\ snd (get_sbdrb (e [2; 1]) (radio_init 100 0)) = rs_ok /\
  snd (get_sbdrb (e [1; 3]) (radio_init 100 0)) = rs_bad_checksum.
Proof. vm_compute. auto. Qed.
Example C42_example_length : wire [0; 0] = [0; 2; 0; 0; 0; 0] /\ snd (get_sbdrb (ex_env [] [0; 1; 0; 0; 0; 0] None) (radio_init 100 0)) = rs_ok.
Proof. vm_compute. auto. Qed.

(** * C56: the radio sends only telemetry *)
Theorem C56_copy_starts_with_the_snapshot_partial : forall size cc e q l snap rest, length snap = size -> e_mem e = snap ++ rest ->
  In (OCopy l) (snd (radio_exec (max_snapshot size) cc e q)) -> firstn size l = snap.
Proof.
  intros size cc e q l snap rest L M H. rewrite (copy_content _ _ _ _ _ H), M, firstn_firstn, Nat.min_l by (unfold max_snapshot; lia).
  rewrite <- L, firstn_app, Nat.sub_diag, firstn_O, app_nil_r. apply firstn_all.
Qed.
Print Assumptions C56_copy_starts_with_the_snapshot_partial.

(** for every snapshot the copy contains what follows it in memory *)
Theorem C56_copy_reads_past_the_snapshot_refuted : forall size cc e q l snap x rest, length snap = size -> e_mem e = snap ++ x :: rest ->
  In (OCopy l) (snd (radio_exec (max_snapshot size) cc e q)) -> nth_error l size = Some x.
Proof.
  intros size cc e q l snap x rest L M H. rewrite (copy_content _ _ _ _ _ H), M.
  assert (LT : (size < max_snapshot size)%nat) by (unfold max_snapshot; lia). revert LT. generalize (max_snapshot size). rewrite <- L. clear.
  induction snap as [|y t IH]; intros n LT; destruct n; cbn in *; try lia; [reflexivity|]. apply IH. lia.
Qed.
Print Assumptions C56_copy_reads_past_the_snapshot_refuted.

(** and it goes out over the radio: with a 69-byte snapshot followed by 255 *)
Theorem C56_foreign_byte_sent_refuted : exists es q cc o, rrun (max_snapshot 69) (radio_init 69 0) 0 o q cc /\
  Forall (fun xe => exists rest, e_mem (snd xe) = repeat 0 69 ++ 255 :: rest) es /\ rsim (max_snapshot 69) es (radio_init 69 0) 0 = (o, q, cc) /\
  h_got (hear_all o) = [repeat 0 69 ++ [255]].
Proof.
  pose (mem := repeat 0 69 ++ [255]). exists (ex_config mem ++ ex_packet mem).
  destruct (rsim (max_snapshot 69) (ex_config mem ++ ex_packet mem) (radio_init 69 0) 0) as [[o q] cc] eqn:E.
  exists q, cc, o. split; [pose proof (rsim_run (max_snapshot 69) (radio_init 69 0) 0 (ex_config mem ++ ex_packet mem)) as R; rewrite E in R; exact R|].
  split; [repeat (apply Forall_cons; [exists []; reflexivity|]); apply Forall_nil|]. split; [reflexivity|].
  vm_compute in E. injection E as <- _ _. vm_compute. reflexivity.
Qed.
Print Assumptions C56_foreign_byte_sent_refuted.

(** * C57: the time of last contact is the time of an acknowledged exchange *)
Theorem C57_contact_only_on_acknowledged_exchange : forall mx cc e q,
  q_checkin (fst (radio_exec mx cc e q)) <> q_checkin q \/ (exists c, In (OCheckin c) (snd (radio_exec mx cc e q))) ->
  q_state q = r_transceive /\ q_fn q = 1 /\ 26 <= e_avail e < 128 /\
  (exists mo mt len, e_parse e = Some (mo, mt, len) /\ mo <= 4) /\ q_checkin (fst (radio_exec mx cc e q)) = cc.
Proof. exact checkin_only_on_exchange. Qed.
Print Assumptions C57_contact_only_on_acknowledged_exchange.

Example C57_example : let '(o, q, cc) := ex_run 140 in In (OCheckin 9) o /\ In (OCheckin 14) o /\ q_checkin q = 14 /\ cc = 14.
Proof. vm_compute. repeat split; tauto. Qed.

(** * C58: the uplink announced is the message received *)
Theorem C58_published_only_after_a_valid_frame : forall mx cc e q l, In (OPublish l) (snd (radio_exec mx cc e q)) ->
  q_state q = r_read /\ q_fn q = 1 /\ snd (get_sbdrb e q) = rs_ok /\ l = u32 (q_len q) /\ q_mt_len (fst (radio_exec mx cc e q)) = l /\
  q_msg (fst (radio_exec mx cc e q)) = q_msg (fst (get_sbdrb e q)).
Proof. exact publish_only_on_read. Qed.
Print Assumptions C58_published_only_after_a_valid_frame.

Theorem C58_announced_length_agrees_partial : forall mx cc e q m l, Forall byte m -> (length m <= 340)%nat ->
  arrives (wire m) e q -> q_len q = Z.of_nat (length m) ->
  In (OPublish l) (snd (radio_exec mx cc e q)) ->
  l = Z.of_nat (length m) /\ firstn (Z.to_nat l) (q_msg (fst (radio_exec mx cc e q))) = m.
Proof. exact published_frame. Qed.
Print Assumptions C58_announced_length_agrees_partial.

(** the length used is the one reported by the exchange, not that of the frame: a two-byte message announced as three *)
Theorem C58_length_of_the_report_not_of_the_frame_refuted : exists mx cc e q m l, Forall byte m /\ arrives (wire m) e q /\
  In (OPublish l) (snd (radio_exec mx cc e q)) /\ l <> Z.of_nat (length m).
Proof.
  exists 201%nat, 3, (ex_env [] (wire [5; 6]) None), (q_set_sbdix (q_set_fn (q_set_state (radio_init 200 0) r_read) 1) 0 1 3), [5; 6], 3.
  split; [repeat (apply Forall_cons; [unfold byte; lia|]); apply Forall_nil|]. split; [split; [reflexivity|vm_compute; discriminate]|]. split; [vm_compute; auto|]. vm_compute. discriminate.
Qed.
Print Assumptions C58_length_of_the_report_not_of_the_frame_refuted.

Example C58_example : let e := ex_env [] (wire [5; 6]) None in
  let q := q_set_sbdix (q_set_fn (q_set_state (radio_init 200 0) r_read) 1) 0 1 2 in
  arrives (wire [5; 6]) e q /\ In (OPublish 2) (snd (radio_exec 201 3 e q)).
Proof. split; [split; [reflexivity|vm_compute; discriminate]|vm_compute; auto]. Qed.
