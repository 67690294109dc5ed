From Verif Require Import Base BitstreamModel BitstreamSpec UplinkModel UplinkSpec UplinkProofs.

(** C06.  Processing any received bytes: accepted, and exactly the named fields get exactly their
    bits; or rejected, and no field changes.  The length is cleared, so a packet applies once. *)
Theorem C06_uplink_all_or_nothing :
  forall (V : Type) (deser : nat -> list bool -> V -> V) (fields : list (wfield V)) len buf,
  (Z.of_nat (length fields) < 2 ^ 30)%Z ->
  Forall (fun f => (Z.of_nat (length (wf_bits f)) < 2 ^ 31)%Z) fields ->
  wf_bytes buf -> (len <= length buf)%nat -> (8 * Z.of_nat len < 2 ^ 31 - 8)%Z -> (0 < len)%nat ->
  exists fields', consumer_execute deser (mk_us fields len (Some buf)) = Some (mk_us fields' 0 (Some buf)) /\
    ((fields' = fields /\
      ~ exists es, packet (index_size (length fields)) (map (fun f => length (wf_bits f)) fields)
                          (concat (firstn len buf)) es) \/
     exists es,
       packet (index_size (length fields)) (map (fun f => length (wf_bits f)) fields) (concat (firstn len buf)) es /\
       length fields' = length fields /\
       forall i f, nth_error fields i = Some f ->
         nth_error fields' i = Some (match assigned es i with
                                     | Some b => mk_wf b (deser i b (wf_val f))
                                     | None => f
                                     end)).
Proof.
  intros V deser fields len buf HN HW WB HL HZ H0.
  destruct (consumer_spec V deser (mk_us fields len (Some buf))) as (st' & E & EB & _ & H).
  { repeat split; assumption. }
  destruct (H buf) as (L0 & H2); [cbn; lia|reflexivity|]. destruct st' as [fs' len' buf'].
  cbn [us_fields us_len us_buf] in *. subst. exists fs'. split; [exact E|].
  destruct H2 as [(es & P & LL & HH)|[NP ->]]; [right|left; split; [reflexivity|exact NP]]. exists es. split; [exact P|].
  split; [exact LL|]. intros i f Hi. rewrite HH. unfold result_at. rewrite Hi. destruct (assigned es i); reflexivity.
Qed.
Print Assumptions C06_uplink_all_or_nothing.

(** C06.  Which of the two happens is decided by the packet alone; a packet without a
    well-formed reading changes nothing; no packet, no change. *)
Theorem C06_ill_formed_changes_nothing :
  forall (V : Type) (deser : nat -> list bool -> V -> V) (fields : list (wfield V)) len buf,
  (Z.of_nat (length fields) < 2 ^ 30)%Z ->
  Forall (fun f => (Z.of_nat (length (wf_bits f)) < 2 ^ 31)%Z) fields ->
  wf_bytes buf -> (len <= length buf)%nat -> (8 * Z.of_nat len < 2 ^ 31 - 8)%Z -> (0 < len)%nat ->
  ~ (exists es, packet (index_size (length fields)) (map (fun f => length (wf_bits f)) fields)
                       (concat (firstn len buf)) es) ->
  consumer_execute deser (mk_us fields len (Some buf)) = Some (mk_us fields 0 (Some buf)).
Proof.
  intros V deser fields len buf HN HW WB HL HZ H0 NP.
  destruct (consumer_spec V deser (mk_us fields len (Some buf))) as (st' & E & EB & _ & H).
  { repeat split; assumption. }
  destruct (H buf) as (L0 & H2); [cbn; lia|reflexivity|]. destruct st' as [fs' len' buf'].
  cbn [us_fields us_len us_buf] in *. subst.
  destruct H2 as [(es & P & _)|[_ ->]]; [exfalso; apply NP; exists es; exact P|exact E].
Qed.
Print Assumptions C06_ill_formed_changes_nothing.

Theorem C06_no_packet_no_change :
  forall (V : Type) (deser : nat -> list bool -> V -> V) (fields : list (wfield V)) ob len,
  consumer_execute deser (mk_us fields 0 ob) = Some (mk_us fields 0 ob) /\
  consumer_execute deser (mk_us fields len None) = Some (mk_us fields len None).
Proof. intros. split; [reflexivity|destruct len; reflexivity]. Qed.
Print Assumptions C06_no_packet_no_change.

(** Three fields of widths 5, 1 and 12; index size 3.  The packet names field 1 then field 0. *)
Definition C06_fields : list (wfield Z) :=
  [mk_wf (val_bits 5 3) 3; mk_wf [false] 0; mk_wf (val_bits 12 100) 100].
Definition C06_deser (_ : nat) (b : list bool) (_ : Z) : Z := bits_val b.
Example C06_accepted_case :
  let bits := val_bits 3 2 ++ [true] ++ val_bits 3 1 ++ val_bits 5 17 ++ repeat false 4 in
  consumer_execute C06_deser (mk_us C06_fields 2 (Some [firstn 8 bits; skipn 8 bits; val_bits 8 255])) =
  Some (mk_us [mk_wf (val_bits 5 17) 17; mk_wf [true] 1; mk_wf (val_bits 12 100) 100] 0
              (Some [firstn 8 bits; skipn 8 bits; val_bits 8 255])).
Proof. vm_compute. reflexivity. Qed.
(** Same first entry, then an index (4) that names no field: the first entry is not applied. *)
Example C06_rejected_case :
  let bits := val_bits 3 2 ++ [true] ++ val_bits 3 4 ++ val_bits 5 17 ++ repeat false 4 in
  consumer_execute C06_deser (mk_us C06_fields 2 (Some [firstn 8 bits; skipn 8 bits])) =
  Some (mk_us C06_fields 0 (Some [firstn 8 bits; skipn 8 bits])).
Proof. vm_compute. reflexivity. Qed.

(** C07.  What the ground packs, the spacecraft accepts and applies exactly: whatever the extra
    bits picked up by the producer's temporary streams. *)
Theorem C07_ground_uplink_takes_effect :
  forall (V : Type) (deser : nat -> list bool -> V -> V) (fields : list (wfield V))
         (es : list (nat * list bool * list bool)) (tail : list byte),
  let lens := map (fun f => length (wf_bits f)) fields in
  (Z.of_nat (length fields) < 2 ^ 30)%Z ->
  Forall (fun f => (Z.of_nat (length (wf_bits f)) < 2 ^ 31)%Z) fields ->
  (8 * Z.of_nat (max_packet (index_size (length fields)) lens) < 2 ^ 31 - 8)%Z ->
  es <> [] -> valid_assignments lens (map fst es) ->
  Forall (fun e => ((length (snd (fst e)) + length (snd e)) mod 8 = 0)%nat /\
                   (8 * Z.of_nat (length (snd (fst e)) + length (snd e)) < 2 ^ 31 - 8)%Z) es ->
  wf_bytes tail ->
  exists msg fields', create_packet lens es = Some (Some msg) /\
    consumer_execute deser (mk_us fields (length msg) (Some (msg ++ tail))) =
      Some (mk_us fields' 0 (Some (msg ++ tail))) /\
    length fields' = length fields /\
    forall i f, nth_error fields i = Some f ->
      nth_error fields' i = Some (match assigned (map fst es) i with
                                  | Some b => mk_wf b (deser i b (wf_val f))
                                  | None => f
                                  end).
Proof.
  intros V deser fields es tail lens HN HW HM NE HV HJ WT.
  assert (LL : length lens = length fields) by apply map_length.
  destruct (create_packet_spec lens es) as (msg & EC & WM & LM & NM & PK & _); try assumption.
  { rewrite LL. assumption. }
  { unfold lens. apply Forall_forall. intros l HI. apply in_map_iff in HI. destruct HI as (f & <- & HI).
    rewrite Forall_forall in HW. apply HW. assumption. }
  { rewrite LL. assumption. }
  rewrite LL in LM, PK.
  destruct (consumer_spec V deser (mk_us fields (length msg) (Some (msg ++ tail)))) as (st' & E & EB & _ & H).
  { split; [assumption|]. split; [assumption|]. cbn [us_buf us_len]. split; [apply Forall_app; split; assumption|].
    rewrite app_length. split; lia. }
  destruct (H (msg ++ tail)) as (L0 & H2); [|reflexivity|].
  { cbn. specialize (NM NE). destruct msg; [congruence|discriminate]. }
  destruct st' as [fs' len' buf']. cbn [us_fields us_len us_buf] in *. subst len' buf'.
  rewrite firstn_app, Nat.sub_diag, firstn_O, app_nil_r, firstn_all in H2.
  exists msg, fs'. split; [exact EC|]. split; [exact E|].
  destruct H2 as [(es' & P & LF & HH)|[NP _]]; [|exfalso; apply NP; exists (map fst es); exact PK].
  assert (es' = map fst es).
  { pose proof (isz_bounds _ HN). pose proof (index_size_spec (length fields)) as (HP & _).
    apply (assigned_app_unique (index_size (length fields)) lens (concat msg)); [lia|rewrite LL; exact HP|exact P|exact PK]. }
  subst es'. split; [exact LF|]. intros i f Hi. rewrite HH. unfold result_at. rewrite Hi.
  destruct (assigned (map fst es) i); reflexivity.
Qed.
Print Assumptions C07_ground_uplink_takes_effect.

Example C07_case :
  let lens := map (fun f => length (wf_bits f)) C06_fields in
  let es := [((2, val_bits 12 2748), [true; false; true; true]); ((1, [true]), repeat true 7)]%nat in
  valid_assignments lens (map fst es) /\
  match create_packet lens es with
  | Some (Some msg) => map (fun b => bits_val b) msg = [227; 85; 5]%Z /\
      option_map (fun st => us_fields st) (consumer_execute C06_deser (mk_us C06_fields (length msg) (Some msg))) =
      Some [mk_wf (val_bits 5 3) 3%Z; mk_wf [true] 1%Z; mk_wf (val_bits 12 2748) 2748%Z]
  | _ => False
  end.
Proof.
  cbv zeta. split.
  - split; [repeat constructor; cbn; intuition discriminate|]. repeat constructor; discriminate.
  - vm_compute. auto.
Qed.

(** C08.  Validation is total, in bounds, and accepts exactly the packet grammar. *)
Theorem C08_validation_is_the_grammar :
  forall lens buf, (Z.of_nat (length lens) < 2 ^ 30)%Z -> Forall (fun l => (Z.of_nat l < 2 ^ 31)%Z) lens ->
  wf_bytes buf -> (8 * Z.of_nat (length buf) < 2 ^ 31 - 8)%Z ->
  exists r, validate_packet (index_size (length lens)) lens (bs_make buf) = Some r /\
    (r = true <-> exists es, packet (index_size (length lens)) lens (concat buf) es).
Proof.
  intros lens buf HN HW WB HZ. pose proof (isz_bounds _ HN) as HI.
  pose proof (index_size_spec (length lens)) as (HP & _).
  exact (validate_packet_spec lens _ HI HP HW buf WB HZ).
Qed.
Print Assumptions C08_validation_is_the_grammar.

(** C08.  The grammar is unambiguous: an accepted packet has one reading. *)
Theorem C08_one_reading :
  forall lens bits es es', (Z.of_nat (length lens) < 2 ^ 30)%Z ->
  packet (index_size (length lens)) lens bits es -> packet (index_size (length lens)) lens bits es' -> es = es'.
Proof.
  intros lens bits es es' HN. pose proof (isz_bounds _ HN). pose proof (index_size_spec (length lens)) as (HP & _).
  apply assigned_app_unique; [lia|exact HP].
Qed.
Print Assumptions C08_one_reading.

(** index sizes: room for every index plus one, and no more *)
Theorem C08_index_size : forall n,
  (Z.of_nat n + 1 < 2 ^ Z.of_nat (index_size n))%Z /\ (1 <= index_size n)%nat /\
  forall k, (1 <= k)%nat -> (Z.of_nat n + 1 < 2 ^ Z.of_nat k)%Z -> (index_size n <= k)%nat.
Proof.
  intros n. pose proof (index_size_spec n) as (A & B & _). split; [exact A|]. split; [exact B|].
  intros k K1 K2. apply index_size_le; assumption.
Qed.
Print Assumptions C08_index_size.

Example C08_cases :
  let v bits := validate_packet (index_size 3) [5; 1; 12]%nat (bs_make [firstn 8 bits; skipn 8 bits]) in
  v (val_bits 3 2 ++ [true] ++ val_bits 3 1 ++ val_bits 5 17 ++ repeat false 4) = Some true /\
  v (val_bits 3 2 ++ [true] ++ val_bits 3 2 ++ [true] ++ repeat false 8) = Some false /\ (* duplicate *)
  v (val_bits 3 3 ++ val_bits 12 7 ++ [true]) = Some false /\                            (* trailing 1 *)
  v (val_bits 3 3 ++ val_bits 12 7 ++ [false]) = Some true /\
  v (val_bits 3 1 ++ val_bits 5 7 ++ val_bits 3 3 ++ val_bits 5 0) = Some false.          (* truncated *)
Proof. vm_compute. auto 10. Qed.
