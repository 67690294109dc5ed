From Verif Require Import Base EventModel EventProofs FaultModel FaultSpec FaultProofs RegistryModel RegistryProofs.
From Coq Require Import String.
Import ListNotations.

(** C14.  After any history [h] of signals (cycle number, field bits), storage of size [n] never fails, and
    slot [i] holds the record of the latest signal number [j] with [j mod n = i] (zeros when there is none):
    exactly the last [n] records.  The slot offered for downlink is the oldest one, next to be overwritten. *)
Theorem C14_storage_keeps_the_last_records : forall n widths h,
  (1 <= n <= 99)%nat -> Forall (fun x => map (@List.length bool) (snd x) = widths) h ->
  exists s0 s, storage_make n widths = Some s0 /\ storage_run s0 h = Some s /\
    List.length (st_slots s) = n /\
    storage_face s = nth_error (st_slots s) (List.length h mod n) /\
    forall i c, nth_error (st_slots s) i = Some c ->
      (forall j x, nth_error h j = Some x -> (j mod n = i)%nat -> (List.length h <= j + n)%nat ->
         c = val_bits 32 (fst x) ++ List.concat (snd x)) /\
      ((List.length h <= i)%nat -> c = repeat false (32 + list_sum widths)).
Proof.
  intros n widths h HN HF. destruct (storage_run_spec n widths h HN HF) as (s0 & s & A & B & C & D & E).
  exists s0, s. split; [exact A|]. split; [exact B|]. split; [exact C|]. split; [unfold storage_face; rewrite D; reflexivity|exact E].
Qed.
Print Assumptions C14_storage_keeps_the_last_records.

(** C14.  The ground reads back from a record the cycle number and the field bits at its signal. *)
Theorem C14_record_read_back : forall arr ccno fields,
  0 <= ccno < 2 ^ 32 -> List.length arr = (32 + List.length (List.concat fields))%nat ->
  exists rec, event_signal arr ccno fields = Some rec /\
    event_set arr rec = Some rec /\
    event_read rec (map (@List.length bool) fields) = Some (ccno, fields).
Proof.
  intros arr ccno fs HC HL. exists (val_bits 32 ccno ++ List.concat fs). split; [apply event_signal_spec; assumption|].
  split; [|apply event_read_spec; assumption]. unfold event_set.
  replace (Nat.eqb (List.length (val_bits 32 ccno ++ List.concat fs)) (List.length arr)) with true; [reflexivity|].
  symmetry. apply Nat.eqb_eq. rewrite app_length, val_bits_length. lia.
Qed.
Print Assumptions C14_record_read_back.

(** five signals in a storage of three *)
Example C14_case :
  let ev k := (k, [val_bits 4 k; [true]]) in
  match storage_make 3 [4; 1]%nat with
  | Some s0 => match storage_run s0 [ev 1; ev 2; ev 3; ev 4; ev 5] with
    | Some s => map (fun r => event_read r [4; 1]%nat) (st_slots s) = [Some (ev 4); Some (ev 5); Some (ev 3)] /\
                storage_face s = nth_error (st_slots s) 2
    | None => False end
  | None => False
  end.
Proof. vm_compute. auto. Qed.

(** C15.  What reading a fault returns, for every history of cycles, signals, unsignals, readings and ground
    writes, in the first 2^32 - 1 cycles: [faulted_after_read] counts the cycles whose first signal came after the
    last clearing. *)
Theorem C15_fault_trips_after_persistence : forall p h,
  0 <= p < 2 ^ 32 -> after_first_tick h -> cycles h < 2 ^ 32 ->
  snd (fault_read (snd (fault_after p h))) =
    (if overridden h then true else if suppressed h then false else threshold p h <? signalled_cycles (Read :: h)).
Proof. exact fault_read_abs. Qed.
Print Assumptions C15_fault_trips_after_persistence.

(** C15.  The same for the fault's value in telemetry, as each signal leaves it. *)
Theorem C15_telemetered_value : forall p h, 0 <= p < 2 ^ 32 -> after_first_tick (Signal :: h) -> cycles h < 2 ^ 32 ->
  ft_flag (snd (fault_after p (Signal :: h))) = (threshold p h <? signalled_cycles (Signal :: h)).
Proof. intros p h. apply fault_flag_abs. left. reflexivity. Qed.
Print Assumptions C15_telemetered_value.

Example C15_telemetered_case : let h := rev [Tick; Signal; Tick; Signal; Tick] in after_first_tick (Signal :: h) /\
  ft_flag (snd (fault_after 2 (Signal :: h))) = true /\ ft_flag (snd (fault_after 3 (Signal :: h))) = false.
Proof. cbn [rev app after_first_tick cycles]. split; [repeat split; lia|]. vm_compute. auto. Qed.

(** C64.  What is missing: the time between an unsignal, a ground write or a command and the next signal or reading, and
    faults overridden or suppressed. *)
Theorem C64_telemetry_shows_status_partial : forall p h, 0 <= p < 2 ^ 32 -> after_first_tick h -> cycles h < 2 ^ 32 ->
  overridden h = false -> suppressed h = false ->
  ft_flag (snd (fault_after p (Read :: h))) = snd (fault_read (snd (fault_after p h))).
Proof.
  intros p h HP HT HC HO HS. rewrite fault_read_abs by assumption. unfold faulted_after_read. rewrite HO, HS.
  apply fault_flag_abs; auto.
Qed.
Print Assumptions C64_telemetry_shows_status_partial.

(** C64.  The fault has ceased, telemetry still shows it; an overridden fault is in force and telemetry shows none. *)
Theorem C64_telemetry_shows_status_refuted :
  (exists h, ft_flag (snd (fault_after 0 h)) = true /\ snd (fault_read (snd (fault_after 0 h))) = false) /\
  (exists h, ft_flag (snd (fault_after 0 (Read :: h))) = false /\ snd (fault_read (snd (fault_after 0 (Read :: h)))) = true).
Proof. split; [exists [Unsignal; Signal; Tick]|exists [SetOverride true; Tick]]; vm_compute; auto. Qed.
Print Assumptions C64_telemetry_shows_status_refuted.

Lemma spec_cycles k : overridden (List.concat (repeat [Signal; Tick] k)) = false /\
  suppressed (List.concat (repeat [Signal; Tick] k)) = false /\ unsignal_pending (List.concat (repeat [Signal; Tick] k)) = false /\
  (forall p, threshold p (List.concat (repeat [Signal; Tick] k)) = p) /\
  signalled_cycles (List.concat (repeat [Signal; Tick] k)) = Z.of_nat k /\ cycles (List.concat (repeat [Signal; Tick] k)) = Z.of_nat k /\
  after_first_tick (List.concat (repeat [Signal; Tick] k)).
Proof.
  induction k as [|k (A & B & C & D & E & F & G)]; [repeat split|].
  cbn [repeat List.concat app overridden suppressed unsignal_pending threshold signalled_cycles clears signalled_this_cycle cycles after_first_tick].
  rewrite A, B, C, E, F. pose proof (cycles_nonneg (List.concat (repeat [Signal; Tick] k))). repeat split; try assumption; lia.
Qed.

(** C15.  In particular a condition signalled in [k] consecutive cycles from boot trips iff [k > p]. *)
Theorem C15_consecutive_signals : forall p k,
  0 <= p < 2 ^ 32 -> Z.of_nat k < 2 ^ 32 ->
  snd (fault_read (snd (fault_after p (List.concat (repeat [Signal; Tick] k))))) = (p <? Z.of_nat k).
Proof.
  intros p k HP HK. destruct (spec_cycles k) as (A & B & C & D & E & F & G).
  rewrite fault_read_abs by (try assumption; lia). unfold faulted_after_read. rewrite A, B, D.
  cbn [signalled_cycles clears]. rewrite A, B, C, E. reflexivity.
Qed.
Print Assumptions C15_consecutive_signals.

(** a history with repeats in one cycle, an unsignal, and an override edge *)
Example C15_case :
  let h := rev [Tick; Signal; Signal; Tick; Signal; Tick; Unsignal; Tick; Signal; Tick; Signal; Tick; Signal; Signal] in
  after_first_tick h /\ signalled_cycles h = 3 /\
  snd (fault_read (snd (fault_after 2 h))) = true /\ snd (fault_read (snd (fault_after 3 h))) = false /\
  snd (fault_read (snd (fault_after 2 (rev [SetSuppress true; Read; SetSuppress false; Read] ++ h)))) = false.
Proof. cbn [rev app after_first_tick cycles]. split; [repeat split; lia|]. vm_compute. auto. Qed.

(** C44 is false: after the cycle counter has wrapped, a fault last signalled in a later cycle number is never
    counted again before the counter passes that number; and in cycle 0 each call counts. *)
Theorem C44_fault_after_wraparound_refuted :
  exists f0 : fault, ft_last f0 = 2 ^ 32 - 1 /\ ft_persistence f0 = 0 /\
    (forall cc, 1 <= cc < 2 ^ 32 -> snd (fault_read (fault_signal cc (fault_unsignal f0))) = false).
Proof.
  exists (fault_signal (2 ^ 32 - 1) (fault_make 0)). split; [vm_compute; reflexivity|]. split; [vm_compute; reflexivity|].
  intros cc H. set (f1 := fault_unsignal _).
  assert (E : fault_signal cc f1 = with_flag f1 false).
  { unfold fault_signal. change (ft_last f1) with 4294967295.
    replace ((4294967295 <? cc) || (cc =? 0)) with false; [vm_compute; reflexivity|].
    change (2 ^ 32) with 4294967296 in H. destruct (Z.ltb_spec 4294967295 cc); [lia|]. destruct (Z.eqb_spec cc 0); [lia|reflexivity]. }
  rewrite E. vm_compute. reflexivity.
Qed.
Print Assumptions C44_fault_after_wraparound_refuted.

Theorem C44_cycle_zero_refuted :
  exists f, snd (fault_read (fault_signal 0 (fault_signal 0 f))) = true /\ snd (fault_read (fault_signal 1 (fault_signal 1 f))) = false.
Proof. exists (fault_make 1). vm_compute. auto. Qed.
Print Assumptions C44_cycle_zero_refuted.

(** C44 (what does hold): at any nonzero cycle number later than the last counted one a signal counts once. *)
Theorem C44_signal_counts_once_partial : forall f cc,
  ft_last f < cc -> 0 <= ft_num f < 2 ^ 32 - 1 -> cc <> 0 ->
  ft_num (fault_signal cc f) = ft_num f + 1 /\ fault_signal cc (fault_signal cc f) = fault_signal cc f.
Proof.
  intros f cc H1 H2 H3. unfold fault_signal at 1 3 4. replace ((ft_last f <? cc) || (cc =? 0)) with true by lia.
  split; [cbn [ft_num with_flag with_num]; apply u32_id; lia|].
  unfold fault_signal. cbn [ft_last with_flag with_num]. replace ((cc <? cc) || (cc =? 0)) with false by lia. reflexivity.
Qed.
Print Assumptions C44_signal_counts_once_partial.
Example C44_case : ft_last (fault_make 3) < 70 /\ 0 <= ft_num (fault_make 3) < 2 ^ 32 - 1 /\ ft_num (fault_signal 70 (fault_signal 70 (fault_make 3))) = 1.
Proof. ground. Qed.

(** C16.  After any sequence of registrations no category has two entries of one name; every writable field,
    every persistent field is readable under its name, every fault writable. *)
Theorem C16_names_unique : forall ops,
  let r := reg_run ops in
  (forall l, In l [rg_internal r; rg_readable r; rg_writable r; rg_eeprom r; rg_events r; rg_faults r] -> NoDup (map fd_name l)) /\
  (forall n f, find_in (rg_writable r) n = Some f -> find_in (rg_readable r) n = Some f) /\
  (forall n f, find_in (rg_eeprom r) n = Some f -> find_in (rg_readable r) n = Some f) /\
  (forall n f, find_in (rg_faults r) n = Some f -> find_in (rg_writable r) n = Some f).
Proof.
  intros ops r. pose proof (reg_run_inv ops) as I. fold r in I.
  split; [|split; [|split]; apply I]. intros l HI. cbn [In] in HI.
  destruct HI as [<-|[<-|[<-|[<-|[<-|[<-|[]]]]]]]; apply I.
Qed.
Print Assumptions C16_names_unique.

(** C16.  A name, once found, is found for ever and names the same object. *)
Theorem C16_lookups_stable : forall ops more n f,
  let r := reg_run ops in let r' := reg_run (ops ++ more) in
  (find_in (rg_internal r) n = Some f -> find_in (rg_internal r') n = Some f) /\
  (find_in (rg_readable r) n = Some f -> find_in (rg_readable r') n = Some f) /\
  (find_in (rg_writable r) n = Some f -> find_in (rg_writable r') n = Some f) /\
  (find_in (rg_eeprom r) n = Some f -> find_in (rg_eeprom r') n = Some f) /\
  (find_in (rg_events r) n = Some f -> find_in (rg_events r') n = Some f) /\
  (find_in (rg_faults r) n = Some f -> find_in (rg_faults r') n = Some f).
Proof.
  intros ops more n f r r'. unfold r'. unfold reg_run. rewrite fold_left_app. fold (reg_run ops). fold r.
  apply (proj2 (run_from_inv more r (reg_run_inv ops))).
Qed.
Print Assumptions C16_lookups_stable.

(** C16.  A readable or writable field is accepted iff its name is not readable yet; accepted, it is the answer for
    its own name and no other answer changes; refused, nothing changes. *)
Theorem C16_field_registration : forall ops f n,
  let r := reg_run ops in
  let '(r1, ok1) := reg_op r (AddReadable f) in
  let '(r2, ok2) := reg_op r (AddWritable f) in
  ok1 = ok2 /\
  (ok1 = false -> r1 = r /\ r2 = r /\ exists g, find_in (rg_readable r) (fd_name f) = Some g) /\
  (ok1 = true ->
    find_in (rg_readable r1) n = (if String.eqb n (fd_name f) then Some f else find_in (rg_readable r) n) /\
    find_in (rg_readable r2) n = (if String.eqb n (fd_name f) then Some f else find_in (rg_readable r) n) /\
    find_in (rg_writable r1) n = find_in (rg_writable r) n /\
    find_in (rg_writable r2) n = (if String.eqb n (fd_name f) then Some f else find_in (rg_writable r) n) /\
    find_in (rg_eeprom r1) n = (if String.eqb n (fd_name f) && (0 <? fd_period f) then Some f else find_in (rg_eeprom r) n) /\
    find_in (rg_eeprom r2) n = find_in (rg_eeprom r1) n).
Proof.
  intros ops f n r. pose proof (reg_run_inv ops) as I. fold r in I. cbn [reg_op].
  destruct (add_readable_spec r f I) as [[H E]|[H E]]; destruct (add_writable_spec r f I) as [[H' E']|[H' E']]; rewrite E, E';
  try (destruct H' as [g H']; congruence); try (destruct H as [g H]; congruence).
  - split; [reflexivity|]. split; [discriminate|]. intros _. cbn [rg_readable rg_writable rg_eeprom].
    rewrite find_in_snoc by assumption. rewrite find_in_snoc by (apply (absent_sub _ _ _ (ri_wr r I)); assumption).
    repeat split. destruct (0 <? fd_period f).
    + rewrite find_in_snoc by (apply (absent_sub _ _ _ (ri_er r I)); assumption). destruct (String.eqb n (fd_name f)); reflexivity.
    + rewrite andb_false_r. reflexivity.
  - split; [reflexivity|]. split; [|discriminate]. intros _. split; [reflexivity|]. split; [reflexivity|assumption].
Qed.
Print Assumptions C16_field_registration.

(** C16.  Internal fields and events likewise, each in its own category. *)
Theorem C16_event_registration : forall ops f n,
  let r := reg_run ops in
  let '(r1, ok1) := reg_op r (AddEvent f) in
  let '(r2, ok2) := reg_op r (AddInternal f) in
  (ok1 = false -> r1 = r) /\ (ok2 = false -> r2 = r) /\
  (ok1 = true -> find_in (rg_events r1) n = if String.eqb n (fd_name f) then Some f else find_in (rg_events r) n) /\
  (ok2 = true -> find_in (rg_internal r2) n = if String.eqb n (fd_name f) then Some f else find_in (rg_internal r) n).
Proof.
  intros ops f n r. cbn [reg_op]. unfold add_event, add_internal.
  destruct (present (rg_events r) (fd_name f)) eqn:E1; destruct (present (rg_internal r) (fd_name f)) eqn:E2;
  try apply present_false in E1; try apply present_false in E2; repeat split; try discriminate; intros _;
  cbn [rg_events rg_internal]; apply find_in_snoc; assumption.
Qed.
Print Assumptions C16_event_registration.

(** C16.  A fault accepted: its five fields are writable under their names, and no other name is disturbed. *)
Theorem C16_fault_registration : forall ops x,
  let r := reg_run ops in
  let fields := [fp_base x; fp_suppress x; fp_override x; fp_unsignal x; fp_persistence x] in
  let '(r1, ok) := reg_op r (AddFault x) in
  (ok = true -> find_in (rg_faults r1) (fd_name (fp_base x)) = Some (fp_base x) /\
     forall f, In f fields -> find_in (rg_writable r1) (fd_name f) = Some f /\ find_in (rg_readable r1) (fd_name f) = Some f) /\
  (forall n, ~ In n (map fd_name fields) -> find_in (rg_readable r1) n = find_in (rg_readable r) n /\
     find_in (rg_writable r1) n = find_in (rg_writable r) n).
Proof.
  intros ops x r fields. pose proof (reg_run_inv ops) as I. fold r in I.
  pose proof (reg_op_inv r (AddFault x) I) as [I1 _]. cbn [reg_op] in *. unfold add_fault in *.
  destruct (present (rg_faults r) (fd_name (fp_base x))) eqn:E; [split; [discriminate|]; intros n _; split; reflexivity|].
  pose proof (add_writables_inv fields r I) as (A & B & C & D & G & K & M). fold fields in I1. fold fields.
  destruct (add_writables r fields) as [r1 ok]. cbn [fst snd] in *. destruct ok.
  - cbn [fst] in I1. split.
    + intros _. cbn [rg_faults rg_writable rg_readable]. rewrite find_in_snoc, String.eqb_refl by (rewrite C; apply present_false; assumption).
      split; [reflexivity|]. intros f HI. specialize (K eq_refl f HI). split; [exact K|]. apply (ri_wr _ A). exact K.
    + intros n HN. cbn [rg_writable rg_readable]. destruct (M n HN) as (M1 & M2 & _). split; assumption.
  - split; [discriminate|]. intros n HN. destruct (M n HN) as (M1 & M2 & _). split; assumption.
Qed.
Print Assumptions C16_fault_registration.

Definition C16_ops := [AddInternal (mk_fld 1 "a" 0); AddReadable (mk_fld 2 "a" 5); AddWritable (mk_fld 3 "b" 0);
  AddWritable (mk_fld 4 "a" 0); AddEvent (mk_fld 5 "a" 0);
  AddFault (mk_fltptr (mk_fld 6 "f.base" 0) (mk_fld 7 "f.suppress" 0) (mk_fld 8 "f.override" 0) (mk_fld 9 "f.unsignal" 0) (mk_fld 10 "f.persistence" 0))].
Example C16_case :
  let r := reg_run C16_ops in
  map (fun l => map fd_ptr l) [rg_internal r; rg_readable r; rg_writable r; rg_eeprom r; rg_events r; rg_faults r] =
  [[1]; [2; 3; 6; 7; 8; 9; 10]; [3; 6; 7; 8; 9; 10]; [2]; [5]; [6]].
Proof. vm_compute. reflexivity. Qed.

(** C16 is false of faults: a refused fault can leave its base field registered. *)
Theorem C16_refused_fault_refuted :
  exists ops x, let r := reg_run ops in
    snd (reg_op r (AddFault x)) = false /\
    find_in (rg_writable r) "f.base" = None /\ find_in (rg_writable (fst (reg_op r (AddFault x)))) "f.base" <> None.
Proof.
  exists [AddReadable (mk_fld 1 "f.suppress" 0)],
   (mk_fltptr (mk_fld 6 "f.base" 0) (mk_fld 7 "f.suppress" 0) (mk_fld 8 "f.override" 0) (mk_fld 9 "f.unsignal" 0) (mk_fld 10 "f.persistence" 0)).
  vm_compute. repeat split. discriminate.
Qed.
Print Assumptions C16_refused_fault_refuted.
