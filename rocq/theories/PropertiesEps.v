(** The flight computer's i2c devices and the power supply's messages. *)
From Verif Require Import Base DevModel EpsModel EpsSpec EpsProofs EpsWitness.
From Verif Require PowerModel PowerSpec.
From Verif Require Import EpsNanoSpec EpsRefine.

(** * C153 *)
(** C153.  Setup: if the supply answers none of the three pings it is declared non-functional; every setup adds the pings that
    failed and nothing else.  What is missing: failures of anything but a ping. *)
Theorem C153_setup_partial : forall (B : bus) jk (g : drv B), 0 <= fd_count (g_dev g) -> fd_count (g_dev g) + 3 < 2 ^ 32 ->
  let '(g', ok) := gs_setup B jk g in
  fd_count (g_dev g) <= fd_count (g_dev g') <= fd_count (g_dev g) + 3 /\ (ok = false -> fd_functional (g_dev g') = false) /\
  (ok = true -> fd_count (g_dev g') < fd_count (g_dev g) + 3).
Proof. exact setup_verdict. Qed.
Print Assumptions C153_setup_partial.
Example C153_setup_case : let r := gs_setup dead_bus stack0 (@mk_drv dead_bus tt d0 hk0) in snd r = false /\ fd_functional (g_dev (fst r)) = false /\
  fd_functional d0 = true.
Proof. vm_compute. repeat split. Qed.

(** C153 is false: on a bus on which every call fails, a device stays functional through any sequence of exchanges. *)
Theorem C153_exchanges_refuted : exists B : bus, (forall o s, w_ok (snd (bcall B o s)) = false) /\
  forall ping l (s : bst B * fdev), Forall exchange l -> fd_functional (snd s) = true -> fd_functional (snd (fold_left (fd_op B ping) l s)) = true.
Proof.
  exists dead_bus. split; [reflexivity|]. intros ping l s H F. unfold fd_functional in *. rewrite (run_count dead_bus ping l s H). exact F.
Qed.
Print Assumptions C153_exchanges_refuted.

(** C153 is false the other way round as well: three setups that all succeed, each at the second ping, leave the device
    non-functional, though it never failed three times in a row. *)
Theorem C153_answering_refuted : snd (flaky_setups stack0) = [true; true; true] /\ fd_functional (g_dev (fst (flaky_setups stack0))) = false.
Proof. exact flaky. Qed.
Print Assumptions C153_answering_refuted.

(** * C154 *)
(** C154.  Whatever is done with a disabled device, and whatever the bus does, it stays disabled until it is reset. *)
Theorem C154_disabled : forall (B : bus) jk hk l b d, 3 + 3 * Z.of_nat (length l) < 2 ^ 32 -> ~ In OReset l ->
  fd_functional (snd (fold_left (fd_op B (pinged B jk hk)) l (b, fd_disable d))) = false.
Proof.
  intros B jk hk l b d H N. unfold fd_functional, disable_at. apply Z.ltb_ge.
  apply (disabled_run B (pinged B jk hk) l (pinged_count B jk hk)); [cbn; unfold disable_at; lia|exact H|exact N].
Qed.
Print Assumptions C154_disabled.
(** C154.  A reset makes it functional again and its data valid. *)
Theorem C154_reset : forall (B : bus) ping (s : bst B * fdev), let d := snd (fd_op B ping s OReset) in
  fd_functional d = true /\ fd_valid d = true /\ fd_recent d = false /\ fd_timeout d = fd_timeout (snd s).
Proof. intros B ping s. repeat split. Qed.
Print Assumptions C154_reset.
(** a disabled device that answers: setup succeeds, the device stays disabled *)
Example C154_case : let g := @mk_drv scripted (conversation [[1; 0; 255]] []) (fd_disable d0) hk0 in
  snd (gs_setup scripted stack0 g) = true /\ fd_functional (g_dev (fst (gs_setup scripted stack0 g))) = false.
Proof. vm_compute. split; reflexivity. Qed.

(** * C155 *)
(** C155.  After a reset and a setup: the data count as valid exactly if the first ping was answered.  What is missing: all
    other exchanges. *)
Theorem C155_setup_partial : forall (B : bus) jk (g : drv B), fd_count (g_dev g) = 0 ->
  fd_valid (g_dev (fst (gs_setup B jk g))) = snd (ping B 255 jk g).
Proof. exact setup_valid. Qed.
Print Assumptions C155_setup_partial.
Example C155_case : fd_valid (g_dev (fst (gs_setup scripted stack0 (g_of [[1; 0; 255]])))) = true /\
  fd_valid (g_dev (fst (gs_setup scripted stack0 (g_of [[]; [1; 0; 255]])))) = false.
Proof. vm_compute. split; reflexivity. Qed.
(** C155 is false: no exchange changes the answer, neither a failure to "not valid" nor a success to "valid". *)
Theorem C155_exchanges_refuted : forall (B : bus) ping l (s : bst B * fdev), Forall exchange l ->
  fd_valid (snd (fold_left (fd_op B ping) l s)) = fd_valid (snd s).
Proof. exact never_valid. Qed.
Print Assumptions C155_exchanges_refuted.
Example C155_exchanges_case : let l := [OCall (Write [8; 0]); OCall EndTx; OCall (Request 133); ORead 133; OPop] in Forall exchange l /\
  fd_recent (snd (fold_left (fd_op dead_bus (pinged dead_bus stack0 hk0)) (firstn 4 l) (tt, d0))) = true /\
  fd_valid (snd (fold_left (fd_op dead_bus (pinged dead_bus stack0 hk0)) l (tt, d0))) = true.
Proof. cbv zeta. split; [repeat constructor|]. vm_compute. split; reflexivity. Qed.

(** * C156 *)
(** C156.  Setting a timeout and reading it back, up to 4294967 ms.  What is missing: larger values, and the value given to the
    constructor. *)
Theorem C156_set_partial : forall t d, 0 <= t -> t * 1000 < 2 ^ 32 -> fd_get_timeout (fd_set_timeout t d) = t.
Proof. exact timeout_kept. Qed.
Print Assumptions C156_set_partial.
Example C156_case : fd_get_timeout (fd_set_timeout 4294967 d0) = 4294967.
Proof. reflexivity. Qed.
(** C156 is false: the devices are constructed with 10000 (the power supply) and 1000 (the attitude computer) and report 10 and
    1 ms. *)
Theorem C156_constructed_refuted : fd_get_timeout (fd_new 10000) = 10 /\ fd_get_timeout (fd_new 1000) = 1.
Proof. split; reflexivity. Qed.
Print Assumptions C156_constructed_refuted.
Theorem C156_large_refuted : exists t, 0 <= t < 2 ^ 32 /\ fd_get_timeout (fd_set_timeout t d0) = 0.
Proof. exists 4294968. vm_compute. split; [split; [discriminate|reflexivity]|reflexivity]. Qed.
Print Assumptions C156_large_refuted.

(** * C157 *)
(** C157.  A complete reply, right or wrong: the fault is signalled exactly if the reply is not headed by the command and the
    code for success, and then what was read before stays.  What is missing: replies cut short. *)
Theorem C157_complete_partial : forall cc jk x x' ev r rs, quiet x -> replies_of x = r :: rs -> bytes r -> length r = 133%nat ->
  gexec scripted cc jk x = Some (x', ev) ->
  fst ev = negb ((at_ r 0 =? 8) && (at_ r 1 =? 0)) /\
  (fst ev = true -> g_hk (x_drv x') = g_hk (x_drv x) /\ x_pub x' = published (g_hk (x_drv x))).
Proof.
  intros cc jk x x' ev r rs Q R Br Lr X. destruct (cycle_complete cc jk x x' ev r rs Q R Br Lr X) as (A & B & _). exact (conj A B).
Qed.
Print Assumptions C157_complete_partial.
Example C157_case : let x := x_of [8 :: 1 :: repeat 9 131] cmds0 in quiet x /\
  match gexec scripted 5 (fun _ => stack0) x with Some (x', ev) => fst ev = true /\ x_pub x' = published hk0 | None => False end.
Proof. cbv zeta. split; [apply five_quiet|]. vm_compute. split; reflexivity. Qed.
(** C157 is false: the supply does not answer at all, the uninitialised buffer still holds a reply read before: no fault is
    signalled and the old values are telemetered as new. *)
Theorem C157_silent_refuted : exists jk x x', quiet x /\ replies_of x = [] /\ gexec scripted 5 jk x = Some (x', (false, false)) /\ x_pub x' <> x_pub x.
Proof.
  destruct silent_accepted as (x' & E & N). exists (fun _ => old_reply), (x_of [] cmds0), x'. split; [apply five_quiet|]. split; [reflexivity|]. split; [exact E|exact N].
Qed.
Print Assumptions C157_silent_refuted.

(** * C158 *)
(** C158.  All telemetered values but the number of reboots are the ones the supply sent in this cycle. *)
Theorem C158_values_partial : forall cc jk x x' ev v rs, quiet x -> hk_legal v -> replies_of x = ([8; 0] ++ hk_image v 0 65) :: rs ->
  gexec scripted cc jk x = Some (x', ev) -> fst ev = false /\ length (x_pub x') = length hk_telemetered /\
  forall k i, nth_error hk_telemetered k = Some i -> i <> reboots -> nth_error (x_pub x') k = Some (shown v i).
Proof. exact telemetry_fields. Qed.
Print Assumptions C158_values_partial.
(** C158.  The same for the struct the driver fills in: every field but the number of reboots (and the two reserved ones). *)
Theorem C158_struct_partial : forall cc jk x x' ev v rs, quiet x -> hk_legal v -> replies_of x = ([8; 0] ++ hk_image v 0 65) :: rs ->
  gexec scripted cc jk x = Some (x', ev) ->
  forall i, (i < 65)%nat -> i <> 9%nat -> i <> reboots -> i <> 64%nat -> peek (hk_width i) (hk_place i) (g_hk (x_drv x')) = v i.
Proof. exact cycle_struct. Qed.
Print Assumptions C158_struct_partial.
(** C158 is false: with 5 reboots, 0 is telemetered. *)
Theorem C158_reboots_refuted : exists cc jk x x' ev v k, quiet x /\ hk_legal v /\ replies_of x = [[8; 0] ++ hk_image v 0 65] /\
  gexec scripted cc jk x = Some (x', ev) /\ nth_error hk_telemetered k = Some reboots /\ v reboots = 5 /\ nth_error (x_pub x') k = Some 0.
Proof.
  destruct five_ran as (x' & ev & E & N). exists 5, (fun _ => stack0), (x_of [[8; 0] ++ hk_image five 0 65] cmds0), x', ev, five, 23%nat.
  split; [apply five_quiet|]. split; [exact five_legal|]. split; [reflexivity|]. split; [exact E|]. split; [reflexivity|]. split; [reflexivity|exact N].
Qed.
Print Assumptions C158_reboots_refuted.

(** * C159 *)
(** C159.  Voltages and currents, outputs, watchdogs, basic values: reading one of the four parts after a full reading leaves the
    same housekeeping data as a full reading of the mixed values, whatever was there before. *)
Theorem C159_parts : forall get a b, In (get, a, b) [(get_hk_vi scripted, 0, 10); (get_hk_out scripted, 10, 46); (get_hk_wdt scripted, 46, 54); (get_hk_basic scripted, 54, 65)]%nat ->
  forall v v' jk1 jk2 jk3 d1 d3 hk1 hk3 p rs rs3 s1 s3, length hk1 = 131%nat -> length hk3 = 131%nat -> 0 <= p < 256 ->
  let mixed := fun i => if Nat.leb a i && Nat.ltb i b then v i else v' i in
  let g1 := fst (get_hk scripted jk1 (@mk_drv scripted (conversation (([8; 0] ++ hk_image v' 0 65) :: ([p; 0] ++ hk_image v a b) :: rs) s1) d1 hk1)) in
  let g3 := fst (get_hk scripted jk3 (@mk_drv scripted (conversation (([8; 0] ++ hk_image mixed 0 65) :: rs3) s3) d3 hk3)) in
  snd (get jk2 g1) = true /\ g_hk (fst (get jk2 g1)) = g_hk g3.
Proof.
  destruct parts_agree as (P1 & P2 & P3 & P4). intros get a b [E|[E|[E|[E|[]]]]]; injection E as <- <- <-; [exact P1|exact P2|exact P3|exact P4].
Qed.
Print Assumptions C159_parts.
Example C159_case :
  g_hk (fst (get_hk_out scripted stack0 (fst (get_hk scripted stack0 (g_of [[8; 0] ++ hk_image five 0 65; [8; 0] ++ hk_image (fun i => 1) 10 46]))))) =
  g_hk (fst (get_hk scripted stack0 (g_of [[8; 0] ++ hk_image (fun i => if Nat.leb 10 i && Nat.ltb i 46 then 1 else five i) 0 65]))) /\
  g_hk (fst (get_hk scripted stack0 (g_of [[8; 0] ++ hk_image five 0 65]))) <> hk0.
Proof. vm_compute. split; [reflexivity|discriminate]. Qed.

(** * C160 *)
(** C160.  Switching an output: nothing is sent for an output or a level that does not exist; else one message, which the supply
    understands as given if the two bytes of the delay are equal, as for no delay.  What is missing: all other delays. *)
Theorem C160_switch_partial : forall ch v b jk (g : drv scripted), 0 <= ch -> 0 <= v -> 0 <= b < 256 -> t_msg (g_bus g) = [] ->
  exists new, t_sent (g_bus (fst (set_single_output scripted ch v (257 * b) jk g))) = t_sent (g_bus g) ++ new /\
  map understood_switch new = (if (ch <=? 5) && (v <=? 1) then [Some (ch, v, 257 * b)] else []).
Proof.
  intros ch v b jk g Hc Hv Hb I. eexists. split; [exact (single_sent ch v (257 * b) jk g Hc Hv I)|].
  destruct ((ch <=? 5) && (v <=? 1)); [|reflexivity]. cbn [map]. rewrite single_equal_bytes by exact Hb. reflexivity.
Qed.
Print Assumptions C160_switch_partial.
Example C160_case : t_sent (g_bus (fst (set_single_output scripted 3 1 0 stack0 (g_of [])))) = [[10; 3; 1; 0; 0]] /\
  t_sent (g_bus (fst (set_single_output scripted 6 1 0 stack0 (g_of [])))) = [].
Proof. split; reflexivity. Qed.
(** C160 is false: a delay of 10 s arrives as 2560 s. *)
Theorem C160_delay_refuted : exists ch v delay, 0 <= ch <= 5 /\ 0 <= v <= 1 /\ 0 <= delay < 32768 /\
  map understood_switch (t_sent (g_bus (fst (set_single_output scripted ch v delay stack0 (g_of []))))) = [Some (ch, v, 256 * delay)] /\ 256 * delay <> delay.
Proof. exists 3, 1, 10. split; [lia|]. split; [lia|]. split; [lia|]. split; [vm_compute; reflexivity|lia]. Qed.
Print Assumptions C160_delay_refuted.

(** * C161 *)
(** C161 is false in the strongest sense: every complete reply that reports success leads to undefined behaviour, for both
    configurations, whatever the stack held. *)
Theorem C161_read_refuted : forall jk (g : drv scripted) r rs, t_msg (g_bus g) = [] -> t_replies (g_bus g) = r :: rs -> bytes r -> at_ r 1 = 0 ->
  (length r = 60%nat -> config_get scripted jk g = Undefined) /\ (length r = 22%nat -> config2_get scripted jk g = Undefined).
Proof.
  intros jk g r rs I R Br Z1. split; intros L; apply (config_get_complete _ _ jk g r rs); try assumption; unfold config_size, config2_size; lia.
Qed.
Print Assumptions C161_read_refuted.
Example C161_case : config_get scripted stack0 (g_of [18 :: 0 :: repeat 1 58]) = Undefined /\
  (exists g', config_get scripted stack0 (g_of [18 :: 3 :: repeat 1 58]) = Done g' false).
Proof. split; [reflexivity|eexists; reflexivity]. Qed.

(** * C162 *)
(** C162.  The first configuration: one message, every field as given, most significant byte first; success is reported exactly
    if the supply acknowledges. *)
Theorem C162_config : forall vs jk (g : drv scripted) r rs, length vs = 39%nat -> t_msg (g_bus g) = [] -> t_replies (g_bus g) = r :: rs -> bytes r -> length r = 2%nat ->
  t_sent (g_bus (fst (config_set scripted (in_memory cfg_widths vs) jk g))) = t_sent (g_bus g) ++ [19 :: as_sent cfg_widths vs] /\
  snd (config_set scripted (in_memory cfg_widths vs) jk g) = (at_ r 0 =? 19) && (at_ r 1 =? 0).
Proof. exact config_set_sent. Qed.
Print Assumptions C162_config.
(** C162.  The second configuration: the same, followed by the message that commits it if the first was acknowledged. *)
Theorem C162_config2 : forall vs jk jk2 (g : drv scripted) r r2 rs, length vs = 16%nat -> t_msg (g_bus g) = [] -> t_replies (g_bus g) = r :: r2 :: rs ->
  bytes r -> length r = 2%nat -> bytes r2 -> length r2 = 2%nat ->
  let ok := (at_ r 0 =? 23) && (at_ r 1 =? 0) in
  t_sent (g_bus (fst (config2_set scripted (in_memory cfg2_widths vs) jk jk2 g))) =
    t_sent (g_bus g) ++ (23 :: as_sent cfg2_widths vs) :: (if ok then [[21; 2]] else []) /\
  snd (config2_set scripted (in_memory cfg2_widths vs) jk jk2 g) = ok && ((at_ r2 0 =? 21) && (at_ r2 1 =? 0)).
Proof. exact config2_set_sent. Qed.
Print Assumptions C162_config2.
Example C162_case : let vs := [8300; 7400; 7000; 6500] ++ repeat 0 12 in
  t_sent (g_bus (fst (config2_set scripted (in_memory cfg2_widths vs) stack0 stack0 (g_of [[23; 0]; [21; 0]])))) =
  [23 :: [32; 108; 28; 232; 27; 88; 25; 100] ++ repeat 0 12; [21; 2]] /\
  snd (config2_set scripted (in_memory cfg2_widths vs) stack0 stack0 (g_of [[23; 0]; [21; 0]])) = true.
Proof. vm_compute. split; reflexivity. Qed.

(** * C163 *)
(** C163 is false: all that is sent is the message that commits the present configuration, [21; 2], as [config2_set] sends it;
    there is nothing from which a supply could tell that the defaults are wanted. *)
Theorem C163_restore_refuted : forall jk jk2 (g : drv scripted), t_msg (g_bus g) = [] ->
  exists new, t_sent (g_bus (fst (restore_default_config2 scripted jk jk2 g))) = t_sent (g_bus g) ++ new /\ Forall (eq [21; 2]) new.
Proof.
  intros jk jk2 g I. unfold restore_default_config2. pose proof (command_sent [[21; 2]] 21 jk g I) as S.
  destruct (command_says [[21; 2]] 21 jk g I) as (I2 & _). destruct (command scripted [[21; 2]] 21 jk g) as [g1 [|]]; cbn [fst and_confirm] in *.
  - unfold config2_confirm. rewrite (command_sent _ _ _ _ I2), S, <- app_assoc. eexists. split; [reflexivity|]. repeat constructor.
  - exists [[21; 2]]. split; [exact S|repeat constructor].
Qed.
Print Assumptions C163_restore_refuted.
Example C163_case : t_sent (g_bus (fst (restore_default_config2 scripted stack0 stack0 (g_of [[21; 0]; [21; 0]])))) = [[21; 2]; [21; 2]] /\
  snd (restore_default_config2 scripted stack0 stack0 (g_of [[21; 0]; [21; 0]])) = true.
Proof. split; reflexivity. Qed.

(** * C164 *)
(** C164.  Success is reported exactly if the complete reply is headed by the command and the code for success.  What is
    missing: the state of the heater the supply reports. *)
Theorem C164_header_partial : forall mode jk (g : drv scripted) r rs, t_msg (g_bus g) = [] -> t_replies (g_bus g) = r :: rs -> bytes r -> length r = 4%nat ->
  snd (set_heater scripted mode jk g) = (at_ r 0 =? 13) && (at_ r 1 =? 0).
Proof. exact heater_complete. Qed.
Print Assumptions C164_header_partial.
(** C164 is false: the supply reports the heater off, switching it on is reported as done; and the other way round. *)
Theorem C164_state_refuted : forall mode, exists g : drv scripted, t_replies (g_bus g) = [[13; 0; 0; 1 - Z.b2z mode]] /\ snd (set_heater scripted mode stack0 g) = true.
Proof. intros [|]; [exists (g_of [[13; 0; 0; 0]])|exists (g_of [[13; 0; 0; 1]])]; split; reflexivity. Qed.
Print Assumptions C164_state_refuted.

(** * C165 *)
(** C165.  In every cycle after the first, each of the three reset commands (counters, hard reset, reboot) is sent once if its
    field is set and not otherwise, and all three fields are false afterwards; whatever the supply answers.  In the first
    cycle they are cleared unsent, as announced at GomspaceController.cpp:207-208. *)
Theorem C165_resets : forall cc jk x x' ev, quiet x -> gexec scripted cc jk x = Some (x', ev) ->
  exists new, t_sent (g_bus (x_drv x')) = t_sent (g_bus (x_drv x)) ++ new /\
  filter (fun m => hd 0 m =? 15) new = (if m_cnt (x_cmd x) && negb (cc =? 1) then [[15; 66]] else []) /\
  filter (fun m => hd 0 m =? 20) new = (if m_rst (x_cmd x) && negb (cc =? 1) then [[20]] else []) /\
  filter (fun m => hd 0 m =? 4) new = (if m_boot (x_cmd x) && negb (cc =? 1) then [[4; 128; 7; 128; 7]] else []) /\
  m_cnt (x_cmd x') = false /\ m_rst (x_cmd x') = false /\ m_boot (x_cmd x') = false.
Proof. exact resets_once. Qed.
Print Assumptions C165_resets.
Example C165_case : let c := mk_cmd (fun _ => false) (fun _ => 0) 0 false true false true false 250 0 in quiet (x_of [] c) /\
  match gexec scripted 7 (fun _ => stack0) (x_of [] c) with
  | Some (x', _) => t_sent (g_bus (x_drv x')) = [[8; 0]; [13]; [15; 66]; [4; 128; 7; 128; 7]; [13]] /\ m_cnt (x_cmd x') = false
  | None => False
  end.
Proof. cbv zeta. split; [apply five_quiet|]. vm_compute. split; reflexivity. Qed.

(** * The power properties, down to the bytes

    C33 and C59 to C63 are proved in PropertiesPower for a model of the controller that exchanges values with the supply.  Here
    the controller, its driver and the device class exchange bytes with a supply that reads and writes the messages as
    documented ([nano]); messages may be lost where the statement allows it. *)

(** C33.  As C33_power_cycle_partial. *)
Theorem C33_bytes_partial : forall i cc n x x', (i < 6)%nat -> sound x -> 0 < m_period (x_cmd x) < 2 ^ 32 ->
  m_cyc (x_cmd x) i = true -> b_out (brd (x_drv x)) i = true -> nth (15 + i) (x_pub x) 0 = 1 -> b_log (brd (x_drv x)) = [] -> nanorun i cc n x x' ->
  let sent := PowerSpec.sent i (b_log (brd (x_drv x'))) in let cyc := m_cyc (x_cmd x') i in let out := b_out (brd (x_drv x')) i in
  ((sent = [] /\ cyc = true /\ out = true) \/ ((sent = [false] \/ sent = [false; false]) /\ cyc = true /\ out = false) \/
   ((sent = [false; true] \/ sent = [false; false; true]) /\ cyc = false /\ out = true)) /\
  (3 * m_period (x_cmd x) <= n -> cyc = false /\ out = true).
Proof. exact power_cycle_bytes. Qed.
Print Assumptions C33_bytes_partial.

(** C33.  As C33_others_untouched; messages may be lost. *)
Theorem C33_others_bytes : forall cc jk x x' ev j v, sound x -> clean (env (x_drv x)) jk -> gexec nano cc jk x = Some (x', ev) ->
  exists tr, b_log (brd (x_drv x')) = b_log (brd (x_drv x)) ++ tr /\
    (In (j, v) tr -> (m_cyc (x_cmd x) j = true /\ v = (nth (15 + j) (x_pub x) 0 =? 0)) \/ (j = 0%nat /\ v = false /\ m_off (x_cmd x) = true)).
Proof. exact others_bytes. Qed.
Print Assumptions C33_others_bytes.

(** C59.  As C59_heater_follows. *)
Theorem C59_heater_bytes : forall cc jk x x' ev, sound x -> PowerSpec.working (env (x_drv x)) -> cc <> 1 -> gexec nano cc jk x = Some (x', ev) ->
  b_heat (brd (x_drv x')) = m_heat (x_cmd x).
Proof. exact heater_bytes. Qed.
Print Assumptions C59_heater_bytes.

(** C60.  As C60_boot_partial: missing is a boot at which the supply does not answer. *)
Theorem C60_bytes_partial : forall jk x x' ev, sound x -> PowerSpec.working (env (x_drv x)) -> gexec nano 1 jk x = Some (x', ev) ->
  m_heat (x_cmd x') = b_heat (brd (x_drv x)) /\ b_heat (brd (x_drv x')) = b_heat (brd (x_drv x)) /\
  (forall i, (i < 3)%nat -> m_pv (x_cmd x') i = b_vb (brd (x_drv x)) i) /\ (forall i, (i < 6)%nat -> m_cyc (x_cmd x') i = false).
Proof. exact boot_bytes. Qed.
Print Assumptions C60_bytes_partial.

(** C61.  As C61_tracker_mode_follows. *)
Theorem C61_tracker_bytes : forall cc1 jk1 x x1 ev1 cc2 jk2 x1' x2 ev2, sound x -> sound x1' ->
  PowerSpec.working (env (x_drv x)) -> PowerSpec.working (env (x_drv x1')) -> cc1 <> 1 -> cc2 <> 1 ->
  m_ppt (x_cmd x) <= 2 -> gexec nano cc1 jk1 x = Some (x1, ev1) ->
  b_ppt (brd (x_drv x1')) = b_ppt (brd (x_drv x1)) -> x_pub x1' = x_pub x1 -> m_ppt (x_cmd x1') = m_ppt (x_cmd x1) ->
  gexec nano cc2 jk2 x1' = Some (x2, ev2) -> b_ppt (brd (x_drv x2)) = m_ppt (x_cmd x).
Proof. exact tracker_bytes. Qed.
Print Assumptions C61_tracker_bytes.

(** C62.  The supply sets the commanded voltage exactly when its two bytes are equal. *)
Theorem C62_bytes_refuted : forall cc jk x x' ev i, sound x -> PowerSpec.working (env (x_drv x)) -> cc <> 1 -> gexec nano cc jk x = Some (x', ev) ->
  nth 30 (x_pub x) 0 = 2 -> (i < 3)%nat -> nth i (x_pub x) 0 <> m_pv (x_cmd x) i -> 0 <= m_pv (x_cmd x) i < 2 ^ 16 ->
  (b_vb (brd (x_drv x')) i = m_pv (x_cmd x) i <-> m_pv (x_cmd x) i mod 256 = m_pv (x_cmd x) i / 256).
Proof.
  intros cc jk x x' ev i S W N X F Hi D R. rewrite (voltage_bytes cc jk x x' ev i S W N X F Hi D). unfold PowerModel.bswap16. lia.
Qed.
Print Assumptions C62_bytes_refuted.

(** C63.  As C63_receiver_kept_off and C63_powered_partial; in the first, messages other than the last one may be lost. *)
Theorem C63_receiver_bytes : forall cc jk x x' ev, sound x -> clean (env (x_drv x)) jk -> gexec nano cc jk x = Some (x', ev) ->
  m_off (x_cmd x) = true -> PowerModel.ge_out (env (x_drv x)) 0%nat = true -> b_out (brd (x_drv x')) 0%nat = false.
Proof. exact receiver_off_bytes. Qed.
Print Assumptions C63_receiver_bytes.
Theorem C63_bytes_partial : forall i cc n x x', (i < 6)%nat -> sound x -> 0 < m_period (x_cmd x) < 2 ^ 32 ->
  m_cyc (x_cmd x) i = true -> b_out (brd (x_drv x)) i = false -> nth (15 + i) (x_pub x) 0 = 0 -> b_log (brd (x_drv x)) = [] -> nanorun i cc n x x' ->
  let sent := PowerSpec.sent i (b_log (brd (x_drv x'))) in let cyc := m_cyc (x_cmd x') i in let out := b_out (brd (x_drv x')) i in
  ((sent = [] /\ cyc = true /\ out = false) \/ (sent = [true] /\ cyc = false /\ out = true)) /\ (m_period (x_cmd x) <= n -> out = true).
Proof. exact power_on_bytes. Qed.
Print Assumptions C63_bytes_partial.

(** Cases.  A board with output 3 on (or off), everything heard; the controller cycles output 3 with period 1.  Numbers are byte
    patterns on the bus, so the runs are computed. *)
Definition ex_board (on : bool) : board := mk_board (fun j => Nat.eqb j 3 && on) false 2 (fun _ => 3700) (fun _ => 7) [].
Definition ex_ctl (on : bool) (period : Z) : ctl nano :=
  let cs := mk_cmd (Nat.eqb 3) (fun _ => 4000) 1 true false false false false period 7300 in
  mk_ctl (@mk_drv nano (mk_nano (PowerModel.mk_ge true (fun _ => true) true true true true) (ex_board on) [] [] []) d0 hk0)
    ([3700; 3700; 3700] ++ repeat 0 15 ++ [Z.b2z on] ++ repeat 0 11 ++ [2]) false cs.
Lemma ex_sound on period : sound (ex_ctl on period).
Proof.
  split; [reflexivity|]. split; [|split; [reflexivity|split; [|repeat split; cbn; lia]]].
  - intros i Hi. destruct on; do 65 (destruct i as [|i]; [vm_compute; split; [discriminate|reflexivity]|]); lia.
  - intros i Hi. destruct on; do 6 (destruct i as [|i]; [vm_compute; auto|]); lia.
Qed.
Lemma ex_still x : sound x -> m_off (x_cmd x) = false -> meanwhile 3 x x.
Proof. intros S O. split; [exact S|]. repeat split; auto. Qed.
(** three cycles; three commands on the bus; heater on and tracker mode 1 as commanded; 4000 mV is understood as 40975 *)
Example C33_bytes_case : exists x1 x3, nanorun 3 9 1 (ex_ctl true 1) x1 /\ nanorun 3 9 3 (ex_ctl true 1) x3 /\
  b_log (brd (x_drv x3)) = [(3%nat, false); (3%nat, false); (3%nat, true)] /\ b_out (brd (x_drv x1)) 3%nat = false /\ b_out (brd (x_drv x3)) 3%nat = true /\
  b_heat (brd (x_drv x1)) = true /\ b_ppt (brd (x_drv x1)) = 1 /\ b_vb (brd (x_drv x1)) 1%nat = 40975.
Proof.
  set (k := fun _ : nat => stack0). set (x0 := ex_ctl true 1). assert (W : PowerSpec.working (env (x_drv x0))) by (repeat split).
  pose proof (ex_sound true 1) as S0. fold x0 in S0.
  assert (V : match gexec nano 10 k x0 with Some (x1, _) => match gexec nano 11 k x1 with Some (x2, _) => match gexec nano 12 k x2 with Some (x3, _) =>
    Some (m_off (x_cmd x1), m_off (x_cmd x2), (b_log (brd (x_drv x3)), b_out (brd (x_drv x1)) 3%nat, b_out (brd (x_drv x3)) 3%nat),
      (b_heat (brd (x_drv x1)), b_ppt (brd (x_drv x1)), b_vb (brd (x_drv x1)) 1%nat)) | None => None end | None => None end | None => None end =
    Some (false, false, ([(3%nat, false); (3%nat, false); (3%nat, true)], false, true), (true, 1, 40975))) by (vm_compute; reflexivity).
  destruct (gexec nano 10 k x0) as [[x1 e1]|] eqn:E1; [|discriminate V].
  destruct (gexec nano 11 k x1) as [[x2 e2]|] eqn:E2; [|discriminate V].
  destruct (gexec nano 12 k x2) as [[x3 e3]|] eqn:E3; [|discriminate V]. injection V as O1 O2 V1 V2 V3 V4 V5 V6.
  destruct (sound_cycle 10 k x0 x1 e1 S0 (working_clean _ _ W) E1) as (S1 & W1).
  assert (R1 : nanorun 3 9 1 x0 x1) by exact (nr_S 3 9 0 x0 x0 x0 k x1 e1 (nr_0 3 9 x0) (ex_still x0 S0 eq_refl) W ltac:(vm_compute; discriminate) E1).
  rewrite <- W1 in W. destruct (sound_cycle 11 k x1 x2 e2 S1 (working_clean _ _ W) E2) as (S2 & W2).
  assert (R2 : nanorun 3 9 2 x0 x2) by exact (nr_S 3 9 1 x0 x1 x1 k x2 e2 R1 (ex_still x1 S1 O1) W ltac:(vm_compute; discriminate) E2).
  rewrite <- W2 in W.
  assert (R3 : nanorun 3 9 3 x0 x3) by exact (nr_S 3 9 2 x0 x2 x2 k x3 e3 R2 (ex_still x2 S2 O2) W ltac:(vm_compute; discriminate) E3).
  exists x1, x3. repeat split; assumption.
Qed.
