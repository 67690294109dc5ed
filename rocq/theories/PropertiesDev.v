(** Properties C138 to C143: the devices on the internal buses of the attitude computer. *)
From Verif Require Import Base AdcsModel DevModel DevSpec DevProofs DevChip DevDying.

(** * C138 A device that cannot be reached three times running is taken out of use *)

(** of any sequence of exchanges, whatever the bus does: out of use exactly if three in a row failed *)
Theorem C138_exchanges : forall B b ms, let '(s, l) := exchanges B ms (b, fresh_dev) in d_fn (snd s) = false <-> thrice true l.
Proof. exact exchanges_thrice. Qed.
Print Assumptions C138_exchanges.
(** converters, one exchange per conversion *)
Theorem C138_converters : forall B fuel cfgs b s l, conversions B fuel cfgs (b, fresh_dev) = Some (s, l) -> d_fn (snd s) = false <-> thrice None l.
Proof. exact conversions_thrice. Qed.
Print Assumptions C138_converters.
(** gyroscope and magnetometers: when nothing gets through, and when everything does *)
Theorem C138_dead_bus_partial : forall B, lost B -> forall b,
  (let '(s, l) := passes (gyr_pass B) 3 (b, fresh_dev) in d_fn (snd s) = false /\ l = [None; None; None]) /\
  (let '(s, l) := passes (mag1_pass B) 3 (b, fresh_dev) in d_fn (snd s) = false /\ l = [None; None; None]) /\
  (let '(s, l) := passes (mag2_pass B) 3 (b, fresh_dev) in d_fn (snd s) = false /\ l = [None; None; None]).
Proof. intros B L b. exact (conj (dead_gyr B L b) (conj (dead_mag1 B L b) (dead_mag2 B L b))). Qed.
Print Assumptions C138_dead_bus_partial.
Theorem C138_sound_bus : forall B, sound B -> forall b n,
  d_fn (snd (fst (passes (gyr_pass B) n (b, fresh_dev)))) = true /\ d_fn (snd (fst (passes (mag1_pass B) n (b, fresh_dev)))) = true /\
  d_fn (snd (fst (passes (mag2_pass B) n (b, fresh_dev)))) = true.
Proof. exact sound_in_use. Qed.
Print Assumptions C138_sound_bus.
(** they stay in use for ever although every reading fails, as long as their status can be read *)
Theorem C138_unreadable_refuted : exists B b, forall n,
  (let '(s, l) := passes (gyr_pass B) n (b, fresh_dev) in d_fn (snd s) = true /\ l = repeat None n) /\
  (let '(s, l) := passes (mag1_pass B) n (b, fresh_dev) in d_fn (snd s) = true /\ l = repeat None n) /\
  (let '(s, l) := passes (mag2_pass B) n (b, fresh_dev) in d_fn (snd s) = true /\ l = repeat None n) /\
  snd (gyr_ready B (b, fresh_dev)) = true /\ snd (ready_late B 0x67 3 (b, fresh_dev)) = true /\ snd (ready_late B 6 0 (b, fresh_dev)) = true.
Proof. exists deaf, tt. intros n. repeat split; try reflexivity; apply deaf_gyr || apply deaf_mag1 || apply deaf_mag2. Qed.
Print Assumptions C138_unreadable_refuted.
Definition silent : bus := mk_bus unit (fun _ b => (b, mk_wres false [])).
Example C138_case : lost silent /\ sound (mk_bus unit (fun _ b => (b, mk_wres true [255]))) /\
  snd (exchanges silent [[EndTx]; [EndTx]; [EndTx]] (tt, fresh_dev)) = [true; true; true] /\
  option_map (fun r => (d_fn (snd (fst r)), snd r)) (conversions (mk_bus nat (fun o t => (S t, mk_wres (match o with Pin => true | _ => (t <? 20)%nat end) [0; 16])))
    1 [[1; 1]; [1; 1]; [1; 1]; [1; 1]; [1; 1]; [1; 1]] (O, fresh_dev)) = Some (false, [Some 1; Some 1; None; None; None; None]) /\ thrice None [Some 5; None; None; None; Some 1].
Proof. repeat split. exists [Some 5], [Some 1]. reflexivity. Qed.

(** * C139 A reset ends after at most three attempts and tells whether one of them succeeded *)

Theorem C139_reset : forall B msg s, msg <> [] ->
  let '(b1, ok1, _) := sends B msg (fst s) in
  let '(b2, ok2, _) := sends B msg b1 in
  let '(b3, ok3, _) := sends B msg b2 in
  exists d, reset B msg s = Some ((if ok1 then b1 else if ok2 then b2 else b3, d), ok1 || ok2 || ok3) /\
    d_fn d = ok1 || ok2 || ok3 /\ (d_fn d = true -> d = fresh_dev).
Proof. exact reset_exact. Qed.
Print Assumptions C139_reset.
Example C139_case : mag1_setup <> [] /\ mag2_setup <> [] /\ gyr_setup <> [] /\ adc_setup <> [] /\ pot_setup <> [] /\
  option_map (fun r => (d_fn (snd (fst r)), snd r)) (reset silent gyr_setup (tt, fresh_dev)) = Some (false, false) /\
  option_map (fun r => (d_fn (snd (fst r)), snd r)) (reset (chip_bus level (steady level) (once 4)) mag2_setup (started, mk_dev false 7 true)) = Some (true, true).
Proof. repeat split; discriminate. Qed.

(** if nothing fails, a reset tells each device its configuration, once *)
Theorem C139_messages : forall s msgs setup, In (setup, msgs) (let '(m1, m2, gy, ad, po) := reset_messages in
    [(mag1_setup, m1); (mag2_setup, m2); (gyr_setup, gy); (adc_setup, ad); (pot_setup, po)]) ->
  reset listening setup (([], s), fresh_dev) = Some ((([], s ++ msgs), fresh_dev), true).
Proof.
  intros s msgs setup H. cbn in H.
  destruct H as [H|[H|[H|[H|[H|[]]]]]]; injection H as <- <-; cbn; unfold reset; cbn; repeat rewrite <- app_assoc; reflexivity.
Qed.
Print Assumptions C139_messages.

(** * C140 A reading that is used was received completely and is what the device sent *)

Theorem C140_gyroscope : forall B s s' l, gyr_pass B s = (s', Some l) -> exists b, sends B (data_calls 0x20 8) b = (fst s', true, l).
Proof. exact gyr_complete. Qed.
Print Assumptions C140_gyroscope.
Theorem C140_magnetometer_one : forall B s s' l, mag1_pass B s = (s', Some l) -> exists b, sends B (data_calls 0x68 6) b = (fst s', true, l).
Proof. exact mag1_complete. Qed.
Print Assumptions C140_magnetometer_one.
Theorem C140_magnetometer_two : forall B s s' l, mag2_pass B s = (s', Some l) -> exists b, sends B (data_calls 0 6) b = (fst s', true, l).
Proof. exact mag2_complete. Qed.
Print Assumptions C140_magnetometer_two.
Theorem C140_converter : forall B fuel cfg s s' v, adc_pass B fuel cfg s = Some (s', Some v) ->
  exists b l, sends B (data_calls 0 2) b = (fst s', true, l) /\ v = adc_code (byte l 0) (byte l 1).
Proof. exact adc_complete. Qed.
Print Assumptions C140_converter.
Theorem C140_rates : forall t x y z, int16 t -> int16 x -> int16 y -> int16 z ->
  gyr_values (coded t ++ coded x ++ coded y ++ coded z) = (t, (x, y, z)).
Proof. exact gyr_decode. Qed.
Print Assumptions C140_rates.
Theorem C140_field : forall x y z, int16 x -> int16 y -> int16 z -> mag1_values (coded x ++ coded y ++ coded z) = (x, y, z).
Proof. exact mag1_decode. Qed.
Print Assumptions C140_field.
Example C140_case : int16 (-32768) /\ coded (-2) = [254; 255] /\
  snd (mag2_pass (chip_bus level (steady (200, -400, 600)) (fun _ => false)) (started, fresh_dev)) = Some (bytes3 (32568, 33168, 32168)) /\
  snd (mag2_pass (chip_bus level (steady (200, -400, 600)) (once 7)) (started, fresh_dev)) = None.
Proof. repeat split; discriminate. Qed.

(** * C141 After a calibration the magnetometer goes on measuring *)

Theorem C141_goes_on_partial : forall off field k c d, c_tx c = [] -> d_fn d = true -> d_acc d = false ->
  forall f, (forall t, (c_now c <= t < c_now c + 48)%nat -> field t = f) -> in_range off f ->
  let B := chip_bus off field (fun _ => false) in
  exists s, calibrate B (S k) (c, d) = Ended (B := B) s (Some off) /\ d_fn (snd s) = true /\ set_up (fst s) /\
    forall passed i, (i < passed)%nat -> exists bs, nth_error (snd (passes (mag2_pass B) passed s)) i = Some (Some bs) /\
      let now := field (54 + 8 * i + c_now c)%nat in all3 word16 (output off false now) -> published off bs = half now.
Proof. exact calibration. Qed.
Print Assumptions C141_goes_on_partial.
(** one call that fails in the middle: no reading any more, and the device stays in use *)
Theorem C141_no_more_readings_refuted : forall n, let f := (200, -400, 600) in let B := chip_bus level (steady f) (once 33) in
  exists s, calibrate B 10 (started, fresh_dev) = Ended (B := B) s None /\ d_fn (snd s) = true /\
    let '(s, l) := passes (mag2_pass B) n s in d_fn (snd s) = true /\ l = repeat None n.
Proof. exact mute. Qed.
Print Assumptions C141_no_more_readings_refuted.
(** another one: readings for ever that no longer follow the field *)
Theorem C141_frozen_refuted : exists f1 f2, f1 <> f2 /\
  let field := fun t => if (t <? 40)%nat then f1 else f2 in let B := chip_bus level field (once 30) in
  exists s, calibrate B 10 (started, fresh_dev) = Ended (B := B) s None /\ d_fn (snd s) = true /\
    forall n, let '(s, l) := passes (mag2_pass B) n s in
      d_fn (snd s) = true /\ Forall (fun r => option_map (published level) r = Some (half (opposite f1))) l.
Proof. exact frozen. Qed.
Print Assumptions C141_frozen_refuted.
Example C141_case : c_tx started = [] /\ in_range (32768, 32700, 32800) (200, -400, 601) /\
  match calibrate (chip_bus (32768, 32700, 32800) (steady (200, -400, 601)) (fun _ => false)) 1 (started, fresh_dev) with
  | Ended s (Some o) => o = (32768, 32700, 32800) /\
      snd (passes (mag2_pass (chip_bus (32768, 32700, 32800) (steady (200, -400, 601)) (fun _ => false))) 1 s) = [Some (bytes3 (32568, 33100, 32199))]
  | _ => False end.
Proof. split; [reflexivity|split; [vm_compute; repeat split; discriminate|vm_compute; split; reflexivity]]. Qed.

(** * C142 Readings have the sign of the field once the magnetometer was calibrated and reset *)

Theorem C142_sign_partial : forall off f, all3 word16 (output off false f) -> published off (bytes3 (output off false f)) = half f.
Proof. exact published_half. Qed.
Print Assumptions C142_sign_partial.
(** calibrated, calibrated again with one call failing, reset: every reading has the opposite sign *)
Theorem C142_sign_refuted : let f := (200, -400, 600) in let B := chip_bus level (steady f) (once 80) in
  exists l, inverted_run B started = Some (Some level, true, l) /\ length l = 3%nat /\
    Forall (fun r => option_map (published level) r = Some (half (opposite f))) l.
Proof. exact inverted. Qed.
Print Assumptions C142_sign_refuted.
Example C142_case : all3 word16 (output level false (200, -400, 600)) /\ half (opposite (200, -400, 600)) = (-100, 200, -300).
Proof. repeat split; discriminate. Qed.

(** * C143 Every call of a driver returns *)

(** converters: once the alert pin rises *)
Theorem C143_conversion_partial : forall B k b b', (exists n, (n < k)%nat /\ adc_wait B (S n) b = Some b') -> adc_wait B k b = Some b'.
Proof. exact wait_ends. Qed.
Print Assumptions C143_conversion_partial.
(** calibration: on a dead bus; on a sound one see C141 *)
Theorem C143_dead_bus_partial : forall B, lost B -> forall b k, exists s, calibrate B k (b, fresh_dev) = Ended (B := B) s None.
Proof. exact dead_cal. Qed.
Print Assumptions C143_dead_bus_partial.
(** calibration: on a bus that behaves in any way for [n] calls and then fails for good *)
Theorem C143_dying_bus_partial : forall B n b d fuel, (d_fn d = true -> 0 <= d_cnt d < 3) -> (3 * n + 4 <= fuel)%nat ->
  exists s r, calibrate (dying B) fuel ((n, b), d) = Ended (B := dying B) s r.
Proof. exact dying_cal. Qed.
Print Assumptions C143_dying_bus_partial.
Example C143_dying_case : calibrate (dying (mk_bus unit (fun _ b => (b, mk_wres true [0])))) 28 ((8%nat, tt), fresh_dev) = Ended (B := dying (mk_bus unit _)) ((0%nat, tt), mk_dev false 3 false) None.
Proof. vm_compute. reflexivity. Qed.
(** neither returns if no call fails and the device is never ready *)
Theorem C143_waits_forever_refuted : exists B b, (forall o, o <> Pin -> w_ok (snd (bcall B o b)) = true) /\
  forall fuel, adc_pass B fuel [0; 0] (b, fresh_dev) = None /\ calibrate B fuel (b, fresh_dev) = Waiting (B := B).
Proof. exists slow, tt. split; [intros [] H; try reflexivity; congruence|]. intros fuel. exact (conj (slow_adc fuel) (slow_cal fuel)). Qed.
Print Assumptions C143_waits_forever_refuted.
Example C143_case : adc_wait (chip_bus level (steady level) (fun _ => false)) 1 started = Some (mk_chip 1 [] 0 [] 0x0E false (0, 0, 0)).
Proof. reflexivity. Qed.
