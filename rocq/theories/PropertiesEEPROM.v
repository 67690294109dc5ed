From Verif Require Import Base EEPROMModel EEPROMProofs.

(** C17.  [hist]: values of the fields in each complete cycle; in the next cycle, with values [vals], power is lost after
    [j] fields were dealt with.  [saved i f] is the last cycle in which field [i] was saved.  Whatever the EEPROM held
    before, after the reboot every field ever saved has its value of that cycle; "pan.state" only if that value is
    docking (8) or docked (9), otherwise its default.  [i0]: some field's saved byte is not 0xFF. *)
Theorem C17_reboot_restores_last_saved : forall fs hist vals j e0 defaults i0 f0 v0,
  Forall (fun b => 0 <= b < 256) e0 -> Z.of_nat (length e0) = 4096 -> Z.of_nat (length fs) <= 819 ->
  Forall (fun f => 0 < pf_period f /\ one_byte (pf_ty f) = true /\ (pf_state f = true -> pf_ty f = EUChar)) fs ->
  Forall (fun vals => length vals = length fs) hist -> length vals = length fs -> length defaults = length fs ->
  (forall i f c v, nth_error fs i = Some f -> value_at (hist ++ [vals]) c i = Some v -> ety_min (pf_ty f) <= v <= ety_max (pf_ty f)) ->
  let saved i f := pf_period f * ((Z.of_nat (length hist) + (if Nat.ltb i j then 1 else 0)) / pf_period f) in
  nth_error fs i0 = Some f0 -> 0 < saved i0 f0 -> value_at (hist ++ [vals]) (saved i0 f0) i0 = Some v0 -> v0 mod 256 <> 255 ->
  exists e r, eeprom_crash fs hist vals j e0 = Some e /\ eeprom_init fs defaults e = Some r /\
    forall i f d, nth_error fs i = Some f -> nth_error defaults i = Some d -> 0 < saved i f ->
      exists v, value_at (hist ++ [vals]) (saved i f) i = Some v /\
        nth_error r i = Some (if pf_state f && negb (v =? 8) && negb (v =? 9) then d else v).
Proof. exact reboot_after_crash. Qed.
Print Assumptions C17_reboot_restores_last_saved.

(** C17.  A field's cell is only ever written by its own save: all other cells keep their contents, and no access
    leaves the device. *)
Theorem C17_only_own_cells_written : forall fs hist vals j e0,
  Forall (fun b => 0 <= b < 256) e0 -> (length fs * 5 <= length e0 + 4)%nat ->
  Forall (fun f => 0 < pf_period f) fs -> Forall (fun vals => length vals = length fs) hist -> length vals = length fs ->
  exists e, eeprom_crash fs hist vals j e0 = Some e /\ length e = length e0 /\
    forall k, (k mod 5 <> 0 \/ length fs <= k / 5)%nat -> nth_error e k = nth_error e0 k.
Proof.
  intros fs hist vals j e0 H1 H2 H3 H4 H5. destruct (crash_spec fs hist vals j e0 H1 H2 H3 H4 H5) as (e & A & B & _ & C & _).
  exists e. split; [exact A|]. split; [exact B|exact C].
Qed.
Print Assumptions C17_only_own_cells_written.

(** the fields saved in flight: pan.state, pan.deployed, pan.deployment.elapsed, pan.kill_switch, pan.bootcount *)
Definition C17_fields := [mk_pf true EUChar 1; mk_pf false EBool 1; mk_pf false EUChar 1; mk_pf false EUChar 100; mk_pf false EUChar 100].
(** 250 cycles, docking from cycle 120 on; the bootcount saved in cycles 100 and 200 *)
Definition C17_hist := map (fun c => let c := Z.of_nat c in [if c <? 120 then 3 else 8; 1; c mod 100; c mod 7; 5]) (seq 1 250).
Example C17_case :
  match eeprom_crash C17_fields C17_hist [9; 1; 77; 3; 5] 2 (repeat 255 (Z.to_nat 4096)) with
  | Some e => eeprom_init C17_fields [0; 0; 0; 0; 0] e = Some [9; 1; 50; 4; 5]
  | None => False
  end.
Proof. vm_compute. reflexivity. Qed.
Example C17_hypotheses :
  Forall (fun f => 0 < pf_period f /\ one_byte (pf_ty f) = true /\ (pf_state f = true -> pf_ty f = EUChar)) C17_fields /\
  Forall (fun vals => length vals = length C17_fields) C17_hist /\
  value_at (C17_hist ++ [[9; 1; 77; 3; 5]]) (1 * ((250 + 1) / 1)) 0 = Some 9.
Proof.
  split; [repeat constructor; cbn; try lia; discriminate|]. split; [|vm_compute; reflexivity].
  apply Forall_forall. intros v H. unfold C17_hist in H. apply in_map_iff in H. destruct H as (c & <- & _). reflexivity.
Qed.

(** C45 is false: a 32-bit persistent field loses everything above its low byte. *)
Theorem C45_wide_field_refuted : exists f v e r,
  pf_ty f = EUInt /\ ety_min EUInt <= v <= ety_max EUInt /\ pf_period f = 1 /\
  eeprom_crash [f] [[v]] [v] 0 (repeat 255 (Z.to_nat 4096)) = Some e /\ eeprom_init [f] [0] e = Some r /\ r <> [v].
Proof.
  exists (mk_pf false EUInt 1), 300.
  exists (44 :: repeat 255 (Z.to_nat 4095)), [44]. split; [reflexivity|]. split; [ground|]. split; [reflexivity|].
  split; [vm_compute; reflexivity|]. split; [vm_compute; reflexivity|]. discriminate.
Qed.
Print Assumptions C45_wide_field_refuted.

(** C45 is false: an image whose bytes are all 0xFF counts as empty, so a lone field saved as 255 is not restored. *)
Theorem C45_all_ones_image_refuted : exists f v e r,
  pf_ty f = EUChar /\ ety_min EUChar <= v <= ety_max EUChar /\ pf_period f = 1 /\
  eeprom_crash [f] [[v]] [v] 0 (repeat 255 (Z.to_nat 4096)) = Some e /\ eeprom_init [f] [0] e = Some r /\ r <> [v].
Proof.
  exists (mk_pf false EUChar 1), 255, (repeat 255 (Z.to_nat 4096)), [0]. split; [reflexivity|]. split; [ground|]. split; [reflexivity|].
  split; [vm_compute; reflexivity|]. split; [vm_compute; reflexivity|]. discriminate.
Qed.
Print Assumptions C45_all_ones_image_refuted.

(** C46 is false: power lost in the first 100 cycles of the first boot leaves the boot counter and the kill switch at 255
    instead of their defaults. *)
Theorem C46_never_saved_field_refuted : exists e,
  eeprom_crash C17_fields [[0; 0; 0; 0; 1]] [0; 0; 1; 0; 1] 0 (repeat 255 (Z.to_nat 4096)) = Some e /\
  eeprom_init C17_fields [0; 0; 0; 0; 0] e = Some [0; 0; 0; 255; 255].
Proof.
  destruct (eeprom_crash C17_fields [[0; 0; 0; 0; 1]] [0; 0; 1; 0; 1] 0 (repeat 255 (Z.to_nat 4096))) as [e|] eqn:E; [|vm_compute in E; discriminate].
  exists e. split; [reflexivity|]. vm_compute in E. injection E as <-. vm_compute. reflexivity.
Qed.
Print Assumptions C46_never_saved_field_refuted.

(** C46 (what does hold): a boolean field never saved on an erased device keeps its default. *)
Theorem C46_erased_bool_keeps_default_partial : forall d, set_from_eeprom EBool d 255 = d.
Proof. reflexivity. Qed.
Print Assumptions C46_erased_bool_keeps_default_partial.
