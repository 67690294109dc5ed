(** The kill switch through a reboot: SavedModel's table over EEPROMModel, and the mission manager's first cycle (MissionModel). *)
From Verif Require Import Base EEPROMModel EEPROMProofs FaultModel FaultHandlerModel MissionModel SavedProofs.
From Coq Require Import List.
Open Scope Z_scope.

(** with the kill switch on, the mission manager never gets past its first cycle at start-up, whatever else holds *)
Lemma hangs i w : wmission w = 0 -> mm_kill (wm w) = 127 -> mission_execute i w = None.
Proof.
  intros S K. unfold mission_execute. rewrite S. destruct (main_execute main_machines (wh w)) as [h r].
  change (negb ((0 =? m_startup) || (0 =? m_manual))) with false. cbv iota zeta. unfold dispatch. change (0 =? m_startup) with true. cbv iota.
  unfold dispatch_startup. change (wm (with_h w h)) with (wm w). rewrite K. reflexivity.
Qed.
(** in any other state it does *)
Lemma goes_on i w : wmission w <> 0 -> mission_execute i w <> None.
Proof.
  intros S. unfold mission_execute. destruct (main_execute main_machines (wh w)) as [h r]. cbv zeta.
  assert (D : dispatch i (wmission w) (with_h w h) <> None).
  { unfold dispatch. destruct (Z.eqb_spec (wmission w) m_startup) as [E|_]; [exfalso; exact (S E)|].
    repeat match goal with |- (if ?b then _ else _) <> None => destruct b; [discriminate|] end. discriminate. }
  destruct (negb _); [|exact D]. destruct r; [exact D|discriminate|exact D] || (destruct r; try exact D; try discriminate).
  all: try (destruct (_ && _); [discriminate|exact D]).
Qed.

(** nor with the kill switch off *)
Lemma not_killed i w : mm_kill (wm w) <> 127 -> mission_execute i w <> None.
Proof.
  intros K. destruct (Z.eq_dec (wmission w) 0) as [S|S]; [|exact (goes_on i w S)].
  unfold mission_execute. rewrite S. destruct (main_execute main_machines (wh w)) as [h r].
  change (negb ((0 =? m_startup) || (0 =? m_manual))) with false. cbv iota zeta. unfold dispatch. change (0 =? m_startup) with true. cbv iota.
  unfold dispatch_startup. change (wm (with_h w h)) with (wm w). destruct (Z.eqb_spec (mm_kill (wm w)) kill_switch_value) as [E|_]; [exfalso; exact (K E)|].
  destruct (_ <? _); [destruct (_ =? _); discriminate|]. cbv zeta. destruct (any_faulted _ _) as [h2 f]. destruct f; discriminate.
Qed.

Section Nine.
Variable fs : list pfield.
Hypothesis table_ok : Forall (fun f => 0 < pf_period f /\ one_byte (pf_ty f) = true /\ (pf_state f = true -> pf_ty f = EUChar)) fs /\
  Forall (fun f => 0 < pf_period f) fs /\ length fs = 9%nat.
Hypothesis table_at : forall i, nth_error fs i = nth_error nine i.

Lemma restored e defaults b k d5 : bytes e -> Z.of_nat (length e) = 4096 -> length defaults = 9%nat -> nth_error defaults 5 = Some d5 ->
  nth_error e 25 = Some b -> nth_error e 40 = Some k -> b <> 255 \/ k <> 255 ->
  exists r, eeprom_init fs defaults e = Some r /\ nth_error r 8 = Some k /\
    nth_error r 5 = Some (if (b =? 8) || (b =? 9) then b else d5).
Proof.
  intros HB HL HD H5 E5 E8 NE. destruct table_ok as (_ & _ & TL).
  assert (CE : check_empty e = false) by (destruct NE as [N|N]; [exact (not_empty e 25 b E5 N)|exact (not_empty e 40 k E8 N)]).
  unfold eeprom_init. rewrite TL, CE. change (Z.of_nat 9 <=? 4096 / 5) with true. cbv iota.
  destruct (read_spec fs 0 defaults e) as (r & R & _ & N); [rewrite TL; clear - HL; cbn; lia|rewrite TL; exact HD|].
  exists r. split; [exact R|]. split.
  - assert (D8 : exists d8, nth_error defaults 8 = Some d8).
    { destruct (nth_error defaults 8) eqn:X; [eexists; reflexivity|]. apply nth_error_None in X. clear - X HD. lia. }
    destruct D8 as [d8 D8].
    rewrite (N 8%nat (mk_pf false EUChar 100) d8 k); [|rewrite table_at; reflexivity|exact D8|exact E8].
    cbn [pf_state andb pf_ty set_from_eeprom]. f_equal. apply (byte_self fs table_ok). exact (bytes_nth _ _ _ HB E8).
  - rewrite (N 5%nat (mk_pf true EUChar 1) d5 b); [|rewrite table_at; reflexivity|exact H5|exact E5].
    cbn [pf_state andb pf_ty set_from_eeprom]. rewrite (byte_self fs table_ok d5 b (bytes_nth _ _ _ HB E5)).
    unfold docking_state, docked_state. destruct (b =? 8), (b =? 9); reflexivity.
Qed.

Lemma saved_row (rows : list (list Z)) P c i v k : Forall P (skipn k rows) -> (k < Z.to_nat c)%nat -> value_at rows c i = Some v ->
  exists row, P row /\ nth_error row i = Some v.
Proof.
  intros F K V. unfold value_at in V. destruct (nth_error rows (Z.to_nat (c - 1))) as [row|] eqn:E; [|discriminate]. exists row. split; [|exact V].
  rewrite Forall_forall in F. apply F. replace (Z.to_nat (c - 1)) with (k + (Z.to_nat (c - 1) - k))%nat in E by lia.
  rewrite <- (firstn_skipn k rows) in E. destruct (Nat.le_gt_cases (length rows) k) as [L|L].
  - rewrite skipn_all2 in E by exact L. rewrite app_nil_r, firstn_all2 in E by exact L. exfalso. assert (H : nth_error rows (k + (Z.to_nat (c - 1) - k)) <> None) by congruence. apply nth_error_Some in H. clear - H L. lia.
  - rewrite nth_error_app2 in E by (rewrite firstn_length; lia). rewrite firstn_length, Nat.min_l in E by lia.
    eapply nth_error_In. exact E.
Qed.

Lemma last_100 m : 0 <= m -> m - 100 < last_save 100 m <= m.
Proof. intros H. unfold last_save. pose proof (Z.div_mod m 100 ltac:(lia)). pose proof (Z.mod_pos_bound m 100 ltac:(lia)). lia. Qed.

(** the order saved *)
Lemma cells hist vals j e0 : bytes e0 -> Z.of_nat (length e0) = 4096 -> (100 <= length hist)%nat ->
  Forall (fun row => length row = 9%nat) (hist ++ [vals]) ->
  Forall (fun row => nth_error row 8 = Some 127) (skipn (length hist - 100) (hist ++ [vals])) ->
  Forall (fun row => nth_error row 5 <> Some 8 /\ nth_error row 5 <> Some 9 /\ forall v, nth_error row 5 = Some v -> 0 <= v <= 255)
    (skipn (length hist - 1) (hist ++ [vals])) ->
  exists e b, eeprom_crash fs hist vals j e0 = Some e /\ bytes e /\ Z.of_nat (length e) = 4096 /\
    nth_error e 40 = Some 127 /\ nth_error e 25 = Some b /\ b <> 8 /\ b <> 9.
Proof.
  intros HB HL HH HR HK HS.
  destruct (cell_after fs table_ok hist vals j e0 HB HL HR) as (e & X & L & B & CELL).
  pose proof (CELL 8%nat (mk_pf false EUChar 100) ltac:(rewrite table_at; reflexivity)) as C8. cbv zeta in C8. cbn [pf_period pf_ty] in C8.
  pose proof (CELL 5%nat (mk_pf true EUChar 1) ltac:(rewrite table_at; reflexivity)) as C5. cbv zeta in C5. cbn [pf_period pf_ty] in C5.
  destruct (Z.eqb_spec (last_save 100 (Z.of_nat (length hist) + (if Nat.ltb 8 j then 1 else 0))) 0) as [Z0|N8]; [exfalso; exact (proj1 (two_saves fs table_ok table_at _ _ HH) Z0)|].
  destruct (Z.eqb_spec (last_save 1 (Z.of_nat (length hist) + (if Nat.ltb 5 j then 1 else 0))) 0) as [Z0|N5]; [exfalso; exact (proj2 (two_saves fs table_ok table_at _ _ HH) Z0)|].
  destruct C8 as (v8 & V8 & C8). destruct C5 as (v5 & V5 & C5).
  pose proof (last_100 (Z.of_nat (length hist) + (if Nat.ltb 8 j then 1 else 0)) ltac:(destruct (Nat.ltb 8 j); lia)) as L8.
  assert (K8 : (length hist - 100 < Z.to_nat (last_save 100 (Z.of_nat (length hist) + (if Nat.ltb 8 j then 1 else 0))))%nat)
    by (clear - L8 HH; destruct (Nat.ltb 8 j); lia).
  destruct (saved_row _ _ _ _ _ _ HK K8 V8) as (row8 & P8 & R8).
  assert (K5 : (length hist - 1 < Z.to_nat (last_save 1 (Z.of_nat (length hist) + (if Nat.ltb 5 j then 1 else 0))))%nat).
  { unfold last_save. rewrite Z.div_1_r. destruct (Nat.ltb 5 j); lia. }
  destruct (saved_row _ _ _ _ _ _ HS K5 V5) as (row5 & (P51 & P52 & P53) & R5).
  rewrite P8 in R8. injection R8 as <-. specialize (P53 v5 R5).
  exists e, v5. split; [exact X|]. split; [exact B|]. split; [rewrite L; exact HL|]. split; [exact C8|].
  split; [|split; intros ->; [exact (P51 R5)|exact (P52 R5)]].
  change 25%nat with (5 * 5)%nat. rewrite C5. cbn [eeprom_repr]. rewrite (u8_u8 fs table_ok). f_equal. apply u8_id. change (2 ^ 8) with 256. clear - P53. lia.
Qed.

Lemma killed hist vals j e0 : bytes e0 -> Z.of_nat (length e0) = 4096 -> (100 <= length hist)%nat ->
  Forall (fun row => length row = 9%nat) (hist ++ [vals]) ->
  Forall (fun row => nth_error row 8 = Some 127) (skipn (length hist - 100) (hist ++ [vals])) ->
  Forall (fun row => nth_error row 5 <> Some 8 /\ nth_error row 5 <> Some 9 /\ forall v, nth_error row 5 = Some v -> 0 <= v <= 255)
    (skipn (length hist - 1) (hist ++ [vals])) ->
  exists e, eeprom_crash fs hist vals j e0 = Some e /\
    forall defaults, length defaults = 9%nat -> nth_error defaults 5 = Some 0 ->
    exists r, eeprom_init fs defaults e = Some r /\ nth_error r 8 = Some 127 /\ nth_error r 5 = Some 0 /\
      forall i w, nth_error r 5 = Some (wmission w) -> nth_error r 8 = Some (mm_kill (wm w)) -> mission_execute i w = None.
Proof.
  intros HB HL HH HR HK HS. destruct (cells hist vals j e0 HB HL HH HR HK HS) as (e & b & X & B & L & C8 & C5 & N8 & N9).
  exists e. split; [exact X|]. intros defaults HD H5. destruct (restored e defaults b 127 0 B L HD H5 C5 C8 ltac:(right; discriminate)) as (r & R & R8 & R5).
  apply Z.eqb_neq in N8, N9. rewrite N8, N9 in R5. cbn [orb] in R5.
  exists r. split; [exact R|]. split; [exact R8|]. split; [exact R5|]. intros i w W5 W8. rewrite R5 in W5. rewrite R8 in W8. injection W5 as W5. injection W8 as W8.
  apply hangs; congruence.
Qed.

(** the deployment wait *)
Lemma wait_kept hist vals j e0 defaults : bytes e0 -> Z.of_nat (length e0) = 4096 -> hist <> [] -> length defaults = 9%nat ->
  Forall (fun row => length row = 9%nat /\ (forall v, nth_error row 1 = Some v -> 0 <= v <= 1) /\ forall v, nth_error row 7 = Some v -> 0 <= v <= 255) (hist ++ [vals]) ->
  exists e r, eeprom_crash fs hist vals j e0 = Some e /\ eeprom_init fs defaults e = Some r /\
    nth_error r 7 = nth_error (if Nat.ltb 7 j then vals else last hist []) 7 /\ nth_error r 7 <> None.
Proof.
  intros HB HL HH HD HR. destruct table_ok as (_ & _ & TL).
  assert (LP : (0 < length hist)%nat) by (destruct hist; [exfalso; apply HH; reflexivity|cbn; lia]).
  assert (HRL : Forall (fun row => length row = 9%nat) (hist ++ [vals])) by (eapply Forall_impl; [|exact HR]; intros a X; exact (proj1 X)).
  destruct (cell_after fs table_ok hist vals j e0 HB HL HRL) as (e & X & L & B & CELL).
  pose proof (CELL 7%nat (mk_pf false EUChar 1) ltac:(rewrite table_at; reflexivity)) as C7. cbv zeta in C7. cbn [pf_period pf_ty] in C7.
  pose proof (CELL 1%nat (mk_pf false EBool 1) ltac:(rewrite table_at; reflexivity)) as C1. cbv zeta in C1. cbn [pf_period pf_ty] in C1.
  unfold last_save in C7, C1. rewrite Z.div_1_r, Z.mul_1_r in C7, C1 || rewrite Z.div_1_r, Z.mul_1_l in C7, C1.
  destruct (Z.eqb_spec (Z.of_nat (length hist) + (if Nat.ltb 7 j then 1 else 0)) 0) as [Z0|_]; [exfalso; clear - LP Z0; destruct (Nat.ltb 7 j); lia|].
  destruct (Z.eqb_spec (Z.of_nat (length hist) + (if Nat.ltb 1 j then 1 else 0)) 0) as [Z0|_]; [exfalso; clear - LP Z0; destruct (Nat.ltb 1 j); lia|].
  destruct C7 as (v7 & V7 & C7). destruct C1 as (v1 & V1 & C1).
  rewrite Forall_forall in HR.
  destruct (value_row _ _ _ _ V1) as (row1 & I1 & R1). destruct (value_row _ _ _ _ V7) as (row7 & I7 & R7).
  destruct (HR row1 I1) as (_ & B1 & _). destruct (HR row7 I7) as (_ & _ & B7). specialize (B1 _ R1). specialize (B7 _ R7).
  assert (NE : check_empty e = false) by (refine (not_empty e 5 _ C1 _); exact (bool_cell fs table_ok v1 B1)).
  cbn [eeprom_repr] in C7. rewrite (u8_u8 fs table_ok) in C7. rewrite u8_id in C7 by (change (2 ^ 8) with 256; clear - B7; lia).
  destruct (read_spec fs 0 defaults e) as (r & R & _ & N); [rewrite TL; clear - HL L; cbn; lia|rewrite TL; exact HD|].
  exists e, r. split; [exact X|]. split; [unfold eeprom_init; rewrite TL, NE; exact R|].
  assert (D7 : exists d7, nth_error defaults 7 = Some d7).
  { destruct (nth_error defaults 7) eqn:Y; [eexists; reflexivity|]. apply nth_error_None in Y. clear - Y HD. lia. }
  destruct D7 as [d7 D7].
  assert (R7' : nth_error r 7 = Some v7).
  { rewrite (N 7%nat (mk_pf false EUChar 1) d7 v7); [|rewrite table_at; reflexivity|exact D7|exact C7].
    cbn [pf_state andb pf_ty set_from_eeprom]. f_equal. apply (byte_self fs table_ok). clear - B7. lia. }
  rewrite R7'. split; [|discriminate]. rewrite <- V7. unfold value_at. destruct (Nat.ltb 7 j).
  - replace (Z.to_nat (Z.of_nat (length hist) + 1 - 1)) with (length hist) by (clear; lia).
    rewrite nth_error_app2, Nat.sub_diag by (clear; lia). reflexivity.
  - replace (Z.to_nat (Z.of_nat (length hist) + 0 - 1)) with (length hist - 1)%nat by (clear; lia).
    rewrite nth_error_app1 by (clear - LP; lia). clear - HH LP. destruct (exists_last HH) as (h & x & ->).
    rewrite app_length, last_last. cbn [length]. rewrite Nat.add_sub, nth_error_app2, Nat.sub_diag by (clear; lia). reflexivity.
Qed.
End Nine.
