From Coq Require Import String.
From Verif Require Import Base EEPROMModel EEPROMProofs FlownModel RegistryModel BootModel SavedModel.
Open Scope string_scope.
Open Scope list_scope.
Open Scope Z_scope.

Definition nine : list pfield := [mk_pf false EUChar 100; mk_pf false EBool 1; mk_pf false EBool 1; mk_pf false EBool 1; mk_pf false EBool 1;
  mk_pf true EUChar 1; mk_pf false EBool 1; mk_pf false EUChar 1; mk_pf false EUChar 100].
Lemma table : flight_saved = nine.
Proof. vm_compute. reflexivity. Qed.
Lemma names : saved_names = ["pan.bootcount"; "cycle.start"; "cycle.auto"; "attitude_estimator.mag_flag"; "attitude_estimator.ignore_sun_vectors";
  "pan.state"; "pan.deployed"; "pan.deployment.elapsed"; "pan.kill_switch"].
Proof. vm_compute. reflexivity. Qed.
Lemma saved_ok : Forall (fun f => 0 < pf_period f /\ one_byte (pf_ty f) = true /\ (pf_state f = true -> pf_ty f = EUChar)) flight_saved /\
  Forall (fun f => 0 < pf_period f) flight_saved /\ List.length flight_saved = 9%nat.
Proof. rewrite table. unfold nine. split; [|split]; [repeat constructor; cbn; try lia; discriminate|repeat constructor|reflexivity]. Qed.
Lemma saved_at i : nth_error flight_saved i = nth_error nine i.
Proof. rewrite table. reflexivity. Qed.
Section Nine.
Variable fs : list pfield.
Hypothesis table_ok : Forall (fun f => 0 < pf_period f /\ one_byte (pf_ty f) = true /\ (pf_state f = true -> pf_ty f = EUChar)) fs /\
  Forall (fun f => 0 < pf_period f) fs /\ List.length fs = 9%nat.
Hypothesis table_at : forall i, nth_error fs i = nth_error nine i.
Lemma byte_self d n : 0 <= n < 256 -> (if 255 <? n then d else u8 n) = n.
Proof. intros H. destruct (Z.ltb_spec 255 n); [lia|]. apply u8_id. change (2 ^ 8) with 256. lia. Qed.
Lemma two_saves n (b : bool) : (100 <= n)%nat -> last_save 100 (Z.of_nat n + (if b then 1 else 0)) <> 0 /\ last_save 1 (Z.of_nat n + (if b then 1 else 0)) <> 0.
Proof.
  intros H. unfold last_save. rewrite Z.div_1_r.
  assert (1 <= (Z.of_nat n + (if b then 1 else 0)) / 100) by (apply Z.div_le_lower_bound; [lia|destruct b; lia]). destruct b; lia.
Qed.
Lemma bool_cell v : 0 <= v <= 1 -> u8 (u32 v) <> 255.
Proof. intros H. unfold u8, u32. rewrite (uwrap_id 32) by lia. rewrite (uwrap_id 8) by lia. lia. Qed.
Lemma next_count c n : c = Z.of_nat n mod 256 -> u8 (c + 1) = Z.of_nat (S n) mod 256.
Proof. intros ->. unfold u8, uwrap. change (2 ^ 8) with 256. rewrite Zplus_mod_idemp_l. f_equal. lia. Qed.

(** a cell after a boot *)
Lemma cell_after hist vals j e0 : bytes e0 -> Z.of_nat (List.length e0) = 4096 ->
  Forall (fun v => List.length v = 9%nat) (hist ++ [vals]) ->
  exists e, eeprom_crash fs hist vals j e0 = Some e /\ List.length e = List.length e0 /\ bytes e /\
    forall i f, nth_error fs i = Some f ->
      let c := last_save (pf_period f) (Z.of_nat (List.length hist) + (if Nat.ltb i j then 1 else 0)) in
      if c =? 0 then nth_error e (i * 5) = nth_error e0 (i * 5)
      else exists v, value_at (hist ++ [vals]) c i = Some v /\ nth_error e (i * 5) = Some (u8 (eeprom_repr (pf_ty f) v)).
Proof.
  intros HB HL HR. destruct table_ok as (_ & TP & TL). apply Forall_app in HR. destruct HR as [HR HV]. inversion HV as [|? ? HV' _]; subst.
  assert (Q1 : (List.length fs * 5 <= List.length e0 + 4)%nat) by (rewrite TL; clear - HL; lia).
  assert (Q2 : Forall (fun v => List.length v = List.length fs) hist) by (rewrite TL; exact HR).
  assert (Q3 : List.length vals = List.length fs) by (rewrite TL; exact HV').
  destruct (crash_spec fs hist vals j e0 HB Q1 TP Q2 Q3) as (e & A & B & C & _ & D).
  exists e. split; [exact A|]. split; [exact B|]. split; [exact C|exact D].
Qed.

Lemma value_row hist c i v : value_at hist c i = Some v -> exists row, In row hist /\ nth_error row i = Some v.
Proof.
  unfold value_at. destruct (nth_error hist (Z.to_nat (c - 1))) as [row|] eqn:E; [|discriminate]. intros H. exists row. split; [|exact H].
  eapply nth_error_In. exact E.
Qed.
Lemma u8_u8 x : u8 (u8 x) = u8 x.
Proof. apply u8_id. apply (uwrap_range 8). lia. Qed.

(** the image is readable, and the counter's cell holds [n] *)
Definition counted (e : list Z) (n : Z) : Prop :=
  bytes e /\ Z.of_nat (List.length e) = 4096 /\ nth_error e 0 = Some n /\ check_empty e = false.

Lemma read_count defaults e n : counted e n -> List.length defaults = 9%nat ->
  exists r, eeprom_init fs defaults e = Some r /\ nth_error r 0 = Some n.
Proof.
  intros (HB & HL & HN & HE) HD. destruct table_ok as (_ & _ & TL). unfold eeprom_init. rewrite TL, HE. change (Z.of_nat 9 <=? 4096 / 5) with true. cbv iota.
  destruct (read_spec fs 0 defaults e) as (r & R & _ & N); [rewrite TL; clear - HL; cbn; lia|rewrite TL; exact HD|].
  exists r. split; [exact R|]. destruct defaults as [|d defaults]; [discriminate|].
  rewrite (N 0%nat (mk_pf false EUChar 100) d n); [|rewrite table_at; reflexivity|reflexivity|exact HN].
  cbn [pf_state andb pf_ty set_from_eeprom]. f_equal. apply byte_self. exact (bytes_nth _ _ _ HB HN).
Qed.

(** a boot of a hundred cycles *)
Lemma long_boot defaults e c r hist vals j e' : bytes e -> Z.of_nat (List.length e) = 4096 ->
  eeprom_init fs defaults e = Some r -> nth_error r 0 = Some c ->
  Forall (row_of_boot fs (u8 (c + 1))) (hist ++ [vals]) -> eeprom_crash fs hist vals j e = Some e' -> (100 <= List.length hist)%nat ->
  counted e' (u8 (c + 1)).
Proof.
  intros HB HL HI HC HR HX HH. destruct table_ok as (_ & _ & TL).
  destruct (cell_after hist vals j e HB HL) as (e2 & X & L2 & B2 & CELL).
  { eapply Forall_impl; [|exact HR]. intros a (A & _). rewrite TL in A. exact A. }
  rewrite HX in X. injection X as <-. split; [exact B2|]. split; [rewrite L2; exact HL|].
  rewrite Forall_forall in HR. split.
  - pose proof (CELL 0%nat (mk_pf false EUChar 100) ltac:(rewrite table_at; reflexivity)) as C0. cbv zeta in C0. cbn [pf_period pf_ty] in C0.
    destruct (Z.eqb_spec (last_save 100 (Z.of_nat (List.length hist) + (if Nat.ltb 0 j then 1 else 0))) 0) as [Z0|_].
    + exfalso. exact (proj1 (two_saves _ _ HH) Z0).
    + destruct C0 as (v & V & C0). rewrite Nat.mul_0_l in C0. rewrite C0. apply value_row in V. destruct V as (row & IR & V). destruct (HR row IR) as (_ & HV & _).
      rewrite HV in V. injection V as <-. cbn [eeprom_repr]. rewrite !u8_u8. reflexivity.
  - pose proof (CELL 1%nat (mk_pf false EBool 1) ltac:(rewrite table_at; reflexivity)) as C1. cbv zeta in C1. cbn [pf_period pf_ty] in C1.
    destruct (Z.eqb_spec (last_save 1 (Z.of_nat (List.length hist) + (if Nat.ltb 1 j then 1 else 0))) 0) as [Z0|_].
    + exfalso. exact (proj2 (two_saves _ _ HH) Z0).
    + destruct C1 as (v & V & C1). apply value_row in V. destruct V as (row & IR & V). destruct (HR row IR) as (_ & _ & HT).
      specialize (HT 1%nat (mk_pf false EBool 1) v ltac:(rewrite table_at; reflexivity) V). cbn [pf_ty ety_min ety_max] in HT.
      apply (not_empty _ _ _ C1). cbn [eeprom_repr]. apply bool_cell. exact HT.
Qed.

Lemma boots_image defaults e l e' : List.length defaults = 9%nat -> bytes e -> Z.of_nat (List.length e) = 4096 -> boots fs defaults e l e' ->
  bytes e' /\ Z.of_nat (List.length e') = 4096.
Proof.
  intros HD HB HL H. destruct table_ok as (_ & _ & TL). induction H as [e|e l e1 n k e2 H IH [r c hist vals j e' H1 H2 H3 H4]]; [auto|]. destruct (IH HB HL) as [HB1 HL1].
  destruct (cell_after hist vals j e1 HB1 HL1) as (e3 & X & L2 & B2 & _).
  { eapply Forall_impl; [|exact H3]. intros a (A & _). rewrite TL in A. exact A. }
  rewrite H4 in X. injection X as <-. split; [exact B2|rewrite L2; exact HL1].
Qed.

Lemma counts_from_erased defaults l e' : List.length defaults = 9%nat -> nth_error defaults 0 = Some 0 ->
  boots fs defaults (repeat 255 (Z.to_nat 4096)) l e' -> Forall (fun b => (100 <= snd b)%nat) l ->
  map fst l = map (fun k => Z.of_nat k mod 256) (seq 1 (List.length l)) /\ (l <> [] -> counted e' (Z.of_nat (List.length l) mod 256)).
Proof.
  intros HD H0 H. remember (repeat 255 (Z.to_nat 4096)) as e eqn:HE.
  assert (HB : bytes e) by (subst; apply Forall_forall; intros x I; apply repeat_spec in I; lia).
  assert (HL : Z.of_nat (List.length e) = 4096) by (subst; rewrite repeat_length; lia).
  assert (HC : check_empty e = true) by (subst; vm_compute; reflexivity).
  clear HE. destruct table_ok as (_ & _ & TL).
  induction H as [e|e l e1 n k e2 H IH [r c hist vals j e' H1 H2 H3 H4]]; intros HA; [split; [reflexivity|intros X; exfalso; apply X; reflexivity]|].
  apply Forall_app in HA. destruct HA as [HA1 HA2]. inversion HA2 as [|? ? HK _]; subst. cbn [snd] in HK.
  destruct (IH HB HL HC HA1) as [IH1 IH2]. destruct (boots_image defaults e l e1 HD HB HL H) as [HB1 HL1].
  assert (EC : c = Z.of_nat (List.length l) mod 256).
  { destruct l as [|b l].
    - inversion H as [|? l' ? ? ? ? ? ? E1 E2 E3]; subst; [|destruct l'; discriminate].
      unfold eeprom_init in H1. rewrite TL, HC in H1. change (Z.of_nat 9 <=? 4096 / 5) with true in H1. cbv iota in H1.
      injection H1 as <-. rewrite H0 in H2. injection H2 as <-. reflexivity.
    - destruct (read_count defaults e1 _ (IH2 ltac:(discriminate)) HD) as (r' & R' & N'). rewrite H1 in R'. injection R' as <-. rewrite H2 in N'. injection N' as ->. reflexivity. }
  pose proof (next_count c (List.length l) EC) as EU.
  assert (LL : List.length (l ++ [(u8 (c + 1), List.length hist)]) = S (List.length l)) by (rewrite app_length; apply Nat.add_1_r).
  rewrite LL. split.
  - rewrite map_app, IH1. cbn [map fst]. rewrite EU, seq_S, map_app. reflexivity.
  - intros _. rewrite <- EU. exact (long_boot defaults e1 c r hist vals j e' HB1 HL1 H1 H2 H3 H4 HK).
Qed.
End Nine.
