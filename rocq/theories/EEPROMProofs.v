From Verif Require Import Base EEPROMModel.

Lemma update_spec e pos r : (pos * 5 < length e)%nat ->
  (forall b, nth_error e (pos * 5) = Some b -> 0 <= b < 256) ->
  exists e', update_eeprom e pos r = Some e' /\ length e' = length e /\
    forall k, nth_error e' k = if Nat.eqb k (pos * 5) then Some (u8 r) else nth_error e k.
Proof.
  intros H HB. unfold update_eeprom. destruct (nth_error e (pos * 5)) as [b|] eqn:E; [|apply nth_error_None in E; lia].
  destruct (Z.eqb_spec b r) as [->|N].
  - exists e. split; [reflexivity|]. split; [reflexivity|]. intros k. destruct (Nat.eqb_spec k (pos * 5)) as [->|]; [|reflexivity].
    rewrite E. f_equal. symmetry. apply u8_id. change (2 ^ 8) with 256. apply HB. reflexivity.
  - destruct (upd e (pos * 5) (u8 r)) as [e'|] eqn:U; [|apply upd_none_iff in U; lia].
    exists e'. split; [reflexivity|]. split; [apply (upd_length _ _ _ _ U)|apply (upd_nth_error _ _ _ _ U)].
Qed.

Definition bytes (e : list Z) : Prop := Forall (fun b => 0 <= b < 256) e.
Lemma bytes_nth e k b : bytes e -> nth_error e k = Some b -> 0 <= b < 256.
Proof. intros H E. apply nth_error_In in E. unfold bytes in H. rewrite Forall_forall in H. apply (H b E). Qed.
Lemma bytes_of_nth e : (forall k b, nth_error e k = Some b -> 0 <= b < 256) -> bytes e.
Proof. intros H. apply Forall_forall. intros b HI. apply In_nth_error in HI. destruct HI as [k E]. apply (H k b E). Qed.
Lemma u8_byte x : 0 <= u8 x < 256.
Proof. apply (uwrap_range 8). lia. Qed.

(** what one pass does to every cell *)
Lemma save_spec fs : forall cc i vals e, bytes e -> ((i + length fs) * 5 <= length e + 4)%nat -> length vals = length fs ->
  exists e', eeprom_save cc i fs vals e = Some e' /\ length e' = length e /\ bytes e' /\
    forall k, nth_error e' k =
      match nth_error fs (k / 5 - i), nth_error vals (k / 5 - i) with
      | Some f, Some v => if Nat.eqb (k mod 5) 0 && Nat.leb i (k / 5) && (cc mod pf_period f =? 0) then Some (u8 (eeprom_repr (pf_ty f) v)) else nth_error e k
      | _, _ => nth_error e k
      end.
Proof.
  induction fs as [|f fs IH]; intros cc i vals e HB HL HV; destruct vals as [|v vals]; cbn [length] in *; try discriminate.
  - exists e. repeat split; try assumption. intros k. destruct (k / 5 - i)%nat; reflexivity.
  - cbn [eeprom_save].
    assert (X : exists e1, (if cc mod pf_period f =? 0 then update_eeprom e i (eeprom_repr (pf_ty f) v) else Some e) = Some e1 /\
      length e1 = length e /\ bytes e1 /\ forall k, nth_error e1 k = if Nat.eqb k (i * 5) && (cc mod pf_period f =? 0) then Some (u8 (eeprom_repr (pf_ty f) v)) else nth_error e k).
    { destruct (cc mod pf_period f =? 0).
      - destruct (update_spec e i (eeprom_repr (pf_ty f) v)) as (e1 & E1 & L1 & N1); [lia|intros b; apply bytes_nth; assumption|].
        exists e1. split; [exact E1|]. split; [exact L1|]. split.
        + apply bytes_of_nth. intros k b. rewrite N1. destruct (Nat.eqb k (i * 5)); [intros Y; injection Y as <-; apply u8_byte|apply bytes_nth; assumption].
        + intros k. rewrite N1, andb_true_r. reflexivity.
      - exists e. split; [reflexivity|]. split; [reflexivity|]. split; [assumption|]. intros k. rewrite andb_false_r. reflexivity. }
    destruct X as (e1 & E1 & L1 & B1 & N1). rewrite E1.
    destruct (IH cc (S i) vals e1 B1 ltac:(lia) ltac:(lia)) as (e2 & E2 & L2 & B2 & N2).
    exists e2. split; [exact E2|]. split; [lia|]. split; [exact B2|]. intros k. rewrite N2.
    destruct (Nat.lt_trichotomy (k / 5) i) as [L|[E|G]].
    + replace (k / 5 - S i)%nat with 0%nat by lia. replace (k / 5 - i)%nat with 0%nat by lia. cbn [nth_error].
      replace (Nat.leb i (k / 5)) with false by (symmetry; apply Nat.leb_gt; lia). rewrite andb_false_r. cbn [andb].
      assert (NE : nth_error e1 k = nth_error e k).
      { rewrite N1. replace (Nat.eqb k (i * 5)) with false by (symmetry; apply Nat.eqb_neq; lia). reflexivity. }
      rewrite NE. destruct fs as [|f' fs]; [reflexivity|]. destruct vals as [|v' vals]; [reflexivity|].
      replace (Nat.leb (S i) (k / 5)) with false by (symmetry; apply Nat.leb_gt; lia). rewrite andb_false_r. reflexivity.
    + replace (k / 5 - S i)%nat with 0%nat by lia. replace (k / 5 - i)%nat with 0%nat by lia. cbn [nth_error].
      replace (Nat.leb i (k / 5)) with true by (symmetry; apply Nat.leb_le; lia). rewrite andb_true_r.
      replace (Nat.eqb (k mod 5) 0) with (Nat.eqb k (i * 5)) by (destruct (Nat.eqb_spec k (i * 5)); destruct (Nat.eqb_spec (k mod 5) 0); lia).
      rewrite <- N1. destruct fs as [|f' fs]; [reflexivity|]. destruct vals as [|v' vals]; [reflexivity|].
      replace (Nat.leb (S i) (k / 5)) with false by (symmetry; apply Nat.leb_gt; lia). rewrite andb_false_r. reflexivity.
    + replace (k / 5 - i)%nat with (S (k / 5 - S i)) by lia. cbn [nth_error].
      assert (NE : nth_error e1 k = nth_error e k).
      { rewrite N1. replace (Nat.eqb k (i * 5)) with false by (symmetry; apply Nat.eqb_neq; lia). reflexivity. }
      rewrite NE. destruct (nth_error fs (k / 5 - S i)); [|reflexivity]. destruct (nth_error vals (k / 5 - S i)); [|reflexivity].
      replace (Nat.leb (S i) (k / 5)) with true by (symmetry; apply Nat.leb_le; lia).
      replace (Nat.leb i (k / 5)) with true by (symmetry; apply Nat.leb_le; lia). reflexivity.
Qed.

(** value of field [i] in cycle [c] (cycles count from 1) *)
Definition value_at (hist : list (list Z)) (c : Z) (i : nat) : option Z :=
  match nth_error hist (Z.to_nat (c - 1)) with Some vals => nth_error vals i | None => None end.

(** the last multiple of the period not after [m] *)
Definition last_save (period m : Z) : Z := period * (m / period).

Lemma div_mul5 i : (i * 5 / 5 = i)%nat. Proof. apply Nat.div_mul. lia. Qed.
Lemma mod_mul5 i : (i * 5 mod 5 = 0)%nat. Proof. apply Nat.mod_mul. lia. Qed.

Lemma last_save_step p m : 0 < p -> 0 <= m ->
  last_save p (m + 1) = if (m + 1) mod p =? 0 then m + 1 else last_save p m.
Proof.
  intros HP HM. unfold last_save. pose proof (Z.div_mod (m + 1) p ltac:(lia)) as D1. pose proof (Z.mod_pos_bound (m + 1) p HP) as B1.
  destruct (Z.eqb_spec ((m + 1) mod p) 0) as [E|E]; [lia|].
  f_equal. apply (Z.div_unique m p _ ((m + 1) mod p - 1)); lia.
Qed.

(** the contents of a field's cell after some cycles, from [e0] *)
Lemma run_spec fs : forall hist e0, bytes e0 -> (length fs * 5 <= length e0 + 4)%nat ->
  Forall (fun f => 0 < pf_period f) fs -> Forall (fun vals => length vals = length fs) hist ->
  exists e, eeprom_run 1 fs hist e0 = Some e /\ length e = length e0 /\ bytes e /\
    (forall k, (k mod 5 <> 0 \/ length fs <= k / 5)%nat -> nth_error e k = nth_error e0 k) /\
    forall i f, nth_error fs i = Some f ->
      let c := last_save (pf_period f) (Z.of_nat (length hist)) in
      if c =? 0 then nth_error e (i * 5) = nth_error e0 (i * 5)
      else exists v, value_at hist c i = Some v /\ nth_error e (i * 5) = Some (u8 (eeprom_repr (pf_ty f) v)).
Proof.
  intros hist e0 HB HL HP. 
  assert (SN : forall h v e, eeprom_run 1 fs (h ++ [v]) e = match eeprom_run 1 fs h e with Some e1 => eeprom_save (Z.of_nat (length h) + 1) 0 fs v e1 | None => None end).
  { intros h v e. generalize 1 as cc. revert e. induction h as [|x h IH]; intros e cc; cbn [app eeprom_run length].
    - change (Z.of_nat 0) with 0. rewrite Z.add_0_l. 
      destruct (eeprom_save cc 0 fs v e); reflexivity.
    - destruct (eeprom_save cc 0 fs x e); [|reflexivity]. rewrite IH. destruct (eeprom_run (cc + 1) fs h l); [|reflexivity]. f_equal; lia. }
  induction hist as [|vals hist IH] using rev_ind; intros HF.
  - exists e0. split; [reflexivity|]. split; [reflexivity|]. split; [assumption|]. split; [reflexivity|].
    intros i f Hf c. replace c with 0; [reflexivity|]. unfold c, last_save. change (Z.of_nat (length (@nil (list Z)))) with 0. assert (PP : 0 < pf_period f) by (rewrite Forall_forall in HP; apply HP; apply nth_error_In with (1 := Hf)).
    rewrite Z.div_0_l, Z.mul_0_r by lia. reflexivity.
  - apply Forall_app in HF. destruct HF as [HF HV]. apply Forall_cons_iff in HV. destruct HV as [HV _].
    destruct (IH HF) as (e1 & E1 & L1 & B1 & O1 & C1). rewrite SN, E1.
    destruct (save_spec fs (Z.of_nat (length hist) + 1) 0 vals e1 B1 ltac:(lia) HV) as (e2 & E2 & L2 & B2 & N2).
    exists e2. split; [exact E2|]. split; [lia|]. split; [exact B2|]. split.
    + intros k HK. rewrite N2, <- (O1 k HK). rewrite Nat.sub_0_r.
      destruct HK as [HK|HK].
      * replace (Nat.eqb (k mod 5) 0) with false by (symmetry; apply Nat.eqb_neq; assumption). cbn [andb].
        destruct (nth_error fs (k / 5)); [|reflexivity]. destruct (nth_error vals (k / 5)); reflexivity.
      * apply nth_error_None in HK. rewrite HK. reflexivity.
    + intros i f Hf c. rewrite N2. rewrite Nat.sub_0_r, div_mul5, mod_mul5, Hf. cbn [Nat.eqb Nat.leb andb].
      assert (PP : 0 < pf_period f) by (rewrite Forall_forall in HP; apply HP; apply nth_error_In with (1 := Hf)).
      destruct (nth_error vals i) as [v|] eqn:Ev.
      2:{ apply nth_error_None in Ev. assert (i < length fs)%nat by (apply nth_error_Some; congruence). lia. }
      unfold c. rewrite app_length. cbn [length]. rewrite Nat2Z.inj_add. change (Z.of_nat 1) with 1.
      rewrite last_save_step by lia.
      destruct ((Z.of_nat (length hist) + 1) mod pf_period f =? 0).
      * destruct (Z.eqb_spec (Z.of_nat (length hist) + 1) 0); [lia|]. exists v. split; [|reflexivity].
        unfold value_at. replace (Z.to_nat (Z.of_nat (length hist) + 1 - 1)) with (length hist) by lia.
        rewrite nth_error_app2, Nat.sub_diag by lia. exact Ev.
      * specialize (C1 i f Hf). cbv zeta in C1. set (c0 := last_save (pf_period f) (Z.of_nat (length hist))) in *.
        destruct (Z.eqb_spec c0 0); [assumption|]. destruct C1 as (w & W1 & W2). exists w. split; [|assumption].
        unfold value_at in *. assert (0 <= c0 <= Z.of_nat (length hist)).
        { unfold c0, last_save. pose proof (Z.div_mod (Z.of_nat (length hist)) (pf_period f) ltac:(lia)).
          pose proof (Z.mod_pos_bound (Z.of_nat (length hist)) (pf_period f) PP).
          assert (0 <= Z.of_nat (length hist) / pf_period f) by (apply Z.div_pos; lia). split; [apply Z.mul_nonneg_nonneg; lia|lia]. }
        rewrite nth_error_app1 by lia. assumption.
Qed.

(** ... and when power is lost while saving *)
Lemma crash_spec fs hist vals j e0 : bytes e0 -> (length fs * 5 <= length e0 + 4)%nat ->
  Forall (fun f => 0 < pf_period f) fs -> Forall (fun vals => length vals = length fs) hist -> length vals = length fs ->
  exists e, eeprom_crash fs hist vals j e0 = Some e /\ length e = length e0 /\ bytes e /\
    (forall k, (k mod 5 <> 0 \/ length fs <= k / 5)%nat -> nth_error e k = nth_error e0 k) /\
    forall i f, nth_error fs i = Some f ->
      let m := Z.of_nat (length hist) + (if Nat.ltb i j then 1 else 0) in
      let c := last_save (pf_period f) m in
      if c =? 0 then nth_error e (i * 5) = nth_error e0 (i * 5)
      else exists v, value_at (hist ++ [vals]) c i = Some v /\ nth_error e (i * 5) = Some (u8 (eeprom_repr (pf_ty f) v)).
Proof.
  intros HB HL HP HF HV. unfold eeprom_crash.
  destruct (run_spec fs hist e0 HB HL HP HF) as (e1 & E1 & L1 & B1 & O1 & C1). rewrite E1.
  assert (TR : forall l v cc i e, eeprom_save cc i (firstn j l) v e = eeprom_save cc i (firstn j l) (firstn (length (firstn j l)) v) e).
  { clear. intros l v cc i e. generalize (firstn j l) as fs. intros fs. revert v i e. induction fs as [|f fs IH]; intros v i e; [reflexivity|].
    destruct v as [|x v]; [reflexivity|]. cbn [length firstn eeprom_save]. destruct (if _ =? _ then _ else _); [apply IH|reflexivity]. }
  rewrite TR. 
  destruct (save_spec (firstn j fs) (Z.of_nat (length hist) + 1) 0 (firstn (length (firstn j fs)) vals) e1 B1) as (e2 & E2 & L2 & B2 & N2).
  { rewrite firstn_length. lia. }
  { rewrite firstn_length. pose proof (firstn_length j fs). lia. }
  exists e2. split; [exact E2|]. split; [lia|]. split; [exact B2|]. split.
  - intros k HK. rewrite N2, <- (O1 k HK). rewrite Nat.sub_0_r. destruct HK as [HK|HK].
    + replace (Nat.eqb (k mod 5) 0) with false by (symmetry; apply Nat.eqb_neq; assumption). cbn [andb].
      destruct (nth_error (firstn j fs) (k / 5)); [|reflexivity]. destruct (nth_error _ (k / 5)); reflexivity.
    + assert (X : nth_error (firstn j fs) (k / 5) = None) by (apply nth_error_None; rewrite firstn_length; lia). rewrite X. reflexivity.
  - intros i f Hf. set (m := Z.of_nat (length hist) + (if Nat.ltb i j then 1 else 0)). set (c := last_save (pf_period f) m). rewrite N2. rewrite Nat.sub_0_r, div_mul5, mod_mul5. cbn [Nat.eqb Nat.leb andb].
    assert (PP : 0 < pf_period f) by (rewrite Forall_forall in HP; apply HP; apply nth_error_In with (1 := Hf)).
    assert (IL : (i < length fs)%nat) by (apply nth_error_Some; congruence).
    assert (OLD : forall c0, c0 = last_save (pf_period f) (Z.of_nat (length hist)) ->
      if c0 =? 0 then nth_error e1 (i * 5) = nth_error e0 (i * 5)
      else exists v, value_at (hist ++ [vals]) c0 i = Some v /\ nth_error e1 (i * 5) = Some (u8 (eeprom_repr (pf_ty f) v))).
    { intros c0 EC. specialize (C1 i f Hf). cbv zeta in C1. rewrite <- EC in C1. destruct (Z.eqb_spec c0 0); [assumption|].
      destruct C1 as (w & W1 & W2). exists w. split; [|assumption]. unfold value_at in *.
      assert (0 <= c0 <= Z.of_nat (length hist)).
      { rewrite EC. unfold last_save. pose proof (Z.div_mod (Z.of_nat (length hist)) (pf_period f) ltac:(lia)).
        pose proof (Z.mod_pos_bound (Z.of_nat (length hist)) (pf_period f) PP).
        assert (0 <= Z.of_nat (length hist) / pf_period f) by (apply Z.div_pos; lia). split; [apply Z.mul_nonneg_nonneg; lia|lia]. }
      rewrite nth_error_app1 by lia. assumption. }
    destruct (Nat.ltb_spec i j) as [IJ|IJ].
    + assert (F1 : nth_error (firstn j fs) i = Some f).
      { rewrite <- Hf. rewrite <- (firstn_skipn j fs) at 2. rewrite nth_error_app1; [reflexivity|]. rewrite firstn_length. lia. }
      rewrite F1. destruct (nth_error vals i) as [v|] eqn:Ev; [|apply nth_error_None in Ev; lia].
      assert (F2 : nth_error (firstn (length (firstn j fs)) vals) i = Some v).
      { rewrite <- Ev. rewrite <- (firstn_skipn (length (firstn j fs)) vals) at 2. rewrite nth_error_app1; [reflexivity|]. rewrite !firstn_length. lia. }
      rewrite F2. unfold c, m. rewrite last_save_step by lia.
      destruct ((Z.of_nat (length hist) + 1) mod pf_period f =? 0).
      * destruct (Z.eqb_spec (Z.of_nat (length hist) + 1) 0); [lia|]. exists v. split; [|reflexivity].
        unfold value_at. replace (Z.to_nat (Z.of_nat (length hist) + 1 - 1)) with (length hist) by lia.
        rewrite nth_error_app2, Nat.sub_diag by lia. exact Ev.
      * apply OLD. reflexivity.
    + assert (F1 : nth_error (firstn j fs) i = None) by (apply nth_error_None; rewrite firstn_length; lia).
      rewrite F1. unfold c, m. rewrite Z.add_0_r. apply OLD. reflexivity.
Qed.

(** ** reading back *)
Lemma read_spec fs : forall i vals e, ((i + length fs) * 5 <= length e + 4)%nat -> length vals = length fs ->
  exists r, read_eeprom i fs vals e = Some r /\ length r = length fs /\
    forall k f d b, nth_error fs k = Some f -> nth_error vals k = Some d -> nth_error e ((i + k) * 5) = Some b ->
      nth_error r k = Some (if pf_state f && negb (b =? docking_state) && negb (b =? docked_state) then d else set_from_eeprom (pf_ty f) d b).
Proof.
  induction fs as [|f fs IH]; intros i vals e HL HV; destruct vals as [|v vals]; cbn [length] in *; try discriminate.
  - exists []. split; [reflexivity|]. split; [reflexivity|]. intros k g d b H. destruct k; discriminate.
  - cbn [read_eeprom]. destruct (nth_error e (i * 5)) as [b|] eqn:E; [|apply nth_error_None in E; lia].
    destruct (IH (S i) vals e ltac:(lia) ltac:(lia)) as (r & R & LR & N). rewrite R. eexists. split; [reflexivity|].
    split; [cbn [length]; lia|]. intros k g d b' Hf Hd Hb. destruct k as [|k]; cbn [nth_error] in *.
    + injection Hf as <-. injection Hd as <-. rewrite Nat.add_0_r in Hb. rewrite Hb in E. injection E as ->. reflexivity.
    + apply N; try assumption. replace (S i + k)%nat with (i + S k)%nat by lia. assumption.
Qed.

Definition one_byte (t : ety) : bool := match t with EBool | EUChar | ESChar => true | _ => false end.

Lemma byte_round_trip t d v : one_byte t = true -> ety_min t <= v <= ety_max t ->
  set_from_eeprom t d (u8 (eeprom_repr t v)) = v.
Proof.
  intros HT HV. pose proof (u8_byte (eeprom_repr t v)) as B. unfold set_from_eeprom, eeprom_repr, u8, u32, s8, uwrap, swrap in *.
  change (2 ^ 8) with 256 in *. change (2 ^ 32) with 4294967296 in *. change (2 ^ (8 - 1)) with 128 in *.
  destruct t; cbn [one_byte ety_min ety_max] in *; try discriminate.
  - rewrite (Z.mod_small v 4294967296), (Z.mod_small v 256) by lia. destruct (Z.ltb_spec 1 v); lia.
  - rewrite Z.mod_mod, (Z.mod_small v 256) by lia. destruct (Z.ltb_spec 255 v); [lia|]. apply Z.mod_small. lia.
  - rewrite Z.mod_mod by lia. destruct (Z.ltb_spec 255 (v mod 256)); [lia|]. lia.
Qed.

Lemma reboot_restores fs hist vals j e0 defaults :
  bytes e0 -> Z.of_nat (length e0) = 4096 -> Z.of_nat (length fs) <= 819 ->
  Forall (fun f => 0 < pf_period f) fs -> Forall (fun vals => length vals = length fs) hist -> length vals = length fs ->
  length defaults = length fs ->
  exists e, eeprom_crash fs hist vals j e0 = Some e /\
    (check_empty e = false -> exists r, eeprom_init fs defaults e = Some r /\ length r = length fs /\
      forall i f d, nth_error fs i = Some f -> nth_error defaults i = Some d ->
        let m := Z.of_nat (length hist) + (if Nat.ltb i j then 1 else 0) in
        let c := last_save (pf_period f) m in
        0 < c -> exists v, value_at (hist ++ [vals]) c i = Some v /\
          (one_byte (pf_ty f) = true -> ety_min (pf_ty f) <= v <= ety_max (pf_ty f) ->
             (pf_state f = true -> pf_ty f = EUChar) ->
             nth_error r i = Some (if pf_state f && negb (v =? docking_state) && negb (v =? docked_state) then d else v))).
Proof.
  intros HB HE HN HP HF HV HD.
  destruct (crash_spec fs hist vals j e0 HB ltac:(lia) HP HF HV) as (e & E & LE & BE & _ & CE).
  exists e. split; [exact E|]. intros NE. unfold eeprom_init. replace (Z.of_nat (length fs) <=? 4096 / 5) with true by (symmetry; apply Z.leb_le; change (4096 / 5) with 819; lia).
  rewrite NE. destruct (read_spec fs 0 defaults e ltac:(lia) HD) as (r & R & LR & NR).
  exists r. split; [exact R|]. split; [exact LR|]. intros i f d Hf Hd. set (m := Z.of_nat (length hist) + (if Nat.ltb i j then 1 else 0)). set (c := last_save (pf_period f) m). intros HC.
  specialize (CE i f Hf). cbv zeta in CE. fold m in CE. fold c in CE. destruct (Z.eqb_spec c 0); [lia|]. destruct CE as (v & V1 & V2).
  exists v. split; [exact V1|]. intros OB RG ST. rewrite (NR i f d _ Hf Hd V2).
  rewrite byte_round_trip by assumption.
  destruct (pf_state f) eqn:PS; [|reflexivity]. rewrite (ST eq_refl) in *. cbn [eeprom_repr ety_min ety_max] in *.
  replace (u8 (u8 v)) with v; [reflexivity|]. rewrite u8_id, u8_id by (try rewrite u8_id; change (2 ^ 8) with 256; lia). reflexivity.
Qed.

Lemma not_empty e k b : nth_error e k = Some b -> b <> 255 -> check_empty e = false.
Proof.
  intros H N. apply not_true_iff_false. intros C. unfold check_empty in C. rewrite forallb_forall in C.
  apply nth_error_In in H. specialize (C b H). lia.
Qed.

Lemma reboot_after_crash fs hist vals j e0 defaults i0 f0 v0 :
  bytes e0 -> Z.of_nat (length e0) = 4096 -> Z.of_nat (length fs) <= 819 ->
  Forall (fun f => 0 < pf_period f /\ one_byte (pf_ty f) = true /\ (pf_state f = true -> pf_ty f = EUChar)) fs ->
  Forall (fun vals => length vals = length fs) hist -> length vals = length fs -> length defaults = length fs ->
  (forall i f c v, nth_error fs i = Some f -> value_at (hist ++ [vals]) c i = Some v -> ety_min (pf_ty f) <= v <= ety_max (pf_ty f)) ->
  let saved i f := last_save (pf_period f) (Z.of_nat (length hist) + (if Nat.ltb i j then 1 else 0)) in
  nth_error fs i0 = Some f0 -> 0 < saved i0 f0 -> value_at (hist ++ [vals]) (saved i0 f0) i0 = Some v0 -> v0 mod 256 <> 255 ->
  exists e r, eeprom_crash fs hist vals j e0 = Some e /\ eeprom_init fs defaults e = Some r /\
    forall i f d, nth_error fs i = Some f -> nth_error defaults i = Some d -> 0 < saved i f ->
      exists v, value_at (hist ++ [vals]) (saved i f) i = Some v /\
        nth_error r i = Some (if pf_state f && negb (v =? docking_state) && negb (v =? docked_state) then d else v).
Proof.
  intros HB HE HN HP HF HV HD HR saved H0 HS HV0 HB0.
  assert (HP1 : Forall (fun f => 0 < pf_period f) fs) by (revert HP; apply Forall_impl; tauto).
  destruct (crash_spec fs hist vals j e0 HB ltac:(lia) HP1 HF HV) as (e & E & LE & BE & _ & CE).
  destruct (reboot_restores fs hist vals j e0 defaults HB HE HN HP1 HF HV HD) as (e' & E' & X).
  rewrite E in E'. injection E' as <-. 
  assert (NE : check_empty e = false).
  { specialize (CE i0 f0 H0). cbv zeta in CE. change (last_save (pf_period f0) (Z.of_nat (length hist) + (if Nat.ltb i0 j then 1 else 0))) with (saved i0 f0) in CE.
    destruct (Z.eqb_spec (saved i0 f0) 0); [lia|]. destruct CE as (v & V1 & V2). rewrite V1 in HV0. injection HV0 as ->.
    apply (not_empty _ _ _ V2). rewrite Forall_forall in HP. destruct (HP f0 (nth_error_In _ _ H0)) as (_ & OB & _).
    pose proof (HR i0 f0 _ _ H0 V1) as RG.
    unfold u8, uwrap, eeprom_repr, u8, u32, uwrap. change (2 ^ 8) with 256. change (2 ^ 32) with 4294967296.
    destruct (pf_ty f0); cbn [one_byte ety_min ety_max] in *; try discriminate; lia. }
  destruct (X NE) as (r & R & LR & NR). exists e, r. split; [exact E|]. split; [exact R|].
  intros i f d Hf Hd HC. destruct (NR i f d Hf Hd HC) as (v & V1 & V2). exists v. split; [exact V1|].
  rewrite Forall_forall in HP. destruct (HP f (nth_error_In _ _ Hf)) as (_ & OB & ST). apply V2; [assumption| |assumption].
  apply (HR i f _ _ Hf V1).
Qed.
