From Verif Require Import Base BitArrayModel BitArrayProofs IntSerModel IntSerSpec IntSerProofs DownlinkModel DownlinkSpec.

(** ** writing bits *)

Lemma put_spec buf off b buf' : put buf off b = Some buf' ->
  length buf' = length buf /\ 0 <= off < Z.of_nat (length buf) /\
  forall p, 0 <= p -> bit_at buf' p = if p =? off then Some b else bit_at buf p.
Proof.
  unfold put, bit_at. destruct (Z.ltb_spec off 0); [discriminate|]. intros H1.
  assert (L : (Z.to_nat off < length buf)%nat) by (apply (upd_some_iff _ _ b); eauto).
  split; [eapply upd_length; eauto|]. split; [lia|]. intros p Hp.
  rewrite (upd_nth_error _ _ _ _ H1). destruct (Z.eqb_spec p off) as [->|].
  - rewrite Nat.eqb_refl. reflexivity.
  - destruct (Nat.eqb_spec (Z.to_nat p) (Z.to_nat off)); [lia|reflexivity].
Qed.

Lemma put_ok buf off b : 0 <= off < Z.of_nat (length buf) -> exists buf', put buf off b = Some buf'.
Proof.
  intros H. unfold put. destruct (Z.ltb_spec off 0); [lia|]. apply upd_some_iff. lia.
Qed.

Lemma put_none buf off b : Z.of_nat (length buf) <= off -> put buf off b = None.
Proof.
  intros H. unfold put. destruct (Z.ltb_spec off 0); [reflexivity|]. apply upd_none_iff. lia.
Qed.

Lemma put_bits_app buf off a b :
  put_bits buf off (a ++ b) = bind (put_bits buf off a) (fun b1 => put_bits b1 (off + Z.of_nat (length a)) b).
Proof.
  revert buf off; induction a as [|x a IH]; intros buf off; cbn [app put_bits bind length].
  - rewrite Z.add_0_r. reflexivity.
  - destruct (put buf off x); [|reflexivity]. rewrite IH. destruct (put_bits l (off + 1) a); [|reflexivity].
    cbn [bind]. f_equal. lia.
Qed.

Lemma put_bits_spec bits : forall buf off buf', 0 <= off -> put_bits buf off bits = Some buf' ->
  length buf' = length buf /\ (bits = [] \/ off + Z.of_nat (length bits) <= Z.of_nat (length buf)) /\
  forall p, 0 <= p -> bit_at buf' p =
    if (off <=? p) && (p <? off + Z.of_nat (length bits)) then nth_error bits (Z.to_nat (p - off)) else bit_at buf p.
Proof.
  induction bits as [|x t IH]; intros buf off buf' HO H; cbn [put_bits length] in *.
  - injection H as <-. split; [reflexivity|]. split; [left; reflexivity|]. intros p Hp.
    destruct (off <=? p) eqn:?, (p <? off + Z.of_nat 0) eqn:?; cbn [andb]; try reflexivity. lia.
  - destruct (put buf off x) as [b1|] eqn:E; [|discriminate].
    destruct (put_spec _ _ _ _ E) as (L1 & R1 & N1). destruct (IH b1 (off + 1) buf' ltac:(lia) H) as (L2 & R2 & N2).
    split; [congruence|]. split; [right; destruct R2 as [->|]; cbn [length] in *; lia|].
    intros p Hp. rewrite N2, N1 by assumption.
    destruct (Z.leb_spec (off + 1) p), (Z.ltb_spec p (off + 1 + Z.of_nat (length t))),
             (Z.leb_spec off p), (Z.ltb_spec p (off + Z.of_nat (S (length t)))), (Z.eqb_spec p off); cbn [andb]; try lia; try reflexivity.
    + replace (Z.to_nat (p - off)) with (S (Z.to_nat (p - (off + 1)))) by lia. reflexivity.
    + subst. rewrite Z.sub_diag. reflexivity.
Qed.

Lemma put_bits_ok bits : forall buf off, 0 <= off -> off + Z.of_nat (length bits) <= Z.of_nat (length buf) ->
  exists buf', put_bits buf off bits = Some buf'.
Proof.
  induction bits as [|x t IH]; intros buf off HO H; cbn [put_bits length] in *; [eauto|].
  destruct (put_ok buf off x ltac:(lia)) as [b1 E]. rewrite E.
  destruct (put_spec _ _ _ _ E) as (L1 & _). apply IH; [lia|]. rewrite L1. lia.
Qed.

(** ** one bit at a time *)

Definition add_bit (b : bool) (st : fstate) : option fstate :=
  if fs_po st =? 560 then
    bind (put (fs_buf st) (8 * (fs_off st / 70)) false) (fun b1 =>
    bind (put b1 (fs_off st + 1) b) (fun b2 => Some (mk_fs b2 2 (fs_off st + 2))))
  else bind (put (fs_buf st) (fs_off st) b) (fun b1 => Some (mk_fs b1 (fs_po st + 1) (fs_off st + 1))).

Fixpoint add_each (bits : list bool) (st : fstate) : option fstate :=
  match bits with
  | [] => Some st
  | b :: t => bind (add_bit b st) (add_each t)
  end.

Lemma add_each_app a b st : add_each (a ++ b) st = bind (add_each a st) (add_each b).
Proof.
  revert st; induction a as [|x a IH]; intros st; cbn [app add_each bind]; [reflexivity|].
  destruct (add_bit x st); cbn [bind]; [apply IH|reflexivity].
Qed.

(** no crossing *)
Lemma add_each_plain bits : forall st, fs_po st + Z.of_nat (length bits) <= 560 ->
  add_each bits st = bind (put_bits (fs_buf st) (fs_off st) bits)
    (fun b => Some (mk_fs b (fs_po st + Z.of_nat (length bits)) (fs_off st + Z.of_nat (length bits)))).
Proof.
  induction bits as [|x t IH]; intros [buf po off] H; cbn [add_each put_bits length fs_buf fs_po fs_off bind] in *.
  - rewrite !Z.add_0_r. reflexivity.
  - unfold add_bit at 1. cbn [fs_buf fs_po fs_off]. destruct (Z.eqb_spec po 560); [lia|].
    destruct (put buf off x) as [b1|]; [|reflexivity]. cbn [bind]. rewrite IH by (cbn [fs_po]; lia). cbn [fs_buf fs_po fs_off].
    destruct (put_bits b1 (off + 1) t); [|reflexivity]. cbn [bind]. do 2 f_equal; lia.
Qed.

Lemma add_bits_each bits st :
  1 <= fs_po st <= 560 -> Z.of_nat (length bits) <= 559 -> add_bits bits st = add_each bits st.
Proof.
  intros HP HL. unfold add_bits, num_bits_in_packet.
  assert (E : s32 (u64 (u64 (Z.of_nat (length bits) + fs_po st) - 560)) = Z.of_nat (length bits) + fs_po st - 560).
  { unfold s32, swrap, u64, uwrap. rewrite (Z.mod_small (Z.of_nat (length bits) + fs_po st)) by lia.
    set (v := Z.of_nat (length bits) + fs_po st - 560).
    assert (- 560 <= v <= 559) by (unfold v; lia).
    destruct (Z.ltb_spec v 0).
    - replace (v mod 2 ^ 64) with (v + 2 ^ 64) by (symmetry; rewrite <- (Z.mod_add v 1) by lia; rewrite Z.mod_small; lia).
      replace (v + 2 ^ 64 + 2 ^ (32 - 1)) with (v + 2 ^ 31 + 2 ^ 32 * 2 ^ 32) by (change (32 - 1) with 31; lia).
      rewrite Z.mod_add by lia. change (32 - 1) with 31. rewrite Z.mod_small by lia. lia.
    - rewrite Z.mod_small by lia. change (32 - 1) with 31. rewrite Z.mod_small by lia. lia. }
  rewrite E. cbv zeta. set (ov := Z.of_nat (length bits) + fs_po st - 560).
  destruct (Z.leb_spec ov 0).
  - rewrite add_each_plain by lia. destruct (put_bits (fs_buf st) (fs_off st) bits); reflexivity.
  - set (x := Z.of_nat (length bits) - ov). destruct (Z.ltb_spec x 0); [lia|].
    replace (add_each bits st) with (add_each (firstn (Z.to_nat x) bits ++ skipn (Z.to_nat x) bits) st) by (rewrite firstn_skipn; reflexivity). rewrite add_each_app.
    assert (LF : Z.of_nat (length (firstn (Z.to_nat x) bits)) = x) by (rewrite firstn_length; lia).
    rewrite add_each_plain by (rewrite LF; lia). rewrite LF.
    destruct (put_bits (fs_buf st) (fs_off st) (firstn (Z.to_nat x) bits)) as [b1|]; [|reflexivity]. cbn [bind].
    assert (LS : Z.of_nat (length (skipn (Z.to_nat x) bits)) = ov) by (rewrite skipn_length; lia).
    destruct (skipn (Z.to_nat x) bits) as [|b t]; [cbn in LS; lia|]. cbn [length] in LS.
    cbn [add_each]. unfold add_bit. cbn [fs_buf fs_po fs_off].
    destruct (Z.eqb_spec (fs_po st + x) 560); [|lia].
    destruct (put b1 (8 * ((fs_off st + x) / 70)) false) as [b2|]; [|reflexivity]. cbn [bind put_bits].
    destruct (put b2 (fs_off st + x + 1) b) as [b3|]; [|reflexivity]. cbn [bind].
    rewrite add_each_plain by (cbn [fs_po]; lia). cbn [fs_buf fs_po fs_off].
    replace (fs_off st + x + 1 + 1) with (fs_off st + x + 2) by lia.
    destruct (put_bits b3 (fs_off st + x + 2) t) as [b4|]; [|reflexivity]. cbn [bind]. do 2 f_equal; lia.
Qed.

(** ** the contents of the frame *)

(** position [p] was cleared by the misplaced marker of a continuation [k <= K] *)
Definition hit (K p : Z) : bool := (p mod 64 =? 0) && (1 <=? p / 64) && (p / 64 <=? K).

(** what the builder leaves at [p] when [P] has been added to a buffer that held [old] *)
Definition frame_bit (P : list bool) (old : list bool) (p : Z) : option bool :=
  let n := Z.of_nat (length P) in
  if p =? 0 then Some true
  else if hit (continuations n) p then Some false
  else if (p mod 560 =? 0) then bit_at old p
  else if p <? frame_length n then nth_error P (Z.to_nat (p - 1 - p / 560))
  else bit_at old p.

Definition frame_inv (P old : list bool) (st : fstate) : Prop :=
  let n := Z.of_nat (length P) in
  length (fs_buf st) = length old /\ frame_length n <= Z.of_nat (length old) /\
  fs_off st = frame_length n /\ fs_po st = frame_length n - 560 * continuations n /\
  forall p, 0 <= p < Z.of_nat (length old) -> bit_at (fs_buf st) p = frame_bit P old p.

Lemma cont_nonneg n : 0 <= continuations n.
Proof. unfold continuations. destruct (Z.leb_spec n 0); lia. Qed.

Lemma po_range n : 0 <= n -> 1 <= frame_length n - 560 * continuations n <= 560.
Proof. intros H. unfold frame_length, continuations. destruct (Z.leb_spec n 0); lia. Qed.

Lemma cont_step n : 0 <= n ->
  continuations (n + 1) = if frame_length n - 560 * continuations n =? 560 then continuations n + 1 else continuations n.
Proof.
  intros H. unfold frame_length, continuations.
  destruct (Z.leb_spec n 0), (Z.leb_spec (n + 1) 0); try lia;
  match goal with |- context [?a =? ?b] => destruct (Z.eqb_spec a b) end; try lia.
Qed.

Lemma add_bit_inv P old st b :
  frame_inv P old st ->
  match add_bit b st with
  | Some st' => frame_inv (P ++ [b]) old st'
  | None => Z.of_nat (length old) < frame_length (Z.of_nat (length P) + 1)
  end.
Proof.
  intros (L & F & O & PO & HB). set (n := Z.of_nat (length P)) in *.
  assert (Hn : 0 <= n) by lia. pose proof (po_range n Hn) as PR. pose proof (cont_step n Hn) as CS.
  assert (LP : Z.of_nat (length (P ++ [b])) = n + 1) by (rewrite app_length; cbn [length]; lia).
  assert (FL : frame_length (n + 1) = n + 2 + continuations (n + 1)) by (unfold frame_length; lia).
  assert (FL0 : frame_length n = n + 1 + continuations n) by reflexivity.
  pose proof (cont_nonneg n) as CN.
  unfold add_bit. rewrite PO. rewrite <- PO in CS.
  rewrite <- PO. destruct (Z.eqb_spec (fs_po st) 560) as [E|NE].
  - assert (OFF : fs_off st = 560 * (continuations n + 1)) by lia.
    assert (M : 8 * (fs_off st / 70) = 64 * (continuations n + 1)).
    { rewrite OFF. replace (560 * (continuations n + 1)) with (8 * (continuations n + 1) * 70) by lia. rewrite Z.div_mul; lia. }
    rewrite M.
    destruct (put (fs_buf st) (64 * (continuations n + 1)) false) as [b1|] eqn:E1.
    2:{ exfalso. destruct (put_ok (fs_buf st) (64 * (continuations n + 1)) false) as [? X]; [lia|congruence]. }
    cbn [bind]. destruct (put_spec _ _ _ _ E1) as (L1 & R1 & N1).
    destruct (put b1 (fs_off st + 1) b) as [b2|] eqn:E2.
    2:{ cbn [bind]. destruct (Z.ltb_spec (Z.of_nat (length old)) (frame_length (n + 1))); [assumption|exfalso].
        destruct (put_ok b1 (fs_off st + 1) b) as [? X]; [lia|congruence]. }
    cbn [bind]. destruct (put_spec _ _ _ _ E2) as (L2 & R2 & N2).
    unfold frame_inv. rewrite LP. cbn [fs_buf fs_po fs_off].
    split; [congruence|]. split; [lia|]. split; [lia|]. split; [lia|].
    intros p Hp. rewrite N2, N1, HB by lia. unfold frame_bit. rewrite LP. fold n. rewrite CS.
    destruct (Z.eqb_spec p 0).
    { destruct (Z.eqb_spec p (fs_off st + 1)); [lia|]. destruct (Z.eqb_spec p (64 * (continuations n + 1))); [lia|]. reflexivity. }
    unfold hit.
    destruct (Z.eqb_spec p (64 * (continuations n + 1))) as [EM|NM].
    { destruct (Z.eqb_spec p (fs_off st + 1)); [lia|].
      replace (p mod 64) with 0 by (rewrite EM, Z.mul_comm, Z.mod_mul; lia).
      replace (p / 64) with (continuations n + 1) by (rewrite EM, Z.mul_comm, Z.div_mul; lia).
      destruct (Z.leb_spec 1 (continuations n + 1)); [|lia]. rewrite Z.leb_refl. reflexivity. }
    assert (HH : (p mod 64 =? 0) && (1 <=? p / 64) && (p / 64 <=? continuations n + 1) =
                 (p mod 64 =? 0) && (1 <=? p / 64) && (p / 64 <=? continuations n)).
    { destruct (Z.eqb_spec (p mod 64) 0); [|reflexivity].
      destruct (Z.leb_spec 1 (p / 64)), (Z.leb_spec (p / 64) (continuations n + 1)), (Z.leb_spec (p / 64) (continuations n));
        try reflexivity; lia. }
    rewrite HH. clear HH.
    destruct (Z.eqb_spec p (fs_off st + 1)) as [EP|NP].
    { destruct (Z.eqb_spec (p mod 64) 0), (Z.leb_spec 1 (p / 64)), (Z.leb_spec (p / 64) (continuations n)); cbn [andb]; try lia;
      (destruct (Z.eqb_spec (p mod 560) 0); [lia|]; destruct (Z.ltb_spec p (frame_length (n + 1))); [|lia];
       rewrite nth_error_app2 by lia; replace (Z.to_nat (p - 1 - p / 560) - length P)%nat with 0%nat by lia; reflexivity). }
    destruct (_ && _ && _); [reflexivity|]. destruct (Z.eqb_spec (p mod 560) 0); [reflexivity|].
    destruct (Z.ltb_spec p (frame_length (n + 1))), (Z.ltb_spec p (frame_length n)); try lia; try reflexivity.
    rewrite nth_error_app1 by lia. reflexivity.
  - destruct (put (fs_buf st) (fs_off st) b) as [b1|] eqn:E1.
    2:{ cbn [bind]. destruct (Z.ltb_spec (Z.of_nat (length old)) (frame_length (n + 1))); [assumption|exfalso].
        destruct (put_ok (fs_buf st) (fs_off st) b) as [? X]; [lia|congruence]. }
    cbn [bind]. destruct (put_spec _ _ _ _ E1) as (L1 & R1 & N1).
    unfold frame_inv. rewrite LP. cbn [fs_buf fs_po fs_off].
    split; [congruence|]. split; [lia|]. split; [lia|]. split; [lia|].
    intros p Hp. rewrite N1, HB by lia. unfold frame_bit. rewrite LP. fold n. rewrite CS.
    destruct (Z.eqb_spec p 0).
    { destruct (Z.eqb_spec p (fs_off st)); [lia|]. reflexivity. }
    unfold hit.
    destruct (Z.eqb_spec p (fs_off st)) as [EP|NP].
    { destruct (Z.eqb_spec (p mod 64) 0), (Z.leb_spec 1 (p / 64)), (Z.leb_spec (p / 64) (continuations n)); cbn [andb]; try lia;
      (destruct (Z.eqb_spec (p mod 560) 0); [lia|]; destruct (Z.ltb_spec p (frame_length (n + 1))); [|lia];
       rewrite nth_error_app2 by lia; replace (Z.to_nat (p - 1 - p / 560) - length P)%nat with 0%nat by lia; reflexivity). }
    destruct (_ && _ && _); [reflexivity|]. destruct (Z.eqb_spec (p mod 560) 0); [reflexivity|].
    destruct (Z.ltb_spec p (frame_length (n + 1))), (Z.ltb_spec p (frame_length n)); try lia; try reflexivity.
    rewrite nth_error_app1 by lia. reflexivity.
Qed.

Lemma frame_length_mono a b : 0 <= a <= b -> frame_length a <= frame_length b.
Proof.
  intros H. unfold frame_length, continuations. destruct (Z.leb_spec a 0), (Z.leb_spec b 0); lia.
Qed.

Lemma add_each_inv bits : forall P old st,
  frame_inv P old st ->
  match add_each bits st with
  | Some st' => frame_inv (P ++ bits) old st'
  | None => Z.of_nat (length old) < frame_length (Z.of_nat (length (P ++ bits)))
  end.
Proof.
  induction bits as [|b t IH]; intros P old st H; cbn [add_each].
  - rewrite app_nil_r. assumption.
  - pose proof (add_bit_inv P old st b H) as S1. destruct (add_bit b st) as [st1|]; cbn [bind].
    + specialize (IH (P ++ [b]) old st1 S1). rewrite <- app_assoc in IH. exact IH.
    + eapply Z.lt_le_trans; [exact S1|]. apply frame_length_mono. rewrite app_length. cbn [length]. lia.
Qed.

Lemma frame_inv_po P old st : frame_inv P old st -> 1 <= fs_po st <= 560.
Proof. intros (_ & _ & _ & E & _). rewrite E. apply po_range. lia. Qed.

Lemma add_bits_inv bits P old st :
  frame_inv P old st -> Z.of_nat (length bits) <= 559 ->
  match add_bits bits st with
  | Some st' => frame_inv (P ++ bits) old st'
  | None => Z.of_nat (length old) < frame_length (Z.of_nat (length (P ++ bits)))
  end.
Proof.
  intros H HL. rewrite add_bits_each by (try assumption; eapply frame_inv_po; eauto). apply add_each_inv. assumption.
Qed.

Lemma add_list_inv l : forall P old st,
  frame_inv P old st -> Forall (fun b => Z.of_nat (length b) <= 559) l ->
  match add_list l st with
  | Some st' => frame_inv (P ++ concat l) old st'
  | None => Z.of_nat (length old) < frame_length (Z.of_nat (length (P ++ concat l)))
  end.
Proof.
  induction l as [|b t IH]; intros P old st H HF; cbn [add_list concat].
  - rewrite app_nil_r. assumption.
  - apply Forall_cons_iff in HF. destruct HF as [HL HF]. pose proof (add_bits_inv b P old st H HL) as S1.
    destruct (add_bits b st) as [st1|]; cbn [bind].
    + specialize (IH (P ++ b) old st1 S1 HF). rewrite <- app_assoc in IH. exact IH.
    + eapply Z.lt_le_trans; [exact S1|]. apply frame_length_mono. rewrite !app_length. lia.
Qed.

(** the flows of a table the constructor accepts *)
Definition flow_ok (f : flow) : Prop := packet_size f <= 527.

Lemma packet_size_length f : packet_size f = Z.of_nat (length (fl_idbits f ++ concat (fl_fields f))).
Proof.
  unfold packet_size. rewrite app_length. induction (fl_fields f) as [|b l IH]; cbn [fold_right concat length app]; [lia|].
  rewrite app_length. lia.
Qed.

Lemma flow_ok_fields f : flow_ok f ->
  Z.of_nat (length (fl_idbits f)) <= 559 /\ Forall (fun b => Z.of_nat (length b) <= 559) (fl_fields f).
Proof.
  unfold flow_ok, packet_size. intros H.
  assert (G : forall l, 0 <= fold_right (fun (b : list bool) acc => Z.of_nat (length b) + acc) 0 l).
  { induction l; cbn [fold_right]; lia. }
  pose proof (G (fl_fields f)). split; [lia|].
  assert (H1 : fold_right (fun (b : list bool) acc => Z.of_nat (length b) + acc) 0 (fl_fields f) <= 527) by lia.
  clear H. revert H1. induction (fl_fields f) as [|b l IH]; cbn [fold_right]; intros H1; constructor.
  - pose proof (G l). lia.
  - apply IH; lia.
Qed.

Lemma add_flows_inv l : forall P old st,
  frame_inv P old st -> Forall flow_ok l ->
  match add_flows l st with
  | Some st' => frame_inv (P ++ payload [] l) old st'
  | None => Z.of_nat (length old) < frame_length (Z.of_nat (length (P ++ payload [] l)))
  end.
Proof.
  induction l as [|f t IH]; intros P old st H HF.
  - cbn [add_flows payload flat_map app]. rewrite app_nil_r. assumption.
  - apply Forall_cons_iff in HF. destruct HF as [HO HF]. destruct (flow_ok_fields f HO) as [O1 O2].
    cbn [add_flows]. unfold add_flow.
    assert (EQ : payload [] (f :: t) = (if fl_active f then fl_idbits f ++ concat (fl_fields f) else []) ++ payload [] t) by reflexivity.
    rewrite EQ. destruct (fl_active f).
    + pose proof (add_bits_inv (fl_idbits f) P old st H O1) as S1.
      destruct (add_bits (fl_idbits f) st) as [st1|]; cbn [bind].
      * pose proof (add_list_inv (fl_fields f) _ old st1 S1 O2) as S2.
        destruct (add_list (fl_fields f) st1) as [st2|]; cbn [bind].
        -- specialize (IH _ old st2 S2 HF). rewrite <- !app_assoc in IH. rewrite <- !app_assoc. exact IH.
        -- eapply Z.lt_le_trans; [exact S2|]. apply frame_length_mono. rewrite !app_length. lia.
      * eapply Z.lt_le_trans; [exact S1|]. apply frame_length_mono. rewrite !app_length. lia.
    + cbn [bind app]. apply IH; assumption.
Qed.

Lemma payload_app cc flows : payload cc flows = cc ++ payload [] flows.
Proof. reflexivity. Qed.

Lemma build_frame_ok cc flows buf st :
  length cc = 32%nat -> Forall flow_ok flows -> build_frame cc flows buf = Some st ->
  let P := payload cc flows in
  let n := Z.of_nat (length P) in
  length (fs_buf st) = length buf /\ fs_off st = frame_length n /\
  8 * (frame_length n / 8) + 8 <= Z.of_nat (length buf) /\
  (forall p, 0 <= p < Z.of_nat (length buf) ->
     bit_at (fs_buf st) p =
       if (frame_length n <=? p) && (p <? 8 * (frame_length n / 8) + 8) then Some false else frame_bit P buf p).
Proof.
  intros HC HF H P n. unfold build_frame in H.
  destruct (put buf 0 true) as [b0|] eqn:E0; [|discriminate]. cbn [bind] in H.
  destruct (put_spec _ _ _ _ E0) as (L0 & R0 & N0).
  assert (I0 : frame_inv [] buf (mk_fs b0 1 1)).
  { unfold frame_inv. cbn [length fs_buf fs_po fs_off]. change (Z.of_nat 0) with 0. change (frame_length 0) with 1. change (continuations 0) with 0.
    repeat split; try lia; try assumption. intros p Hp. rewrite N0 by lia. unfold frame_bit. cbn [length]. change (Z.of_nat 0) with 0.
    change (frame_length 0) with 1. change (continuations 0) with 0. unfold hit.
    destruct (Z.eqb_spec p 0); [reflexivity|].
    destruct (Z.leb_spec 1 (p / 64)), (Z.leb_spec (p / 64) 0); try lia; rewrite ?andb_false_r; cbn [andb];
    (destruct (Z.eqb_spec (p mod 560) 0); [reflexivity|]; destruct (Z.ltb_spec p 1); [lia|reflexivity]). }
  pose proof (add_bits_inv cc [] buf _ I0 ltac:(lia)) as S1.
  destruct (add_bits cc (mk_fs b0 1 1)) as [st1|]; [|discriminate]. cbn [bind app] in *.
  pose proof (add_flows_inv flows cc buf st1 S1 HF) as S2. rewrite <- payload_app in S2. fold P in S2.
  destruct (add_flows flows st1) as [st2|]; [|discriminate]. cbn [bind] in H.
  destruct S2 as (L2 & F2 & O2 & _ & B2). fold n in F2, O2.
  destruct (put_bits (fs_buf st2) (fs_off st2) (repeat false (Z.to_nat (8 - fs_off st2 mod 8)))) as [b3|] eqn:E3; [|discriminate].
  cbn [bind] in H. injection H as <-. cbn [fs_buf fs_po fs_off].
  assert (FN : 0 <= frame_length n). { unfold frame_length. pose proof (cont_nonneg n). lia. }
  destruct (put_bits_spec _ _ (fs_off st2) b3 ltac:(lia) E3) as (L3 & R3 & N3).
  rewrite repeat_length in *. rewrite O2 in *.
  assert (LZ : Z.of_nat (Z.to_nat (8 - frame_length n mod 8)) = 8 - frame_length n mod 8) by lia.
  rewrite LZ in *.
  split; [congruence|]. split; [reflexivity|]. split.
  { destruct R3 as [X|X]; [|rewrite L2 in X; lia]. apply (f_equal (@length bool)) in X. rewrite repeat_length in X. change (length (@nil bool)) with 0%nat in X. lia. }
  intros p Hp. rewrite N3, B2 by lia.
  replace (frame_length n + (8 - frame_length n mod 8)) with (8 * (frame_length n / 8) + 8) by lia.
  destruct (Z.leb_spec (frame_length n) p), (Z.ltb_spec p (8 * (frame_length n / 8) + 8)); cbn [andb]; try reflexivity.
  rewrite nth_error_repeat by lia. reflexivity.
Qed.

(** the builder stays in the buffer exactly when one byte more than the whole bytes of the frame fits *)
Lemma build_frame_safe_iff cc flows buf :
  length cc = 32%nat -> Forall flow_ok flows -> (length buf mod 8 = 0)%nat ->
  ((exists st, build_frame cc flows buf = Some st) <->
   8 * (frame_length (Z.of_nat (length (payload cc flows))) / 8) + 8 <= Z.of_nat (length buf)).
Proof.
  intros HC HF HB. split.
  - intros (st & H). apply (build_frame_ok cc flows buf st HC HF H).
  - intros H. set (P := payload cc flows) in *. set (n := Z.of_nat (length P)) in *.
    assert (FN : 1 <= frame_length n). { unfold frame_length. pose proof (cont_nonneg n). lia. }
    unfold build_frame. destruct (put_ok buf 0 true ltac:(lia)) as [b0 E0]. rewrite E0. cbn [bind].
    destruct (put_spec _ _ _ _ E0) as (L0 & R0 & N0).
    assert (I0 : frame_inv [] buf (mk_fs b0 1 1)).
    { unfold frame_inv. cbn [length fs_buf fs_po fs_off]. change (Z.of_nat 0) with 0. change (frame_length 0) with 1. change (continuations 0) with 0.
      repeat split; try lia; try assumption. intros p Hp. rewrite N0 by lia. unfold frame_bit. cbn [length]. change (Z.of_nat 0) with 0.
      change (frame_length 0) with 1. change (continuations 0) with 0. unfold hit.
      destruct (Z.eqb_spec p 0); [reflexivity|].
      destruct (Z.leb_spec 1 (p / 64)), (Z.leb_spec (p / 64) 0); try lia; rewrite ?andb_false_r; cbn [andb];
      (destruct (Z.eqb_spec (p mod 560) 0); [reflexivity|]; destruct (Z.ltb_spec p 1); [lia|reflexivity]). }
    pose proof (add_bits_inv cc [] buf _ I0 ltac:(lia)) as S1.
    destruct (add_bits cc (mk_fs b0 1 1)) as [st1|]; cbn [bind app] in *.
    2:{ exfalso. assert (frame_length (Z.of_nat (length cc)) <= frame_length n); [|lia].
        apply frame_length_mono. unfold n, P. rewrite payload_app, app_length. lia. }
    pose proof (add_flows_inv flows cc buf st1 S1 HF) as S2. rewrite <- payload_app in S2. fold P in S2. fold n in S2.
    destruct (add_flows flows st1) as [st2|]; cbn [bind]; [|lia].
    destruct S2 as (L2 & F2 & O2 & _ & B2). fold n in F2, O2.
    destruct (put_bits_ok (repeat false (Z.to_nat (8 - fs_off st2 mod 8))) (fs_buf st2) (fs_off st2)) as [b3 E3].
    { lia. } { rewrite repeat_length, O2, L2. lia. }
    rewrite E3. cbn [bind]. eauto.
Qed.
