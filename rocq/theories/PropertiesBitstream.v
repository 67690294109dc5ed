From Verif Require Import Base BitstreamModel BitstreamSpec BitstreamProofs.

(** C05.  Reading returns the next bits in order (zero-padded to whole bytes) and advances. *)
Theorem C05_read_returns_next_bits : forall s num res,
  wf_bs s -> wf_bytes res -> ((num + 7) / 8 <= length res)%nat ->
  let k := Nat.min num (remaining s) in
  exists s' res', nextN s num res = Some (s', res', k) /\
    wf_bs s' /\ bs_buf s' = bs_buf s /\ position s' = (position s + k)%nat /\
    concat res' = overwrite (concat res) 0
      (firstn k (skipn (position s) (all_bits s)) ++ repeat false (8 * ((num + 7) / 8) - k)).
Proof.
  intros s num res W WR H k. destruct (nextN_spec s num res W WR H) as (r & E & _ & _ & C).
  exists (at_pos (bs_buf s) (position s + k)), r. split; [exact E|].
  split; [apply next_wf; [assumption|apply Nat.le_min_r]|]. split; [reflexivity|].
  split; [apply at_pos_position | exact C].
Qed.
Print Assumptions C05_read_returns_next_bits.

Theorem C05_read_into_bit_array : forall s num arr,
  wf_bs s -> (num <= length arr)%nat ->
  let k := Nat.min num (remaining s) in
  exists s', nextNv s num arr =
      Some (s', firstn k (skipn (position s) (all_bits s)) ++ repeat false (length arr - k), k) /\
    wf_bs s' /\ bs_buf s' = bs_buf s /\ position s' = (position s + k)%nat.
Proof.
  intros s num arr W H k. exists (at_pos (bs_buf s) (position s + k)). split; [exact (nextNv_spec s num arr W H)|].
  split; [apply next_wf; [assumption|apply Nat.le_min_r]|]. split; [reflexivity|apply at_pos_position].
Qed.
Print Assumptions C05_read_into_bit_array.

Example C05_read_case :
  let s := mk_bs [val_bits 8 0x12; val_bits 8 0x34; val_bits 8 0x56] 0 4 in
  wf_bs s /\ remaining s = 20%nat /\
  nextN s 12 [repeat true 8; repeat true 8] = Some (mk_bs (bs_buf s) 2 0, [val_bits 8 0x41; val_bits 8 0x03], 12%nat).
Proof. cbv zeta. split; [unfold wf_bs, wf_bytes; repeat constructor; vm_compute; auto|]. ground. Qed.

(** C05.  A peek returns the same bits and leaves the stream exactly as it was. *)
Theorem C05_peek_keeps_position : forall s num res,
  wf_bs s -> wf_bytes res -> ((num + 7) / 8 <= length res)%nat ->
  let k := Nat.min num (remaining s) in
  exists res', peekN s num res = Some (s, res', k) /\
    concat res' = overwrite (concat res) 0
      (firstn k (skipn (position s) (all_bits s)) ++ repeat false (8 * ((num + 7) / 8) - k)).
Proof. exact peekN_spec. Qed.
Print Assumptions C05_peek_keeps_position.

Theorem C05_peek_bit_array_keeps_position : forall s num arr,
  wf_bs s -> (num <= length arr)%nat ->
  let k := Nat.min num (remaining s) in
  peekNv s num arr = Some (s, firstn k (skipn (position s) (all_bits s)) ++ repeat false (length arr - k), k).
Proof. exact peekNv_spec. Qed.
Print Assumptions C05_peek_bit_array_keeps_position.

(** C05.  Seeks by less than 2^31 bits: moved exactly, or refused and nothing changed. *)
Theorem C05_seek_exact_or_refused_partial : forall s amt dir,
  wf_bs s -> 0 <= amt < 2 ^ 31 ->
  let target := Z.of_nat (position s) + dir * amt in
  ((dir = 1 \/ dir = -1) /\ 0 <= target <= 8 * Z.of_nat (bs_len s) /\
     exists s', seekG s amt dir = (s', amt) /\ bs_buf s' = bs_buf s /\ wf_bs s' /\ Z.of_nat (position s') = target)
  \/ (~ ((dir = 1 \/ dir = -1) /\ 0 <= target <= 8 * Z.of_nat (bs_len s)) /\ seekG s amt dir = (s, 0)).
Proof.
  intros s amt dir W HA target. pose proof W as (WB & HB & HP & HL). unfold target.
  destruct (Z.eq_dec dir 1) as [->|D1]; [|destruct (Z.eq_dec dir (-1)) as [->|D2]].
  - rewrite seekG_fwd by assumption.
    destruct (Z.leb_spec (Z.of_nat (position s) + amt) (Z.of_nat (8 * bs_len s))); [left|right; split; [lia|reflexivity]].
    split; [lia|]. split; [lia|]. eexists. split; [reflexivity|]. split; [reflexivity|].
    split; [apply wf_at_pos; unfold bs_len in *; try assumption; lia|]. rewrite at_pos_position. lia.
  - rewrite seekG_back by assumption.
    destruct (Z.leb_spec amt (Z.of_nat (position s))); [left|right; split; [lia|reflexivity]].
    split; [lia|]. split; [lia|]. eexists. split; [reflexivity|]. split; [reflexivity|].
    split; [apply wf_at_pos; unfold bs_len in *; try assumption; lia|]. rewrite at_pos_position. lia.
  - right. split; [lia|]. apply seekG_bad_dir; assumption.
Qed.
Print Assumptions C05_seek_exact_or_refused_partial.

(** Larger amounts wrap: a seek of 2^32-8 bits forward is granted and moves one byte back. *)
Theorem C05_huge_seek_refused_refuted :
  exists s amt s', wf_bs s /\ Z.of_nat (8 * bs_len s) < amt /\ seekG s amt 1 = (s', amt) /\
                   position s = 8%nat /\ position s' = 0%nat.
Proof.
  exists (mk_bs [val_bits 8 1; val_bits 8 2] 1 0), (2 ^ 32 - 8). eexists.
  split; [unfold wf_bs, wf_bytes; repeat constructor; vm_compute; auto|].
  split; [vm_compute; reflexivity|]. split; [vm_compute; reflexivity|]. ground.
Qed.
Print Assumptions C05_huge_seek_refused_refuted.

(** C05.  An edit that fits changes exactly the addressed bits. *)
Theorem C05_edit_is_local : forall s num src,
  wf_bs s -> wf_bytes src -> ((num + 7) / 8 <= length src)%nat -> (num <= remaining s)%nat ->
  exists s', editN s num src = Some (s', num) /\ wf_bs s' /\ bs_len s' = bs_len s /\
    position s' = (position s + num)%nat /\
    (forall j, nth_error (all_bits s') j =
       if (Nat.leb (position s) j && Nat.ltb j (position s + num))%bool
       then nth_error (concat src) (j - position s) else nth_error (all_bits s) j).
Proof.
  intros s num src W WS HL HN. destruct (editN_fits s num src W WS HL HN) as (b & E & WB & L & C).
  pose proof W as (W0 & _ & HP & HZ). pose proof (remaining_len s W) as RL.
  exists (at_pos b (position s + num)). split; [exact E|]. unfold bs_len in *.
  split; [apply wf_at_pos; try assumption; rewrite L; lia|]. split; [exact L|]. split; [apply at_pos_position|].
  intros j. unfold all_bits at 1. rewrite at_pos_buf, C.
  assert (FL : length (firstn num (concat src)) = num) by (rewrite firstn_length, concat_length by assumption; lia).
  rewrite overwrite_nth by (rewrite FL; unfold all_bits; rewrite concat_length by assumption; lia).
  rewrite FL. destruct (_ && _)%bool eqn:B; [|reflexivity].
  rewrite nth_error_firstn_lt. apply andb_prop in B. destruct B as [B1 B2].
  apply Nat.leb_le in B1. apply Nat.ltb_lt in B2. destruct (Nat.ltb_spec (j - position s) num); [reflexivity|lia].
Qed.
Print Assumptions C05_edit_is_local.

Example C05_edit_case :
  let s := mk_bs [val_bits 8 0x12; val_bits 8 0x34; val_bits 8 0x56] 0 4 in
  wf_bs s /\ (12 <= remaining s)%nat /\
  editN s 12 [val_bits 8 0xff; val_bits 8 0x00] = Some (mk_bs [val_bits 8 0xf2; val_bits 8 0x0f; val_bits 8 0x56] 2 0, 12%nat).
Proof. cbv zeta. split; [unfold wf_bs, wf_bytes; repeat constructor; vm_compute; auto|]. ground. Qed.

(** C05.  What was written is what is read back. *)
Theorem C05_write_then_read : forall s num src arr,
  wf_bs s -> wf_bytes src -> ((num + 7) / 8 <= length src)%nat -> (num <= remaining s)%nat -> length arr = num ->
  exists s' s'', editN s num src = Some (s', num) /\
    nextNv (mk_bs (bs_buf s') (bs_byte s) (bs_bit s)) num arr = Some (s'', firstn num (concat src), num).
Proof.
  intros s num src arr W WS HL HN HA. destruct (editN_fits s num src W WS HL HN) as (b & E & WB & L & C).
  exists (at_pos b (position s + num)). rewrite at_pos_buf.
  assert (WX : wf_bs (mk_bs b (bs_byte s) (bs_bit s))) by (apply wf_same_buf; assumption).
  pose proof W as (W0 & _ & HP & HZ). pose proof (remaining_len s W) as RL. unfold bs_len in *.
  assert (RX : remaining (mk_bs b (bs_byte s) (bs_bit s)) = remaining s).
  { rewrite !remaining_len by assumption. unfold bs_len. cbn [bs_buf]. rewrite L. reflexivity. }
  eexists. split; [exact E|]. rewrite nextNv_spec by (try assumption; lia). rewrite RX, Nat.min_l by assumption.
  rewrite HA, Nat.sub_diag. cbn [repeat]. rewrite app_nil_r. f_equal. f_equal. f_equal.
  unfold rest, all_bits. cbn [bs_buf]. rewrite C. unfold position in *. cbn [bs_byte bs_bit].
  fold (position s) in *.
  assert (FL : length (firstn num (concat src)) = num) by (rewrite firstn_length, concat_length by assumption; lia).
  apply nth_error_ext. intros j. rewrite !nth_error_firstn_lt, nth_error_skipn_plus.
  destruct (Nat.ltb_spec j num); [|reflexivity].
  rewrite overwrite_nth by (rewrite FL; unfold all_bits; rewrite concat_length by assumption; lia).
  rewrite FL. destruct (Nat.leb_spec (position s) (position s + j)); [|lia].
  destruct (Nat.ltb_spec (position s + j) (position s + num)); [|lia]. cbn [andb].
  rewrite nth_error_firstn_lt. replace (position s + j - position s)%nat with j by lia.
  destruct (Nat.ltb_spec j num); [reflexivity|lia].
Qed.
Print Assumptions C05_write_then_read.

(** C05.  Edits longer than what is left are not clipped: exactly when does the edit stay inside. *)
Theorem C05_edit_in_bounds_iff_partial : forall s num src,
  wf_bs s -> wf_bytes src -> ((num + 7) / 8 <= length src)%nat ->
  ((exists r, editN s num src = Some r) <->
   (num = 0 \/ 8 * ((num + 7) / 8 - 1) < remaining s \/
    (bs_byte s + bs_len s < num / 8 /\ num mod 8 = 0))%nat).
Proof.
  intros s num src W WS HL. split.
  - intros [r E]. destruct (Nat.eq_dec num 0) as [|N0]; [auto|].
    destruct (Nat.ltb_spec (8 * ((num + 7) / 8 - 1)) (remaining s)); [auto|]. right. right.
    destruct (Nat.ltb_spec (bs_byte s + bs_len s) (num / 8)), (Nat.eq_dec (num mod 8) 0) as [M|M]; auto;
      (rewrite editN_unsafe in E; [discriminate|assumption|assumption|assumption|unfold editN_safe; lia]).
  - intros H. destruct (editN_safe_spec s num src W WS HL H) as (b & E & _). eauto.
Qed.
Print Assumptions C05_edit_in_bounds_iff_partial.

Theorem C05_edit_in_bounds_refuted :
  exists s num src, wf_bs s /\ wf_bytes src /\ ((num + 7) / 8 <= length src)%nat /\ editN s num src = None.
Proof.
  exists (mk_bs [val_bits 8 1; val_bits 8 5] 1 0), 16%nat, [val_bits 8 7; val_bits 8 9].
  split; [unfold wf_bs, wf_bytes; repeat constructor; vm_compute; auto|].
  split; [unfold wf_bytes; repeat constructor|]. split; [vm_compute; auto|]. vm_compute. reflexivity.
Qed.
Print Assumptions C05_edit_in_bounds_refuted.

(** C05.  Streams made from bit arrays: exact when the length is a whole number of bytes, and an
    out-of-bounds read otherwise. *)
Theorem C05_from_bit_array_partial : forall l,
  (length l mod 8 = 0)%nat ->
  exists s, bs_of_bits l = Some s /\ wf_bytes (bs_buf s) /\ all_bits s = l /\ position s = 0%nat.
Proof. exact bs_of_bits_spec. Qed.
Print Assumptions C05_from_bit_array_partial.

Theorem C05_from_bit_array_refuted : forall l,
  (length l mod 8 <> 0)%nat -> bs_of_bits l = None.
Proof. exact bs_of_bits_oob. Qed.
Print Assumptions C05_from_bit_array_refuted.

(** C05.  Copying between streams. *)
Theorem C05_copy_between_streams : forall s num o,
  wf_bs s -> wf_bs o -> (num <= remaining s)%nat -> (num <= remaining o)%nat ->
  exists s' o', editN_bs s num o = Some (s', o', num) /\
    position s' = (position s + num)%nat /\ position o' = (position o + num)%nat /\ bs_buf o' = bs_buf o /\
    all_bits s' = overwrite (all_bits s) (position s) (firstn num (skipn (position o) (all_bits o))).
Proof.
  intros s num o W WO H1 H2. destruct (editN_bs_fits s num o W WO H1 H2) as (b & E & _ & _ & C).
  do 2 eexists. split; [exact E|]. rewrite !at_pos_position. repeat split. exact C.
Qed.
Print Assumptions C05_copy_between_streams.
