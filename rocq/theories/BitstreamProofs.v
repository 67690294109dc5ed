From Verif Require Import Base BitstreamModel BitstreamSpec.
Local Open Scope nat_scope.

(** ** overwrite *)
Lemma overwrite_length l p w : p + length w <= length l -> length (overwrite l p w) = length l.
Proof. intros H. unfold overwrite. rewrite !app_length, firstn_length, skipn_length. lia. Qed.

Lemma nth_error_skipn_plus {A} (l : list A) n j : nth_error (skipn n l) j = nth_error l (n + j).
Proof.
  revert l; induction n as [|n IH]; intros l; [reflexivity|].
  destruct l as [|x l]; cbn [skipn Nat.add nth_error]; [destruct j; reflexivity|]. apply IH.
Qed.

Lemma nth_error_firstn_lt {A} (l : list A) n j :
  nth_error (firstn n l) j = if Nat.ltb j n then nth_error l j else None.
Proof.
  revert l j; induction n as [|n IH]; intros l j; cbn [firstn].
  - destruct j; reflexivity.
  - destruct l as [|x l]; [destruct j; cbn [nth_error]; match goal with |- _ = if ?b then _ else _ => destruct b end; reflexivity|].
    destruct j as [|j]; [reflexivity|]. cbn [nth_error]. rewrite IH. reflexivity.
Qed.

Lemma nth_error_app_if {A} (l1 l2 : list A) j :
  nth_error (l1 ++ l2) j = if Nat.ltb j (length l1) then nth_error l1 j else nth_error l2 (j - length l1).
Proof.
  destruct (Nat.ltb_spec j (length l1)); [apply nth_error_app1 | apply nth_error_app2]; lia.
Qed.

Lemma overwrite_nth l p w j :
  p + length w <= length l ->
  nth_error (overwrite l p w) j =
  if (Nat.leb p j && Nat.ltb j (p + length w))%bool then nth_error w (j - p) else nth_error l j.
Proof.
  intros H. unfold overwrite.
  rewrite !nth_error_app_if, nth_error_firstn_lt, nth_error_skipn_plus, firstn_length.
  rewrite Nat.min_l by lia.
  destruct (Nat.ltb_spec j p).
  - destruct (Nat.leb_spec p j); [lia|]. reflexivity.
  - destruct (Nat.leb_spec p j); [|lia]. cbn [andb].
    destruct (Nat.ltb_spec (j - p) (length w)), (Nat.ltb_spec j (p + length w)); try lia; try reflexivity.
    f_equal. lia.
Qed.

Lemma overwrite_nil l p : overwrite l p [] = l.
Proof. unfold overwrite. cbn [app length]. rewrite Nat.add_0_r. apply firstn_skipn. Qed.

Lemma overwrite_app l p a b :
  p + length a + length b <= length l ->
  overwrite l p (a ++ b) = overwrite (overwrite l p a) (p + length a) b.
Proof.
  intros H. apply nth_error_ext. intros j.
  rewrite !overwrite_nth by (rewrite ?overwrite_length, ?app_length by lia; lia).
  rewrite app_length, nth_error_app_if.
  destruct (Nat.leb_spec p j), (Nat.ltb_spec j (p + (length a + length b))), (Nat.leb_spec (p + length a) j),
    (Nat.ltb_spec j (p + length a + length b)), (Nat.ltb_spec j (p + length a)),
    (Nat.ltb_spec (j - p) (length a)); cbn [andb]; try lia; try reflexivity.
  f_equal. lia.
Qed.

Lemma overwrite_overwrite l p a b :
  length a = length b -> p + length a <= length l -> overwrite (overwrite l p a) p b = overwrite l p b.
Proof.
  intros E H. apply nth_error_ext. intros j.
  rewrite !overwrite_nth by (rewrite ?overwrite_length by lia; lia).
  rewrite E. destruct (_ && _)%bool; reflexivity.
Qed.

Lemma overwrite_middle l1 m l2 w :
  length w = length m -> overwrite (l1 ++ m ++ l2) (length l1) w = l1 ++ w ++ l2.
Proof.
  intros E. unfold overwrite. rewrite firstn_app, firstn_all, Nat.sub_diag. cbn [firstn]. rewrite app_nil_r.
  f_equal. f_equal. rewrite E, skipn_app. rewrite skipn_all2 by lia. cbn [app].
  replace (length l1 + length m - length l1) with (length m) by lia.
  rewrite skipn_app, skipn_all, Nat.sub_diag. reflexivity.
Qed.

Lemma overwrite_app_l l1 l2 p w :
  p + length w <= length l1 -> overwrite (l1 ++ l2) p w = overwrite l1 p w ++ l2.
Proof.
  intros H. unfold overwrite. rewrite firstn_app, skipn_app.
  replace (p - length l1) with 0 by lia. replace (p + length w - length l1) with 0 by lia.
  cbn [firstn skipn]. rewrite app_nil_r, <- !app_assoc. reflexivity.
Qed.

Lemma overwrite_app_r l1 l2 p w :
  overwrite (l1 ++ l2) (length l1 + p) w = l1 ++ overwrite l2 p w.
Proof.
  unfold overwrite. rewrite firstn_app, firstn_all2 by lia.
  replace (length l1 + p - length l1) with p by lia. rewrite <- app_assoc. f_equal. f_equal. f_equal.
  rewrite skipn_app, skipn_all2 by lia. cbn [app]. f_equal. lia.
Qed.

Lemma overwrite_cons_step l i b : i < length l -> upd l i b = Some (overwrite l i [b]).
Proof.
  intros H. destruct (upd l i b) as [l'|] eqn:E; [|apply upd_none_iff in E; lia].
  f_equal. apply nth_error_ext. intros j.
  rewrite (upd_nth_error _ _ _ _ E), overwrite_nth by (cbn; lia). cbn [length].
  destruct (Nat.eqb_spec j i), (Nat.leb_spec i j), (Nat.ltb_spec j (i + 1)); cbn [andb]; try lia; try reflexivity.
  subst. rewrite Nat.sub_diag. reflexivity.
Qed.

(** ** the bit loops *)
Lemma rd_loop_spec k : forall val u i,
  k <= length val -> i + k <= length u ->
  rd_loop k val u i = Some (overwrite u i (firstn k val)).
Proof.
  induction k as [|k IH]; intros val u i H1 H2; cbn [rd_loop].
  - cbn [firstn]. rewrite overwrite_nil. reflexivity.
  - destruct val as [|v val]; [cbn in H1; lia|]. cbn [hd tl length] in *.
    rewrite overwrite_cons_step by lia. rewrite IH; try (rewrite ?overwrite_length; cbn [length]; lia).
    f_equal. cbn [firstn]. change (v :: firstn k val) with ([v] ++ firstn k val).
    rewrite overwrite_app by (rewrite firstn_length; cbn [length]; lia).
    cbn [length]. rewrite Nat.add_1_r. reflexivity.
Qed.

Lemma wr_loop_spec k : forall old v i,
  k <= length v -> i + k <= length old ->
  wr_loop k old v i = Some (overwrite old i (firstn k v), skipn k v).
Proof.
  induction k as [|k IH]; intros old v i H1 H2; cbn [wr_loop].
  - cbn [firstn skipn]. rewrite overwrite_nil. reflexivity.
  - destruct v as [|x v]; [cbn in H1; lia|]. cbn [hd tl length] in *.
    rewrite overwrite_cons_step by lia. rewrite IH; try (rewrite ?overwrite_length; cbn [length]; lia).
    f_equal. cbn [firstn skipn]. change (x :: firstn k v) with ([x] ++ firstn k v).
    rewrite overwrite_app by (rewrite firstn_length; cbn [length]; lia).
    cbn [length]. rewrite Nat.add_1_r. reflexivity.
Qed.

(** ** bytes and bits *)
Lemma concat_length l : wf_bytes l -> length (concat l) = 8 * length l.
Proof.
  induction 1 as [|b l Hb Hl IH]; [reflexivity|]. cbn [concat length]. rewrite app_length, IH, Hb. lia.
Qed.

Lemma wf_bytes_app l1 l2 : wf_bytes (l1 ++ l2) <-> wf_bytes l1 /\ wf_bytes l2.
Proof. unfold wf_bytes. apply Forall_app. Qed.

Lemma byte_split (l : list byte) i v :
  wf_bytes l -> nth_error l i = Some v ->
  exists l1 l2, l = l1 ++ v :: l2 /\ length l1 = i /\ length v = 8 /\ wf_bytes l1 /\ wf_bytes l2 /\
                length (concat l1) = 8 * i.
Proof.
  intros W E. apply nth_error_split in E. destruct E as (l1 & l2 & -> & L).
  apply wf_bytes_app in W. destruct W as [W1 W2]. inversion W2 as [|? ? Hv W2']; subst.
  exists l1, l2. repeat split; try assumption. apply concat_length in W1. congruence.
Qed.

Lemma upd_concat (l l' : list byte) i v j x :
  wf_bytes l -> nth_error l i = Some v -> j + length x <= 8 ->
  upd l i (overwrite v j x) = Some l' ->
  wf_bytes l' /\ length l' = length l /\ concat l' = overwrite (concat l) (8 * i + j) x.
Proof.
  intros W E H U. destruct (byte_split l i v W E) as (l1 & l2 & -> & L & Lv & W1 & W2 & C).
  rewrite upd_app_r in U by lia. rewrite L, Nat.sub_diag in U. cbn [upd] in U. injection U as <-.
  split; [|split].
  - apply wf_bytes_app. split; [assumption|]. constructor; [|assumption]. rewrite overwrite_length; lia.
  - rewrite !app_length. reflexivity.
  - rewrite !concat_app. cbn [concat]. rewrite <- C, overwrite_app_r. f_equal.
    rewrite overwrite_app_l by lia. reflexivity.
Qed.

(** ** positions *)
Definition at_pos (buf : list byte) (p : nat) : bstream := mk_bs buf (p / 8) (p mod 8).

Lemma at_pos_self s : bs_bit s < 8 -> s = at_pos (bs_buf s) (position s).
Proof.
  destruct s as [buf b i]. unfold at_pos, position. cbn [bs_buf bs_byte bs_bit]. intros H. f_equal; lia.
Qed.

Lemma at_pos_position buf p : position (at_pos buf p) = p.
Proof. unfold position, at_pos. cbn [bs_byte bs_bit]. lia. Qed.

Lemma wf_at_pos buf p :
  wf_bytes buf -> p <= 8 * length buf -> (8 * Z.of_nat (length buf) < 2 ^ 31 - 8)%Z -> wf_bs (at_pos buf p).
Proof.
  intros W H Z. unfold wf_bs. rewrite at_pos_position. unfold at_pos, bs_len; cbn [bs_buf bs_bit].
  repeat split; try assumption. lia.
Qed.

Lemma s32_id x : (- 2 ^ 31 <= x < 2 ^ 31)%Z -> s32 x = x.
Proof. intros H. unfold s32. apply swrap_id; [lia|]. change (32 - 1)%Z with 31%Z. lia. Qed.

(** seek, for amounts below 2^31 *)
Lemma seekG_fwd s amt :
  wf_bs s -> (0 <= amt < 2 ^ 31)%Z ->
  seekG s amt 1 = if (Z.of_nat (position s) + amt <=? Z.of_nat (8 * bs_len s))%Z
                  then (at_pos (bs_buf s) (position s + Z.to_nat amt), amt) else (s, 0%Z).
Proof.
  intros (W & HB & HP & HL) HA. unfold seekG. change (negb (1 =? -1)%Z && negb (1 =? 1)%Z)%bool with false. cbv iota zeta. unfold position in *.
  rewrite (u32_id (8 * _ + _)) by lia. rewrite (s32_id (8 * Z.of_nat (bs_byte s) + _)) by lia.
  rewrite (s32_id (8 * Z.of_nat (bs_len s))) by lia.
  destruct (Z.leb_spec (Z.of_nat (8 * bs_byte s + bs_bit s) + amt) (Z.of_nat (8 * bs_len s))) as [H|H].
  - rewrite s32_id by lia.
    destruct (Z.ltb_spec (8 * Z.of_nat (bs_len s)) (8 * Z.of_nat (bs_byte s) + Z.of_nat (bs_bit s) + 1 * amt)); [lia|].
    destruct (Z.ltb_spec (8 * Z.of_nat (bs_byte s) + Z.of_nat (bs_bit s) + 1 * amt) 0); [lia|].
    cbn [orb]. f_equal. unfold at_pos. f_equal; lia.
  - unfold s32, swrap. change (32 - 1)%Z with 31%Z.
    match goal with |- context [((?a + 2 ^ 31) mod 2 ^ 32 - 2 ^ 31)%Z] => set (d := a) end.
    assert (Hd : (8 * Z.of_nat (bs_len s) < d < 2 ^ 32)%Z) by (unfold d; lia). clearbody d.
    assert (E : ((d + 2 ^ 31) mod 2 ^ 32 - 2 ^ 31)%Z = if (d <? 2 ^ 31)%Z then d else (d - 2 ^ 32)%Z).
    { destruct (Z.ltb_spec d (2 ^ 31)).
      - rewrite Z.mod_small by lia. lia.
      - replace (d + 2 ^ 31)%Z with (d - 2 ^ 31 + 1 * 2 ^ 32)%Z by lia. rewrite Z.mod_add by lia.
        rewrite Z.mod_small by lia. lia. }
    rewrite E. destruct (Z.ltb_spec d (2 ^ 31)).
    + destruct (Z.ltb_spec (8 * Z.of_nat (bs_len s)) d); [reflexivity|lia].
    + destruct (Z.ltb_spec (d - 2 ^ 32) 0); [rewrite orb_true_r; reflexivity|lia].
Qed.

Lemma seekG_back s amt :
  wf_bs s -> (0 <= amt < 2 ^ 31)%Z ->
  seekG s amt (-1) = if (amt <=? Z.of_nat (position s))%Z
                     then (at_pos (bs_buf s) (position s - Z.to_nat amt), amt) else (s, 0%Z).
Proof.
  intros (W & HB & HP & HL) HA. unfold seekG. change (-1 =? -1)%Z with true. cbn [negb andb]. cbv zeta.
  unfold position in *.
  rewrite (u32_id (8 * _ + _)) by lia. rewrite (s32_id (8 * Z.of_nat (bs_byte s) + _)) by lia.
  rewrite (s32_id (8 * Z.of_nat (bs_len s))) by lia. rewrite s32_id by lia.
  destruct (Z.leb_spec amt (Z.of_nat (8 * bs_byte s + bs_bit s))) as [H|H].
  - destruct (Z.ltb_spec (8 * Z.of_nat (bs_len s)) (8 * Z.of_nat (bs_byte s) + Z.of_nat (bs_bit s) + -1 * amt)); [lia|].
    destruct (Z.ltb_spec (8 * Z.of_nat (bs_byte s) + Z.of_nat (bs_bit s) + -1 * amt) 0); [lia|].
    cbn [orb]. f_equal. unfold at_pos. f_equal; lia.
  - destruct (Z.ltb_spec (8 * Z.of_nat (bs_byte s) + Z.of_nat (bs_bit s) + -1 * amt) 0); [|lia].
    rewrite orb_true_r. reflexivity.
Qed.

Lemma seekG_bad_dir s amt dir : dir <> 1%Z -> dir <> (-1)%Z -> seekG s amt dir = (s, 0%Z).
Proof.
  intros H1 H2. unfold seekG. destruct (Z.eqb_spec dir (-1)); [contradiction|].
  destruct (Z.eqb_spec dir 1); [contradiction|]. reflexivity.
Qed.

Lemma seek_small s k :
  wf_bs s -> position s + k <= 8 * bs_len s ->
  fst (seekG s (Z.of_nat k) 1) = at_pos (bs_buf s) (position s + k).
Proof.
  intros W H. pose proof W as (_ & _ & _ & HL). rewrite seekG_fwd by (try assumption; lia).
  destruct (Z.leb_spec (Z.of_nat (position s) + Z.of_nat k) (Z.of_nat (8 * bs_len s))); [|lia].
  cbn [fst]. rewrite Nat2Z.id. reflexivity.
Qed.

Lemma seek_back_small s k :
  wf_bs s -> k <= position s ->
  fst (seekG s (Z.of_nat k) (-1)) = at_pos (bs_buf s) (position s - k).
Proof.
  intros W H. pose proof W as (_ & _ & HP & HL). rewrite seekG_back by (try assumption; lia).
  destruct (Z.leb_spec (Z.of_nat k) (Z.of_nat (position s))); [|lia].
  cbn [fst]. rewrite Nat2Z.id. reflexivity.
Qed.

(** ** next *)
Definition rest (s : bstream) : list bool := skipn (position s) (all_bits s).

Lemma remaining_len s : wf_bs s -> remaining s = 8 * bs_len s - position s.
Proof. intros (W & _). unfold remaining, all_bits. rewrite concat_length by assumption. reflexivity. Qed.

Lemma rest_length s : wf_bs s -> length (rest s) = remaining s.
Proof. intros W. unfold rest. rewrite skipn_length. reflexivity. Qed.

Lemma has_next_iff s : wf_bs s -> has_next s = true <-> 0 < remaining s.
Proof.
  intros W. pose proof W as (_ & HB & HP & _). rewrite remaining_len by assumption.
  unfold has_next. rewrite Nat.ltb_lt. unfold position in *. lia.
Qed.

(** the bits at the position, as pieces of the current and following byte *)
Lemma rest_pieces s v :
  wf_bs s -> nth_error (bs_buf s) (bs_byte s) = Some v ->
  exists l1 l2, bs_buf s = l1 ++ v :: l2 /\ length l1 = bs_byte s /\ length v = 8 /\ wf_bytes l2 /\
    rest s = skipn (bs_bit s) v ++ concat l2.
Proof.
  intros (W & HB & _) E. destruct (byte_split _ _ _ W E) as (l1 & l2 & EQ & L & Lv & W1 & W2 & C).
  exists l1, l2. repeat split; try assumption. unfold rest, all_bits, position. rewrite EQ.
  rewrite concat_app. cbn [concat]. rewrite <- C, skipn_app, skipn_all2 by lia. cbn [app].
  replace (length (concat l1) + bs_bit s - length (concat l1)) with (bs_bit s) by lia.
  rewrite skipn_app. replace (bs_bit s - length v) with 0 by lia. reflexivity.
Qed.

Lemma firstn_app_le {A} (l1 l2 : list A) n : n <= length l1 -> firstn n (l1 ++ l2) = firstn n l1.
Proof. intros H. rewrite firstn_app. replace (n - length l1) with 0 by lia. cbn [firstn]. apply app_nil_r. Qed.

Lemma firstn_app_ge {A} (l1 l2 : list A) n :
  length l1 <= n -> firstn n (l1 ++ l2) = l1 ++ firstn (n - length l1) l2.
Proof. intros H. rewrite firstn_app, firstn_all2 by lia. reflexivity. Qed.

Lemma next_spec s num u :
  wf_bs s -> 0 < remaining s -> num <= 8 -> length u = 8 ->
  let k := Nat.min num (remaining s) in
  next s num u = Some (at_pos (bs_buf s) (position s + k), overwrite u 0 (firstn k (rest s)), k).
Proof.
  intros W R HN HU k. pose proof W as (WB & HB & HP & HL).
  pose proof (has_next_iff s W) as [_ HX]. specialize (HX R). unfold has_next in HX. apply Nat.ltb_lt in HX.
  pose proof (remaining_len s W) as RL. unfold bs_len in *.
  unfold next. destruct (Nat.ltb_spec 8 num); [lia|].
  destruct (nth_error (bs_buf s) (bs_byte s)) as [v|] eqn:E; [|apply nth_error_None in E; lia].
  destruct (rest_pieces s v W E) as (l1 & l2 & EQ & L1 & Lv & W2 & RE).
  assert (HLB : length (bs_buf s) = bs_byte s + 1 + length l2) by (rewrite EQ, app_length, L1; cbn; lia).
  cbv zeta. set (k1 := Nat.min (8 - bs_bit s) num).
  assert (SL : length (skipn (bs_bit s) v) = 8 - bs_bit s) by (rewrite skipn_length; lia).
  rewrite rd_loop_spec by lia. unfold bs_len.
  destruct (Nat.ltb_spec (bs_byte s + 1) (length (bs_buf s))) as [H1|H1].
  - destruct (Nat.ltb_spec k1 num) as [H2|H2]; cbn [andb].
    + destruct l2 as [|v2 l2']; [cbn in HLB; lia|].
      inversion W2 as [|? ? Hv2 W2']; subst.
      replace (nth_error (bs_buf s) (bs_byte s + 1)) with (Some v2).
      2:{ rewrite EQ, nth_error_app2 by lia. replace (bs_byte s + 1 - length l1) with 1 by lia. reflexivity. }
      set (k2 := Nat.min (bs_bit s) (num - k1)).
      assert (K : k1 + k2 = k).
      { unfold k, k1, k2 in *. rewrite RL. unfold position in *. lia. }
      rewrite rd_loop_spec; [|unfold k2; lia|rewrite overwrite_length; [unfold k1, k2; lia| rewrite firstn_length; lia]].
      rewrite seek_small by (try assumption; unfold bs_len, k1, k2, position in *; lia).
      rewrite K. f_equal. f_equal. f_equal.
      assert (K1 : k1 = 8 - bs_bit s) by (unfold k1 in *; lia).
      replace (firstn k (rest s)) with (firstn k1 (skipn (bs_bit s) v) ++ firstn k2 v2).
      2:{ rewrite RE. rewrite firstn_app_ge by (rewrite SL; lia). f_equal; [rewrite firstn_all2; [reflexivity|lia]|].
          cbn [concat]. rewrite SL, firstn_app_le by (unfold k2 in *; lia). f_equal. lia. }
      rewrite overwrite_app by (rewrite !firstn_length; unfold k2 in *; lia). f_equal.
      cbn [Nat.add]. rewrite firstn_length. lia.
    + assert (K : k1 = k) by (unfold k, k1 in *; rewrite RL; unfold position in *; lia).
      rewrite seek_small by (try assumption; unfold bs_len, k1, position in *; lia).
      rewrite K. f_equal. f_equal. f_equal. rewrite RE, firstn_app_le by lia. reflexivity.
  - cbn [andb]. assert (K : k1 = k) by (unfold k, k1 in *; rewrite RL; unfold position in *; lia).
    rewrite seek_small by (try assumption; unfold bs_len, k1, position in *; lia).
    rewrite K. f_equal. f_equal. f_equal. rewrite RE, firstn_app_le by lia. reflexivity.
Qed.

Lemma next_wf s k : wf_bs s -> k <= remaining s -> wf_bs (at_pos (bs_buf s) (position s + k)).
Proof.
  intros W H. pose proof W as (WB & _ & HP & HL). rewrite remaining_len in H by assumption.
  apply wf_at_pos; unfold bs_len in *; try assumption; lia.
Qed.

Lemma remaining_adv s k : wf_bs s -> remaining (at_pos (bs_buf s) (position s + k)) = remaining s - k.
Proof. intros W. unfold remaining, all_bits. rewrite at_pos_position. cbn [at_pos bs_buf]. lia. Qed.

Lemma skipn_skipn_plus {A} (l : list A) a b : skipn a (skipn b l) = skipn (b + a) l.
Proof. revert l; induction b as [|b IH]; intros l; [reflexivity|]. destruct l; [rewrite !skipn_nil; reflexivity|]. apply IH. Qed.

Lemma rest_adv s k : rest (at_pos (bs_buf s) (position s + k)) = skipn k (rest s).
Proof.
  unfold rest. rewrite at_pos_position. unfold all_bits, at_pos; cbn [bs_buf].
  symmetry. apply skipn_skipn_plus.
Qed.

Lemma at_pos_buf buf p : bs_buf (at_pos buf p) = buf.
Proof. reflexivity. Qed.

Lemma at_pos_adv s k j :
  at_pos (bs_buf (at_pos (bs_buf s) (position s + k))) (position (at_pos (bs_buf s) (position s + k)) + j)
  = at_pos (bs_buf s) (position s + (k + j)).
Proof. rewrite at_pos_position. rewrite at_pos_buf. f_equal. lia. Qed.

Lemma firstn_split {A} (l : list A) a b : firstn (a + b) l = firstn a l ++ firstn b (skipn a l).
Proof.
  revert l; induction a as [|a IH]; intros l; [reflexivity|].
  destruct l; cbn [Nat.add firstn skipn]; [rewrite firstn_nil; reflexivity|]. cbn [app]. f_equal. apply IH.
Qed.

(** ** nextN *)
Lemma nextN_loop_spec iters : forall i s res w,
  wf_bs s -> wf_bytes res -> i + iters <= length res ->
  let k := Nat.min (8 * iters) (remaining s) in
  exists res', nextN_loop iters i s res w = Some (at_pos (bs_buf s) (position s + k), res', w + k) /\
    wf_bytes res' /\ length res' = length res /\
    concat res' = overwrite (concat res) (8 * i) (firstn k (rest s)).
Proof.
  induction iters as [|n IH]; intros i s res w W WR HL k.
  - exists res. cbn [nextN_loop]. replace k with 0 by (unfold k; lia). rewrite !Nat.add_0_r.
    rewrite <- at_pos_self by apply W. cbn [firstn]. rewrite overwrite_nil. auto.
  - cbn [nextN_loop]. destruct (has_next s) eqn:HN.
    + apply has_next_iff in HN; [|assumption].
      destruct (nth_error res i) as [u|] eqn:EU; [|apply nth_error_None in EU; lia].
      assert (HU : length u = 8).
      { unfold wf_bytes in WR. rewrite Forall_forall in WR. apply WR. eapply nth_error_In; eauto. }
      pose proof (next_spec s 8 u W HN (le_n 8) HU) as EN. cbv zeta in EN.
      set (a := Nat.min 8 (remaining s)) in *. rewrite EN.
      destruct (upd res i (overwrite u 0 (firstn a (rest s)))) as [res1|] eqn:EUP.
      2:{ apply upd_none_iff in EUP. lia. }
      assert (FL : length (firstn a (rest s)) = a).
      { rewrite firstn_length, rest_length by assumption. unfold a. lia. }
      destruct (upd_concat res res1 i u 0 (firstn a (rest s)) WR EU) as (WR1 & L1 & C1); [rewrite FL; unfold a; lia|assumption|].
      assert (W1 : wf_bs (at_pos (bs_buf s) (position s + a))) by (apply next_wf; [assumption|unfold a; lia]).
      destruct (IH (S i) _ res1 (w + a) W1 WR1 ltac:(lia)) as (res' & E' & WR' & L' & C').
      rewrite remaining_adv in * by assumption. rewrite rest_adv in C'. rewrite at_pos_adv in E'.
      set (b := Nat.min (8 * n) (remaining s - a)) in *.
      assert (K : k = a + b) by (unfold k, a, b; lia).
      exists res'. split; [|split; [assumption|split; [congruence|]]].
      * rewrite E'. rewrite K. f_equal. f_equal. lia.
      * rewrite C', C1, K, firstn_split.
        destruct (Nat.eq_dec b 0) as [B0|B0].
        { rewrite B0. cbn [firstn]. rewrite app_nil_r, overwrite_nil, Nat.add_0_r. reflexivity. }
        assert (A8 : a = 8) by (unfold a, b in *; lia).
        rewrite overwrite_app.
        { rewrite FL, Nat.add_0_r. f_equal. lia. }
        rewrite FL, firstn_length, skipn_length, rest_length by assumption.
        rewrite concat_length by assumption. unfold b. lia.
    + assert (R0 : remaining s = 0).
      { destruct (Nat.eq_dec (remaining s) 0); [assumption|].
        assert (has_next s = true) by (apply has_next_iff; [assumption|lia]). congruence. }
      exists res. replace k with 0 by (unfold k; lia). rewrite !Nat.add_0_r.
      rewrite <- at_pos_self by apply W. cbn [firstn]. rewrite overwrite_nil. auto.
Qed.

Lemma memset0_spec n : forall res,
  wf_bytes res -> n <= length res ->
  exists res', memset0 res n = Some res' /\ wf_bytes res' /\ length res' = length res /\
    concat res' = overwrite (concat res) 0 (repeat false (8 * n)).
Proof.
  induction n as [|n IH]; intros res W H.
  - exists res. destruct res; cbn [memset0]; rewrite Nat.mul_0_r; cbn [repeat]; rewrite overwrite_nil; auto.
  - destruct res as [|b res]; [cbn in H; lia|]. inversion W as [|? ? Hb W']; subst.
    destruct (IH res W' ltac:(cbn in H; lia)) as (res' & E & WR & L & C).
    cbn [memset0]. rewrite E. exists (zero_byte :: res'). split; [reflexivity|].
    split; [constructor; [reflexivity|assumption]|]. split; [cbn; congruence|].
    cbn [concat]. rewrite C.
    replace (8 * S n) with (8 + 8 * n) by lia. rewrite repeat_app.
    assert (LR : length (repeat false (8 * n)) <= length (concat res)).
    { rewrite repeat_length, concat_length by assumption. cbn in H. lia. }
    rewrite overwrite_app by (rewrite app_length, !repeat_length in *; lia).
    rewrite repeat_length. change (0 + 8) with (8 + 0). rewrite <- Hb at 3.
    rewrite overwrite_app_l by (cbn; lia).
    change (length b) with (length b).
    assert (OB : overwrite b 0 (repeat false 8) = zero_byte).
    { unfold overwrite, zero_byte. cbn [firstn app Nat.add]. rewrite repeat_length, skipn_all2 by lia. apply app_nil_r. }
    rewrite OB. replace (length b + 0) with (length zero_byte + 0) by (rewrite Hb; reflexivity).
    rewrite overwrite_app_r. reflexivity.
Qed.

Lemma nextN_spec s num res :
  wf_bs s -> wf_bytes res -> (num + 7) / 8 <= length res ->
  let k := Nat.min num (remaining s) in
  exists res', nextN s num res = Some (at_pos (bs_buf s) (position s + k), res', k) /\
    wf_bytes res' /\ length res' = length res /\
    concat res' = overwrite (concat res) 0 (firstn k (rest s) ++ repeat false (8 * ((num + 7) / 8) - k)).
Proof.
  intros W WR HL k.
  destruct (memset0_spec ((num + 7) / 8) res WR HL) as (r0 & E0 & W0 & L0 & C0).
  unfold nextN. rewrite E0. cbv zeta.
  assert (HI : 0 + num / 8 <= length r0) by lia.
  destruct (nextN_loop_spec (num / 8) 0 s r0 0 W W0 HI) as (r1 & E1 & W1 & L1 & C1).
  cbv zeta in E1, C1. set (a := Nat.min (8 * (num / 8)) (remaining s)) in *. rewrite E1.
  assert (WA : wf_bs (at_pos (bs_buf s) (position s + a))) by (apply next_wf; [assumption|unfold a; lia]).
  assert (FA : length (firstn a (rest s)) = a).
  { rewrite firstn_length, rest_length by assumption. unfold a. lia. }
  assert (G : forall x, a <= x <= 8 * ((num + 7) / 8) -> x <= remaining s ->
    overwrite (concat r0) 0 (firstn x (rest s)) =
    overwrite (concat res) 0 (firstn x (rest s) ++ repeat false (8 * ((num + 7) / 8) - x))).
  { intros x Hx Hr. rewrite C0.
    assert (LF : length (firstn x (rest s)) = x) by (rewrite firstn_length, rest_length by assumption; lia).
    assert (LC : 8 * ((num + 7) / 8) <= length (concat res)) by (rewrite concat_length by assumption; lia).
    apply nth_error_ext. intros j.
    rewrite !overwrite_nth; rewrite ?overwrite_length; rewrite ?app_length, ?repeat_length, ?LF; try lia.
    rewrite nth_error_app_if, LF, !Nat.sub_0_r. cbn [Nat.leb andb Nat.add].
    destruct (Nat.ltb_spec j x), (Nat.ltb_spec j (x + (8 * ((num + 7) / 8) - x))),
      (Nat.ltb_spec j (8 * ((num + 7) / 8))); try lia; try reflexivity.
    rewrite !nth_error_repeat by lia. reflexivity. }
  destruct (Nat.eqb_spec (num mod 8) 0) as [M|M]; cbn [negb andb].
  - assert (K : a = k) by (unfold a, k; lia). exists r1. rewrite <- K.
    split; [reflexivity|]. split; [assumption|]. split; [congruence|].
    rewrite C1, Nat.mul_0_r. rewrite G by (unfold a in *; lia). reflexivity.
  - destruct (has_next (at_pos (bs_buf s) (position s + a))) eqn:HN; cbn [andb].
    + apply has_next_iff in HN; [|assumption].
      assert (A8 : a = 8 * (num / 8)) by (rewrite remaining_adv in HN by assumption; unfold a in *; lia).
      destruct (nth_error r1 (num / 8)) as [u|] eqn:EU; [|apply nth_error_None in EU; lia].
      assert (HU : length u = 8).
      { unfold wf_bytes in W1. rewrite Forall_forall in W1. apply W1. eapply nth_error_In; eauto. }
      pose proof (next_spec _ (num mod 8) u WA HN ltac:(lia) HU) as EN. cbv zeta in EN.
      rewrite rest_adv, at_pos_adv, remaining_adv in EN by assumption. rewrite remaining_adv in HN by assumption.
      set (b := Nat.min (num mod 8) (remaining s - a)) in *. rewrite EN.
      assert (FB : length (firstn b (skipn a (rest s))) = b).
      { rewrite firstn_length, skipn_length, rest_length by assumption. unfold b. lia. }
      destruct (upd r1 (num / 8) (overwrite u 0 (firstn b (skipn a (rest s))))) as [r2|] eqn:EUP.
      2:{ apply upd_none_iff in EUP. lia. }
      destruct (upd_concat r1 r2 _ u 0 _ W1 EU ltac:(rewrite FB; unfold b; lia) EUP) as (WR2 & L2 & C2).
      assert (K : k = a + b) by (unfold a, b, k in *; lia).
      exists r2. rewrite K. split; [f_equal; f_equal; lia|]. split; [assumption|]. split; [congruence|].
      rewrite C2, C1, <- K, <- G by (unfold k, a in *; lia). rewrite K, firstn_split.
      rewrite overwrite_app. { rewrite FA. f_equal. lia. }
      rewrite FA, FB, concat_length by assumption. unfold b. lia.
    + assert (R0 : remaining s <= a).
      { destruct (Nat.eq_dec (remaining s - a) 0); [lia|].
        assert (has_next (at_pos (bs_buf s) (position s + a)) = true); [|congruence].
        apply has_next_iff; [assumption|]. rewrite remaining_adv by assumption. lia. }
      assert (K : a = k) by (unfold a, k in *; lia). exists r1. rewrite <- K.
      split; [reflexivity|]. split; [assumption|]. split; [congruence|].
      rewrite C1, Nat.mul_0_r. rewrite G by (unfold a in *; lia). reflexivity.
Qed.

(** ** nextN into a bit array *)
Lemma next_one s x :
  wf_bs s -> 0 < remaining s ->
  exists b t, rest s = b :: t /\
    next s 1 (x :: repeat false 7) = Some (at_pos (bs_buf s) (position s + 1), b :: repeat false 7, 1).
Proof.
  intros W R. pose proof (next_spec s 1 (x :: repeat false 7) W R ltac:(lia) eq_refl) as E. cbv zeta in E.
  replace (Nat.min 1 (remaining s)) with 1 in E by lia.
  pose proof (rest_length s W) as RL. destruct (rest s) as [|b t]; [cbn in RL; lia|].
  exists b, t. split; [reflexivity|]. exact E.
Qed.

Lemma nextNv_loop_spec fuel : forall s arr w x,
  wf_bs s -> w + fuel <= length arr ->
  let k := Nat.min fuel (remaining s) in
  nextNv_loop fuel s arr w (x :: repeat false 7) =
    Some (at_pos (bs_buf s) (position s + k), overwrite arr w (firstn k (rest s)), w + k).
Proof.
  induction fuel as [|n IH]; intros s arr w x W H k.
  - replace k with 0 by (unfold k; lia). cbn [nextNv_loop firstn]. rewrite overwrite_nil, !Nat.add_0_r.
    rewrite <- at_pos_self by apply W. reflexivity.
  - cbn [nextNv_loop]. destruct (has_next s) eqn:HN.
    + apply has_next_iff in HN; [|assumption]. destruct (next_one s x W HN) as (b & t & RE & E). rewrite E.
      cbn [Nat.eqb]. replace (existsb (fun b => b) (b :: repeat false 7)) with b by (destruct b; reflexivity).
      rewrite overwrite_cons_step by lia.
      assert (W1 : wf_bs (at_pos (bs_buf s) (position s + 1))) by (apply next_wf; [assumption|lia]).
      rewrite IH; [|assumption|rewrite overwrite_length; cbn [length]; lia].
      rewrite remaining_adv, rest_adv, at_pos_adv by assumption.
      set (j := Nat.min n (remaining s - 1)). assert (K : k = 1 + j) by (unfold k, j; lia).
      rewrite K, RE. cbn [Nat.add firstn skipn].
      change (b :: firstn j t) with ([b] ++ firstn j t).
      assert (LT : length t = remaining s - 1) by (pose proof (rest_length s W) as RL; rewrite RE in RL; cbn in RL; lia).
      rewrite overwrite_app by (rewrite firstn_length; cbn [length]; lia).
      cbn [length]. rewrite Nat.add_1_r. f_equal. f_equal. lia.
    + assert (R0 : remaining s = 0).
      { destruct (Nat.eq_dec (remaining s) 0); [assumption|].
        assert (has_next s = true) by (apply has_next_iff; [assumption|lia]). congruence. }
      replace k with 0 by (unfold k; lia). cbn [firstn]. rewrite overwrite_nil, !Nat.add_0_r.
      rewrite <- at_pos_self by apply W. reflexivity.
Qed.

Lemma nextNv_spec s num arr :
  wf_bs s -> num <= length arr ->
  let k := Nat.min num (remaining s) in
  nextNv s num arr =
    Some (at_pos (bs_buf s) (position s + k), firstn k (rest s) ++ repeat false (length arr - k), k).
Proof.
  intros W H k. unfold nextNv. destruct (Nat.ltb_spec (length arr) num); [lia|].
  change zero_byte with (false :: repeat false 7).
  rewrite nextNv_loop_spec by (try assumption; rewrite repeat_length; lia). cbn [Nat.add]. fold k.
  f_equal. f_equal. f_equal.
  unfold overwrite. cbn [firstn app Nat.add]. f_equal.
  assert (LF : length (firstn k (rest s)) = k).
  { rewrite firstn_length, rest_length by assumption. unfold k. lia. }
  rewrite LF. replace (length arr) with (k + (length arr - k)) at 1 by (unfold k; lia).
  rewrite repeat_app, skipn_app, repeat_length, Nat.sub_diag, skipn_all2 by (rewrite repeat_length; lia).
  reflexivity.
Qed.

Lemma nextNv_refused s num arr : length arr < num -> nextNv s num arr = Some (s, arr, 0).
Proof. intros H. unfold nextNv. apply Nat.ltb_lt in H. rewrite H. reflexivity. Qed.

(** ** peek *)
Lemma peekN_spec s num res :
  wf_bs s -> wf_bytes res -> (num + 7) / 8 <= length res ->
  let k := Nat.min num (remaining s) in
  exists res', peekN s num res = Some (s, res', k) /\
    concat res' = overwrite (concat res) 0 (firstn k (rest s) ++ repeat false (8 * ((num + 7) / 8) - k)).
Proof.
  intros W WR HL k. destruct (nextN_spec s num res W WR HL) as (r & E & _ & _ & C). fold k in E, C.
  exists r. split; [|exact C]. unfold peekN. rewrite E.
  assert (W1 : wf_bs (at_pos (bs_buf s) (position s + k))) by (apply next_wf; [assumption|unfold k; lia]).
  rewrite seek_back_small by (try assumption; rewrite at_pos_position; lia).
  rewrite at_pos_position, at_pos_buf. replace (position s + k - k) with (position s) by lia.
  rewrite <- at_pos_self by apply W. reflexivity.
Qed.

Lemma peekNv_spec s num arr :
  wf_bs s -> num <= length arr ->
  let k := Nat.min num (remaining s) in
  peekNv s num arr = Some (s, firstn k (rest s) ++ repeat false (length arr - k), k).
Proof.
  intros W H k. unfold peekNv. rewrite nextNv_spec by assumption. fold k.
  assert (W1 : wf_bs (at_pos (bs_buf s) (position s + k))) by (apply next_wf; [assumption|unfold k; lia]).
  rewrite seek_back_small by (try assumption; rewrite at_pos_position; lia).
  rewrite at_pos_position, at_pos_buf. replace (position s + k - k) with (position s) by lia.
  rewrite <- at_pos_self by apply W. reflexivity.
Qed.

(** ** edit *)
Lemma wf_same_buf s buf :
  wf_bs s -> wf_bytes buf -> length buf = length (bs_buf s) -> wf_bs (mk_bs buf (bs_byte s) (bs_bit s)).
Proof.
  intros (W & HB & HP & HL) WB L. unfold wf_bs, position, bs_len in *. cbn [bs_buf bs_byte bs_bit].
  rewrite L. auto.
Qed.

Lemma edit_spec s num v :
  wf_bs s -> 0 < remaining s -> num <= 8 -> length v = 8 ->
  let k := Nat.min num (remaining s) in
  exists buf', edit s num v = Some (at_pos buf' (position s + k), k) /\
    wf_bytes buf' /\ length buf' = length (bs_buf s) /\
    concat buf' = overwrite (all_bits s) (position s) (firstn k v).
Proof.
  intros W R HN HV k. pose proof W as (WB & HB & HP & HL).
  pose proof (has_next_iff s W) as [_ HX]. specialize (HX R). unfold has_next in HX. apply Nat.ltb_lt in HX.
  pose proof (remaining_len s W) as RL. unfold bs_len in *.
  unfold edit. destruct (nth_error (bs_buf s) (bs_byte s)) as [old|] eqn:E; [|apply nth_error_None in E; lia].
  assert (HO : length old = 8).
  { unfold wf_bytes in WB. rewrite Forall_forall in WB. apply WB. eapply nth_error_In; eauto. }
  cbv zeta. set (k1 := Nat.min (8 - bs_bit s) num).
  rewrite wr_loop_spec by (unfold k1; lia).
  assert (F1 : length (firstn k1 v) = k1) by (rewrite firstn_length; unfold k1; lia).
  destruct (upd (bs_buf s) (bs_byte s) (overwrite old (bs_bit s) (firstn k1 v))) as [b1|] eqn:U1.
  2:{ apply upd_none_iff in U1. lia. }
  destruct (upd_concat _ _ _ _ (bs_bit s) (firstn k1 v) WB E ltac:(rewrite F1; unfold k1; lia) U1) as (W1 & L1 & C1).
  fold (position s) in C1. unfold bs_len.
  destruct (Nat.ltb_spec (bs_byte s + 1) (length (bs_buf s))) as [H1|H1];
    [destruct (Nat.ltb_spec k1 num) as [H2|H2]|]; cbn [andb].
  - destruct (nth_error b1 (bs_byte s + 1)) as [old2|] eqn:E2; [|apply nth_error_None in E2; lia].
    assert (HO2 : length old2 = 8).
    { unfold wf_bytes in W1. rewrite Forall_forall in W1. apply W1. eapply nth_error_In; eauto. }
    set (k2 := Nat.min (bs_bit s) (num - k1)).
    assert (SL : length (skipn k1 v) = 8 - k1) by (rewrite skipn_length; lia).
    rewrite wr_loop_spec by (rewrite ?SL; unfold k1, k2 in *; lia).
    assert (F2 : length (firstn k2 (skipn k1 v)) = k2) by (rewrite firstn_length, SL; unfold k1, k2 in *; lia).
    destruct (upd b1 (bs_byte s + 1) (overwrite old2 0 (firstn k2 (skipn k1 v)))) as [b2|] eqn:U2.
    2:{ apply upd_none_iff in U2. lia. }
    destruct (upd_concat _ _ _ _ 0 (firstn k2 (skipn k1 v)) W1 E2 ltac:(rewrite F2; unfold k2; lia) U2) as (W2 & L2 & C2).
    exists b2. assert (K : k1 + k2 = k).
    { unfold k, k1, k2 in *. rewrite RL. unfold position in *. lia. }
    assert (WS : wf_bs (mk_bs b2 (bs_byte s) (bs_bit s))) by (apply wf_same_buf; congruence).
    split; [|split; [assumption|split; [congruence|]]].
    + rewrite seek_small; [|assumption|unfold position, bs_len in *; cbn [bs_buf bs_byte bs_bit]; unfold k1, k2 in *; lia].
      rewrite K. reflexivity.
    + rewrite C2, C1, <- K, firstn_split. unfold all_bits.
      rewrite overwrite_app.
      * rewrite F1. f_equal. unfold k1, position in *. lia.
      * rewrite F1, F2, concat_length by assumption. unfold k1, k2, position in *. lia.
  - exists b1. assert (K : k1 = k) by (unfold k, k1 in *; rewrite RL; unfold position in *; lia).
    assert (WS : wf_bs (mk_bs b1 (bs_byte s) (bs_bit s))) by (apply wf_same_buf; congruence).
    split; [|split; [assumption|split; [congruence|]]].
    + rewrite seek_small; [|assumption|unfold position, bs_len in *; cbn [bs_buf bs_byte bs_bit]; unfold k1 in *; lia].
      rewrite K. reflexivity.
    + rewrite C1, K. reflexivity.
  - exists b1. assert (K : k1 = k) by (unfold k, k1 in *; rewrite RL; unfold position in *; lia).
    assert (WS : wf_bs (mk_bs b1 (bs_byte s) (bs_bit s))) by (apply wf_same_buf; congruence).
    split; [|split; [assumption|split; [congruence|]]].
    + rewrite seek_small; [|assumption|unfold position, bs_len in *; cbn [bs_buf bs_byte bs_bit]; unfold k1 in *; lia].
      rewrite K. reflexivity.
    + rewrite C1, K. reflexivity.
Qed.

Lemma edit_at_end s num v : wf_bs s -> remaining s = 0 -> edit s num v = None.
Proof.
  intros W R. rewrite remaining_len in R by assumption. pose proof W as (_ & HB & HP & _).
  unfold edit. replace (nth_error (bs_buf s) (bs_byte s)) with (@None byte); [reflexivity|].
  symmetry. apply nth_error_None. unfold position, bs_len in *. lia.
Qed.

Lemma firstn_skipn_concat (src : list byte) i v :
  wf_bytes src -> nth_error src i = Some v ->
  forall k, k <= 8 -> firstn k v = firstn k (skipn (8 * i) (concat src)).
Proof.
  intros W E k H. destruct (byte_split _ _ _ W E) as (l1 & l2 & -> & L & Lv & W1 & W2 & C).
  rewrite concat_app, <- C, skipn_app, skipn_all, Nat.sub_diag. cbn [app skipn concat].
  rewrite firstn_app_le by lia. reflexivity.
Qed.

(** [iters] calls of edit are all inside the buffer exactly when the last one starts before the end *)
Lemma editN_loop_spec iters : forall i s src w,
  wf_bs s -> wf_bytes src -> i + iters <= length src ->
  (iters = 0 \/ 8 * (iters - 1) < remaining s) ->
  let k := Nat.min (8 * iters) (remaining s) in
  exists buf', editN_loop iters i s src w = Some (at_pos buf' (position s + k), w + k) /\
    wf_bytes buf' /\ length buf' = length (bs_buf s) /\
    concat buf' = overwrite (all_bits s) (position s) (firstn k (skipn (8 * i) (concat src))).
Proof.
  induction iters as [|n IH]; intros i s src w W WS HL HR k.
  - exists (bs_buf s). cbn [editN_loop]. replace k with 0 by (unfold k; lia). rewrite !Nat.add_0_r.
    rewrite <- at_pos_self by apply W. cbn [firstn]. rewrite overwrite_nil. split; [reflexivity|].
    split; [apply W|]. split; reflexivity.
  - cbn [editN_loop]. assert (R : 0 < remaining s) by lia.
    destruct (nth_error src i) as [v|] eqn:EV; [|apply nth_error_None in EV; lia].
    assert (HV : length v = 8).
    { unfold wf_bytes in WS. rewrite Forall_forall in WS. apply WS. eapply nth_error_In; eauto. }
    destruct (edit_spec s 8 v W R (le_n 8) HV) as (b1 & E1 & W1 & L1 & C1).
    set (a := Nat.min 8 (remaining s)) in *. rewrite E1.
    pose proof W as (WB & HB & HP & HZ). pose proof (remaining_len s W) as RL.
    assert (WA : wf_bs (at_pos b1 (position s + a))).
    { apply wf_at_pos; try assumption; rewrite L1; unfold bs_len, a in *; lia. }
    assert (RA : remaining (at_pos b1 (position s + a)) = remaining s - a).
    { rewrite remaining_len by assumption. rewrite at_pos_position, RL. unfold bs_len. cbn [at_pos bs_buf]. rewrite L1. lia. }
    destruct (IH (S i) _ src (w + a) WA WS ltac:(lia)) as (b2 & E2 & W2 & L2 & C2).
    { rewrite RA. unfold a. lia. }
    rewrite RA, at_pos_position in *. cbn [at_pos bs_buf] in L2. unfold all_bits in C2. cbn [at_pos bs_buf] in C2.
    set (b := Nat.min (8 * n) (remaining s - a)) in *.
    assert (K : k = a + b) by (unfold k, a, b; lia).
    exists b2. rewrite E2. split.
    { replace (position s + k) with (position s + a + b) by lia. replace (w + k) with (w + a + b) by lia. reflexivity. }
    split; [assumption|]. split; [congruence|].
    rewrite C2, C1, K, firstn_split. rewrite (firstn_skipn_concat src i v WS EV a) by (unfold a; lia).
    destruct (Nat.eq_dec b 0) as [B0|B0].
    { rewrite B0. cbn [firstn]. rewrite app_nil_r, overwrite_nil. reflexivity. }
    assert (A8 : a = 8) by (unfold a, b in *; lia).
    assert (LC : length (concat src) = 8 * length src) by (apply concat_length; assumption).
    assert (FA : length (firstn a (skipn (8 * i) (concat src))) = a) by (rewrite firstn_length, skipn_length, LC; lia).
    rewrite overwrite_app.
    + rewrite FA. f_equal. rewrite skipn_skipn_plus. f_equal. f_equal. lia.
    + rewrite FA, firstn_length, skipn_length, skipn_length, LC. unfold all_bits.
      rewrite concat_length by assumption. unfold bs_len in *. lia.
Qed.

Lemma editN_loop_oob iters : forall i s src w,
  wf_bs s -> wf_bytes src -> i + iters <= length src ->
  0 < iters -> remaining s <= 8 * (iters - 1) -> editN_loop iters i s src w = None.
Proof.
  induction iters as [|n IH]; intros i s src w W WS HL HI HR; [lia|].
  cbn [editN_loop]. destruct (nth_error src i) as [v|] eqn:EV; [|reflexivity].
  assert (HV : length v = 8).
  { unfold wf_bytes in WS. rewrite Forall_forall in WS. apply WS. eapply nth_error_In; eauto. }
  destruct (Nat.eq_dec (remaining s) 0) as [R0|R0]; [rewrite edit_at_end by assumption; reflexivity|].
  destruct (edit_spec s 8 v W ltac:(lia) (le_n 8) HV) as (b1 & E1 & W1 & L1 & C1).
  set (a := Nat.min 8 (remaining s)) in *. rewrite E1.
  pose proof W as (WB & HB & HP & HZ). pose proof (remaining_len s W) as RL.
  assert (WA : wf_bs (at_pos b1 (position s + a))).
  { apply wf_at_pos; try assumption; rewrite L1; unfold bs_len, a in *; lia. }
  assert (RA : remaining (at_pos b1 (position s + a)) = remaining s - a).
  { rewrite remaining_len by assumption. rewrite at_pos_position, RL. unfold bs_len. cbn [at_pos bs_buf]. rewrite L1. lia. }
  assert (remaining (at_pos b1 (position s + a)) <= 8 * (n - 1)) by (rewrite RA; unfold a; lia). apply IH; try assumption; unfold a in *; lia.
Qed.

(** when editN stays inside the buffer *)
Definition editN_safe (s : bstream) (num : nat) : Prop :=
  num = 0 \/ 8 * ((num + 7) / 8 - 1) < remaining s \/ (bs_byte s + bs_len s < num / 8 /\ num mod 8 = 0).

Lemma editN_safe_spec s num src :
  wf_bs s -> wf_bytes src -> (num + 7) / 8 <= length src -> editN_safe s num ->
  let k := Nat.min num (remaining s) in
  exists buf', editN s num src = Some (at_pos buf' (position s + k), k) /\
    wf_bytes buf' /\ length buf' = length (bs_buf s) /\
    concat buf' = overwrite (all_bits s) (position s) (firstn k (concat src)).
Proof.
  intros W WS HL HS k. pose proof W as (WB & HB & HP & HZ). pose proof (remaining_len s W) as RL.
  unfold editN. cbv zeta.
  destruct (Nat.ltb_spec (bs_byte s + bs_len s) (num / 8)) as [HC|HC].
  - assert (M : num mod 8 = 0).
    { unfold editN_safe in HS. destruct HS as [HS|[HS|[_ HS]]]; [lia| |assumption].
      unfold position in *. lia. }
    destruct (editN_loop_spec (bs_len s - bs_byte s) 0 s src 0 W WS) as (b & E & W1 & L1 & C1).
    + lia.
    + unfold position in *. lia.
    + rewrite E, M. cbn [Nat.eqb]. rewrite Nat.mul_0_r in C1. cbn [skipn] in C1.
      replace (Nat.min (8 * (bs_len s - bs_byte s)) (remaining s)) with k in * by (unfold k, position in *; lia).
      exists b. repeat split; assumption.
  - destruct (editN_loop_spec (num / 8) 0 s src 0 W WS) as (b & E & W1 & L1 & C1).
    + lia.
    + unfold editN_safe in HS. lia.
    + rewrite E. rewrite Nat.mul_0_r in C1. cbn [skipn] in C1. cbn [Nat.add].
      set (a := Nat.min (8 * (num / 8)) (remaining s)) in *.
      destruct (Nat.eqb_spec (num mod 8) 0) as [M|M].
      * replace a with k in * by (unfold k, a; lia). exists b. repeat split; assumption.
      * assert (HR : a = 8 * (num / 8) /\ a < remaining s) by (unfold editN_safe, a in *; lia).
        destruct HR as [A8 AR].
        destruct (nth_error src (num / 8)) as [v|] eqn:EV; [|apply nth_error_None in EV; lia].
        assert (HV : length v = 8).
        { unfold wf_bytes in WS. rewrite Forall_forall in WS. apply WS. eapply nth_error_In; eauto. }
        assert (WA : wf_bs (at_pos b (position s + a))).
        { apply wf_at_pos; try assumption; rewrite L1; unfold bs_len in *; lia. }
        assert (RA : remaining (at_pos b (position s + a)) = remaining s - a).
        { rewrite remaining_len by assumption. rewrite at_pos_position, RL. unfold bs_len. cbn [at_pos bs_buf]. rewrite L1. lia. }
        destruct (edit_spec _ (num mod 8) v WA ltac:(lia) ltac:(lia) HV) as (b2 & E2 & W2 & L2 & C2).
        rewrite RA, at_pos_position in *. cbn [at_pos bs_buf] in L2. unfold all_bits in C2. cbn [at_pos bs_buf] in C2.
        set (c := Nat.min (num mod 8) (remaining s - a)) in *.
        assert (K : k = a + c) by (unfold k, a, c in *; lia).
        rewrite E2. exists b2. split.
        { replace (position s + k) with (position s + a + c) by lia. rewrite <- K. reflexivity. }
        split; [assumption|]. split; [congruence|].
        rewrite C2, C1, K, firstn_split, (firstn_skipn_concat src _ v WS EV c) by (unfold c; lia).
        assert (LC : length (concat src) = 8 * length src) by (apply concat_length; assumption).
        assert (FA : length (firstn a (concat src)) = a) by (rewrite firstn_length, LC; lia).
        rewrite A8. rewrite A8 in FA. rewrite overwrite_app.
        -- rewrite FA. reflexivity.
        -- rewrite FA, firstn_length, skipn_length, LC. unfold all_bits.
           rewrite concat_length by assumption. unfold bs_len in *. lia.
Qed.

Lemma editN_unsafe s num src :
  wf_bs s -> wf_bytes src -> (num + 7) / 8 <= length src -> ~ editN_safe s num -> editN s num src = None.
Proof.
  intros W WS HL HS. pose proof W as (WB & HB & HP & HZ). pose proof (remaining_len s W) as RL.
  unfold editN. cbv zeta.
  assert (H0 : num <> 0 /\ remaining s <= 8 * ((num + 7) / 8 - 1) /\
               (num / 8 <= bs_byte s + bs_len s \/ num mod 8 <> 0)) by (unfold editN_safe in HS; lia).
  destruct H0 as (N0 & NR & NC).
  assert (FIN : forall it w b, remaining s <= 8 * it -> wf_bytes b -> length b = length (bs_buf s) -> num mod 8 <> 0 ->
    match nth_error src it with None => None
    | Some v => match edit (at_pos b (position s + Nat.min (8 * it) (remaining s))) (num mod 8) v with
                | None => None | Some (s2, r) => Some (s2, w + r) end end = None).
  { intros it w b H1 H2 H3 H4. destruct (nth_error src it); [|reflexivity].
    assert (WX : wf_bs (at_pos b (position s + Nat.min (8 * it) (remaining s))))
      by (apply wf_at_pos; try assumption; rewrite H3; unfold bs_len in *; lia).
    rewrite edit_at_end; [reflexivity|assumption|].
    rewrite remaining_len by assumption. rewrite at_pos_position. unfold bs_len. rewrite at_pos_buf, H3.
    unfold bs_len in *. lia. }
  destruct (Nat.ltb_spec (bs_byte s + bs_len s) (num / 8)) as [HC|HC].
  - destruct NC as [NC|NC]; [lia|].
    destruct (editN_loop_spec (bs_len s - bs_byte s) 0 s src 0 W WS) as (b & E & W1 & L1 & C1);
      [lia|unfold position in *; lia|].
    rewrite E. destruct (Nat.eqb_spec (num mod 8) 0); [contradiction|].
    apply FIN; try assumption. unfold position in *. lia.
  - destruct (Nat.eq_dec (num mod 8) 0) as [M|M].
    + rewrite editN_loop_oob; [reflexivity|assumption|assumption|lia|lia|lia].
    + destruct (Nat.eq_dec (num / 8) 0) as [Z0|Z0].
      * rewrite Z0. cbn [editN_loop]. destruct (Nat.eqb_spec (num mod 8) 0); [contradiction|].
        specialize (FIN 0 0 (bs_buf s) ltac:(lia) WB eq_refl M). rewrite Nat.mul_0_r, Nat.add_0_r in FIN.
        rewrite <- at_pos_self in FIN by assumption. exact FIN.
      * destruct (Nat.ltb_spec (8 * (num / 8 - 1)) (remaining s)) as [HR|HR].
        -- destruct (editN_loop_spec (num / 8) 0 s src 0 W WS) as (b & E & W1 & L1 & C1); [lia|lia|].
           rewrite E. destruct (Nat.eqb_spec (num mod 8) 0); [contradiction|].
           apply FIN; try assumption. lia.
        -- rewrite editN_loop_oob; [reflexivity|assumption|assumption|lia|lia|lia].
Qed.

Lemma editN_fits s num src :
  wf_bs s -> wf_bytes src -> (num + 7) / 8 <= length src -> num <= remaining s ->
  exists buf', editN s num src = Some (at_pos buf' (position s + num), num) /\
    wf_bytes buf' /\ length buf' = length (bs_buf s) /\
    concat buf' = overwrite (all_bits s) (position s) (firstn num (concat src)).
Proof.
  intros W WS HL HN. assert (HS : editN_safe s num) by (unfold editN_safe; lia).
  pose proof (editN_safe_spec s num src W WS HL HS) as H. cbv zeta in H.
  rewrite Nat.min_l in H by assumption. exact H.
Qed.

(** copying from another stream *)
Lemma editN_bs_fits s num o :
  wf_bs s -> wf_bs o -> num <= remaining s -> num <= remaining o ->
  exists buf', editN_bs s num o = Some (at_pos buf' (position s + num), at_pos (bs_buf o) (position o + num), num) /\
    wf_bytes buf' /\ length buf' = length (bs_buf s) /\
    concat buf' = overwrite (all_bits s) (position s) (firstn num (rest o)).
Proof.
  intros W WO HS HO. unfold editN_bs.
  assert (WZ : wf_bytes (repeat zero_byte ((num + 7) / 8))).
  { unfold wf_bytes. apply Forall_forall. intros x Hx. apply repeat_spec in Hx. subst. reflexivity. }
  destruct (nextN_spec o num _ WO WZ) as (tmp & E & WT & LT & CT); [rewrite repeat_length; lia|].
  cbv zeta in E, CT. rewrite Nat.min_l in E, CT by assumption. rewrite E.
  destruct (editN_fits s num tmp W WT) as (b & E2 & W2 & L2 & C2); [rewrite LT, repeat_length; lia|assumption|].
  rewrite E2. exists b. split; [reflexivity|]. split; [assumption|]. split; [assumption|].
  rewrite C2. f_equal. rewrite CT.
  assert (LF : length (firstn num (rest o)) = num) by (rewrite firstn_length, rest_length by assumption; lia).
  unfold overwrite. cbn [firstn app]. rewrite <- app_assoc.
  rewrite firstn_app_le by lia. rewrite firstn_firstn. f_equal. lia.
Qed.

(** constructor from a bit array *)
Lemma read_bits_spec l n : forall from, from + n <= length l -> read_bits l from n = Some (firstn n (skipn from l)).
Proof.
  induction n as [|n IH]; intros from H; cbn [read_bits]; [reflexivity|].
  destruct (nth_error l from) as [b|] eqn:E; [|apply nth_error_None in E; lia].
  rewrite IH by lia. f_equal.
  apply nth_error_split in E. destruct E as (l1 & l2 & -> & <-).
  rewrite !skipn_app, skipn_all, Nat.sub_diag, (skipn_all2 l1) by lia.
  replace (S (length l1) - length l1) with 1 by lia. reflexivity.
Qed.

Lemma read_bits_oob l n : forall from, length l < from + n -> 0 < n -> read_bits l from n = None.
Proof.
  induction n as [|n IH]; intros from H HN; cbn [read_bits]; [lia|].
  destruct (nth_error l from) as [b|] eqn:E; [|reflexivity].
  assert (from < length l) by (apply nth_error_Some; congruence).
  rewrite IH by lia. reflexivity.
Qed.

Lemma pack_bytes_spec l n : forall i, 8 * (i + n) = length l ->
  exists b, pack_bytes l i n = Some b /\ wf_bytes b /\ length b = n /\ concat b = skipn (8 * i) l.
Proof.
  induction n as [|n IH]; intros i H.
  - exists []. cbn. repeat split; [constructor|]. rewrite skipn_all2 by lia. reflexivity.
  - unfold pack_bytes; fold pack_bytes. rewrite read_bits_spec by lia. destruct (IH (S i) ltac:(lia)) as (b & E & W & L & C). rewrite E.
    eexists. split; [reflexivity|]. split; [|split].
    + constructor; [|assumption]. rewrite firstn_length, skipn_length. lia.
    + cbn [length]. congruence.
    + cbn [concat]. rewrite C. replace (8 * S i) with (8 * i + 8) by lia. rewrite <- skipn_skipn_plus.
      apply firstn_skipn.
Qed.

Lemma bs_of_bits_spec l : length l mod 8 = 0 ->
  exists s, bs_of_bits l = Some s /\ wf_bytes (bs_buf s) /\ all_bits s = l /\ position s = 0.
Proof.
  intros H. unfold bs_of_bits.
  destruct (pack_bytes_spec l ((length l + 7) / 8) 0) as (b & E & W & L & C); [lia|].
  rewrite E. eexists. split; [reflexivity|]. cbn [bs_make bs_buf]. repeat split; assumption.
Qed.

Lemma pack_bytes_oob l n : forall i, length l < 8 * (i + n) -> 0 < n -> pack_bytes l i n = None.
Proof.
  induction n as [|n IH]; intros i H HN; unfold pack_bytes; fold pack_bytes; [lia|].
  destruct (Nat.ltb_spec (length l) (8 * i + 8)).
  - rewrite read_bits_oob by lia. reflexivity.
  - rewrite read_bits_spec by lia. rewrite IH by lia. reflexivity.
Qed.

Lemma bs_of_bits_oob l : length l mod 8 <> 0 -> bs_of_bits l = None.
Proof. intros H. unfold bs_of_bits. rewrite pack_bytes_oob by lia. reflexivity. Qed.
