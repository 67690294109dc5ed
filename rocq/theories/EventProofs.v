From Verif Require Import Base EventModel.

Lemma put_from_spec bs : forall pre mid post, length mid = length bs ->
  put_from (pre ++ mid ++ post) (length pre) bs = Some (pre ++ bs ++ post).
Proof.
  induction bs as [|b bs IH]; intros pre mid post H; destruct mid as [|m mid]; cbn [length] in H; try discriminate.
  - reflexivity.
  - cbn [put_from app]. rewrite upd_app_r by lia. rewrite Nat.sub_diag. cbn [upd].
    specialize (IH (pre ++ [b]) mid post). rewrite app_length in IH. cbn [length] in IH.
    replace (length pre + 1)%nat with (S (length pre)) in IH by lia.
    rewrite <- !app_assoc in IH. cbn [app] in IH. apply IH. lia.
Qed.

Lemma put_fields_spec fs : forall pre mid, length mid = length (concat fs) ->
  put_fields (pre ++ mid) (length pre) fs = Some (pre ++ concat fs).
Proof.
  induction fs as [|f fs IH]; intros pre mid H; cbn [put_fields concat] in *.
  - destruct mid; [reflexivity|discriminate].
  - rewrite app_length in H. rewrite <- (firstn_skipn (length f) mid).
    rewrite put_from_spec by (rewrite firstn_length; lia).
    specialize (IH (pre ++ f) (skipn (length f) mid)). rewrite app_length, <- !app_assoc in IH.
    apply IH. rewrite skipn_length. lia.
Qed.

Lemma event_signal_spec arr ccno fs : length arr = (32 + length (concat fs))%nat ->
  event_signal arr ccno fs = Some (val_bits 32 ccno ++ concat fs).
Proof.
  intros H. unfold event_signal. rewrite <- (firstn_skipn 32 arr) at 1.
  pose proof (put_from_spec (val_bits 32 ccno) [] (firstn 32 arr) (skipn 32 arr)) as P. cbn [app length] in P.
  rewrite P by (rewrite firstn_length, val_bits_length; lia).
  pose proof (put_fields_spec fs (val_bits 32 ccno) (skipn 32 arr)) as Q. rewrite val_bits_length in Q.
  apply Q. rewrite skipn_length. lia.
Qed.

Lemma get_from_spec bs : forall pre post, get_from (pre ++ bs ++ post) (length pre) (length bs) = Some bs.
Proof.
  induction bs as [|b bs IH]; intros pre post; cbn [get_from length]; [reflexivity|].
  rewrite nth_error_app2 by lia. rewrite Nat.sub_diag. cbn [nth_error app].
  specialize (IH (pre ++ [b]) post). rewrite app_length in IH. cbn [length] in IH.
  replace (length pre + 1)%nat with (S (length pre)) in IH by lia.
  rewrite <- !app_assoc in IH. cbn [app] in IH. rewrite IH. reflexivity.
Qed.

Lemma get_fields_spec fs : forall pre, get_fields (pre ++ concat fs) (length pre) (map (@length bool) fs) = Some fs.
Proof.
  induction fs as [|f fs IH]; intros pre; cbn [get_fields map concat]; [reflexivity|].
  rewrite get_from_spec. specialize (IH (pre ++ f)). rewrite app_length, <- !app_assoc in IH. rewrite IH. reflexivity.
Qed.

Lemma event_read_spec ccno fs : 0 <= ccno < 2 ^ 32 ->
  event_read (val_bits 32 ccno ++ concat fs) (map (@length bool) fs) = Some (ccno, fs).
Proof.
  intros H. unfold event_read.
  pose proof (get_from_spec (val_bits 32 ccno) [] (concat fs)) as P. cbn [app] in P.
  change (length (@nil bool)) with 0%nat in P. rewrite val_bits_length in P. rewrite P.
  pose proof (get_fields_spec fs (val_bits 32 ccno)) as Q. rewrite val_bits_length in Q. rewrite Q.
  rewrite bits_val_val_bits_small by (cbn; lia).
  f_equal. f_equal. unfold s32, swrap, u32, uwrap. change (2 ^ (32 - 1)) with 2147483648. change (2 ^ 32) with 4294967296 in *. lia.
Qed.

(** ** storage *)
Definition record_of (x : Z * list (list bool)) : list bool := val_bits 32 (fst x) ++ concat (snd x).

(** the latest of [h]'s [k]-th, [k+n]-th, ... entries for slot [i] of [n]: the greatest [j < length h], [j mod n = i] *)
Definition slot_holds (n : nat) (h : list (Z * list (list bool))) (zero : list bool) (i : nat) (c : list bool) : Prop :=
  (forall j x, nth_error h j = Some x -> (j mod n = i)%nat -> (length h <= j + n)%nat -> c = record_of x) /\
  ((length h <= i)%nat -> c = zero).

Lemma storage_run_snoc h : forall s c f, storage_run s (h ++ [(c, f)]) =
  match storage_run s h with Some s' => storage_signal s' c f | None => None end.
Proof.
  induction h as [|[c0 f0] h IH]; intros s c f; cbn [app storage_run].
  - destruct (storage_signal s c f); reflexivity.
  - destruct (storage_signal s c0 f0); [apply IH|reflexivity].
Qed.

Lemma nat_mod_succ a n : (0 < n)%nat -> (S a mod n = if Nat.eqb (S (a mod n)) n then 0 else S (a mod n))%nat.
Proof.
  intros H. pose proof (Nat.mod_upper_bound a n ltac:(lia)) as B. pose proof (Nat.div_mod a n ltac:(lia)) as E.
  destruct (Nat.eqb_spec (S (a mod n)) n) as [X|X]; symmetry.
  - apply (Nat.mod_unique _ _ (S (a / n))); nia.
  - apply (Nat.mod_unique _ _ (a / n)); nia.
Qed.

Lemma concat_len (fs : list (list bool)) : length (concat fs) = list_sum (map (@length bool) fs).
Proof. induction fs as [|f fs IH]; [reflexivity|]. cbn [concat map]. rewrite app_length, IH. reflexivity. Qed.

Theorem storage_run_spec n widths h :
  (1 <= n <= 99)%nat ->
  Forall (fun x => map (@length bool) (snd x) = widths) h ->
  exists s0 s, storage_make n widths = Some s0 /\ storage_run s0 h = Some s /\
    length (st_slots s) = n /\ st_ptr s = (length h mod n)%nat /\
    (forall i c, nth_error (st_slots s) i = Some c ->
       slot_holds n h (repeat false (32 + list_sum widths)) i c).
Proof.
  intros HN HF. unfold storage_make. replace (Nat.leb n 99) with true by (symmetry; apply Nat.leb_le; lia).
  exists (mk_st (repeat (event_make widths) n) 0).
  assert (LEN : forall x : Z * list (list bool), map (@length bool) (snd x) = widths -> length (concat (snd x)) = list_sum widths).
  { intros x <-. apply concat_len. }
  assert (X : exists s, storage_run (mk_st (repeat (event_make widths) n) 0) h = Some s /\
    length (st_slots s) = n /\ st_ptr s = (length h mod n)%nat /\
    Forall (fun c => length c = (32 + list_sum widths)%nat) (st_slots s) /\
    (forall i c, nth_error (st_slots s) i = Some c -> slot_holds n h (repeat false (32 + list_sum widths)) i c)).
  { induction h as [|[c f] h IH] using rev_ind.
    - eexists. split; [reflexivity|]. cbn [st_slots st_ptr length]. split; [apply repeat_length|].
      split; [symmetry; apply Nat.mod_0_l; lia|].
      split; [apply Forall_forall; intros x HI; apply repeat_spec in HI; subst; apply repeat_length|].
      intros i c0 HI. split.
      + intros j x HJ. destruct j; discriminate.
      + intros _. apply nth_error_In in HI. apply repeat_spec in HI. exact HI.
    - apply Forall_app in HF. destruct HF as [HF HL]. inversion HL as [|? ? HL1 _]; subst. clear HL.
      destruct (IH HF) as (s & R & LS & PT & FL & SL). clear IH. set (widths := map (@length bool) (snd (c, f))) in *.
      rewrite storage_run_snoc, R. unfold storage_signal.
      pose proof (Nat.mod_upper_bound (length h) n ltac:(lia)) as UB.
      destruct (nth_error (st_slots s) (st_ptr s)) as [ev|] eqn:EE; [|apply nth_error_None in EE; lia].
      assert (LE : length ev = (32 + list_sum widths)%nat).
      { rewrite Forall_forall in FL. apply FL. apply nth_error_In with (1 := EE). }
      assert (HLf : length (concat f) = list_sum widths) by (apply (LEN (c, f)); reflexivity).
      rewrite event_signal_spec by lia.
      assert (RC : record_of (c, f) = val_bits 32 c ++ concat f) by reflexivity. rewrite <- RC.
      assert (RL : length (record_of (c, f)) = (32 + list_sum widths)%nat) by (rewrite RC, app_length, val_bits_length; lia).
      set (rec := record_of (c, f)) in *. clear RC.
      destruct (upd (st_slots s) (st_ptr s) rec) as [sl|] eqn:EU;
        [|apply upd_none_iff in EU; lia].
      pose proof (upd_length _ _ _ _ EU) as LU. pose proof (upd_nth_error _ _ _ _ EU) as NU.
      eexists. split; [reflexivity|]. cbn [st_slots st_ptr]. rewrite LU, LS.
      split; [reflexivity|]. split.
      { rewrite app_length. cbn [length]. replace (length h + 1)%nat with (S (length h)) by lia.
        rewrite nat_mod_succ by lia. rewrite PT. reflexivity. }
      split.
      { apply Forall_forall. intros x HI. apply In_nth_error in HI. destruct HI as [k HK]. rewrite NU in HK.
        destruct (Nat.eqb k (st_ptr s)).
        - injection HK as <-. exact RL.
        - rewrite Forall_forall in FL. apply FL. apply nth_error_In with (1 := HK). }
      intros i c0 HI. rewrite NU in HI. destruct (Nat.eqb_spec i (st_ptr s)) as [EI|NI].
      + injection HI as <-. split.
        * intros j x HJ HM HR. rewrite app_length in HR. cbn [length] in HR.
          assert (j < length (h ++ [(c, f)]))%nat by (apply nth_error_Some; congruence).
          rewrite app_length in H. cbn [length] in H.
          assert (j = length h).
          { destruct (Nat.eq_dec j (length h)); [assumption|exfalso].
            rewrite PT in EI. rewrite EI in HM.
            pose proof (Nat.div_mod j n ltac:(lia)). pose proof (Nat.div_mod (length h) n ltac:(lia)).
            rewrite HM in H0. assert (length h - j = n * (length h / n - j / n))%nat by nia.
            assert (0 < length h / n - j / n)%nat by nia. nia. }
          subst j. rewrite nth_error_app2, Nat.sub_diag in HJ by lia. injection HJ as <-. reflexivity.
        * intros HZ. rewrite app_length in HZ. cbn [length] in HZ.
          assert (length h mod n <= length h)%nat by (apply Nat.mod_le; lia). lia.
      + destruct (SL i c0 HI) as [S1 S2]. split.
        * intros j x HJ HM HR. rewrite app_length in HR. cbn [length] in HR.
          assert (j < length (h ++ [(c, f)]))%nat by (apply nth_error_Some; congruence).
          rewrite app_length in H. cbn [length] in H.
          destruct (Nat.eq_dec j (length h)) as [->|]; [lia|].
          rewrite nth_error_app1 in HJ by lia. apply (S1 j x HJ HM). lia.
        * intros HZ. rewrite app_length in HZ. apply S2. lia. }
  destruct X as (s & A & B & C & _ & D). exists s. repeat split; try assumption; apply (D _ _ H).
Qed.
