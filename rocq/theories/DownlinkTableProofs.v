From Verif Require Import IntSerProofs Base IntSerModel DownlinkModel DownlinkSpec DownlinkProofs DownlinkGroundProofs.

Definition same_count (a b : flow) : bool := Nat.eqb (length (fl_fields a)) (length (fl_fields b)).

Lemma flow_assign_same a b : length (fl_fields a) = length (fl_fields b) -> flow_assign a b = Some b.
Proof.
  intros H. unfold flow_assign. destruct (Nat.ltb_spec (length (fl_fields a)) (length (fl_fields b))); [lia|].
  rewrite <- H, skipn_all, app_nil_r. destruct b; reflexivity.
Qed.

Lemma flow_assign_diff a b : length (fl_fields a) <> length (fl_fields b) ->
  flow_assign a b = None \/ flow_assign b a = None.
Proof.
  intros H. unfold flow_assign. destruct (Nat.ltb_spec (length (fl_fields a)) (length (fl_fields b))); [left; reflexivity|].
  destruct (Nat.ltb_spec (length (fl_fields b)) (length (fl_fields a))); [right; reflexivity|lia].
Qed.

Lemma nth_mid {A} (pre : list A) x post : nth_error (pre ++ x :: post) (length pre) = Some x.
Proof. rewrite nth_error_app2, Nat.sub_diag by lia. reflexivity. Qed.

Lemma nth_mid1 {A} (pre : list A) x y post : nth_error (pre ++ x :: y :: post) (length pre + 1) = Some y.
Proof. rewrite nth_error_app2 by lia. replace (length pre + 1 - length pre)%nat with 1%nat by lia. reflexivity. Qed.

Lemma upd_mid {A} (pre : list A) x y post : upd (pre ++ x :: post) (length pre) y = Some (pre ++ y :: post).
Proof. rewrite upd_app_r by lia. rewrite Nat.sub_diag. reflexivity. Qed.

Lemma upd_mid1 {A} (pre : list A) x y z post : upd (pre ++ x :: y :: post) (length pre + 1) z = Some (pre ++ x :: z :: post).
Proof. rewrite upd_app_r by lia. replace (length pre + 1 - length pre)%nat with 1%nat by lia. reflexivity. Qed.

Lemma flow_swap_up pre a b post :
  flow_swap (pre ++ a :: b :: post) (length pre) (length pre + 1) =
  if same_count a b then Some (pre ++ b :: a :: post) else None.
Proof.
  unfold flow_swap, same_count. rewrite nth_mid, nth_mid1.
  destruct (Nat.eqb_spec (length (fl_fields a)) (length (fl_fields b))) as [E|E].
  - rewrite flow_assign_same by assumption. cbn [bind]. rewrite upd_mid. cbn [bind].
    rewrite flow_assign_same by congruence. cbn [bind]. apply upd_mid1.
  - destruct (flow_assign_diff a b E) as [H|H]; rewrite H; cbn [bind]; [reflexivity|].
    destruct (flow_assign a b); cbn [bind]; [|reflexivity]. rewrite upd_mid. reflexivity.
Qed.

Lemma flow_swap_down pre a b post :
  flow_swap (pre ++ a :: b :: post) (length pre + 1) (length pre + 1 - 1) =
  if same_count a b then Some (pre ++ b :: a :: post) else None.
Proof.
  replace (length pre + 1 - 1)%nat with (length pre) by lia.
  unfold flow_swap, same_count. rewrite nth_mid, nth_mid1.
  destruct (Nat.eqb_spec (length (fl_fields a)) (length (fl_fields b))) as [E|E].
  - rewrite flow_assign_same by congruence. cbn [bind]. rewrite upd_mid1. cbn [bind].
    rewrite flow_assign_same by congruence. cbn [bind]. apply upd_mid.
  - destruct (flow_assign_diff a b E) as [H|H]; rewrite H; cbn [bind].
    + destruct (flow_assign b a); cbn [bind]; [|reflexivity]. rewrite upd_mid1. reflexivity.
    + reflexivity.
Qed.

Lemma shift_up_spec mid : forall pre x post,
  shift_up (length mid) (pre ++ x :: mid ++ post) (length pre) =
  if forallb (same_count x) mid then Some (pre ++ mid ++ x :: post) else None.
Proof.
  induction mid as [|m mid IH]; intros pre x post; [reflexivity|].
  cbn [length shift_up app forallb]. rewrite flow_swap_up. destruct (same_count x m); cbn [bind andb]; [|reflexivity].
  specialize (IH (pre ++ [m]) x post). rewrite app_length, <- !app_assoc in IH. cbn [app length] in IH. exact IH.
Qed.

Lemma same_count_sym a b : same_count a b = same_count b a.
Proof. unfold same_count. apply Nat.eqb_sym. Qed.

Lemma shift_down_spec mid : forall pre x post,
  shift_down (length mid) (pre ++ mid ++ x :: post) (length pre + length mid) =
  if forallb (same_count x) mid then Some (pre ++ x :: mid ++ post) else None.
Proof.
  induction mid as [|m mid IH] using rev_ind; intros pre x post; [reflexivity|].
  rewrite app_length. cbn [length]. replace (length mid + 1)%nat with (S (length mid)) by lia. cbn [shift_down].
  replace (pre ++ (mid ++ [m]) ++ x :: post) with ((pre ++ mid) ++ m :: x :: post) by (rewrite <- !app_assoc; reflexivity).
  replace (length pre + S (length mid))%nat with (length (pre ++ mid) + 1)%nat by (rewrite app_length; lia).
  rewrite flow_swap_down. rewrite forallb_app. cbn [forallb]. rewrite andb_true_r.
  rewrite (same_count_sym m x). destruct (same_count x m); cbn [bind]; [rewrite andb_true_r|rewrite andb_false_r; reflexivity].
  replace (length (pre ++ mid) + 1 - 1)%nat with (length pre + length mid)%nat by (rewrite app_length; lia).
  rewrite <- app_assoc. rewrite IH. destruct (forallb (same_count x) mid); [|reflexivity].
  rewrite <- app_assoc. reflexivity.
Qed.

Lemma find_idx_notin n l : forall ids id k acc,
  Forall2 (has_id n) l ids -> ~ In id ids -> find_idx l id k acc = Some acc.
Proof.
  induction l as [|f l IH]; intros ids id k acc F2 NI; inversion F2 as [|? i ? ids' HG F2' E1 E2]; subst; [reflexivity|].
  pose proof HG as (_ & _ & s0 & E0 & _). destruct (has_id_spec n f i s0 HG E0) as (DG & _).
  cbn [find_idx]. rewrite DG. destruct (Z.eqb_spec i id) as [->|]; [exfalso; apply NI; left; reflexivity|].
  apply (IH ids'); [assumption|]. intros X. apply NI. right. assumption.
Qed.

Lemma find_idx_spec n l1 : forall ids1 f id l2 ids2 k acc,
  Forall2 (has_id n) l1 ids1 -> has_id n f id -> Forall2 (has_id n) l2 ids2 -> NoDup (ids1 ++ id :: ids2) ->
  find_idx (l1 ++ f :: l2) id k acc = Some (k + length l1)%nat.
Proof.
  induction l1 as [|g l1 IH]; intros ids1 f id l2 ids2 k acc F1 HF F2 ND;
    inversion F1 as [|? i ? ids1' HG F1' E1 E2]; subst.
  - cbn [app] in *. pose proof HF as (_ & _ & s0 & E0 & _). destruct (has_id_spec n f id s0 HF E0) as (DG & _).
    cbn [find_idx length]. rewrite DG, Z.eqb_refl, Nat.add_0_r. apply NoDup_cons_iff in ND.
    apply (find_idx_notin n l2 ids2); [assumption|apply ND].
  - cbn [app] in *. pose proof HG as (_ & _ & s0 & E0 & _). destruct (has_id_spec n g i s0 HG E0) as (DG & _).
    cbn [find_idx length]. rewrite DG. apply NoDup_cons_iff in ND. destruct ND as [NI ND].
    replace (k + S (length l1))%nat with (S k + length l1)%nat by lia. eapply IH; eassumption.
Qed.

Lemma toggle_spec n l1 : forall ids1 f id l2,
  Forall2 (has_id n) l1 ids1 -> has_id n f id -> ~ In id ids1 ->
  toggle_loop (l1 ++ f :: l2) id = Some (l1 ++ mk_flow (fl_sr f) (negb (fl_active f)) (fl_fields f) :: l2).
Proof.
  induction l1 as [|g l1 IH]; intros ids1 f id l2 F1 HF NI; inversion F1 as [|? i ? ids1' HG F1' E1 E2]; subst.
  - cbn [app toggle_loop]. pose proof HF as (_ & _ & s0 & E0 & _). destruct (has_id_spec n f id s0 HF E0) as (DG & _).
    rewrite DG, Z.eqb_refl. reflexivity.
  - cbn [app toggle_loop]. pose proof HG as (_ & _ & s0 & E0 & _). destruct (has_id_spec n g i s0 HG E0) as (DG & _).
    rewrite DG. destruct (Z.eqb_spec i id) as [->|]; [exfalso; apply NI; left; reflexivity|].
    rewrite (IH ids1') by (try assumption; intros X; apply NI; right; assumption). reflexivity.
Qed.

Lemma Forall2_app_split {A B} (R : A -> B -> Prop) l1 : forall l2 m1 m2,
  length l1 = length m1 -> Forall2 R (l1 ++ l2) (m1 ++ m2) -> Forall2 R l1 m1 /\ Forall2 R l2 m2.
Proof.
  induction l1 as [|a l1 IH]; intros l2 [|b m1] m2 HL HF; try discriminate; cbn [app] in *.
  - split; [constructor|assumption].
  - inversion HF; subst. destruct (IH l2 m1 m2) as [X Y]; [cbn in HL; lia|assumption|]. split; [constructor; assumption|assumption].
Qed.

(** moving [x] (id [id1]) behind [mid ++ [y]] (id of [y]: [id2]), and back before [y :: mid] *)
Lemma shift_later pre x mid y post i0 id1 im id2 ip :
  let l := pre ++ x :: (mid ++ [y]) ++ post in
  Forall2 (has_id (length l)) l (i0 ++ id1 :: (im ++ [id2]) ++ ip) -> NoDup (i0 ++ id1 :: (im ++ [id2]) ++ ip) ->
  length pre = length i0 -> length mid = length im ->
  shift_flow_priorities l id1 id2 =
  if forallb (same_count x) (mid ++ [y]) then Done (pre ++ (mid ++ [y]) ++ x :: post) else Undef.
Proof.
  intros l F2 ND L1 L2. unfold shift_flow_priorities.
  pose proof F2 as F2a. apply Forall2_app_split in F2a; [|assumption]. destruct F2a as [FP F2b].
  inversion F2b as [|? ? ? ? HX F2c]; subst. pose proof F2c as F2d. apply Forall2_app_split in F2d; [|rewrite !app_length; cbn; lia].
  destruct F2d as [FMY FPO]. pose proof FMY as FMY'. apply Forall2_app_split in FMY'; [|assumption]. destruct FMY' as [FM FY].
  inversion FY as [|? ? ? ? HY _]; subst.
  pose proof HX as (_ & RX & _). pose proof HY as (_ & RY & _).
  destruct (Z.ltb_spec (Z.of_nat (length l)) id1); [unfold l in *; lia|].
  destruct (Z.ltb_spec (Z.of_nat (length l)) id2); [unfold l in *; lia|]. cbn [orb].
  assert (X1 : find_idx l id1 0 0 = Some (length pre)).
  { unfold l. rewrite (find_idx_spec (length l) pre i0 x id1 _ ((im ++ [id2]) ++ ip)); try assumption. reflexivity. }
  assert (X2 : find_idx l id2 0 0 = Some (length pre + S (length mid))%nat).
  { unfold l. replace (pre ++ x :: (mid ++ [y]) ++ post) with ((pre ++ x :: mid) ++ y :: post) by (rewrite <- !app_assoc; reflexivity).
    replace (i0 ++ id1 :: (im ++ [id2]) ++ ip) with ((i0 ++ id1 :: im) ++ id2 :: ip) in ND by (rewrite <- !app_assoc; reflexivity).
    rewrite (find_idx_spec (length l) _ (i0 ++ id1 :: im) y id2 _ ip); try assumption.
    - rewrite app_length. reflexivity.
    - apply Forall2_app; [assumption|]. constructor; assumption. }
  rewrite X1, X2.
  destruct (Nat.ltb_spec (length pre + S (length mid)) (length pre)); [lia|].
  destruct (Nat.ltb_spec (length pre) (length pre + S (length mid))); [|lia].
  replace (length pre + S (length mid) - length pre)%nat with (length (mid ++ [y])) by (rewrite app_length; cbn; lia).
  unfold l. rewrite shift_up_spec. destruct (forallb (same_count x) (mid ++ [y])); reflexivity.
Qed.

Lemma shift_earlier pre y mid x post i0 id2 im id1 ip :
  let l := pre ++ (y :: mid) ++ x :: post in
  Forall2 (has_id (length l)) l (i0 ++ (id2 :: im) ++ id1 :: ip) -> NoDup (i0 ++ (id2 :: im) ++ id1 :: ip) ->
  length pre = length i0 -> length mid = length im ->
  shift_flow_priorities l id1 id2 =
  if forallb (same_count x) (y :: mid) then Done (pre ++ x :: (y :: mid) ++ post) else Undef.
Proof.
  intros l F2 ND L1 L2. unfold shift_flow_priorities.
  pose proof F2 as F2a. apply Forall2_app_split in F2a; [|assumption]. destruct F2a as [FP F2b].
  pose proof F2b as F2c. apply Forall2_app_split in F2c; [|cbn; lia]. destruct F2c as [FYM FX].
  inversion FYM as [|? ? ? ? HY FM]; subst. inversion FX as [|? ? ? ? HX FPO]; subst.
  pose proof HX as (_ & RX & _). pose proof HY as (_ & RY & _).
  destruct (Z.ltb_spec (Z.of_nat (length l)) id1); [unfold l in *; lia|].
  destruct (Z.ltb_spec (Z.of_nat (length l)) id2); [unfold l in *; lia|]. cbn [orb].
  assert (X2 : find_idx l id2 0 0 = Some (length pre)).
  { unfold l. cbn [app]. rewrite (find_idx_spec (length l) pre i0 y id2 _ (im ++ id1 :: ip)); try assumption; [reflexivity|].
    apply Forall2_app; [assumption|constructor; assumption]. }
  assert (X1 : find_idx l id1 0 0 = Some (length pre + S (length mid))%nat).
  { unfold l. rewrite app_assoc. rewrite app_assoc in ND.
    rewrite (find_idx_spec (length l) _ (i0 ++ id2 :: im) x id1 _ ip); try assumption.
    - rewrite app_length. reflexivity.
    - apply Forall2_app; assumption. }
  rewrite X1, X2.
  destruct (Nat.ltb_spec (length pre) (length pre + S (length mid))); [|lia].
  replace (length pre + S (length mid) - length pre)%nat with (length (y :: mid)) by (cbn; lia).
  replace (length pre + S (length mid))%nat with (length pre + length (y :: mid))%nat by (cbn; lia).
  unfold l. rewrite shift_down_spec. destruct (forallb (same_count x) (y :: mid)); reflexivity.
Qed.

Lemma shift_same pre x post i0 id ip :
  let l := pre ++ x :: post in
  Forall2 (has_id (length l)) l (i0 ++ id :: ip) -> NoDup (i0 ++ id :: ip) -> length pre = length i0 ->
  shift_flow_priorities l id id = Done l.
Proof.
  intros l F2 ND L1. unfold shift_flow_priorities.
  pose proof F2 as F2a. apply Forall2_app_split in F2a; [|assumption]. destruct F2a as [FP F2b].
  inversion F2b as [|? ? ? ? HX FPO]; subst. pose proof HX as (_ & RX & _).
  destruct (Z.ltb_spec (Z.of_nat (length l)) id); [unfold l in *; lia|]. cbn [orb].
  assert (X1 : find_idx l id 0 0 = Some (length pre)).
  { unfold l. rewrite (find_idx_spec (length l) pre i0 x id _ ip); try assumption. reflexivity. }
  rewrite X1, Nat.ltb_irrefl. reflexivity.
Qed.

(** ** sizes *)
Lemma payload_length cc flows :
  Z.of_nat (length (payload cc flows)) =
  Z.of_nat (length cc) + fold_right (fun f acc => if fl_active f then packet_size f + acc else acc) 0 flows.
Proof.
  unfold payload. rewrite app_length, Nat2Z.inj_add. f_equal.
  induction flows as [|f l IH]; [reflexivity|]. cbn [flat_map fold_right]. rewrite app_length, Nat2Z.inj_add, IH.
  destruct (fl_active f); [rewrite packet_size_length; lia|cbn [length]; lia].
Qed.

Lemma packet_size_nonneg f : 0 <= packet_size f.
Proof. rewrite packet_size_length. lia. Qed.

Lemma size_spec cc flows : length cc = 32%nat ->
  let n := Z.of_nat (length (payload cc flows)) in
  compute_downlink_size false flows = (n + (n + 559) / 560 + 7) / 8.
Proof.
  intros HC n. unfold compute_downlink_size, num_bits_in_packet. unfold n. rewrite payload_length, HC.
  replace (fold_right (fun f acc => if fl_active f || false then packet_size f + acc else acc) 0 flows)
    with (fold_right (fun f acc => if fl_active f then packet_size f + acc else acc) 0 flows).
  - cbv zeta. f_equal. change (Z.of_nat 32) with 32. lia.
  - induction flows as [|f l IH]; [reflexivity|]. cbn [fold_right]. rewrite orb_false_r, IH. reflexivity.
Qed.

Definition total (flows : list flow) : Z := fold_right (fun f acc => packet_size f + acc) 0 flows.

Lemma max_size_spec flows :
  compute_downlink_size true flows = (32 + total flows + (32 + total flows + 559) / 560 + 7) / 8.
Proof.
  unfold compute_downlink_size, num_bits_in_packet, total.
  replace (fold_right (fun f acc => if fl_active f || true then packet_size f + acc else acc) 0 flows)
    with (fold_right (fun f acc => packet_size f + acc) 0 flows).
  - cbv zeta. f_equal. lia.
  - induction flows as [|f l IH]; [reflexivity|]. cbn [fold_right]. rewrite orb_true_r, IH. reflexivity.
Qed.

Lemma total_slack cc flows f : length cc = 32%nat -> In f flows -> fl_active f = false ->
  Z.of_nat (length (payload cc flows)) + packet_size f <= 32 + total flows.
Proof.
  intros HC HI HA. rewrite payload_length, HC. change (Z.of_nat 32) with 32. unfold total.
  enough (fold_right (fun f acc => if fl_active f then packet_size f + acc else acc) 0 flows + packet_size f
          <= fold_right (fun f acc => packet_size f + acc) 0 flows) by lia.
  assert (G : forall l, fold_right (fun f acc => if fl_active f then packet_size f + acc else acc) 0 l
          <= fold_right (fun f acc => packet_size f + acc) 0 l).
  { induction l as [|g l IH]; cbn [fold_right]; [lia|]. pose proof (packet_size_nonneg g). destruct (fl_active g); lia. }
  induction flows as [|g l IH]; [contradiction|]. cbn [fold_right]. destruct HI as [->|HI].
  - rewrite HA. pose proof (G l). lia.
  - specialize (IH HI). pose proof (packet_size_nonneg g). destruct (fl_active g); lia.
Qed.

Lemma headroom_safe cc flows buf f :
  length cc = 32%nat -> Forall flow_ok flows -> length buf = (8 * Z.to_nat (compute_downlink_size true flows))%nat ->
  In f flows -> fl_active f = false -> 2 <= packet_size f ->
  Z.of_nat (length (payload cc flows)) <= 313040 ->
  exists st, build_frame cc flows buf = Some st.
Proof.
  intros HC HF HB HI HA HS HN. apply build_frame_safe_iff; try assumption.
  { rewrite HB, Nat.mul_comm. apply Nat.mod_mul. lia. }
  pose proof (total_slack cc flows f HC HI HA) as T. rewrite max_size_spec in HB.
  set (n := Z.of_nat (length (payload cc flows))) in *. set (m := 32 + total flows) in *.
  assert (n >= 32) by (unfold n; rewrite payload_app, app_length; lia).
  unfold frame_length, continuations. destruct (Z.leb_spec n 0); [lia|].
  assert ((n - 1) / 559 <= (n + 559) / 560) by lia.
  assert ((n + 559) / 560 <= (m + 559) / 560) by (apply Z.div_le_mono; lia). lia.
Qed.

(** ** a frame of one packet *)
Lemma bit_at_cons x l p : 0 < p -> bit_at (x :: l) p = bit_at l (p - 1).
Proof. intros H. unfold bit_at. replace (Z.to_nat p) with (S (Z.to_nat (p - 1))) by lia. reflexivity. Qed.

Lemma nth_error_firstn_lt {A} (l : list A) n i : (i < n)%nat -> nth_error (firstn n l) i = nth_error l i.
Proof.
  revert n i; induction l as [|x l IH]; intros n i H; [rewrite firstn_nil; reflexivity|].
  destruct n as [|n]; [lia|]. destruct i as [|i]; [reflexivity|]. cbn [firstn nth_error]. apply IH. lia.
Qed.

Lemma single_frame cc flows buf st :
  length cc = 32%nat -> Forall flow_ok flows -> build_frame cc flows buf = Some st ->
  let P := payload cc flows in
  (length P <= 559)%nat ->
  let used := (8 * ((length P + 1) / 8) + 8)%nat in
  firstn used (fs_buf st) = true :: P ++ repeat false (used - 1 - length P) /\
  (forall p, (used <= p)%nat -> nth_error (fs_buf st) p = nth_error buf p).
Proof.
  intros HC HF HB P HL used. destruct (build_frame_ok cc flows buf st HC HF HB) as (L & _ & FIT & BITS). fold P in FIT, BITS.
  assert (HP : (1 <= length P)%nat) by (unfold P; rewrite payload_app, app_length; lia).
  assert (CZ : continuations (Z.of_nat (length P)) = 0) by (unfold continuations; destruct (Z.leb_spec (Z.of_nat (length P)) 0); lia).
  assert (FL : frame_length (Z.of_nat (length P)) = Z.of_nat (length P) + 1) by (unfold frame_length; lia).
  rewrite FL in *.
  assert (US : Z.of_nat used = 8 * ((Z.of_nat (length P) + 1) / 8) + 8) by (unfold used; lia).
  assert (HIT : forall p, hit 0 p = false).
  { intros p. unfold hit. destruct (Z.leb_spec 1 (p / 64)), (Z.leb_spec (p / 64) 0); rewrite ?andb_false_r; try reflexivity; lia. }
  assert (LU : (length P + 1 < used)%nat) by lia.
  split.
  - apply nth_error_ext. intros i. destruct (Nat.ltb_spec i used) as [HI|HI].
    + rewrite nth_error_firstn_lt by assumption.
      specialize (BITS (Z.of_nat i) ltac:(lia)). unfold bit_at at 1 in BITS. rewrite Nat2Z.id in BITS. rewrite BITS. clear BITS.
      unfold frame_bit. rewrite CZ, FL, HIT.
      destruct (Z.leb_spec (Z.of_nat (length P) + 1) (Z.of_nat i)) as [H1|H1].
      * destruct (Z.ltb_spec (Z.of_nat i) (8 * ((Z.of_nat (length P) + 1) / 8) + 8)); [|lia]. cbn [andb].
        destruct i as [|i]; [lia|]. cbn [nth_error]. rewrite nth_error_app2 by lia. rewrite nth_error_repeat by lia. reflexivity.
      * cbn [andb]. destruct i as [|i]; [reflexivity|]. destruct (Z.eqb_spec (Z.of_nat (S i)) 0); [lia|].
        destruct (Z.eqb_spec (Z.of_nat (S i) mod 560) 0) as [X|X]; [rewrite Z.mod_small in X by lia; lia|].
        destruct (Z.ltb_spec (Z.of_nat (S i)) (Z.of_nat (length P) + 1)); [|lia].
        rewrite Z.div_small by lia. replace (Z.to_nat (Z.of_nat (S i) - 1 - 0)) with i by lia.
        cbn [nth_error]. rewrite nth_error_app1 by lia. reflexivity.
    + transitivity (@None bool); [|symmetry]; apply nth_error_None; [rewrite firstn_length; lia|].
      cbn [length]. rewrite app_length, repeat_length. lia.
  - intros p Hp. destruct (Nat.ltb_spec p (length buf)) as [HI|HI].
    + specialize (BITS (Z.of_nat p) ltac:(lia)). unfold bit_at at 1 in BITS. rewrite Nat2Z.id in BITS. rewrite BITS. clear BITS.
      unfold frame_bit. rewrite CZ, FL, HIT.
      destruct (Z.leb_spec (Z.of_nat (length P) + 1) (Z.of_nat p)); [|lia].
      destruct (Z.ltb_spec (Z.of_nat p) (8 * ((Z.of_nat (length P) + 1) / 8) + 8)); [lia|]. cbn [andb].
      destruct (Z.eqb_spec (Z.of_nat p) 0); [lia|]. unfold bit_at. rewrite Nat2Z.id.
      destruct (_ =? _); [reflexivity|]. destruct (Z.ltb_spec (Z.of_nat p) (Z.of_nat (length P) + 1)); [lia|reflexivity].
    + transitivity (@None bool); [|symmetry]; apply nth_error_None; lia.
Qed.

(** the part of the frame that is sent: published size *)
Lemma single_frame_sent cc flows buf st :
  length cc = 32%nat -> Forall flow_ok flows -> build_frame cc flows buf = Some st ->
  let P := payload cc flows in
  (length P <= 559)%nat ->
  exists pad, (pad < 8)%nat /\
    (length (payload cc flows) + 1 + pad = 8 * Z.to_nat (compute_downlink_size false flows))%nat /\
    firstn (8 * Z.to_nat (compute_downlink_size false flows)) (fs_buf st) = true :: P ++ repeat false pad.
Proof.
  intros HC HF HB P HL. destruct (single_frame cc flows buf st HC HF HB HL) as (E & _). fold P in E.
  assert (HP : (1 <= length P)%nat) by (unfold P; rewrite payload_app, app_length; lia).
  pose proof (size_spec cc flows HC) as SZ. cbv zeta in SZ. fold P in SZ.
  replace ((Z.of_nat (length P) + 559) / 560) with 1 in SZ by lia.
  set (sz := Z.to_nat (compute_downlink_size false flows)) in *.
  assert (HS : (8 * sz = 8 * ((length P + 8) / 8))%nat) by lia.
  exists (8 * sz - 1 - length P)%nat. fold P. split; [lia|]. split; [lia|].
  set (used := (8 * ((length P + 1) / 8) + 8)%nat) in *.
  replace (firstn (8 * sz) (fs_buf st)) with (firstn (8 * sz) (firstn used (fs_buf st))).
  2:{ rewrite firstn_firstn. f_equal. lia. }
  rewrite E. replace (8 * sz)%nat with (S (8 * sz - 1)) at 1 by lia. cbn [firstn]. f_equal.
  rewrite firstn_app. rewrite firstn_all2 by lia. f_equal.
  replace (used - 1 - length P)%nat with ((8 * sz - 1 - length P) + (used - 8 * sz))%nat by lia.
  rewrite repeat_app, firstn_app, repeat_length, Nat.sub_diag, firstn_O, app_nil_r.
  apply firstn_all2. rewrite repeat_length. lia.
Qed.

(** ** tables made by the constructor *)
Lemma make_flows_spec n fds : forall flows, (1 <= n <= 255)%nat -> Forall (fun fd => 0 <= fst (fst fd)) fds ->
  make_flows n fds = Done flows ->
  Forall2 (has_id n) flows (map (fun fd => fst (fst fd)) fds) /\ Forall flow_ok flows /\
  map fl_active flows = map (fun fd => snd (fst fd)) fds /\ map fl_fields flows = map snd fds.
Proof.
  induction fds as [|[[id act] fields] fds IH]; intros flows HN HP H; cbn [make_flows] in H.
  - injection H as <-. repeat split; constructor.
  - apply Forall_cons_iff in HP. destruct HP as [HP1 HP]. cbn [fst] in HP1.
    unfold make_flow in H. destruct (Z.ltb_spec (Z.of_nat n) id); [discriminate|].
    destruct (Z.eqb_spec id 0); [discriminate|]. cbn [orb] in H.
    destruct (id_serializer n) as [s0|] eqn:E0; [|discriminate]. cbn [bind] in H.
    destruct (serialize s0 id) as [sr|] eqn:E1; [|discriminate].
    destruct (num_bits_in_packet - 1 - 32 <? packet_size (mk_flow sr act fields)) eqn:E2; [discriminate|]. cbn [obind] in H.
    destruct (make_flows n fds) as [l| |] eqn:E3; try discriminate. cbn [obind] in H. injection H as <-.
    destruct (IH l HN HP eq_refl) as (A & B & C & D). cbn [map fst snd fl_active fl_fields]. repeat split.
    + constructor; [|exact A]. split; [exact HN|]. split; [lia|]. exists s0. split; [exact E0|exact E1].
    + constructor; [|exact B]. unfold flow_ok. unfold num_bits_in_packet in E2. lia.
    + f_equal; exact C.
    + f_equal; exact D.
Qed.

Lemma id_serializer_width n s0 : (1 <= n <= 255)%nat -> id_serializer n = Some s0 ->
  Z.of_nat (length (is_bits s0)) = Z.log2 (Z.of_nat n) + 1.
Proof.
  intros H. unfold id_serializer, iser_make_auto, cpp_range. rewrite u8_id by lia.
  rewrite Z.sub_0_r, u32_id by lia. intros E. injection E as <-. cbn [is_bits]. rewrite repeat_length.
  unfold log2i. rewrite log2i_loop_spec by (change (Z.of_nat 32) with 32; lia).
  destruct (Z.eqb_spec (Z.of_nat n) 0); [lia|]. pose proof (Z.log2_nonneg (Z.of_nat n)). lia.
Qed.

Lemma fields_total fields :
  fold_right (fun (b : list bool) acc => Z.of_nat (length b) + acc) 0 fields = Z.of_nat (length (concat fields)).
Proof. induction fields as [|b l IH]; [reflexivity|]. cbn [fold_right concat]. rewrite app_length, IH. lia. Qed.

Lemma make_flow_accepts n id act fields : (1 <= n <= 255)%nat -> 0 <= id ->
  (exists f, make_flow n (id, act, fields) = Done f) <->
  (1 <= id <= Z.of_nat n /\ Z.log2 (Z.of_nat n) + 1 + Z.of_nat (length (concat fields)) <= 527).
Proof.
  intros HN HI. unfold make_flow.
  destruct (id_serializer_spec n HN) as (s0 & E0 & D & A & _).
  pose proof (id_serializer_width n s0 HN E0) as W. rewrite E0. cbn [bind]. rewrite (serialize_spec s0 id D A).
  set (sr := mk_iser _ _ _ _).
  assert (P : packet_size (mk_flow sr act fields) = Z.log2 (Z.of_nat n) + 1 + Z.of_nat (length (concat fields))).
  { unfold packet_size, fl_idbits. cbn [fl_sr fl_fields]. rewrite fields_total. unfold sr. cbn [is_bits].
    rewrite val_bits_length, W. reflexivity. }
  rewrite P. unfold num_bits_in_packet.
  destruct (Z.ltb_spec (Z.of_nat n) id); cbn [orb]; [split; [intros [f X]; discriminate|lia]|].
  destruct (Z.eqb_spec id 0); [split; [intros [f X]; discriminate|lia]|].
  match goal with |- context [if ?c then _ else _] => destruct c eqn:E end.
  - split; [intros [f X]; discriminate|]. lia.
  - split; [intros _; lia|]. intros _. eexists. reflexivity.
Qed.

Lemma make_flows_accepts n fds : (1 <= n <= 255)%nat -> Forall (fun fd => 0 <= fst (fst fd)) fds ->
  (exists l, make_flows n fds = Done l) <->
  Forall (fun fd => 1 <= fst (fst fd) <= Z.of_nat n /\
                    Z.log2 (Z.of_nat n) + 1 + Z.of_nat (length (concat (snd fd))) <= 527) fds.
Proof.
  intros HN. induction fds as [|[[id act] fields] fds IH]; intros HP; cbn [make_flows].
  - split; [constructor|]. intros _. eexists. reflexivity.
  - apply Forall_cons_iff in HP. destruct HP as [HP1 HP]. cbn [fst] in HP1. specialize (IH HP).
    pose proof (make_flow_accepts n id act fields HN HP1) as M. split.
    + intros [l H]. destruct (make_flow n (id, act, fields)) as [f| |] eqn:E; try discriminate.
      cbn [obind] in H. destruct (make_flows n fds) as [k| |] eqn:E2; try discriminate.
      constructor; [cbn [fst snd]; apply M; exists f; reflexivity|]. apply IH. exists k. reflexivity.
    + intros H. apply Forall_cons_iff in H. destruct H as [H1 H2]. cbn [fst snd] in H1.
      apply M in H1. destruct H1 as [f ->]. apply IH in H2. destruct H2 as [k ->]. cbn [obind]. eexists. reflexivity.
Qed.
