From Coq Require Import String List Reals Lra.
From Flocq Require Import Core.
From Verif Require Import Base BitArrayModel BitArrayProofs IntSerModel IntSerSpec IntSerProofs GPSTimeModel GPSTimeProofs VecSerModel FloatSerModel
  DownlinkModel DownlinkSpec DownlinkProofs DownlinkGroundProofs DownlinkTableProofs FlownModel FlownSpec FlownProofs FlownGroundProofs.
Open Scope string_scope.
Open Scope list_scope.
Open Scope Z_scope.
Opaque flown registry.

(** ** moving flows *)
Definition count_at (i : nat) : nat := length (snd (nth i flown (0, false, []))).
(** all of flows [i+1 .. j] have as many fields as flow [i] (and the other way round) *)
Definition movable (i j : nat) : bool := forallb (fun k => Nat.eqb (count_at i) (count_at k)) (seq (Nat.min i j) (Nat.max i j - Nat.min i j + 1)).
Definition pairs : list (Z * Z) := [(3, 4); (20, 21); (23, 24); (27, 28); (29, 30); (35, 36); (38, 39)].
Definition is_pair (a b : Z) : bool := existsb (fun p => (fst p =? a) && (snd p =? b)) pairs.

Lemma movable_pairs : forallb (fun i => forallb (fun j => Bool.eqb (movable i j)
    (Nat.eqb i j || is_pair (Z.of_nat i + 1) (Z.of_nat j + 1) || is_pair (Z.of_nat j + 1) (Z.of_nat i + 1))) (seq 0 43)) (seq 0 43) = true.
Proof. vm_compute. reflexivity. Qed.

Lemma movable_spec i j : (i < 43)%nat -> (j < 43)%nat -> i <> j ->
  movable i j = is_pair (Z.of_nat i + 1) (Z.of_nat j + 1) || is_pair (Z.of_nat j + 1) (Z.of_nat i + 1).
Proof.
  intros Hi Hj NE. pose proof movable_pairs as A. rewrite forallb_forall in A. specialize (A i ltac:(apply in_seq; lia)).
  rewrite forallb_forall in A. specialize (A j ltac:(apply in_seq; lia)). apply Bool.eqb_prop in A. rewrite A.
  destruct (Nat.eqb_spec i j); [contradiction|]. reflexivity.
Qed.

Lemma split_at {A} (d : A) l : forall i, (i < length l)%nat -> l = firstn i l ++ nth i l d :: skipn (S i) l.
Proof.
  induction l as [|x l IH]; intros i H; [cbn [length] in H; lia|]. destruct i as [|i]; [reflexivity|].
  cbn [firstn nth skipn app]. f_equal. apply IH. cbn [length] in H. lia.
Qed.

Lemma skipn_twice {A} (l : list A) : forall a b, skipn a (skipn b l) = skipn (b + a) l.
Proof. induction l as [|x l IH]; intros a [|b]; cbn [skipn Nat.add]; try reflexivity; [apply skipn_nil|apply IH]. Qed.

Lemma split_two {A} (d : A) l i j : (i < j)%nat -> (j < length l)%nat ->
  l = firstn i l ++ nth i l d :: (firstn (j - i - 1) (skipn (S i) l) ++ [nth j l d]) ++ skipn (S j) l.
Proof.
  intros H1 H2. rewrite (split_at d l i) at 1 by lia. f_equal. f_equal.
  rewrite (split_at d (skipn (S i) l) (j - i - 1)) at 1 by (rewrite skipn_length; lia).
  rewrite <- app_assoc. cbn [app]. f_equal. f_equal.
  - rewrite <- (firstn_skipn (S i) l) at 2. rewrite app_nth2; rewrite firstn_length; [f_equal; lia|lia].
  - rewrite skipn_twice. f_equal. lia.
Qed.

Lemma forallb_over {A B} (f : A -> B) (g : B -> bool) l : forallb g (map f l) = forallb (fun x => g (f x)) l.
Proof. induction l as [|x l IH]; [reflexivity|]. cbn [map forallb]. rewrite IH. reflexivity. Qed.
Lemma forallb_same {A} (f g : A -> bool) l : (forall x, f x = g x) -> forallb f l = forallb g l.
Proof. intros H. induction l as [|x l IH]; [reflexivity|]. cbn [forallb]. rewrite H, IH. reflexivity. Qed.

Definition d0 : Z * bool * list string := (0, false, []).

Lemma nth_id i : (i < 43)%nat -> fst (fst (nth i flown d0)) = Z.of_nat i + 1.
Proof.
  intros H. transitivity (nth i ids (fst (fst d0))).
  - unfold ids. symmetry. exact (map_nth (fun r : Z * bool * list string => fst (fst r)) flown d0 i).
  - rewrite ids_eq. rewrite (nth_indep _ _ (Z.of_nat 0 + 1)) by (rewrite map_length, seq_length; exact H).
    rewrite (map_nth (fun i => Z.of_nat i + 1)). rewrite seq_nth by exact H. reflexivity.
Qed.
Lemma nth_in i : (i < 43)%nat -> In (nth i flown d0) flown.
Proof. intros H. apply nth_In. rewrite flown_length. exact H. Qed.

Lemma between_same on val i j x : (i < j)%nat -> (j < 43)%nat ->
  forallb (same_count (mkrow on val x)) (map (mkrow on val) (firstn (j - i - 1) (skipn (S i) flown) ++ [nth j flown d0])) =
  forallb (fun k => Nat.eqb (length (snd x)) (count_at k)) (seq (S i) (j - i)).
Proof.
  intros H1 H2. rewrite forallb_over.
  assert (E : firstn (j - i - 1) (skipn (S i) flown) ++ [nth j flown d0] = map (fun k => nth k flown d0) (seq (S i) (j - i))).
  { apply nth_ext with (d := d0) (d' := nth 0 flown d0).
    - rewrite app_length, firstn_length, skipn_length, map_length, seq_length, flown_length. cbn [length]. lia.
    - intros k Hk. rewrite app_length, firstn_length, skipn_length, flown_length in Hk. cbn [length] in Hk.
      rewrite map_nth with (f := fun k => nth k flown d0). rewrite seq_nth by lia.
      destruct (Nat.ltb_spec k (j - i - 1)) as [K|K].
      + rewrite app_nth1 by (rewrite firstn_length, skipn_length, flown_length; lia).
        rewrite <- (firstn_skipn (S i) flown) at 2. rewrite app_nth2 by (rewrite firstn_length; lia).
        rewrite firstn_length, flown_length. replace (S i + k - Nat.min (S i) 43)%nat with k by lia.
        rewrite <- (firstn_skipn (j - i - 1) (skipn (S i) flown)) at 2. rewrite app_nth1; [reflexivity|].
        rewrite firstn_length, skipn_length, flown_length. lia.
      + rewrite app_nth2 by (rewrite firstn_length; lia). rewrite firstn_length, skipn_length, flown_length.
        replace (k - Nat.min (j - i - 1) (43 - S i))%nat with 0%nat by lia. cbn [nth]. f_equal. lia. }
  rewrite E, forallb_over. apply forallb_same. intros k. unfold same_count, mkrow, count_at. cbn [fl_fields]. rewrite !map_length. reflexivity.
Qed.

Lemma seq_cons a n : seq a (S n) = a :: seq (S a) n. Proof. reflexivity. Qed.

(** later in the table *)
Lemma shift_up_flown on val i j : (i < j)%nat -> (j < 43)%nat ->
  shift_flow_priorities (flows_of on val) (Z.of_nat i + 1) (Z.of_nat j + 1) =
  if movable i j then Done (map (mkrow on val) (firstn i flown ++ (firstn (j - i - 1) (skipn (S i) flown) ++ [nth j flown d0]) ++
    nth i flown d0 :: skipn (S j) flown)) else Undef.
Proof.
  intros H1 H2. pose proof (split_two d0 flown i j H1 ltac:(rewrite flown_length; exact H2)) as SP.
  set (pre := firstn i flown) in *. set (x := nth i flown d0) in *. set (mid := firstn (j - i - 1) (skipn (S i) flown)) in *.
  set (y := nth j flown d0) in *. set (post := skipn (S j) flown) in *.
  pose proof (flows_ids on val) as F2. pose proof ids_nodup as ND. unfold ids in *. unfold flows_of in *.
  assert (EF : map (mkrow on val) flown = map (mkrow on val) pre ++ mkrow on val x :: (map (mkrow on val) mid ++ [mkrow on val y]) ++ map (mkrow on val) post).
  { rewrite SP at 1. rewrite map_app. cbn [map]. rewrite !map_app. reflexivity. }
  set (gi := fun r : Z * bool * list string => fst (fst r)) in *.
  assert (EI : map gi flown = map gi pre ++ gi x :: (map gi mid ++ [gi y]) ++ map gi post).
  { rewrite SP at 1. rewrite map_app. cbn [map]. rewrite !map_app. reflexivity. }
  assert (L43 : length (map (mkrow on val) flown) = 43%nat) by (rewrite map_length; exact flown_length).
  rewrite EF in *. rewrite EI in *. rewrite <- L43 in F2.
  pose proof (shift_later (map (mkrow on val) pre) (mkrow on val x) (map (mkrow on val) mid) (mkrow on val y) (map (mkrow on val) post)
     (map gi pre) (gi x) (map gi mid) (gi y) (map gi post)) as SL. cbv zeta in SL.
  rewrite <- (nth_id i ltac:(lia)), <- (nth_id j H2). fold x y. change (fst (fst x)) with (gi x). change (fst (fst y)) with (gi y).
  rewrite SL; [|exact F2|exact ND|rewrite !map_length; reflexivity|rewrite !map_length; reflexivity].
  replace (map (mkrow on val) mid ++ [mkrow on val y]) with (map (mkrow on val) (mid ++ [y])) by (rewrite map_app; reflexivity).
  unfold mid, y at 1. rewrite (between_same on val i j x H1 H2).
  assert (EM : forallb (fun k => Nat.eqb (length (snd x)) (count_at k)) (seq (S i) (j - i)) = movable i j).
  { unfold movable. replace (Nat.min i j) with i by lia. replace (Nat.max i j - i + 1)%nat with (S (j - i)) by lia. rewrite seq_cons. cbn [forallb].
    rewrite Nat.eqb_refl. reflexivity. }
  rewrite EM. destruct (movable i j); [|reflexivity]. f_equal. rewrite !map_app. cbn [map]. rewrite ?map_app. reflexivity.
Qed.

(** earlier in the table *)
Lemma shift_down_flown on val i j : (i < j)%nat -> (j < 43)%nat ->
  exists l, shift_flow_priorities (flows_of on val) (Z.of_nat j + 1) (Z.of_nat i + 1) = (if movable i j then Done l else Undef) /\
    (j = S i -> l = map (mkrow on val) (firstn i flown ++ nth j flown d0 :: nth i flown d0 :: skipn (S j) flown)).
Proof.
  intros H1 H2. pose proof (split_two d0 flown i j H1 ltac:(rewrite flown_length; exact H2)) as SP.
  set (pre := firstn i flown) in *. set (x := nth i flown d0) in *. set (mid := firstn (j - i - 1) (skipn (S i) flown)) in *.
  set (y := nth j flown d0) in *. set (post := skipn (S j) flown) in *.
  pose proof (flows_ids on val) as F2. pose proof ids_nodup as ND. unfold ids in *. unfold flows_of in *.
  assert (EF : map (mkrow on val) flown = map (mkrow on val) pre ++ (mkrow on val x :: map (mkrow on val) mid) ++ mkrow on val y :: map (mkrow on val) post).
  { rewrite SP at 1. rewrite map_app. cbn [map]. rewrite !map_app. cbn [map app]. rewrite <- app_assoc. reflexivity. }
  set (gi := fun r : Z * bool * list string => fst (fst r)) in *.
  assert (EI : map gi flown = map gi pre ++ (gi x :: map gi mid) ++ gi y :: map gi post).
  { rewrite SP at 1. rewrite map_app. cbn [map]. rewrite !map_app. cbn [map app]. rewrite <- app_assoc. reflexivity. }
  assert (L43 : length (map (mkrow on val) flown) = 43%nat) by (rewrite map_length; exact flown_length).
  rewrite EF in *. rewrite EI in *. rewrite <- L43 in F2.
  pose proof (shift_earlier (map (mkrow on val) pre) (mkrow on val x) (map (mkrow on val) mid) (mkrow on val y) (map (mkrow on val) post)
     (map gi pre) (gi x) (map gi mid) (gi y) (map gi post)) as SL. cbv zeta in SL.
  rewrite <- (nth_id i ltac:(lia)), <- (nth_id j H2). fold x y. change (fst (fst x)) with (gi x). change (fst (fst y)) with (gi y).
  rewrite SL; [|exact F2|exact ND|rewrite !map_length; reflexivity|rewrite !map_length; reflexivity].
  assert (EM : forallb (same_count (mkrow on val y)) (mkrow on val x :: map (mkrow on val) mid) = movable i j).
  { pose proof (between_same on val i j x H1 H2) as B. fold mid y in B.
    assert (EMx : forallb (fun k => Nat.eqb (length (snd x)) (count_at k)) (seq (S i) (j - i)) = movable i j).
    { unfold movable. replace (Nat.min i j) with i by lia. replace (Nat.max i j - i + 1)%nat with (S (j - i)) by lia. rewrite seq_cons. cbn [forallb].
      rewrite Nat.eqb_refl. reflexivity. }
    rewrite <- EMx, <- B, map_app, forallb_app. cbn [map forallb]. rewrite andb_true_r.
    rewrite (same_count_sym (mkrow on val y) (mkrow on val x)).
    destruct (same_count (mkrow on val x) (mkrow on val y)) eqn:SC; [|rewrite andb_false_r; reflexivity]. rewrite andb_true_r. cbn [andb].
    unfold same_count in SC. apply Nat.eqb_eq in SC. unfold same_count. rewrite SC. reflexivity. }
  rewrite EM. eexists. split; [reflexivity|]. intros ->. unfold mid. replace (S i - i - 1)%nat with 0%nat by lia. rewrite firstn_O.
  rewrite map_app. reflexivity.
Qed.

Lemma pairs_adjacent i j : is_pair (Z.of_nat i + 1) (Z.of_nat j + 1) = true -> j = S i.
Proof.
  unfold is_pair. intros H. apply existsb_exists in H. destruct H as (p & HI & HE). apply andb_true_iff in HE. destruct HE as [E1 E2].
  apply Z.eqb_eq in E1, E2. cbn [pairs In] in HI. repeat (destruct HI as [<-|HI]; [cbn [fst snd] in *; lia|]). contradiction.
Qed.

(** ** the time *)
Lemma clear_val_bits w : forall k v, 0 <= v -> clear k (val_bits w v) = val_bits w (Z.clearbit v (Z.of_nat k)).
Proof.
  induction w as [|w IH]; intros k v H; [reflexivity|]. cbn [val_bits]. destruct k as [|k]; cbn [clear].
  - f_equal.
    + rewrite <- Z.bit0_odd, Z.clearbit_eq. reflexivity.
    + f_equal. apply Z.bits_inj'. intros n Hn. rewrite !Z.div2_bits by lia. rewrite Z.clearbit_neq; [reflexivity|lia].
  - f_equal.
    + rewrite <- !Z.bit0_odd. rewrite Z.clearbit_neq; [reflexivity|lia].
    + rewrite IH by (apply Z.div_pos; lia). f_equal. apply Z.bits_inj'. intros n Hn.
      rewrite Z.div2_bits by lia. rewrite !Z.clearbit_eqb by lia. rewrite Z.div2_bits by lia.
      replace (Z.of_nat (S k) =? Z.succ n) with (Z.of_nat k =? n); [reflexivity|].
      destruct (Z.eqb_spec (Z.of_nat k) n), (Z.eqb_spec (Z.of_nat (S k)) (Z.succ n)); try reflexivity; lia.
Qed.

Lemma clearbit_sub v k : 0 <= v -> 0 <= k -> Z.clearbit v k = v - 2 ^ k * Z.b2z (Z.testbit v k).
Proof.
  intros H K. pose proof (Z.add_nocarry_lxor (Z.clearbit v k) (Z.land v (2 ^ k))) as X.
  assert (E : Z.land v (2 ^ k) = 2 ^ k * Z.b2z (Z.testbit v k)).
  { apply Z.bits_inj'. intros n Hn. rewrite Z.land_spec. destruct (Z.eqb_spec k n) as [->|NE].
    - rewrite Z.pow2_bits_true by lia. rewrite andb_true_r. destruct (Z.testbit v n) eqn:B; cbn [Z.b2z].
      + rewrite Z.mul_1_r, Z.pow2_bits_true by lia. reflexivity.
      + rewrite Z.mul_0_r, Z.bits_0. reflexivity.
    - rewrite Z.pow2_bits_false by lia. rewrite andb_false_r. destruct (Z.testbit v k); cbn [Z.b2z].
      + rewrite Z.mul_1_r, Z.pow2_bits_false by lia. reflexivity.
      + rewrite Z.mul_0_r, Z.bits_0. reflexivity. }
  assert (D : Z.land (Z.clearbit v k) (Z.land v (2 ^ k)) = 0).
  { apply Z.bits_inj'. intros n Hn. rewrite !Z.land_spec, Z.clearbit_eqb, Z.bits_0 by lia. rewrite Z.pow2_bits_eqb by lia.
    destruct (Z.eqb_spec k n), (Z.testbit v n); reflexivity. }
  specialize (X D). rewrite <- E.
  assert (V : Z.lxor (Z.clearbit v k) (Z.land v (2 ^ k)) = v).
  { apply Z.bits_inj'. intros n Hn. rewrite Z.lxor_spec, Z.land_spec, Z.clearbit_eqb by lia. rewrite Z.pow2_bits_eqb by lia.
    destruct (Z.eqb_spec k n), (Z.testbit v n); reflexivity. }
  lia.
Qed.

Definition gbits (g : gtime) : list bool :=
  true :: val_bits 10 (g_wn g - 2000) ++ val_bits 30 (g_tow g) ++ val_bits 21 (g_ns g + 1000000).


Lemma code_one s v : declared s -> extent s <= 2 ^ Z.of_nat (length (is_bits s)) - 1 -> 0 < extent s -> is_min s <= v <= is_max s ->
  code s v = v - is_min s.
Proof.
  intros D C E H. pose proof (cstep_is_step s D) as [S1 S2]. pose proof (cstep_pos s D E). specialize (S2 1 ltac:(lia) ltac:(lia)).
  assert (cstep s = 1) by lia. unfold code. rewrite H1. rewrite clamp_same by exact H. apply Z.div_1_r.
Qed.

Lemma gser_bits s g : gser_shape s -> in_telemetry g -> exists s', gserialize s g = Some s' /\ gs_bits s' = gbits g /\ gser_shape s'.
Proof.
  intros SH (S & HW & HT & HN). destruct (inner_ok s SH) as ((DW & AW) & (DT & AT) & (DN & AN)).
  destruct (gser_roundtrip_set s g gtime_default SH S) as (s' & E & SH' & _). exists s'. split; [exact E|]. split; [|exact SH'].
  pose proof SH as (A1&A2&A3&A4&B1&B2&B3&B4&C1&C2&C3&C4&L).
  unfold gserialize in E. rewrite S in E. rewrite (serialize_spec (gs_wn s)), (serialize_spec (gs_tow s)), (serialize_spec (gs_ns s)) in E by assumption.
  rewrite A4, B4, C4 in E. cbn [is_bits] in E. rewrite !val_bits_length in E.
  rewrite (code_one (gs_wn s)) in E by (try assumption; unfold extent; rewrite ?A2, ?A3, ?A4; try lia; vm_compute; congruence).
  rewrite (code_one (gs_tow s)) in E by (try assumption; unfold extent; rewrite ?B2, ?B3, ?B4; try lia; vm_compute; congruence).
  rewrite (code_one (gs_ns s)) in E by (try assumption; unfold extent; rewrite ?C2, ?C3, ?C4; try lia; vm_compute; congruence).
  rewrite A2, B2, C2, Z.sub_0_r in E. replace (g_ns g - -1000000) with (g_ns g + 1000000) in E by lia.
  destruct (gs_bits s) as [|b0 bs] eqn:EB; [discriminate|]. cbn [length] in L. cbn [upd] in E. cbv zeta in E.
  set (wb := val_bits 10 (g_wn g - 2000)) in *. set (tb := val_bits 30 (g_tow g)) in *. set (nb := val_bits 21 (g_ns g + 1000000)) in *.
  assert (LW : length wb = 10%nat) by apply val_bits_length. assert (LT : length tb = 30%nat) by apply val_bits_length.
  assert (LN : length nb = 21%nat) by apply val_bits_length.
  assert (SP : exists m1 m2 m3, bs = m1 ++ m2 ++ m3 /\ length m1 = 10%nat /\ length m2 = 30%nat /\ length m3 = 21%nat).
  { exists (firstn 10 bs), (firstn 30 (skipn 10 bs)), (skipn 30 (skipn 10 bs)). rewrite !firstn_skipn. split; [reflexivity|].
    rewrite !firstn_length, !skipn_length. lia. }
  destruct SP as (m1 & m2 & m3 & -> & L1 & L2 & L3).
  change (true :: m1 ++ m2 ++ m3) with ([true] ++ m1 ++ (m2 ++ m3)) in E.
  replace (copy_at ([true] ++ m1 ++ m2 ++ m3) 1 wb) with (Some ([true] ++ wb ++ m2 ++ m3)) in E
    by (symmetry; apply (copy_at_app [true]); congruence).
  replace ([true] ++ wb ++ m2 ++ m3) with (([true] ++ wb) ++ m2 ++ m3) in E by (rewrite <- app_assoc; reflexivity).
  replace (copy_at (([true] ++ wb) ++ m2 ++ m3) (1 + 10) tb) with (Some (([true] ++ wb) ++ tb ++ m3)) in E.
  2:{ symmetry. replace (1 + 10)%nat with (length ([true] ++ wb)) by (rewrite app_length, LW; reflexivity). apply copy_at_app. congruence. }
  replace (([true] ++ wb) ++ tb ++ m3) with ((([true] ++ wb) ++ tb) ++ m3 ++ []) in E by (rewrite app_nil_r, <- !app_assoc; reflexivity).
  replace (copy_at ((([true] ++ wb) ++ tb) ++ m3 ++ []) (1 + 10 + 30) nb) with (Some ((([true] ++ wb) ++ tb) ++ nb ++ [])) in E.
  2:{ symmetry. replace (1 + 10 + 30)%nat with (length (([true] ++ wb) ++ tb)) by (rewrite !app_length, LW, LT; reflexivity). apply copy_at_app. congruence. }
  apply (f_equal (fun o => match o with Some q => gs_bits q | None => [] end)) in E. cbn [gs_bits] in E. rewrite <- E.
  rewrite app_nil_r, <- !app_assoc. unfold gbits. fold wb tb nb. reflexivity.
Qed.

Lemma gbits_length g : length (gbits g) = 62%nat.
Proof. unfold gbits. cbn [length]. rewrite !app_length, !val_bits_length. reflexivity. Qed.

(** reading bits of a time *)
Lemma gbits_read s g dest : gser_shape s -> in_telemetry g -> gdeserialize (mk_gser (gs_wn s) (gs_tow s) (gs_ns s) (gbits g)) dest = Some g.
Proof.
  intros SH (S & HW & HT & HN). destruct (inner_ok s SH) as ((DW & AW) & (DT & AT) & (DN & AN)).
  pose proof SH as (A1&A2&A3&A4&B1&B2&B3&B4&C1&C2&C3&C4&L).
  unfold gdeserialize, gbits. cbn [gs_bits gs_wn gs_tow gs_ns]. cbv zeta. rewrite A4, B4, C4.
  set (wb := val_bits 10 (g_wn g - 2000)). set (tb := val_bits 30 (g_tow g)). set (nb := val_bits 21 (g_ns g + 1000000)).
  assert (LW : length wb = 10%nat) by apply val_bits_length. assert (LT : length tb = 30%nat) by apply val_bits_length.
  assert (LN : length nb = 21%nat) by apply val_bits_length.
  replace (sub_bits (true :: wb ++ tb ++ nb) 1 10) with (Some wb).
  2:{ symmetry. pose proof (sub_bits_app [true] wb (tb ++ nb)) as X. rewrite LW in X. exact X. }
  replace (sub_bits (true :: wb ++ tb ++ nb) (1 + 10) 30) with (Some tb).
  2:{ symmetry. pose proof (sub_bits_app ([true] ++ wb) tb nb) as X. rewrite LT, app_length, LW, <- app_assoc in X. exact X. }
  replace (sub_bits (true :: wb ++ tb ++ nb) (1 + 10 + 30) 21) with (Some nb).
  2:{ symmetry. pose proof (sub_bits_app ([true] ++ wb ++ tb) nb []) as X. rewrite LN, !app_length, LW, LT, app_nil_r, <- !app_assoc in X. exact X. }
  rewrite !decode_any by (try assumption; congruence).
  assert (STEP : forall s, declared s -> 0 < extent s -> extent s <= 2 ^ Z.of_nat (length (is_bits s)) - 1 -> cstep s = 1).
  { intros s0 D E C. pose proof (cstep_is_step s0 D) as [S1 S2]. pose proof (cstep_pos s0 D E). specialize (S2 1 ltac:(lia) ltac:(lia)). lia. }
  rewrite (STEP (gs_wn s)), (STEP (gs_tow s)), (STEP (gs_ns s)) by (try assumption; unfold extent; rewrite ?A2, ?A3, ?A4, ?B2, ?B3, ?B4, ?C2, ?C3, ?C4; vm_compute; congruence).
  unfold wb, tb, nb. rewrite !bits_val_val_bits_small by (try change (Z.of_nat 10) with 10; try change (Z.of_nat 30) with 30; try change (Z.of_nat 21) with 21; lia).
  rewrite A1, A2, B1, B2, C1, C2. cbn [ity_conv]. rewrite !u32_id by lia. unfold s32. rewrite swrap_id by (change (2 ^ (32 - 1)) with 2147483648; lia). rewrite u16_id by lia.
  destruct g as [wn tow ns st]. cbn [g_wn g_tow g_ns g_set] in *. subst st. repeat f_equal; lia.
Qed.

Lemma gbits_clear g : in_telemetry g ->
  clear 25 (gbits g) = gbits (mk_gtime (g_wn g) (Z.clearbit (g_tow g) 14) (g_ns g) true) /\
  in_telemetry (mk_gtime (g_wn g) (Z.clearbit (g_tow g) 14) (g_ns g) true).
Proof.
  intros (S & HW & HT & HN). split.
  - unfold gbits. cbn [g_wn g_tow g_ns]. set (wb := val_bits 10 (g_wn g - 2000)). set (nb := val_bits 21 (g_ns g + 1000000)).
    assert (LW : length wb = 10%nat) by apply val_bits_length.
    cbn [clear]. f_equal. replace 24%nat with (length wb + 14)%nat by lia. rewrite clear_app_r, clear_app_l by (rewrite val_bits_length; lia).
    rewrite clear_val_bits by lia. reflexivity.
  - unfold in_telemetry. cbn [g_wn g_tow g_ns g_set]. split; [reflexivity|]. split; [exact HW|]. split; [|exact HN].
    pose proof (clearbit_sub (g_tow g) 14 ltac:(lia) ltac:(lia)) as C. split.
    + rewrite Z.clearbit_spec'. apply Z.ldiff_nonneg. left. lia.
    + rewrite C. destruct (Z.testbit _ _); cbn [Z.b2z]; lia.
Qed.

(** ** widths of what the serializers produce *)
Open Scope R_scope.
Lemma ceil_log2 (a b : Z) : (0 < b)%Z -> (0 < a)%Z ->
  Zceil (ln (IZR a / IZR b) / ln 2) = Z.log2_up (- (- a / b)) \/ (a <= b)%Z.
Proof.
  intros HB HA. destruct (Z.leb_spec a b) as [L|L]; [right; exact L|left].
  set (q := (- (- a / b))%Z). assert (Q1 : (b * (q - 1) < a <= b * q)%Z) by (unfold q; lia).
  assert (Q2 : (2 <= q)%Z) by nia.
  set (k := Z.log2_up q). pose proof (Z.log2_up_spec q ltac:(lia)) as [K1 K2]. fold k in K1, K2. rewrite <- Z.sub_1_r in K1.
  assert (KP : (0 < k)%Z) by (apply Z.log2_up_pos; lia).
  assert (LN2 : 0 < ln 2) by (rewrite <- ln_1; apply ln_increasing; lra).
  assert (PB : 0 < IZR b) by (apply IZR_lt; exact HB). assert (PA : 0 < IZR a) by (apply IZR_lt; exact HA).
  assert (PW : forall m, (0 <= m)%Z -> ln (IZR (2 ^ m)) = IZR m * ln 2).
  { intros m Hm. rewrite <- (Z2Nat.id m) by exact Hm. rewrite <- pow_IZR. rewrite ln_pow by lra. rewrite INR_IZR_INZ. reflexivity. }
  apply Zceil_imp. split.
  - apply Rmult_lt_reg_r with (ln 2); [exact LN2|]. unfold Rdiv. rewrite (Rmult_assoc (ln _)), Rinv_l, Rmult_1_r by lra.
    rewrite minus_IZR. change (IZR k - 1) with (IZR k - IZR 1). rewrite <- minus_IZR, <- PW by lia. apply ln_increasing.
    + apply IZR_lt. apply Z.pow_pos_nonneg; lia.
    + apply Rmult_lt_reg_r with (IZR b); [exact PB|]. unfold Rdiv. rewrite Rmult_assoc, Rinv_l, Rmult_1_r by lra.
      rewrite <- mult_IZR. apply IZR_lt. nia.
  - apply Rmult_le_reg_r with (ln 2); [exact LN2|]. unfold Rdiv. rewrite (Rmult_assoc (ln _)), Rinv_l, Rmult_1_r by lra.
    rewrite <- PW by lia. assert (IZR a * / IZR b <= IZR (2 ^ k)).
    { apply Rmult_le_reg_r with (IZR b); [exact PB|]. rewrite Rmult_assoc, Rinv_l, Rmult_1_r by lra. rewrite <- mult_IZR. apply IZR_le. nia. }
    destruct (Rle_lt_or_eq_dec _ _ H) as [X|X]; [left; apply ln_increasing; [apply Rmult_lt_0_compat; [exact PA|apply Rinv_0_lt_compat; exact PB]|exact X]|rewrite X; right; reflexivity].
Qed.

Lemma angle_bits_vb2 mn mx s p : (0 < s)%Z -> (mn < mx)%Z -> (mx - mn < 3 * mx)%Z ->
  vb2 (IZR mn / IZR s) (IZR mx / IZR s) p = angle_bits mn mx p.
Proof.
  intros HS HM HL. unfold vb2, angle_bits.
  replace (3 * (IZR mx / IZR s) / (IZR mx / IZR s - IZR mn / IZR s)) with (IZR (3 * mx) / IZR (mx - mn)).
  2:{ rewrite mult_IZR, minus_IZR. assert (IZR s <> 0) by (apply IZR_neq; lia).
      assert (IZR mx - IZR mn <> 0) by (rewrite <- minus_IZR; apply IZR_neq; lia). field. split; assumption. }
  destruct (ceil_log2 (3 * mx) (mx - mn) ltac:(lia) ltac:(lia)) as [E|E]; [|lia]. rewrite E. reflexivity.
Qed.
Open Scope Z_scope.

Definition vec_ok (d : fdecl) : bool :=
  match d with DVec mn mx s _ => (0 <? s) && (mn <? mx) && (mx - mn <? 3 * mx) | _ => true end.
Lemma vecs_ok : forallb (fun p => vec_ok (snd p)) registry = true.
Proof. vm_compute. reflexivity. Qed.
Lemma lookup_in r n d : lookup r n = Some d -> In (n, d) r.
Proof.
  induction r as [|[m e] r IH]; [discriminate|]. cbn [lookup]. destruct (String.eqb_spec m n) as [->|]; intros H; [injection H as ->; left; reflexivity|right; exact (IH H)].
Qed.

Lemma upd_keeps (arr : list bool) : forall i b arr', upd arr i b = Some arr' -> length arr' = length arr.
Proof.
  induction arr as [|x l IH]; intros [|i] b arr' H; cbn in H; try discriminate.
  - injection H as <-. reflexivity.
  - destruct (upd l i b) eqn:E; [|discriminate]. injection H as <-. cbn [length]. f_equal. eapply IH; eauto.
Qed.
Lemma write_loop_keeps fuel : forall arr i v arr', write_loop fuel arr i v = Some arr' -> length arr' = length arr.
Proof.
  induction fuel as [|f IH]; intros arr i v arr'; cbn [write_loop]; (destruct (v <=? 0); [intros [= <-]; reflexivity|]); [discriminate|].
  destruct (upd arr i (Z.odd v)) as [a|] eqn:E; [|discriminate]. intros H. rewrite (IH _ _ _ _ H). eapply upd_keeps; eauto.
Qed.
Lemma set_ullong_keeps arr v r b : set_ullong arr v = Some (r, b) -> length b = length arr.
Proof.
  unfold set_ullong. destruct (num_val_bits_ok64 _ _); [|intros [= _ <-]; reflexivity].
  destruct (write_loop 64 _ 0 v) as [a|] eqn:E; [|discriminate]. intros [= _ <-]. rewrite (write_loop_keeps _ _ _ _ _ E). apply repeat_length.
Qed.
Lemma assign_keeps (a b : list bool) : length (assign a b) = length a.
Proof. unfold assign. destruct (Nat.eqb_spec (length b) (length a)); congruence. Qed.

Lemma int_reach_keeps s0 s : int_reach s0 s -> length (is_bits s) = length (is_bits s0).
Proof.
  induction 1 as [|s v s' R IH E|s b R IH]; [reflexivity| |cbn [set_bits is_bits]; rewrite assign_keeps; exact IH].
  unfold serialize in E. cbv zeta in E. destruct (cpp_range _ _ _) as [d|]; [|discriminate]. destruct (resolution s) as [r|]; [|discriminate].
  destruct (set_ullong _ _) as [[f b]|] eqn:U; [|discriminate]. injection E as <-. cbn [is_bits]. rewrite (set_ullong_keeps _ _ _ _ U). exact IH.
Qed.
Lemma flt_reach_keeps prec emax Hp He s0 s : @flt_reach prec emax Hp He s0 s -> length (fs_bits prec emax s) = length (fs_bits prec emax s0).
Proof.
  induction 1 as [|s v s' R IH E|s b R IH]; [reflexivity| |cbn [fs_set_bits fs_bits]; rewrite assign_keeps; exact IH].
  unfold fserialize in E. destruct (fs_res _ _ _ _ s) as [d|]; [|discriminate]. destruct (to_ull _) as [r|]; [|discriminate].
  destruct (set_ullong _ _) as [[f b]|] eqn:U; [|discriminate]. injection E as <-. cbn [fs_bits]. rewrite (set_ullong_keeps _ _ _ _ U). exact IH.
Qed.
Lemma gps_reach_shape s : gps_reach s -> gser_shape s.
Proof. intros H. apply gser_reach_shape. induction H; [constructor 1|econstructor 2]; eassumption. Qed.
Lemma qelems_length q l : forall b, qelems q l = Some b -> length b = (length l * quat_component_sz)%nat.
Proof.
  induction l as [|i l IH]; intros b H; cbn [qelems] in H; [injection H as <-; reflexivity|].
  destruct (renc _ _ _ _) as [c|]; [|discriminate]. destruct (qelems q l) as [b'|]; [|discriminate]. apply (f_equal (fun o => match o with Some x => x | None => [] end)) in H. rewrite <- H.
  rewrite app_length, val_bits_length, (IH b' eq_refl). reflexivity.
Qed.

Lemma qmax_range q : (qmax q < 4)%nat.
Proof.
  unfold qmax. cbn [fold_left]. unfold qmax_step. cbn [fst snd]. repeat (destruct (Rlt_dec _ _); cbn [fst snd]); lia.
Qed.
Lemma others_length m : (m < 4)%nat -> length (others m) = 3%nat.
Proof. intros H. destruct m as [|[|[|[|m]]]]; try reflexivity. lia. Qed.

Lemma written_width d b w : vec_ok d = true -> written d b -> width d = Some w -> length b = w.
Proof.
  intros V W. destruct W as [b|t mn mx c s R|t mn mx s0 s E R|n prec emax Hp He mn mx s R|mn mx sc p v b E|q b E|s R]; cbn [width]; intros H.
  - injection H as <-. reflexivity.
  - injection H as <-. exact (int_reach_keeps _ _ R).
  - rewrite E in H. cbn [option_map] in H. injection H as <-. apply int_reach_keeps. exact R.
  - injection H as <-. rewrite (flt_reach_keeps _ _ _ _ _ _ R). unfold fser_make. cbn [fs_bits]. apply repeat_length.
  - cbn [vec_ok] in V. apply andb_true_iff in V. destruct V as [V V3]. apply andb_true_iff in V. destruct V as [V1 V2].
    apply Z.ltb_lt in V1, V2, V3. injection H as <-. unfold vserialize in E. cbv zeta in E.
    destruct (Req_EM_T _ _); [discriminate|]. destruct (vphi v); [|discriminate].
    destruct (renc _ _ (vb1 p) _); [|discriminate]. destruct (renc 0 PI _ _); [|discriminate]. destruct (renc _ _ _ _); [|discriminate].
    injection E as <-. cbn [length]. rewrite !app_length, !val_bits_length, !angle_bits_vb2 by assumption. lia.
  - injection H as <-. unfold qserialize in E. cbv zeta in E. destruct (Req_EM_T _ _); [discriminate|].
    destruct (qelems _ _) as [b'|] eqn:Q; [|discriminate]. apply (f_equal (fun o => match o with Some x => x | None => [] end)) in E. rewrite <- E. rewrite app_length, (qelems_length _ _ _ Q), others_length by apply qmax_range.
    unfold idx_bits. rewrite val_bits_length. reflexivity.
  - destruct gser_make_shape as (s0 & E0 & S0). rewrite E0 in H. cbn [option_map] in H. injection H as <-.
    destruct (gps_reach_shape s R) as (_&_&_&_&_&_&_&_&_&_&_&_&->). destruct S0 as (_&_&_&_&_&_&_&_&_&_&_&_&->). reflexivity.
Qed.

Lemma written_fits val : (forall n d, lookup registry n = Some d -> written d (val n)) -> fits val.
Proof.
  intros H n d w E W. pose proof vecs_ok as V. rewrite forallb_forall in V. specialize (V (n, d) (lookup_in _ _ _ E)).
  exact (written_width d (val n) w V (H n d E) W).
Qed.

(** ** the two command fields *)
Definition at_id (id : Z) : nat := Z.to_nat (id - 1).
Definition row_dec (a b : Z * bool * list string) : {a = b} + {a <> b}.
Proof. decide equality; [apply (list_eq_dec string_dec)|decide equality; [apply Bool.bool_dec|apply Z.eq_dec]]. Defined.
Lemma exch_vals : forallb (fun p => let i := at_id (fst p) in
  if list_eq_dec row_dec
       (firstn i flown ++ nth (S i) flown d0 :: nth i flown d0 :: skipn (S (S i)) flown) (exchanged (fst p) (snd p) flown) then true else false) pairs = true.
Proof. vm_compute. reflexivity. Qed.

Lemma shift_flown on val a b : 1 <= a <= 43 -> 1 <= b <= 43 -> a <> b ->
  shift_flow_priorities (flows_of on val) a b =
  if exchangeable a b then Done (map (mkrow on val) (exchanged (Z.min a b) (Z.max a b) flown)) else Undef.
Proof.
  intros HA HB NE.
  assert (EX : forall i j, (i < j)%nat -> (j < 43)%nat -> movable i j = exchangeable (Z.of_nat i + 1) (Z.of_nat j + 1)
     /\ exchangeable (Z.of_nat j + 1) (Z.of_nat i + 1) = exchangeable (Z.of_nat i + 1) (Z.of_nat j + 1)
     /\ (movable i j = true -> j = S i /\ firstn i flown ++ nth (S i) flown d0 :: nth i flown d0 :: skipn (S (S i)) flown = exchanged (Z.of_nat i + 1) (Z.of_nat j + 1) flown)).
  { intros i j H1 H2. rewrite movable_spec by lia.
    assert (X : forall c d, exchangeable c d = is_pair c d || is_pair d c).
    { intros c d. unfold exchangeable, is_pair. change exchange_pairs with pairs. generalize pairs. intros l. induction l as [|p l IH]; [reflexivity|].
      cbn [existsb]. rewrite IH. generalize (existsb (fun p => (fst p =? c) && (snd p =? d)) l) (existsb (fun p => (fst p =? d) && (snd p =? c)) l).
      intros [|] [|]; destruct ((fst p =? c) && (snd p =? d)), ((fst p =? d) && (snd p =? c)); reflexivity. }
    split; [symmetry; apply X|]. split; [rewrite !X; apply Bool.orb_comm|]. intros H.
    apply orb_true_iff in H. destruct H as [H|H].
    2:{ apply pairs_adjacent in H. lia. }
    pose proof (pairs_adjacent _ _ H) as ->. split; [reflexivity|].
    pose proof exch_vals as V. rewrite forallb_forall in V. unfold is_pair in H. apply existsb_exists in H. destruct H as (p & HI & HE).
    apply andb_true_iff in HE. destruct HE as [E1 E2]. apply Z.eqb_eq in E1, E2. specialize (V p HI). cbv zeta in V.
    destruct (list_eq_dec row_dec _ _) as [E|]; [|discriminate]. rewrite E1, E2 in E. unfold at_id in E.
    replace (Z.to_nat (Z.of_nat i + 1 - 1)) with i in E by lia. exact E. }
  destruct (Z.ltb_spec a b) as [L|L].
  - rewrite Z.min_l, Z.max_r by lia. set (i := Z.to_nat (a - 1)). set (j := Z.to_nat (b - 1)).
    replace a with (Z.of_nat i + 1) by lia. replace b with (Z.of_nat j + 1) by lia.
    destruct (EX i j ltac:(lia) ltac:(lia)) as (M & _ & C). rewrite shift_up_flown by lia. rewrite <- M. destruct (movable i j); [|reflexivity].
    destruct (C eq_refl) as [-> E]. rewrite <- E. do 2 f_equal. f_equal. replace (S i - i - 1)%nat with O by lia. reflexivity.
  - rewrite Z.min_r, Z.max_l by lia. set (i := Z.to_nat (b - 1)). set (j := Z.to_nat (a - 1)).
    replace b with (Z.of_nat i + 1) by lia. replace a with (Z.of_nat j + 1) by lia.
    destruct (EX i j ltac:(lia) ltac:(lia)) as (M & S & C). destruct (shift_down_flown on val i j ltac:(lia) ltac:(lia)) as (l & -> & HL).
    rewrite S, <- M. destruct (movable i j); [|reflexivity].
    destruct (C eq_refl) as [-> E]. rewrite (HL eq_refl), E. reflexivity.
Qed.
