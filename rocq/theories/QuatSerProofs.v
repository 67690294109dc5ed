(** Quaternion fields. *)
From Verif Require Import Base BitArrayModel BitArrayProofs VecSerModel VecSerSpec VecSerProofs VecSerMoreProofs.
From Coq Require Import Reals Lra Psatz.
From Flocq Require Import Core.
Local Open Scope R_scope.

Lemma qmax_fold (q : nat -> R) l : forall b i, (i < 4)%nat -> b <= Rabs (q i) -> Forall (fun j => (j < 4)%nat) l ->
  let r := fold_left (qmax_step q) l (b, i) in (snd r < 4)%nat /\ fst r <= Rabs (q (snd r)) /\ b <= fst r /\ Forall (fun j => Rabs (q j) <= fst r) l.
Proof.
  induction l as [|j l IH]; intros b i I B F; cbn [fold_left].
  - cbn [fst snd]. split; [exact I|]. split; [exact B|]. split; [lra|constructor].
  - inversion F as [|? ? J F']; subst. unfold qmax_step at 2 4 6 8 10. cbn [fst]. destruct (Rlt_dec b (Rabs (q j))) as [L|L].
    + destruct (IH (Rabs (q j)) j J (Rle_refl _) F') as (A1 & A2 & A3 & A4). split; [exact A1|]. split; [exact A2|]. split; [lra|]. constructor; [lra|exact A4].
    + apply Rnot_lt_le in L. destruct (IH b i I B F') as (A1 & A2 & A3 & A4). split; [exact A1|]. split; [exact A2|]. split; [lra|]. constructor; [lra|exact A4].
Qed.

Lemma qmax_spec (q : nat -> R) : q 0%nat * q 0%nat + q 1%nat * q 1%nat + q 2%nat * q 2%nat + q 3%nat * q 3%nat = 1 ->
  let m := qmax q in (m < 4)%nat /\ 1 / 2 <= Rabs (q m) /\ (forall i, (i < 4)%nat -> Rabs (q i) <= Rabs (q m)).
Proof.
  intros N m.
  assert (E : forall a, a * a = Rabs a * Rabs a) by (intros a; rewrite <- Rabs_mult, Rabs_pos_eq by nra; reflexivity).
  pose proof (Rabs_pos (q 0%nat)) as P0. pose proof (Rabs_pos (q 1%nat)) as P1. pose proof (Rabs_pos (q 2%nat)) as P2. pose proof (Rabs_pos (q 3%nat)) as P3.
  rewrite (E (q 0%nat)), (E (q 1%nat)), (E (q 2%nat)), (E (q 3%nat)) in N.
  assert (M : (m < 4)%nat /\ (forall i, (i < 4)%nat -> Rabs (q i) <= Rabs (q m))).
  { destruct (qmax_fold q [0; 1; 2; 3]%nat 0 0) as (A1 & A2 & _ & A4); [lia|exact P0|repeat constructor; lia|].
    change (snd (fold_left (qmax_step q) [0%nat; 1%nat; 2%nat; 3%nat] (0, 0%nat))) with m in A1, A2. split; [exact A1|]. intros i I.
    rewrite Forall_forall in A4. apply Rle_trans with (2 := A2). apply A4. destruct i as [|[|[|[|i]]]]; [| | | |lia]; cbn; auto. }
  destruct M as [M1 M2]. split; [exact M1|]. split; [|exact M2].
  pose proof (M2 0%nat ltac:(lia)) as A0. pose proof (M2 1%nat ltac:(lia)) as A1. pose proof (M2 2%nat ltac:(lia)) as A2. pose proof (M2 3%nat ltac:(lia)) as A3.
  set (x := Rabs (q m)) in *. assert (X : 0 <= x) by lra.
  assert (Q : forall a, 0 <= a -> a <= x -> a * a <= x * x) by (intros a B C; apply Rmult_le_compat; assumption).
  pose proof (Q _ P0 A0). pose proof (Q _ P1 A1). pose proof (Q _ P2 A2). pose proof (Q _ P3 A3).
  apply Rnot_lt_le. intros L. assert (x * x < 1 / 2 * (1 / 2)) by (apply Rmult_le_0_lt_compat; lra). lra.
Qed.

(** the largest component from the other three *)
Lemma largest a b c q a' b' c' : q * q + a * a + b * b + c * c = 1 -> 1 / 2 <= q ->
  a' <= a < a' + 2 / 1023 -> b' <= b < b' + 2 / 1023 -> c' <= c < c' + 2 / 1023 ->
  0 <= 1 - a' * a' - b' * b' - c' * c' /\ Rabs (q - sqrt (1 - a' * a' - b' * b' - c' * c')) <= 6 / 1000.
Proof.
  intros N Q A B C. set (d := 1 - a' * a' - b' * b' - c' * c').
  assert (E : forall x, x * x = Rabs x * Rabs x) by (intros x; rewrite <- Rabs_mult, Rabs_pos_eq by nra; reflexivity).
  assert (S : Rabs a + Rabs b + Rabs c <= 3 / 2).
  { rewrite (E a), (E b), (E c) in N. set (x := Rabs a) in *. set (y := Rabs b) in *. set (z := Rabs c) in *.
    assert (XYZ : x * x + y * y + z * z <= 3 / 4) by nra.
    pose proof (Rle_0_sqr (x - y)) as U1. pose proof (Rle_0_sqr (y - z)) as U2. pose proof (Rle_0_sqr (x - z)) as U3. unfold Rsqr in *.
    apply Rnot_lt_le. intros L. assert (3 / 2 * (3 / 2) < (x + y + z) * (x + y + z)) by (apply Rmult_le_0_lt_compat; lra). nra. }
  assert (K : forall x x', x' <= x < x' + 2 / 1023 -> Rabs (x * x - x' * x') <= 2 / 1023 * (2 * Rabs x + 2 / 1023)).
  { intros x x' X. replace (x * x - x' * x') with ((x - x') * (2 * x - (x - x'))) by ring. rewrite Rabs_mult. apply Rmult_le_compat; try apply Rabs_pos.
    - rewrite Rabs_pos_eq by lra. lra.
    - unfold Rminus at 1. apply Rle_trans with (1 := Rabs_triang _ _). rewrite Rabs_mult, (Rabs_pos_eq 2), Rabs_Ropp, (Rabs_pos_eq (x - x')) by lra. lra. }
  pose proof (K a a' A) as KA. pose proof (K b b' B) as KB. pose proof (K c c' C) as KC.
  apply Rabs_le_inv in KA. apply Rabs_le_inv in KB. apply Rabs_le_inv in KC.
  assert (D : Rabs (d - q * q) <= 5885 / 1000000).
  { replace (d - q * q) with ((a * a - a' * a') + (b * b - b' * b') + (c * c - c' * c')) by (unfold d; lra). apply Rabs_le. split; lra. }
  apply Rabs_le_inv in D.
  assert (QQ : 1 / 4 <= q * q) by nra.
  assert (D0 : 494 / 1000 * (494 / 1000) <= d) by lra.
  split; [lra|]. assert (SQ : 494 / 1000 <= sqrt d) by (rewrite <- (sqrt_square (494 / 1000)) by lra; apply sqrt_le_1_alt; lra).
  assert (SD : sqrt d * sqrt d = d) by (apply sqrt_def; lra). set (r := sqrt d) in *.
  apply Rabs_le. split.
  - apply Rnot_lt_le. intros L. assert (6 / 1000 * (99 / 100) < (r - q) * (r + q)) by (apply Rmult_le_0_lt_compat; lra). lra.
  - apply Rnot_lt_le. intros L. assert (6 / 1000 * (99 / 100) < (q - r) * (q + r)) by (apply Rmult_le_0_lt_compat; lra). lra.
Qed.

Lemma elem_dec x : -1 <= x <= 1 -> exists c x', renc (-1) 1 quat_component_sz x = Some c /\ rdec (-1) 1 (val_bits quat_component_sz c) = x' /\ x' <= x < x' + 2 / 1023.
Proof.
  intros X. destruct (renc_dec (-1) 1 quat_component_sz x) as (c & x' & E & _ & D & L & U & _); [lra|unfold quat_component_sz; lia|exact X|].
  exists c, x'. split; [exact E|]. split; [exact D|]. unfold rstep, quat_component_sz in U. replace ((1 - -1) / (2 ^ 10 - 1)) with (2 / 1023) in U by (simpl; field). lra.
Qed.

Lemma qdeser_layout m c1 c2 c3 : (m < 4)%nat ->
  let a := rdec (-1) 1 (val_bits quat_component_sz c1) in let b := rdec (-1) 1 (val_bits quat_component_sz c2) in let c := rdec (-1) 1 (val_bits quat_component_sz c3) in
  0 <= 1 - a * a - b * b - c * c ->
  exists q, qdeserialize (idx_bits m ++ val_bits quat_component_sz c1 ++ val_bits quat_component_sz c2 ++ val_bits quat_component_sz c3 ++ []) = Some q /\
  forall i, (i < 4)%nat -> q i = if (i =? m)%nat then sqrt (1 - a * a - b * b - c * c) else nth (if (i <? m)%nat then i else (i - 1)%nat) [a; b; c] 0.
Proof.
  intros M a b c H. unfold qdeserialize.
  assert (F : forall n (v l : list bool), length v = n -> firstn n (v ++ l) = v).
  { intros n v l L. rewrite firstn_app, L, Nat.sub_diag, firstn_O, app_nil_r. apply firstn_all2. lia. }
  assert (K : forall n (v l : list bool), length v = n -> skipn n (v ++ l) = l).
  { intros n v l L. rewrite skipn_app, L, Nat.sub_diag, skipn_O. rewrite skipn_all2; [reflexivity|lia]. }
  set (v1 := val_bits quat_component_sz c1) in *. set (v2 := val_bits quat_component_sz c2) in *. set (v3 := val_bits quat_component_sz c3) in *.
  assert (L1 : length v1 = 10%nat) by apply val_bits_length. assert (L2 : length v2 = 10%nat) by apply val_bits_length. assert (L3 : length v3 = 10%nat) by apply val_bits_length.
  assert (LI : length (idx_bits m) = 2%nat) by apply val_bits_length.
  rewrite (F 2%nat (idx_bits m)) by exact LI.
  assert (IM : Z.to_nat (bits_val (idx_bits m)) = m).
  { unfold idx_bits. rewrite bits_val_val_bits. change (2 ^ Z.of_nat 2)%Z with 4%Z. rewrite Z.mod_small by lia. lia. }
  rewrite IM. change quat_component_sz with 10%nat.
  assert (S0 : firstn 10 (skipn (2 + 0 * 10) (idx_bits m ++ v1 ++ v2 ++ v3 ++ [])) = v1).
  { change (2 + 0 * 10)%nat with 2%nat. rewrite (K 2%nat) by exact LI. apply F. exact L1. }
  assert (S1 : firstn 10 (skipn (2 + 1 * 10) (idx_bits m ++ v1 ++ v2 ++ v3 ++ [])) = v2).
  { rewrite (app_assoc (idx_bits m)). rewrite (K (2 + 1 * 10)%nat) by (rewrite app_length; lia). apply F. exact L2. }
  assert (S2 : firstn 10 (skipn (2 + 2 * 10) (idx_bits m ++ v1 ++ v2 ++ v3 ++ [])) = v3).
  { rewrite (app_assoc (idx_bits m)), (app_assoc (idx_bits m ++ v1)). rewrite (K (2 + 2 * 10)%nat) by (rewrite !app_length; lia). apply F. exact L3. }
  rewrite S0, S1, S2. fold a b c. destruct (Rlt_dec (1 - a * a - b * b - c * c) 0) as [A|_]; [lra|].
  eexists. split; [reflexivity|]. intros i I. cbv beta. destruct (Nat.eqb_spec i m) as [IE|IE]; [reflexivity|].
  assert (KB : ((if (i <? m)%nat then i else (i - 1)%nat) < 3)%nat) by (destruct (Nat.ltb_spec i m); lia).
  destruct (if (i <? m)%nat then i else (i - 1)%nat) as [|[|[|k]]]; [rewrite S0; reflexivity|rewrite S1; reflexivity|rewrite S2; reflexivity|lia].
Qed.

Definition qn (s : quat) (i : nat) : R := qget s i / norm4r s.

Lemma qn_unit s : norm4r s <> 0 -> qn s 0 * qn s 0 + qn s 1 * qn s 1 + qn s 2 * qn s 2 + qn s 3 * qn s 3 = 1.
Proof.
  destruct s as [[[a b] c] d]. intros N. unfold qn. cbn [qget].
  assert (Q : norm4r (a, b, c, d) * norm4r (a, b, c, d) = a * a + b * b + c * c + d * d) by (apply sqrt_def; nra).
  set (n := norm4r (a, b, c, d)) in *. replace (a / n * (a / n) + b / n * (b / n) + c / n * (c / n) + d / n * (d / n)) with ((a * a + b * b + c * c + d * d) / (n * n)) by (field; exact N).
  rewrite Q. field. rewrite <- Q. nra.
Qed.

Theorem quat_roundtrip s : norm4r s <> 0 -> exists b q, qserialize s = Some b /\ length b = 32%nat /\ qdeserialize b = Some q /\
  same_rotation_within (6 / 1000) (qn s) q.
Proof.
  intros N. pose proof (qn_unit s N) as U. destruct (qmax_spec (qn s) U) as (M1 & M2 & M3). set (m := qmax (qn s)) in *.
  assert (NP : 0 < norm4r s). { assert (0 <= norm4r s) by (destruct s as [[[? ?] ?] ?]; apply sqrt_pos). lra. }
  set (g := fun i => if Rlt_dec (qget s m) 0 then - qn s i else qn s i).
  assert (SG : (g = (fun i => - qn s i) /\ qn s m < 0) \/ (g = qn s /\ 0 <= qn s m)).
  { unfold g. pose proof (Rinv_0_lt_compat _ NP) as IP. destruct (Rlt_dec (qget s m) 0) as [L|L].
    - left. split; [reflexivity|]. unfold qn, Rdiv. nra.
    - right. split; [reflexivity|]. apply Rnot_lt_le in L. unfold qn, Rdiv. apply Rmult_le_pos; lra. }
  assert (GU : g 0%nat * g 0%nat + g 1%nat * g 1%nat + g 2%nat * g 2%nat + g 3%nat * g 3%nat = 1).
  { destruct SG as [[-> _]|[-> _]]; [|exact U]. cbv beta. rewrite <- U. ring. }
  assert (GM : 1 / 2 <= g m).
  { destruct SG as [[-> L]|[-> L]]; [rewrite Rabs_left in M2 by exact L; exact M2|rewrite Rabs_pos_eq in M2 by exact L; exact M2]. }
  assert (GB : forall i, (i < 4)%nat -> -1 <= g i <= 1).
  { intros i I. destruct i as [|[|[|[|i]]]]; [| | | |lia]; split; nra. }
  assert (R : exists b q, qserialize s = Some b /\ length b = 32%nat /\ qdeserialize b = Some q /\ close4 (6 / 1000) g q).
  { unfold qserialize. destruct (Req_EM_T (norm4r s) 0) as [A|_]; [contradiction|]. cbv zeta. change (fun i => qget s i / norm4r s) with (qn s). fold m.
    change (fun i : nat => if Rlt_dec (qget s m) 0 then - (qget s i / norm4r s) else qget s i / norm4r s) with g. clearbody g.
    assert (OT : exists i j k, others m = [i; j; k] /\ (i < 4)%nat /\ (j < 4)%nat /\ (k < 4)%nat /\ g m * g m + g i * g i + g j * g j + g k * g k = 1 /\
      forall l, (l < 4)%nat -> l <> m -> l = nth (if (l <? m)%nat then l else (l - 1)%nat) [i; j; k] 0%nat).
    { destruct m as [|[|[|[|m']]]]; [| | | |lia];
        [exists 1%nat, 2%nat, 3%nat|exists 0%nat, 2%nat, 3%nat|exists 0%nat, 1%nat, 3%nat|exists 0%nat, 1%nat, 2%nat];
        (split; [reflexivity|]; split; [lia|]; split; [lia|]; split; [lia|]; split; [lra|];
         intros l L1 L2; destruct l as [|[|[|[|l]]]]; [| | | |lia]; try reflexivity; exfalso; apply L2; reflexivity). }
    destruct OT as (i & j & k & EO & I & J & K & S & NT). rewrite EO. cbn [qelems].
    destruct (elem_dec (g i) (GB i I)) as (c1 & a & E1 & D1 & B1). destruct (elem_dec (g j) (GB j J)) as (c2 & b & E2 & D2 & B2).
    destruct (elem_dec (g k) (GB k K)) as (c3 & c & E3 & D3 & B3). rewrite E1, E2, E3.
    destruct (largest (g i) (g j) (g k) (g m) a b c S GM B1 B2 B3) as [L1 L2].
    destruct (qdeser_layout m c1 c2 c3 M1) as (q & Q1 & Q2); [rewrite D1, D2, D3; exact L1|]. rewrite D1, D2, D3 in Q2.
    eexists. exists q. split; [reflexivity|]. split; [rewrite !app_length; unfold idx_bits; rewrite !val_bits_length; reflexivity|]. split; [exact Q1|].
    intros l L. rewrite (Q2 l L). destruct (Nat.eqb_spec l m) as [->|LM]; [exact L2|].
    rewrite (NT l L LM) at 1.
    assert (KB : ((if (l <? m)%nat then l else (l - 1)%nat) < 3)%nat) by (destruct (Nat.ltb_spec l m); lia).
    destruct (if (l <? m)%nat then l else (l - 1)%nat) as [|[|[|x]]]; [| | |lia]; cbn [nth]; apply Rabs_le; lra. }
  destruct R as (b & q & R1 & R2 & R3 & R4). exists b, q. split; [exact R1|]. split; [exact R2|]. split; [exact R3|].
  destruct SG as [[-> _]|[-> _]]; [right|left]; exact R4.
Qed.

(** what is received is a unit quaternion, if it is one at all *)
Theorem quat_unit b q : length b = 32%nat -> qdeserialize b = Some q ->
  q 0%nat * q 0%nat + q 1%nat * q 1%nat + q 2%nat * q 2%nat + q 3%nat * q 3%nat = 1.
Proof.
  intros L. unfold qdeserialize. set (e := fun k => rdec (-1) 1 (firstn quat_component_sz (skipn (2 + k * quat_component_sz) b))).
  change (rdec (-1) 1 (firstn quat_component_sz (skipn (2 + 0 * quat_component_sz) b))) with (e 0%nat).
  change (rdec (-1) 1 (firstn quat_component_sz (skipn (2 + 1 * quat_component_sz) b))) with (e 1%nat).
  change (rdec (-1) 1 (firstn quat_component_sz (skipn (2 + 2 * quat_component_sz) b))) with (e 2%nat).
  set (d := 1 - e 0%nat * e 0%nat - e 1%nat * e 1%nat - e 2%nat * e 2%nat). destruct (Rlt_dec d 0) as [A|A]; [discriminate|]. apply Rnot_lt_le in A.
  set (m := Z.to_nat (bits_val (firstn 2 b))).
  assert (M : (m < 4)%nat).
  { unfold m. pose proof (bits_val_range (firstn 2 b)) as B. rewrite firstn_length, L in B. change (2 ^ Z.of_nat (Nat.min 2 32))%Z with 4%Z in B. lia. }
  set (f := fun i => if (i =? m)%nat then sqrt d else e (if (i <? m)%nat then i else (i - 1)%nat)).
  intros H. assert (QF : Some q = Some f) by (rewrite <- H; reflexivity). assert (q = f) by congruence. subst q. clear H QF.
  assert (SD : sqrt d * sqrt d = d) by (apply sqrt_def; exact A). unfold f. clear f. clearbody m e.
  destruct m as [|[|[|[|m]]]]; [| | | |lia]; cbn [Nat.eqb Nat.ltb Nat.leb Nat.sub]; rewrite SD; unfold d; ring.
Qed.

Theorem zero_quat_undefined : qserialize (0, 0, 0, 0) = None.
Proof. unfold qserialize, norm4r. replace (0 * 0 + 0 * 0 + 0 * 0 + 0 * 0) with 0 by ring. rewrite sqrt_0. destruct (Req_EM_T 0 0) as [_|A]; [reflexivity|]. exfalso. apply A. reflexivity. Qed.

(** the pattern of ones is no quaternion *)
Theorem ones_no_quat : qdeserialize (repeat true 32) = None.
Proof.
  unfold qdeserialize, quat_component_sz. cbn [Nat.mul Nat.add repeat skipn firstn]. unfold rdec. cbn [length].
  change (bits_val [true; true; true; true; true; true; true; true; true; true]) with 1023%Z.
  replace (-1 + (1 - -1) / (2 ^ 10 - 1) * 1023) with 1 by (simpl; field). destruct (Rlt_dec (1 - 1 * 1 - 1 * 1 - 1 * 1) 0) as [_|A]; [reflexivity|]. lra.
Qed.
