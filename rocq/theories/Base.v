(** Shared vocabulary: fixed-width wrap-around, bit lists, list update.
    Nothing here models a particular file of /repo. *)
From Coq Require Export List Arith ZArith Lia Bool.
From Coq Require Export ZifyBool ZifyNat.
Export ListNotations.
Global Open Scope Z_scope.
Ltac Zify.zify_post_hook ::= Z.div_mod_to_equations.

(** ** C++ integer conversions *)

(** value of [x] converted to an unsigned type of [w] bits *)
Definition uwrap (w x : Z) : Z := x mod 2 ^ w.
(** value of [x] converted to a two's complement signed type of [w] bits *)
Definition swrap (w x : Z) : Z := (x + 2 ^ (w - 1)) mod 2 ^ w - 2 ^ (w - 1).

Definition u32 (x : Z) : Z := uwrap 32 x.
Definition u64 (x : Z) : Z := uwrap 64 x.
Definition u16 (x : Z) : Z := uwrap 16 x.
Definition u8 (x : Z) : Z := uwrap 8 x.
Definition s32 (x : Z) : Z := swrap 32 x.
Definition s8 (x : Z) : Z := swrap 8 x.

Lemma uwrap_range w x : 0 <= w -> 0 <= uwrap w x < 2 ^ w.
Proof. intros Hw. unfold uwrap. apply Z.mod_pos_bound. apply Z.pow_pos_nonneg; lia. Qed.

Lemma uwrap_id w x : 0 <= x < 2 ^ w -> uwrap w x = x.
Proof. intros H. unfold uwrap. apply Z.mod_small; assumption. Qed.

Lemma swrap_id w x : 0 < w -> - 2 ^ (w - 1) <= x < 2 ^ (w - 1) -> swrap w x = x.
Proof.
  intros Hw H. unfold swrap.
  assert (E : 2 ^ w = 2 * 2 ^ (w - 1)).
  { replace w with (Z.succ (w - 1)) at 1 by lia. rewrite Z.pow_succ_r by lia. reflexivity. }
  rewrite Z.mod_small by lia. lia.
Qed.

Lemma u32_range x : 0 <= u32 x < 2 ^ 32.
Proof. apply uwrap_range; lia. Qed.
Lemma u32_id x : 0 <= x < 2 ^ 32 -> u32 x = x.
Proof. apply uwrap_id. Qed.
Lemma u64_id x : 0 <= x < 2 ^ 64 -> u64 x = x.
Proof. apply uwrap_id. Qed.
Lemma u16_id x : 0 <= x < 2 ^ 16 -> u16 x = x.
Proof. apply uwrap_id. Qed.
Lemma u8_id x : 0 <= x < 2 ^ 8 -> u8 x = x.
Proof. apply uwrap_id. Qed.

(** ** Bits, least significant first *)

Fixpoint bits_val (l : list bool) : Z :=
  match l with
  | [] => 0
  | b :: t => Z.b2z b + 2 * bits_val t
  end.

Fixpoint val_bits (n : nat) (v : Z) : list bool :=
  match n with
  | O => []
  | S k => Z.odd v :: val_bits k (v / 2)
  end.

Lemma val_bits_length n v : length (val_bits n v) = n.
Proof. revert v; induction n as [|n IH]; intros v; cbn; [reflexivity | rewrite IH; reflexivity]. Qed.

Lemma bits_val_range l : 0 <= bits_val l < 2 ^ Z.of_nat (length l).
Proof.
  induction l as [|b l IH]; cbn [bits_val length]; [cbn; lia|].
  rewrite Nat2Z.inj_succ, Z.pow_succ_r by lia. destruct b; cbn [Z.b2z]; lia.
Qed.

Lemma odd_b2z v : v = Z.b2z (Z.odd v) + 2 * (v / 2).
Proof.
  rewrite (Z.div_mod v 2) at 1 by lia. rewrite Zmod_odd.
  destruct (Z.odd v); cbn [Z.b2z]; lia.
Qed.

Lemma bits_val_val_bits n v : bits_val (val_bits n v) = v mod 2 ^ Z.of_nat n.
Proof.
  revert v; induction n as [|n IH]; intros v.
  - cbn [val_bits bits_val]. rewrite Z.pow_0_r, Z.mod_1_r. reflexivity.
  - cbn [val_bits bits_val]. rewrite IH.
    rewrite Nat2Z.inj_succ, Z.pow_succ_r by lia.
    rewrite Z.rem_mul_r by (try apply Z.pow_pos_nonneg; try apply Z.pow_nonzero; lia).
    rewrite Zmod_odd. destruct (Z.odd v); cbn [Z.b2z]; lia.
Qed.

Lemma bits_val_val_bits_small n v :
  0 <= v < 2 ^ Z.of_nat n -> bits_val (val_bits n v) = v.
Proof. intros H. rewrite bits_val_val_bits. apply Z.mod_small; assumption. Qed.

Lemma val_bits_bits_val l : val_bits (length l) (bits_val l) = l.
Proof.
  induction l as [|b l IH]; [reflexivity|].
  cbn [length val_bits bits_val].
  assert (H1 : Z.odd (Z.b2z b + 2 * bits_val l) = b).
  { rewrite Z.odd_add_mul_2. destruct b; reflexivity. }
  assert (H2 : (Z.b2z b + 2 * bits_val l) / 2 = bits_val l).
  { destruct b; cbn [Z.b2z]; lia. }
  rewrite H1, H2, IH. reflexivity.
Qed.

Lemma bits_val_inj l1 l2 :
  length l1 = length l2 -> bits_val l1 = bits_val l2 -> l1 = l2.
Proof.
  intros HL HV. rewrite <- (val_bits_bits_val l1), <- (val_bits_bits_val l2), HL, HV.
  reflexivity.
Qed.

Lemma bits_val_app l1 l2 :
  bits_val (l1 ++ l2) = bits_val l1 + 2 ^ Z.of_nat (length l1) * bits_val l2.
Proof.
  induction l1 as [|b l1 IH]; cbn [app bits_val length]; [cbn [Z.of_nat]; rewrite Z.pow_0_r; lia|].
  rewrite IH, Nat2Z.inj_succ, Z.pow_succ_r by lia. lia.
Qed.

Lemma bits_val_repeat_false n : bits_val (repeat false n) = 0.
Proof. induction n as [|n IH]; cbn [repeat bits_val Z.b2z]; [reflexivity | rewrite IH; reflexivity]. Qed.

(** ** Lists *)

(** checked write: [None] when the index is outside the array *)
Fixpoint upd {A} (l : list A) (i : nat) (x : A) : option (list A) :=
  match l, i with
  | [], _ => None
  | _ :: t, O => Some (x :: t)
  | y :: t, S k => match upd t k x with Some t' => Some (y :: t') | None => None end
  end.

Lemma upd_some_iff {A} (l : list A) i x : (exists l', upd l i x = Some l') <-> (i < length l)%nat.
Proof.
  revert i; induction l as [|y l IH]; intros i; cbn [upd length].
  - split; [intros [l' H]; discriminate | lia].
  - destruct i as [|i].
    + split; [lia | intros _; eexists; reflexivity].
    + specialize (IH i). split.
      * intros [l' H]. destruct (upd l i x) eqn:E; [|discriminate].
        assert (i < length l)%nat by (apply IH; eexists; reflexivity). lia.
      * intros H. destruct IH as [_ IH2]. destruct IH2 as [l' E]; [lia|].
        rewrite E. eexists; reflexivity.
Qed.

Lemma upd_length {A} (l l' : list A) i x : upd l i x = Some l' -> length l' = length l.
Proof.
  revert i l'; induction l as [|y l IH]; intros i l' H; cbn [upd] in H; [discriminate|].
  destruct i as [|i].
  - injection H as <-. reflexivity.
  - destruct (upd l i x) eqn:E; [|discriminate]. injection H as <-.
    cbn [length]. rewrite (IH _ _ E). reflexivity.
Qed.

Lemma upd_nth_error {A} (l l' : list A) i x :
  upd l i x = Some l' ->
  forall j, nth_error l' j = if Nat.eqb j i then Some x else nth_error l j.
Proof.
  revert i l'; induction l as [|y l IH]; intros i l' H j; cbn [upd] in H; [discriminate|].
  destruct i as [|i].
  - injection H as <-. destruct j as [|j]; reflexivity.
  - destruct (upd l i x) eqn:E; [|discriminate]. injection H as <-.
    destruct j as [|j]; [reflexivity|]. cbn [nth_error Nat.eqb]. apply IH; assumption.
Qed.

Lemma upd_none_iff {A} (l : list A) i x : upd l i x = None <-> (length l <= i)%nat.
Proof.
  pose proof (upd_some_iff l i x) as H. destruct (upd l i x) eqn:E.
  - split; [discriminate|]. intros Hl. assert (i < length l)%nat by (apply H; eexists; reflexivity). lia.
  - split; [|reflexivity]. intros _. destruct (Nat.ltb_spec i (length l)); [|assumption].
    destruct H as [_ H]. destruct H as [? H']; [assumption|discriminate].
Qed.

Lemma upd_app_l {A} (l1 l2 : list A) i x :
  (i < length l1)%nat ->
  upd (l1 ++ l2) i x = match upd l1 i x with Some l => Some (l ++ l2) | None => None end.
Proof.
  revert i; induction l1 as [|y l1 IH]; intros i H; cbn [length] in H; [lia|].
  destruct i as [|i]; cbn [upd app]; [reflexivity|].
  rewrite IH by lia. destruct (upd l1 i x); reflexivity.
Qed.

Lemma upd_app_r {A} (l1 l2 : list A) i x :
  (length l1 <= i)%nat ->
  upd (l1 ++ l2) i x =
  match upd l2 (i - length l1) x with Some l => Some (l1 ++ l) | None => None end.
Proof.
  revert i; induction l1 as [|y l1 IH]; intros i H; cbn [length] in H.
  - cbn [app length]. rewrite Nat.sub_0_r. destruct (upd l2 i x); reflexivity.
  - destruct i as [|i]; [lia|]. cbn [app upd length Nat.sub]. rewrite IH by lia.
    destruct (upd l2 (i - length l1) x); reflexivity.
Qed.

Lemma nth_error_ext {A} (l1 l2 : list A) :
  (forall i, nth_error l1 i = nth_error l2 i) -> l1 = l2.
Proof.
  revert l2; induction l1 as [|x l1 IH]; intros [|y l2] H.
  - reflexivity.
  - specialize (H O); discriminate.
  - specialize (H O); discriminate.
  - pose proof (H O) as H0. cbn in H0. injection H0 as ->. f_equal.
    apply IH. intros i. exact (H (S i)).
Qed.

Arguments Z.add : simpl never.
Arguments Z.sub : simpl never.
Arguments Z.mul : simpl never.
Arguments Z.div : simpl never.
Arguments Z.modulo : simpl never.
Arguments Z.pow : simpl never.
Arguments Z.eqb : simpl nomatch.

(** closes concrete comparisons, conjunctions and disjunctions of them *)
Ltac ground := 
  repeat match goal with
         | |- _ /\ _ => split
         | |- True => exact I
         | |- _ = _ => vm_compute; reflexivity
         | |- (_ <= _)%Z => vm_compute; discriminate
         | |- (_ < _)%Z => vm_compute; reflexivity
         | |- (_ <= _)%nat => vm_compute; lia
         | |- (_ < _)%nat => vm_compute; lia
         end.
