(** The calibration of the second magnetometer returns if the bus fails for good at any moment. *)
From Verif Require Import Base DevModel DevSpec DevProofs.

Section Dying.
Context (B : bus).
Notation D := (dying B).
Notation st := (bst D * dev)%type.
Definition left (s : st) : nat := fst (fst s).
Definition inv (s : st) : Prop := d_fn (snd s) = true -> 0 <= d_cnt (snd s) < 3.

Lemma call_left o (s : st) : left (fst (call D o s)) = pred (left s).
Proof. unfold left. rewrite call_bus. cbn [bcall dying]. destruct (fst (fst s)) eqn:E; [exact E|destruct (bcall B o _); reflexivity]. Qed.
Lemma calls_left l : forall s : st, left (calls D l s) = (left s - length l)%nat.
Proof.
  induction l as [|o l IH]; intros s; [cbn; lia|]. unfold calls in *. cbn [fold_left length]. rewrite IH, call_left. lia.
Qed.
Lemma calls_dead l (s : st) : l <> [] -> left s = 0%nat -> d_acc (snd (calls D l s)) = true.
Proof.
  intros N. destruct l as [|o l]; [congruence|]. clear N. revert s o. induction l as [|o' l IH]; intros s o H.
  - unfold calls. cbn [fold_left]. rewrite call_dev. cbn [d_acc]. unfold left in H. cbn [bcall dying]. rewrite H. cbn. apply orb_true_r.
  - change (calls D (o :: o' :: l) s) with (calls D (o' :: l) (fst (call D o s))). apply IH. rewrite call_left, H. reflexivity.
Qed.
Lemma calls_inv l (s : st) : inv s -> inv (calls D l s).
Proof. unfold inv. destruct (calls_keep D l s) as [-> ->]. auto. Qed.
Lemma call_inv o (s : st) : inv s -> inv (fst (call D o s)).
Proof. unfold inv. rewrite call_dev. auto. Qed.
Lemma pop_inv (s : st) : inv s -> inv (fst (pop D s)).
Proof.
  unfold inv. intros H. destruct (pop_cases D s) as [(_ & _ & -> & ->)|(_ & _ & -> & ->)]; [|intros; lia].
  unfold error_limit. destruct (Z.leb_spec 3 (u32 (d_cnt (snd s) + 1))); [discriminate|]. intros F. specialize (H F). unfold u32, uwrap in *. lia.
Qed.
Lemma pop_left (s : st) : left (fst (pop D s)) = left s.
Proof. unfold left. rewrite pop_bus. reflexivity. Qed.

Definition mu (s : st) : Z := 3 * Z.of_nat (left s) + 3 - d_cnt (snd s).
Lemma round_less (s : st) : d_fn (snd s) = true -> inv s -> let '(s', r) := ready_late D 6 0 s in
  inv s' /\ (left s' <= left s)%nat /\ (r = true \/ d_fn (snd s') = false \/ (mu s' < mu s)).
Proof.
  intros F H. unfold ready_late. set (l := [Write [6]; EndTx; Request 1]).
  pose proof (calls_inv l s H) as I1. pose proof (pop_inv _ I1) as I2. pose proof (calls_left l s) as L1. pose proof (pop_left (calls D l s)) as L2.
  destruct (calls_keep D l s) as [K1 K2]. pose proof (pop_cases D (calls D l s)) as P.
  assert (A : left s = 0%nat -> d_acc (snd (calls D l s)) = true) by (apply calls_dead; discriminate).
  cbn [length l] in L1. specialize (H F). destruct (pop D (calls D l s)) as [s1 e]. cbn [fst snd] in *. destruct e.
  - split; [exact I2|]. split; [lia|]. right. destruct P as [(_ & _ & C & G)|(_ & X & _)]; [|discriminate].
    destruct (d_fn (snd s1)) eqn:Fs; [right|left; reflexivity]. specialize (I2 Fs). unfold mu. rewrite K2 in C. unfold u32, uwrap in C. lia.
  - destruct P as [(_ & X & _)|(Na & _ & C & G)]; [discriminate|].
    pose proof (call_inv (Take 1) s1 I2) as I3. pose proof (call_left (Take 1) s1) as L3. pose proof (call_dev D (Take 1) s1) as Dv.
    destruct (call D (Take 1) s1) as [s2 d]. cbn [fst snd] in *. split; [exact I3|]. split; [lia|]. right. right.
    unfold mu. rewrite Dv. cbn [d_cnt]. rewrite C. assert (left s <> 0%nat) by (intros E; specialize (A E); congruence). lia.
Qed.
Lemma wait_bounded fuel : forall s : st, inv s -> (d_fn (snd s) = true -> mu s < Z.of_nat fuel) -> (0 < fuel)%nat ->
  exists s' r, wait_ready D fuel s = Ended (B := D) s' r /\ inv s' /\ (left s' <= left s)%nat.
Proof.
  induction fuel as [|k IH]; intros s H M P; [lia|]. cbn [wait_ready].
  destruct (d_fn (snd s)) eqn:F.
  - pose proof (round_less s F H) as R. destruct (ready_late D 6 0 s) as [s1 r]. destruct R as (I1 & L1 & C).
    destruct r; [eauto|]. destruct (d_fn (snd s1)) eqn:F1; [|eauto]. destruct C as [C|[C|C]]; try discriminate.
    specialize (M eq_refl). assert (Hm : 0 < mu s1) by (unfold mu; specialize (I1 F1); lia).
    destruct (IH s1 I1) as (s2 & r & E & I2 & L2); [intros _; lia|lia|]. exists s2, r. split; [exact E|]. split; [exact I2|lia].
  - assert (G : d_fn (snd (fst (ready_late D 6 0 s))) = false /\ (left (fst (ready_late D 6 0 s)) <= left s)%nat).
    { unfold ready_late. set (l := [Write [6]; EndTx; Request 1]). destruct (calls_keep D l s) as [K1 _]. rewrite F in K1.
      pose proof (pop_cases D (calls D l s)) as Q. pose proof (pop_left (calls D l s)) as L2. pose proof (calls_left l s) as L1.
      assert (Fp : d_fn (snd (fst (pop D (calls D l s)))) = false) by (destruct Q as [(_ & _ & _ & ->)|(_ & _ & _ & ->)]; rewrite K1; [destruct (_ <=? _)|]; reflexivity).
      destruct (pop D (calls D l s)) as [s1 e]. cbn [fst snd] in *. destruct e; [split; [exact Fp|cbn [fst]; lia]|].
      pose proof (call_left (Take 1) s1) as L3. pose proof (call_dev D (Take 1) s1) as Dv. destruct (call D (Take 1) s1) as [s2 d]. cbn [fst snd] in *.
      rewrite Dv. split; [exact Fp|lia]. }
    destruct (ready_late D 6 0 s) as [s1 r]. cbn [fst] in G. destruct G as [G L]. rewrite G.
    destruct r; eexists s1, _; (split; [reflexivity|]; split; [intros X; congruence|exact L]).
Qed.

Definition ok (n : nat) (s : st) : Prop := inv s /\ (left s <= n)%nat.
Lemma control_ok n v s : ok n s -> ok n (fst (pop D (control D v s))).
Proof.
  intros [I L]. unfold control. split; [apply pop_inv, calls_inv, I|]. rewrite pop_left, calls_left. lia.
Qed.
Lemma popped_ok n s : ok n s -> ok n (fst (pop D s)).
Proof. intros [I L]. split; [apply pop_inv, I|rewrite pop_left; exact L]. Qed.
Lemma read_ok n s : ok n s -> ok n (fst (read_reg D 0 6 s)).
Proof.
  intros [I L]. unfold read_reg. set (l := [Write [0]; EndTx; Request 6]).
  pose proof (call_inv (Take 6) (calls D l s) (calls_inv l s I)) as I2. pose proof (call_left (Take 6) (calls D l s)) as L2. rewrite calls_left in L2.
  destruct (call D (Take 6) (calls D l s)) as [s1 d]. cbn [fst] in *. pose proof (pop_inv s1 I2) as I3. pose proof (pop_left s1) as L3.
  destruct (pop D s1) as [s2 e]. cbn [fst] in *. split; [exact I3|lia].
Qed.
Lemma single_bounded n fuel s : ok n s -> (3 * n + 4 <= fuel)%nat -> exists s' r, single_read D fuel s = Ended (B := D) s' r /\ ok n s'.
Proof.
  intros [I L] Hf. unfold single_read.
  assert (Ic : inv (control D 1 s)) by (apply calls_inv, I).
  assert (Lc : (left (control D 1 s) <= n)%nat) by (unfold control; rewrite calls_left; lia).
  destruct (wait_bounded fuel (control D 1 s) Ic) as (s1 & r & E & I1 & L1).
  { intros F. specialize (Ic F). unfold mu. lia. }
  { lia. }
  rewrite E. assert (O1 : ok n s1) by (split; [exact I1|lia]). destruct r; [|eauto]. pose proof (read_ok n s1 O1) as O2.
  destruct (read_reg D 0 6 s1) as [s2 o]. eauto.
Qed.
Lemma calibration_returns n fuel s : ok n s -> (3 * n + 4 <= fuel)%nat -> exists s' r, calibrate D fuel s = Ended (B := D) s' r.
Proof.
  intros O Hf. unfold calibrate.
  Ltac ctl O := match goal with |- context [pop D (control D ?v ?s)] =>
    let P := fresh "P" in pose proof (control_ok _ v s O) as P; destruct (pop D (control D v s)) as [? [|]]; cbn [fst] in P; clear O; rename P into O; [solve [eauto]|] end.
  Ltac sgl O Hf := match goal with |- context [single_read D ?f ?s] =>
    let E := fresh "E" in let P := fresh "P" in destruct (single_bounded _ f s O Hf) as (? & [?|] & E & P); rewrite E; clear E O; rename P into O; [|solve [eauto]] end.
  ctl O. ctl O. sgl O Hf. sgl O Hf.
  match goal with |- context [pop D ?s] => pose proof (popped_ok _ s O) as P; destruct (pop D s) as [? [|]]; cbn [fst] in P; clear O; rename P into O; [solve [eauto]|] end.
  ctl O. ctl O. sgl O Hf.
  match goal with |- context [pop D ?s] => pose proof (popped_ok _ s O) as P; destruct (pop D s) as [? [|]]; cbn [fst] in P; clear O; rename P into O; [solve [eauto]|] end.
  destruct (pop D (control D 14 _)) as [? ?]. eauto.
Qed.
End Dying.

Theorem dying_cal : forall B n b d fuel, (d_fn d = true -> 0 <= d_cnt d < 3) -> (3 * n + 4 <= fuel)%nat ->
  exists s r, calibrate (dying B) fuel ((n, b), d) = Ended (B := dying B) s r.
Proof. intros B n b d fuel H Hf. apply (calibration_returns B n fuel); [|exact Hf]. split; [exact H|]. cbn. lia. Qed.
