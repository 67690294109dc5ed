From Verif Require Import Base PowerModel PowerSpec.
From Coq Require Import QArith Qround.
Local Open Scope Z_scope.

(** * Power cycling *)

Lemma sent_app i a b : sent i (a ++ b) = sent i a ++ sent i b.
Proof. unfold sent. rewrite filter_app, map_app. reflexivity. Qed.
Lemma sent_self i v : sent i [(i, v)] = [v].
Proof. unfold sent. cbn. rewrite Nat.eqb_refl. reflexivity. Qed.
Lemma sent_other i j v : j <> i -> sent i [(j, v)] = [].
Proof. intros H. unfold sent. cbn. apply Nat.eqb_neq in H. rewrite H. reflexivity. Qed.
Lemma fset_same {A} (f : nat -> A) i v : fset f i v i = v.
Proof. unfold fset. rewrite Nat.eqb_refl. reflexivity. Qed.
Lemma fset_other {A} (f : nat -> A) i j v : j <> i -> fset f i v j = f j.
Proof. intros H. unfold fset. apply Nat.eqb_neq in H. rewrite H. reflexivity. Qed.

(** the part of the state about output [i] *)
Definition comp (i : nat) (g : gom) := (p_out g i, k_out g i, f_out g i, c_cyc g i).

Lemma cycle_one_other e g tr j i : j <> i ->
  comp i (fst (cycle_one e (g, tr) j)) = comp i g /\ sent i (snd (cycle_one e (g, tr) j)) = sent i tr.
Proof.
  intros H. assert (H1 : i <> j) by congruence. unfold cycle_one.
  destruct (c_cyc g j); [|auto]. destruct (f_out g j); cbn [fst snd]; rewrite sent_app, (sent_other i j) by exact H;
    rewrite app_nil_r; (split; [|reflexivity]); unfold comp, set_cyc, set_single; destruct (Nat.ltb 5 j); cbn;
    rewrite ?fset_other by exact H1; try reflexivity; destruct (ge_out e j); rewrite ?fset_other by exact H1; reflexivity.
Qed.

Lemma cycle_one_self e g tr i : (i < 6)%nat -> ge_out e i = true ->
  comp i (fst (cycle_one e (g, tr) i)) =
    (if c_cyc g i then negb (f_out g i) else p_out g i, k_out g i, f_out g i, c_cyc g i && f_out g i) /\
  sent i (snd (cycle_one e (g, tr) i)) = sent i tr ++ (if c_cyc g i then [negb (f_out g i)] else []).
Proof.
  intros H E. assert (L : Nat.ltb 5 i = false) by (apply Nat.ltb_ge; lia). unfold cycle_one.
  destruct (c_cyc g i) eqn:C.
  - destruct (f_out g i) eqn:F; cbn [fst snd]; rewrite sent_app, sent_self; (split; [|reflexivity]);
      unfold comp, set_cyc, set_single; rewrite L, E; cbn; rewrite ?fset_same, ?C, ?F; reflexivity.
  - cbn [fst snd]. rewrite app_nil_r. unfold comp. rewrite C. auto.
Qed.

Lemma cycle_list_other e l i : ~ In i l -> forall g tr,
  comp i (fst (fold_left (cycle_one e) l (g, tr))) = comp i g /\ sent i (snd (fold_left (cycle_one e) l (g, tr))) = sent i tr.
Proof.
  induction l as [|j l IH]; intros H g tr; [auto|]. cbn [fold_left].
  destruct (cycle_one e (g, tr) j) as [g1 t1] eqn:E.
  assert (Hj : j <> i) by (intros ->; apply H; left; reflexivity).
  pose proof (cycle_one_other e g tr j i Hj) as O. rewrite E in O. cbn [fst snd] in O. destruct O as [O1 O2].
  destruct (IH (fun h => H (or_intror h)) g1 t1) as [I1 I2]. rewrite I1, I2, O1, O2. auto.
Qed.

Lemma cycle_list_self e l i : NoDup l -> In i l -> (i < 6)%nat -> ge_out e i = true -> forall g tr,
  comp i (fst (fold_left (cycle_one e) l (g, tr))) =
    (if c_cyc g i then negb (f_out g i) else p_out g i, k_out g i, f_out g i, c_cyc g i && f_out g i) /\
  sent i (snd (fold_left (cycle_one e) l (g, tr))) = sent i tr ++ (if c_cyc g i then [negb (f_out g i)] else []).
Proof.
  intros D I H E. induction l as [|j l IH]; [destruct I|]; intros g tr. inversion D as [|? ? D1 D2]; subst. cbn [fold_left].
  destruct (Nat.eq_dec j i) as [->|N].
  - destruct (cycle_one e (g, tr) i) as [g1 t1] eqn:X. pose proof (cycle_one_self e g tr i H E) as O. rewrite X in O. cbn [fst snd] in O.
    destruct O as [O1 O2]. destruct (cycle_list_other e l i D1 g1 t1) as [I1 I2]. rewrite I1, I2, O1, O2. auto.
  - destruct (cycle_one e (g, tr) j) as [g1 t1] eqn:X. pose proof (cycle_one_other e g tr j i N) as O. rewrite X in O. cbn [fst snd] in O.
    destruct O as [O1 O2]. destruct I as [I|I]; [congruence|]. destruct (IH D2 I g1 t1) as [I1 I2]. rewrite I1, I2, O2.
    unfold comp in O1. injection O1 as -> -> -> ->. auto.
Qed.

Lemma cycle_one_fixed e g tr j : let g' := fst (cycle_one e (g, tr) j) in
  c_off g' = c_off g /\ c_period g' = c_period g /\ f_out g' = f_out g /\ k_out g' = k_out g /\ f_ppt g' = f_ppt g /\ k_ppt g' = k_ppt g /\
  p_ppt g' = p_ppt g /\ c_ppt g' = c_ppt g /\ p_heat g' = p_heat g /\ c_heat g' = c_heat g /\ p_vb g' = p_vb g /\ k_vb g' = k_vb g /\
  f_vb g' = f_vb g /\ c_pv g' = c_pv g.
Proof.
  cbv zeta. unfold cycle_one. destruct (c_cyc g j); [|cbn [fst]; repeat split].
  destruct (f_out g j); cbn [fst]; unfold set_cyc, set_single; destruct (Nat.ltb 5 j); repeat split.
Qed.
Lemma cycle_list_fixed e l : forall g tr, let g' := fst (fold_left (cycle_one e) l (g, tr)) in
  c_off g' = c_off g /\ c_period g' = c_period g /\ f_out g' = f_out g /\ k_out g' = k_out g /\ f_ppt g' = f_ppt g /\ k_ppt g' = k_ppt g /\
  p_ppt g' = p_ppt g /\ c_ppt g' = c_ppt g /\ p_heat g' = p_heat g /\ c_heat g' = c_heat g /\ p_vb g' = p_vb g /\ k_vb g' = k_vb g /\
  f_vb g' = f_vb g /\ c_pv g' = c_pv g.
Proof.
  induction l as [|j l IH]; intros g tr; [cbn; repeat split|]. cbn [fold_left]. cbv zeta.
  destruct (cycle_one e (g, tr) j) as [g1 t1] eqn:E. pose proof (cycle_one_fixed e g tr j) as O. rewrite E in O. cbn [fst] in O. cbv zeta in O.
  pose proof (IH g1 t1) as I. cbv zeta in I. intuition congruence.
Qed.

Lemma rest_comp e g i : comp i (heater_step e (ppt_step e (pv_step e g))) = comp i g.
Proof.
  unfold heater_step, ppt_step, pv_step, comp.
  repeat match goal with |- context [if ?b then _ else _] => destruct b; cbn end; reflexivity.
Qed.
Lemma rest_fixed e g : let g' := heater_step e (ppt_step e (pv_step e g)) in c_off g' = c_off g /\ c_period g' = c_period g.
Proof.
  cbv zeta. unfold heater_step, ppt_step, pv_step.
  repeat match goal with |- context [if ?b then _ else _] => destruct b; cbn end; auto.
Qed.

(** one cycle seen from output [i] *)
Lemma exec_comp cc e g g' t i : (i < 6)%nat -> cc <> 1 -> working e -> (i = 0%nat -> c_off g = false) ->
  gom_exec cc e g = Some (g', t) ->
  let hit := cc mod c_period g =? 0 in
  comp i g' = (if hit && c_cyc g i then negb (f_out g i) else p_out g i, p_out g i, p_out g i, if hit then c_cyc g i && f_out g i else c_cyc g i) /\
  sent i t = (if hit && c_cyc g i then [negb (f_out g i)] else []) /\ c_period g <> 0 /\ c_period g' = c_period g.
Proof.
  intros Hi Hc (W1 & W2 & _) H0 HX. cbv zeta. unfold gom_exec in HX.
  assert (EC : (cc =? 1) = false) by (apply Z.eqb_neq; exact Hc). rewrite EC in HX.
  unfold get_hk in HX. rewrite W1 in HX. cbn [c_period] in HX.
  destruct (c_period g =? 0) eqn:EP; [discriminate|]. apply Z.eqb_neq in EP.
  set (g0 := mk_g (p_out g) (p_heat g) (p_ppt g) (p_vb g) (p_out g) (p_ppt g) (p_vb g) (f_out g) (f_ppt g) (f_vb g)
    (c_cyc g) (c_pv g) (c_ppt g) (c_heat g) (c_off g) (c_period g)) in *.
  assert (MID : exists g1 t1, (if cc mod c_period g =? 0 then cycle_outputs e g0 else (g0, [])) = (g1, t1) /\
     comp i g1 = (if (cc mod c_period g =? 0) && c_cyc g i then negb (f_out g i) else p_out g i, p_out g i, f_out g i,
                  if cc mod c_period g =? 0 then c_cyc g i && f_out g i else c_cyc g i) /\
     sent i t1 = (if (cc mod c_period g =? 0) && c_cyc g i then [negb (f_out g i)] else []) /\ c_off g1 = c_off g /\ c_period g1 = c_period g).
  { destruct (cc mod c_period g =? 0); [|exists g0, []; repeat split].
    destruct (cycle_outputs e g0) as [g1 t1] eqn:E. exists g1, t1. split; [reflexivity|]. unfold cycle_outputs in E. cbn [c_off] in E.
    change (c_off g0) with (c_off g) in E.
    assert (D : NoDup ((if c_off g then [] else [0%nat]) ++ [1; 2; 3; 4; 5]%nat))
      by (destruct (c_off g); repeat (constructor; [cbn; lia|]); constructor).
    assert (I : In i ((if c_off g then [] else [0%nat]) ++ [1; 2; 3; 4; 5]%nat)).
    { destruct i as [|i]; [rewrite (H0 eq_refl); left; reflexivity|]. apply in_or_app. right. cbn. lia. }
    pose proof (cycle_list_self e _ i D I Hi (W2 i) g0 []) as [A B]. pose proof (cycle_list_fixed e ((if c_off g then [] else [0%nat]) ++ [1; 2; 3; 4; 5]%nat) g0 []) as F.
    cbv zeta in F. rewrite E in A, B, F. cbn [fst snd] in A, B, F. destruct F as (F1 & F2 & _).
    cbn [andb]. rewrite A, B. split; [reflexivity|]. split; [reflexivity|]. split; [exact F1|exact F2]. }
  destruct MID as (g1 & t1 & M1 & M2 & M3 & M4 & M5). rewrite M1 in HX.
  pose proof (rest_comp e g1 i) as R1. pose proof (rest_fixed e g1) as R2. cbv zeta in R2. destruct R2 as [R2 R3].
  remember (heater_step e (ppt_step e (pv_step e g1))) as g2 eqn:E2. clear E2.
  assert (P : comp i (publish g2) = (p_out g2 i, k_out g2 i, k_out g2 i, c_cyc g2 i)) by reflexivity.
  unfold comp in R1, M2. injection R1 as Q1 Q2 Q3 Q4. injection M2 as N1 N2 N3 N4.
  change (c_off (publish g2)) with (c_off g2) in HX. rewrite R2, M4 in HX.
  destruct (c_off g) eqn:EO; injection HX as <- <-.
  - assert (Ni : i <> 0%nat) by (intros ->; specialize (H0 eq_refl); congruence).
    split; [|split; [|split; [exact EP|]]].
    + unfold comp, set_single. cbn. rewrite (W2 0%nat), fset_other by exact Ni. rewrite Q1, Q2, Q4, N1, N2, N4. reflexivity.
    + rewrite sent_app, sent_other by congruence. rewrite app_nil_r. exact M3.
    + cbn. congruence.
  - split; [|split; [exact M3|split; [exact EP|cbn; congruence]]]. rewrite P, Q1, Q2, Q4, N1, N2, N4. reflexivity.
Qed.

(** number of multiples of [P] among the [n] cycle numbers after [cc] *)
Fixpoint hits (P cc : Z) (n : nat) : Z :=
  match n with O => 0 | S k => hits P cc k + (if u32 (cc + Z.of_nat (S k)) mod P =? 0 then 1 else 0) end.
Lemma hits_mono P cc n : hits P cc n <= hits P cc (S n).
Proof. cbn [hits]. destruct (_ =? 0); lia. Qed.
Lemma hits_le P cc a b : (a <= b)%nat -> hits P cc a <= hits P cc b.
Proof. induction 1; [lia|]. pose proof (hits_mono P cc m). lia. Qed.

Lemma next_hit P cc : 0 < P < 2 ^ 32 -> exists j, 1 <= j <= P /\ u32 (cc + j) mod P = 0.
Proof.
  intros HP. assert (E : forall j, u32 (cc + j) = u32 (u32 cc + j)) by (intros j; unfold u32, uwrap; rewrite Zplus_mod_idemp_l; reflexivity).
  pose proof (u32_range cc) as R. remember (u32 cc) as c eqn:Ec. clear Ec.
  destruct (Z_lt_le_dec (c + P) (2 ^ 32)) as [L|L].
  - exists (P - c mod P). pose proof (Z.mod_pos_bound c P). split; [lia|]. rewrite E, u32_id by lia.
    replace (c + (P - c mod P)) with (P * (c / P + 1)) by (pose proof (Z.div_mod c P); lia).
    rewrite Z.mul_comm. apply Z.mod_mul. lia.
  - exists (2 ^ 32 - c). split; [lia|]. rewrite E. replace (c + (2 ^ 32 - c)) with (2 ^ 32) by lia. reflexivity.
Qed.

Lemma hits_more P cc n : 0 < P < 2 ^ 32 -> hits P cc n + 1 <= hits P cc (n + Z.to_nat P).
Proof.
  intros HP. destruct (next_hit P (cc + Z.of_nat n) HP) as (j & J1 & J2).
  assert (L : hits P cc n + 1 <= hits P cc (S (n + Z.to_nat (j - 1)))).
  { cbn [hits]. replace (cc + Z.of_nat (S (n + Z.to_nat (j - 1)))) with (cc + Z.of_nat n + j) by lia. rewrite J2. cbn.
    pose proof (hits_le P cc n (n + Z.to_nat (j - 1))). lia. }
  pose proof (hits_le P cc (S (n + Z.to_nat (j - 1))) (n + Z.to_nat P)). lia.
Qed.

Lemma hits_three P cc n : 0 < P < 2 ^ 32 -> 3 * P <= Z.of_nat n -> 3 <= hits P cc n.
Proof.
  intros HP Hn. pose proof (hits_more P cc 0 HP) as A. pose proof (hits_more P cc (0 + Z.to_nat P) HP) as B.
  pose proof (hits_more P cc (0 + Z.to_nat P + Z.to_nat P) HP) as C. cbn [hits] in A.
  pose proof (hits_le P cc (0 + Z.to_nat P + Z.to_nat P + Z.to_nat P) n). lia.
Qed.

(** where the power cycle of output [i] has got to after [h] chances *)
Definition phase (i : nat) (h : Z) (g : gom) (s : list bool) : Prop :=
  (h = 0 /\ s = [] /\ c_cyc g i = true /\ p_out g i = true /\ f_out g i = true) \/
  (h = 1 /\ s = [false] /\ c_cyc g i = true /\ p_out g i = false) \/
  (h = 2 /\ s = [false; false] /\ c_cyc g i = true /\ p_out g i = false /\ f_out g i = false) \/
  (2 <= h /\ s = [false; true] /\ c_cyc g i = false /\ p_out g i = true) \/
  (3 <= h /\ s = [false; false; true] /\ c_cyc g i = false /\ p_out g i = true).

Lemma phase_step i h g g' s t (hit : bool) : phase i h g s ->
  comp i g' = (if hit && c_cyc g i then negb (f_out g i) else p_out g i, p_out g i, p_out g i, if hit then c_cyc g i && f_out g i else c_cyc g i) ->
  t = (if hit && c_cyc g i then [negb (f_out g i)] else []) ->
  phase i (h + (if hit then 1 else 0)) g' (s ++ t).
Proof.
  intros HP HC HT. unfold comp in HC. injection HC as C1 C2 C3 C4. unfold phase. rewrite C1, C3, C4, HT. clear C1 C2 C3 C4 HT.
  destruct HP as [(A & -> & B & C & D)|[(A & -> & B & C)|[(A & -> & B & C & D)|[(A & -> & B & C)|(A & -> & B & C)]]]];
    rewrite B, C; try rewrite D; destruct hit; cbn;
    try (destruct (f_out g i); cbn);
    first [left; repeat split; lia
          |right; left; repeat split; lia
          |right; right; left; repeat split; lia
          |right; right; right; left; repeat split; lia
          |right; right; right; right; repeat split; lia].
Qed.

Lemma pcrun_phase i cc n g tr g' : (i < 6)%nat -> pcrun i cc n g tr g' -> phase i 0 g [] ->
  0 <= n /\ c_period g' = c_period g /\ phase i (hits (c_period g) cc (Z.to_nat n)) g' (sent i tr).
Proof.
  intros Hi HR HP. induction HR as [g|n g tr g1 g2 e g3 t HR IH EL HW N1 HX].
  - split; [lia|]. split; [reflexivity|]. exact HP.
  - destruct (IH HP) as (I1 & I2 & I3). clear IH. destruct EL as (L1 & L2 & L3 & L4 & L5 & L6).
    assert (P2 : phase i (hits (c_period g) cc (Z.to_nat n)) g2 (sent i tr)) by (unfold phase in *; rewrite L1, L3, L4; exact I3).
    destruct (exec_comp _ e g2 g3 t i Hi N1 HW L6 HX) as (X1 & X2 & X3 & X4). rewrite L5, I2 in X1, X2, X4.
    split; [lia|]. split; [exact X4|].
    replace (Z.to_nat (n + 1)) with (S (Z.to_nat n)) by lia. cbn [hits].
    replace (cc + Z.of_nat (S (Z.to_nat n))) with (cc + (n + 1)) by lia. rewrite sent_app.
    apply (phase_step i _ g2 g3 _ _ (u32 (cc + (n + 1)) mod c_period g =? 0) P2 X1 X2).
Qed.

Lemma power_cycle_run i cc n g tr g' : (i < 6)%nat -> 0 < c_period g < 2 ^ 32 -> c_cyc g i = true -> p_out g i = true -> f_out g i = true ->
  pcrun i cc n g tr g' ->
  ((sent i tr = [] /\ c_cyc g' i = true /\ p_out g' i = true) \/
   ((sent i tr = [false] \/ sent i tr = [false; false]) /\ c_cyc g' i = true /\ p_out g' i = false) \/
   ((sent i tr = [false; true] \/ sent i tr = [false; false; true]) /\ c_cyc g' i = false /\ p_out g' i = true)) /\
  (3 * c_period g <= n -> c_cyc g' i = false /\ p_out g' i = true).
Proof.
  intros Hi HP C1 C2 C3 HR. assert (P0 : phase i 0 g []) by (left; repeat split; assumption).
  destruct (pcrun_phase i cc n g tr g' Hi HR P0) as (A & B & C). split.
  - unfold phase in C. tauto.
  - intros L. pose proof (hits_three (c_period g) cc (Z.to_nat n) HP ltac:(lia)) as H3. unfold phase in C.
    destruct C as [C|[C|[C|[C|C]]]]; try (exfalso; lia); tauto.
Qed.
