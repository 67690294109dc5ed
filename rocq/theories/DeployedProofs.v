From Verif Require Import Base EEPROMModel EEPROMProofs FaultModel FaultHandlerModel MissionModel MissionProofs SavedProofs DeployedModel.
From Coq Require Import List.
Open Scope Z_scope.

Definition dep (w : world) : bool := mm_deployed (wm w).
Lemma dep_h w h : dep (with_h w h) = dep w. Proof. reflexivity. Qed.
Lemma dep_bus w f : dep (upd_bus w f) = dep w. Proof. reflexivity. Qed.
Lemma dep_m w f : (forall m, mm_deployed (f m) = mm_deployed m) -> dep (upd_m w f) = dep w.
Proof. intros H. unfold dep. cbn. apply H. Qed.
Lemma dep_set s w : dep (set_mission_state s w) = dep w.
Proof. unfold set_mission_state. cbv zeta. destruct (s =? m_safehold), ((s =? m_leader_close_approach) || (s =? m_follower_close_approach)); reflexivity. Qed.
Lemma dep_t2 s a w : dep (transition2 s a w) = dep w.
Proof. unfold transition2. cbv zeta. rewrite dep_m by reflexivity. rewrite dep_set. destruct (s =? m_safehold); reflexivity. Qed.
Lemma dep_t3 s a p w : dep (transition3 s a p w) = dep w.
Proof. unfold transition3. cbv zeta. rewrite dep_bus, dep_t2. reflexivity. Qed.

Lemma dispatch_keeps i s w w' : dispatch i s w = Some w' -> dep w = true -> dep w' = true.
Proof.
  unfold dispatch. intros H D. destruct (s =? m_startup).
  - unfold dispatch_startup in H. destruct (_ =? kill_switch_value); [discriminate|].
    destruct (_ <? _); [destruct (_ =? _); injection H as <-; [rewrite dep_m by reflexivity|]; exact D|]. cbv zeta in H.
    set (w2 := if wradio _ =? r_disabled then _ else _) in H.
    assert (D2 : dep w2 = true) by (subst w2; destruct (_ =? r_disabled); [rewrite dep_bus|]; rewrite dep_m by reflexivity; exact D).
    destruct (any_faulted hardware_faults (wh w2)) as [h f]. destruct f; injection H as <-; rewrite dep_t3; [rewrite dep_h; exact D2|reflexivity].
  - repeat (match type of H with (if ?b then _ else _) = _ => destruct b end; [injection H as <-|]); [..|injection H as <-];
    unfold dispatch_detumble, dispatch_standby, dispatch_far, dispatch_close_approach, dispatch_docking, dispatch_safehold; cbv zeta;
    repeat match goal with |- context [if ?b then _ else _] => destruct b end; rewrite ?dep_t2, ?dep_m by reflexivity; rewrite ?dep_t2; try (rewrite ?dep_m by reflexivity); exact D.
Qed.
Lemma execute_keeps i w w' : mission_execute i w = Some w' -> dep w = true -> dep w' = true.
Proof.
  unfold mission_execute. destruct (main_execute main_machines (wh w)) as [h r]. cbv zeta. intros H D.
  assert (D1 : dep (with_h w h) = true) by exact D.
  destruct (negb ((wmission w =? m_startup) || (wmission w =? m_manual))); [|exact (dispatch_keeps _ _ _ _ H D1)].
  destruct r; [exact (dispatch_keeps _ _ _ _ H D1)| |].
  - first [injection H as <-; rewrite dep_m by reflexivity; rewrite dep_t3; exact D1
          |destruct (_ && _); [injection H as <-; rewrite dep_m by reflexivity; rewrite dep_t2; exact D1|exact (dispatch_keeps _ _ _ _ H D1)]].
  - first [injection H as <-; rewrite dep_m by reflexivity; rewrite dep_t3; exact D1
          |destruct (_ && _); [injection H as <-; rewrite dep_m by reflexivity; rewrite dep_t2; exact D1|exact (dispatch_keeps _ _ _ _ H D1)]].
Qed.
Lemma cycle_keeps w w' : dcycle w w' -> dep w = true -> dep w' = true.
Proof. intros (g & i & w1 & _ & E & X) D. apply (execute_keeps i w1 w' X). unfold dep in *. rewrite E. exact D. Qed.
Lemma trace_keeps ws : forall w, dtrace w ws -> dep w = true -> Forall (fun x => dep x = true) ws.
Proof.
  induction ws as [|x ws IH]; intros w T D; [constructor|]. destruct T as [T1 T2]. pose proof (cycle_keeps _ _ T1 D) as DX.
  constructor; [exact DX|exact (IH x T2 DX)].
Qed.
Lemma trace_from ws : forall w k x, dtrace w ws -> nth_error ws k = Some x -> dep x = true -> forall k' y, (k <= k')%nat -> nth_error ws k' = Some y -> dep y = true.
Proof.
  induction ws as [|a ws IH]; intros w k x T N D k' y L N'; [destruct k; discriminate|]. destruct T as [T1 T2]. destruct k as [|k].
  - injection N as ->. destruct k' as [|k']; [injection N' as <-; exact D|]. pose proof (trace_keeps _ _ T2 D) as F. rewrite Forall_forall in F. apply F.
    eapply nth_error_In. exact N'.
  - destruct k' as [|k']; [exfalso; lia|]. exact (IH a k x T2 N D k' y ltac:(lia) N').
Qed.

(** what sets it *)
Lemma mission_t2 s a w : wmission (transition2 s a w) = s.
Proof. reflexivity. Qed.
Lemma dispatch_sets i s w w' : dispatch i s w = Some w' -> s = wmission w -> dep w = false -> (dep w' = true <-> s = m_startup /\ wmission w' = m_detumble).
Proof.
  unfold dispatch. intros H S D. destruct (Z.eqb_spec s m_startup) as [E|E].
  - unfold dispatch_startup in H. destruct (_ =? kill_switch_value); [discriminate|].
    destruct (_ <? _).
    { assert (Q : dep w' = false /\ wmission w' = wmission w) by (destruct (_ =? _); injection H as <-; (split; [exact D|reflexivity])).
      destruct Q as [Q1 Q2]. rewrite Q1, Q2, <- S, E. split; [discriminate|intros [_ X]; discriminate X]. }
    cbv zeta in H. set (w2 := if wradio _ =? r_disabled then _ else _) in H.
    assert (D2 : dep w2 = false) by (subst w2; destruct (_ =? r_disabled); [rewrite dep_bus|]; rewrite dep_m by reflexivity; exact D).
    destruct (any_faulted hardware_faults (wh w2)) as [h f]. destruct f; injection H as <-; rewrite dep_t3.
    + rewrite dep_h, D2. split; [discriminate|]. intros [_ X]. discriminate X.
    + split; [intros _; split; [exact E|reflexivity]|reflexivity].
  - assert (Q : dep w' = false); [|rewrite Q; split; [discriminate|intros [X _]; exfalso; exact (E X)]].
    clear S E.
    repeat (match type of H with (if ?b then _ else _) = _ => destruct b end; [injection H as <-|]); [..|injection H as <-];
    unfold dispatch_detumble, dispatch_standby, dispatch_far, dispatch_close_approach, dispatch_docking, dispatch_safehold; cbv zeta;
    repeat match goal with |- context [if ?b then _ else _] => destruct b end; rewrite ?dep_t2, ?dep_m by reflexivity; rewrite ?dep_t2; try (rewrite ?dep_m by reflexivity); exact D.
Qed.
Lemma set_when i w w' : mission_execute i w = Some w' -> mm_deployed (wm w) = false ->
  (mm_deployed (wm w') = true <-> wmission w = m_startup /\ wmission w' = m_detumble).
Proof.
  change (mm_deployed (wm w)) with (dep w). change (mm_deployed (wm w')) with (dep w').
  unfold mission_execute. destruct (main_split w) as (h & r & E & _ & B & _). rewrite E. cbv zeta. intros H D.
  assert (D1 : dep (with_h w h) = false) by exact D.
  assert (G : dispatch i (wmission w) (with_h w h) = Some w' -> (dep w' = true <-> wmission w = m_startup /\ wmission w' = m_detumble))
    by (intros G; exact (dispatch_sets _ _ _ _ G (eq_sym B) D1)).
  destruct (Z.eqb_spec (wmission w) m_startup) as [S|S]; [exact (G H)|]. cbn [orb] in H.
  assert (Q : dep w' = false -> (dep w' = true <-> wmission w = m_startup /\ wmission w' = m_detumble))
    by (intros Q; rewrite Q; split; [discriminate|intros [X _]; exfalso; exact (S X)]).
  destruct (negb (wmission w =? m_manual)); [|exact (G H)].
  destruct r; try exact (G H).
  all: try (injection H as <-; apply Q; rewrite dep_m by reflexivity; rewrite dep_t3; exact D1).
  all: destruct (_ && _); [injection H as <-; apply Q; rewrite dep_m by reflexivity; rewrite dep_t2; exact D1|exact (G H)].
Qed.

Section Nine.
Variable fs : list pfield.
Hypothesis table_ok : Forall (fun f => 0 < pf_period f /\ one_byte (pf_ty f) = true /\ (pf_state f = true -> pf_ty f = EUChar)) fs /\
  Forall (fun f => 0 < pf_period f) fs /\ length fs = 9%nat.
Hypothesis table_at : forall i, nth_error fs i = nth_error nine i.

Lemma marked_read e defaults : Z.of_nat (length e) = 4096 -> length defaults = 9%nat -> nth_error e 30 = Some 1 ->
  exists r, eeprom_init fs defaults e = Some r /\ nth_error r 6 = Some 1.
Proof.
  intros L HD E. destruct table_ok as (_ & _ & TL).
  assert (CE : check_empty e = false) by (refine (not_empty e 30 1 E _); discriminate).
  destruct (read_spec fs 0 defaults e) as (r & RD & _ & N); [rewrite TL; clear - L; cbn; lia|rewrite TL; exact HD|].
  assert (D6 : exists d6, nth_error defaults 6 = Some d6).
  { destruct (nth_error defaults 6) eqn:Y; [eexists; reflexivity|]. apply nth_error_None in Y. clear - Y HD. lia. }
  destruct D6 as [d6 D6]. exists r. split; [unfold eeprom_init; rewrite TL, CE; exact RD|].
  rewrite (N 6%nat (mk_pf false EBool 1) d6 1); [reflexivity|rewrite table_at; reflexivity|exact D6|exact E].
Qed.

Lemma rows_nine (ws : list world) rows : Forall2 (fun w row => length row = length fs /\ nth_error row 6 = Some (flag (mm_deployed (wm w)))) ws rows ->
  Forall (fun row => length row = 9%nat) rows.
Proof. destruct table_ok as (_ & _ & TL). rewrite TL. intros H. induction H as [|w row ws rows [A _] H IH]; constructor; assumption. Qed.
Lemma rows_at (ws : list world) rows : Forall2 (fun w row => length row = length fs /\ nth_error row 6 = Some (flag (mm_deployed (wm w)))) ws rows ->
  forall k row, nth_error rows k = Some row -> exists w, nth_error ws k = Some w /\ nth_error row 6 = Some (flag (dep w)).
Proof.
  intros H. induction H as [|w row ws rows [_ A] H IH]; intros k x N; [destruct k; discriminate|].
  destruct k as [|k]; [injection N as <-; exists w; split; [reflexivity|exact A]|exact (IH k x N)].
Qed.

(** the cell after a boot: kept, or the flag of a world late enough *)
Lemma cell_deployed defaults e ws hist e' : bytes e -> Z.of_nat (length e) = 4096 -> dboot fs defaults e ws hist e' ->
  bytes e' /\ Z.of_nat (length e') = 4096 /\
  ((hist = [] /\ nth_error e' 30 = nth_error e 30) \/ exists k w, (length hist - 1 <= k)%nat /\ nth_error ws k = Some w /\ nth_error e' 30 = Some (flag (dep w))).
Proof.
  intros B L [r w0 ws' hist' vals j e2 H1 H2 H3 H4 X].
  destruct (cell_after fs table_ok hist' vals j e B L (rows_nine _ _ H4)) as (e3 & X' & L' & B' & CELL). rewrite X in X'. injection X' as <-.
  split; [exact B'|]. split; [rewrite L'; exact L|].
  pose proof (CELL 6%nat (mk_pf false EBool 1) ltac:(rewrite table_at; reflexivity)) as C6. cbv zeta in C6. cbn [pf_period pf_ty] in C6.
  change (6 * 5)%nat with 30%nat in C6. unfold last_save in C6. rewrite Z.div_1_r, Z.mul_1_r in C6 || rewrite Z.div_1_r, Z.mul_1_l in C6.
  set (c := Z.of_nat (length hist') + (if Nat.ltb 6 j then 1 else 0)) in C6.
  assert (CB : Z.of_nat (length hist') <= c <= Z.of_nat (length hist') + 1) by (unfold c; clear; destruct (Nat.ltb 6 j); lia).
  destruct (Z.eqb_spec c 0) as [C0|CN].
  - left. split; [|exact C6]. clear - CB C0. destruct hist'; [reflexivity|cbn [length] in CB; lia].
  - right. destruct C6 as (v & V & CV). unfold value_at in V. destruct (nth_error (hist' ++ [vals]) (Z.to_nat (c - 1))) as [row|] eqn:N; [|discriminate].
    destruct (rows_at _ _ H4 _ _ N) as (w & NW & RW). rewrite RW in V. injection V as <-.
    exists (Z.to_nat (c - 1)), w. split; [clear - CB; lia|]. split; [exact NW|]. rewrite CV. destruct (dep w); reflexivity.
Qed.

Lemma boot_marked defaults e ws hist e' : length defaults = 9%nat -> bytes e -> Z.of_nat (length e) = 4096 -> nth_error e 30 = Some 1 ->
  dboot fs defaults e ws hist e' -> Forall (fun w => dep w = true) ws /\ bytes e' /\ Z.of_nat (length e') = 4096 /\ nth_error e' 30 = Some 1.
Proof.
  intros HD B L E H. destruct (cell_deployed _ _ _ _ _ B L H) as (B' & L' & C).
  assert (F : Forall (fun w => dep w = true) ws).
  { destruct H as [r w0 ws hist vals j e' H1 H2 H3 H4 X]. destruct (marked_read e defaults L HD E) as (r' & R1 & R2). rewrite H1 in R1. injection R1 as <-.
    rewrite H2 in R2. refine (trace_keeps ws w0 H3 _). unfold dep. destruct (mm_deployed (wm w0)); [reflexivity|discriminate]. }
  split; [exact F|]. split; [exact B'|]. split; [exact L'|]. destruct C as [[_ C]|(k & w & _ & N & C)]; [rewrite C; exact E|].
  rewrite Forall_forall in F. rewrite C, (F w (nth_error_In _ _ N)). reflexivity.
Qed.
Lemma boots_marked defaults e l e' : length defaults = 9%nat -> bytes e -> Z.of_nat (length e) = 4096 -> nth_error e 30 = Some 1 ->
  dboots fs defaults e l e' -> Forall (fun w => dep w = true) l /\ bytes e' /\ Z.of_nat (length e') = 4096 /\ nth_error e' 30 = Some 1.
Proof.
  intros HD B L E H. induction H as [e|e l e1 ws hist e2 H IH H']; [split; [constructor|auto]|].
  destruct (IH B L E) as (F & B1 & L1 & E1). destruct (boot_marked _ _ _ _ _ HD B1 L1 E1 H') as (F2 & R). split; [apply Forall_app; auto|exact R].
Qed.
Lemma deployed_for_ever defaults e ws hist e1 k w l e2 : length defaults = 9%nat -> bytes e -> Z.of_nat (length e) = 4096 ->
  dboot fs defaults e ws hist e1 -> (k < length hist)%nat -> nth_error ws k = Some w -> mm_deployed (wm w) = true ->
  dboots fs defaults e1 l e2 -> Forall (fun x => mm_deployed (wm x) = true) l.
Proof.
  intros HD B L H K N D H'. destruct (cell_deployed _ _ _ _ _ B L H) as (B1 & L1 & C).
  assert (E1 : nth_error e1 30 = Some 1).
  { destruct C as [[-> _]|(k' & w' & K' & N' & C)]; [cbn in K; exfalso; lia|]. rewrite C.
    destruct H as [r w0 ws hist vals j e' H1 H2 H3 H4 X]. rewrite (trace_from ws w0 k w H3 N D k' w' ltac:(lia) N'). reflexivity. }
  exact (proj1 (boots_marked defaults e1 l e2 HD B1 L1 E1 H')).
Qed.
End Nine.
