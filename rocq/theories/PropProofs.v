From Verif Require Import Base FaultModel FaultHandlerModel PropModel PropSpec.

(** ** C28: the valve loop in closed form *)
Definition pos_open (r s n : Z) : bool := (3 <=? s) && (r <? n) && (n <=? r + s / 3).
Definition pos_left (r s n : Z) : Z :=
  if 3 <=? s then if n <=? r then s else if n <=? r + s / 3 then s - 3 * (n - r) else 0
  else if n =? 0 then s else 0.
Fixpoint loop_state (r : Z) (l : list Z) (n : Z) : list bool * list Z :=
  match l with
  | [] => ([], [])
  | s :: t => let '(a, b) := loop_state (r + (if 3 <=? s then 1 else 0)) t n in (pos_open r s n :: a, pos_left r s n :: b)
  end.

Lemma valve_loop_step l : forall r n, 0 <= r -> 0 <= n -> Forall (fun s => 0 <= s) l ->
  valve_loop (n <? r) (fst (loop_state r l n)) (snd (loop_state r l n)) = loop_state r l (n + 1).
Proof.
  induction l as [|s t IH]; intros r n HR HN HF; [reflexivity|]. inversion_clear HF as [|? ? HS HT]. cbn [loop_state].
  set (r' := r + (if 3 <=? s then 1 else 0)).
  assert (HR' : 0 <= r') by (unfold r'; destruct (3 <=? s); lia).
  specialize (IH r' n HR' HN HT).
  destruct (loop_state r' t n) as [a b]. destruct (loop_state r' t (n + 1)) as [a' b']. cbn [fst snd] in *.
  cbn [valve_loop]. unfold pos_open, pos_left, r' in *. clear r'.
  destruct (Z.leb_spec 3 s) as [S3|S3]; cbn [andb].
  - pose proof (Z.div_mod s 3 ltac:(lia)) as DM. pose proof (Z.mod_pos_bound s 3 ltac:(lia)) as MB. 
    destruct (Z.leb_spec n r) as [A|A].
    + destruct (Z.ltb_spec r n); [lia|]. cbn [andb]. destruct (Z.ltb_spec s 3); [lia|]. cbn [negb andb].
      destruct (Z.ltb_spec n r) as [B|B].
      * cbn [negb]. destruct (Z.ltb_spec n (r + 1)); [|lia]. rewrite IH.
        destruct (Z.ltb_spec r (n + 1)); [lia|]. destruct (Z.leb_spec (n + 1) r); [|lia]. reflexivity.
      * cbn [negb]. destruct (Z.ltb_spec n (r + 1)); [|lia]. rewrite IH.
        destruct (Z.ltb_spec r (n + 1)); [|lia]. destruct (Z.leb_spec (n + 1) r); [lia|].
        destruct (Z.leb_spec (n + 1) (r + s / 3)); [|lia]. cbn [andb]. do 2 f_equal. lia.
    + destruct (Z.ltb_spec r n); [|lia]. cbn [andb]. destruct (Z.ltb_spec n r); [lia|].
      destruct (Z.ltb_spec n (r + 1)); [lia|]. destruct (Z.ltb_spec r (n + 1)); [|lia]. destruct (Z.leb_spec (n + 1) r); [lia|].
      destruct (Z.leb_spec n (r + s / 3)) as [B|B]; cbn [andb].
      * destruct (Z.ltb_spec (s - 3 * (n - r)) 3) as [C|C].
        -- cbn [orb]. rewrite IH. destruct (Z.leb_spec (n + 1) (r + s / 3)); [lia|]. reflexivity.
        -- cbn [negb andb]. rewrite IH. destruct (Z.leb_spec (n + 1) (r + s / 3)); [|lia]. do 2 f_equal. lia.
      * change (0 <? 3) with true. cbv iota. cbn [orb negb Z.eqb]. rewrite IH.
        destruct (Z.leb_spec (n + 1) (r + s / 3)); [lia|]. reflexivity.
  - rewrite Z.add_0_r in IH. destruct (Z.eqb_spec (n + 1) 0); [lia|]. destruct (Z.eqb_spec n 0) as [E|E].
    + destruct (Z.ltb_spec s 3); [|lia]. cbn [orb]. rewrite IH. destruct (Z.eqb_spec s 0); cbn [negb]; [subst s|]; reflexivity.
    + change (0 <? 3) with true. cbn [orb negb Z.eqb]. rewrite IH. reflexivity.
Qed.

Lemma loop_state_0 l : forall r, 0 <= r -> loop_state r l 0 = (map (fun _ => false) l, l).
Proof.
  induction l as [|s t IH]; intros r H; [reflexivity|]. cbn [loop_state map]. rewrite IH by (destruct (3 <=? s); lia).
  unfold pos_open, pos_left. destruct (Z.ltb_spec r 0); [lia|]. rewrite andb_false_r. destruct (Z.leb_spec 0 r); [|lia].
  destruct (3 <=? s); reflexivity.
Qed.

Lemma loop_state_nth l : forall r n i,
  nth_error (fst (loop_state r l n)) i = match nth_error l i with Some s => Some (pos_open (r + turn l i) s n) | None => None end /\
  nth_error (snd (loop_state r l n)) i = match nth_error l i with Some s => Some (pos_left (r + turn l i) s n) | None => None end.
Proof.
  induction l as [|s t IH]; intros r n i; [destruct i; cbn; auto|].
  cbn [loop_state]. specialize (IH (r + (if 3 <=? s then 1 else 0)) n). destruct (loop_state _ t n) as [a b]. cbn [fst snd] in *.
  destruct i as [|i]; cbn [nth_error turn]; [rewrite Z.add_0_r; auto|]. destruct (IH i) as (-> & ->).
  rewrite <- Z.add_assoc. auto.
Qed.

Definition loaded (l : list Z) (d : drv) : Prop :=
  d_on d = true /\ d_t2 d = map (fun _ => false) l /\ d_sched d = l /\ Forall (fun s => 0 <= s) l.

Lemma after_ticks_state l d : loaded l d -> forall n,
  after_ticks n d = mk_d (d_t1 d) (fst (loop_state 0 l (Z.of_nat n))) (snd (loop_state 0 l (Z.of_nat n))) true.
Proof.
  intros (ON & V & S & F) n. induction n as [|n IH].
  - cbn [after_ticks]. change (Z.of_nat 0) with 0. rewrite loop_state_0 by lia. cbn [fst snd]. destruct d; cbn in *. congruence.
  - cbn [after_ticks]. rewrite IH. unfold drv_tick, thrust_valve_loop. cbn [d_on d_t1 d_t2 d_sched].
    pose proof (valve_loop_step l 0 (Z.of_nat n) ltac:(lia) ltac:(lia) F) as E.
    destruct (Z.ltb_spec (Z.of_nat n) 0); [lia|]. rewrite E. replace (Z.of_nat (Datatypes.S n)) with (Z.of_nat n + 1) by lia.
    destruct (loop_state 0 l (Z.of_nat n + 1)). reflexivity.
Qed.

Lemma valve_closed_form l d n i : loaded l d ->
  nth_error (d_t2 (after_ticks n d)) i = (if Nat.ltb i (length l) then Some (open_after l (Z.of_nat n) i) else None) /\
  nth_error (d_sched (after_ticks n d)) i = (if Nat.ltb i (length l) then Some (left_after l (Z.of_nat n) i) else None).
Proof.
  intros L. rewrite (after_ticks_state l d L n). cbn [d_t2 d_sched]. destruct (loop_state_nth l 0 (Z.of_nat n) i) as (-> & ->).
  unfold open_after, left_after, pos_open, pos_left. rewrite Z.add_0_l.
  destruct (Nat.ltb_spec i (length l)) as [H|H].
  - apply nth_error_Some in H. destruct (nth_error l i); [auto|congruence].
  - apply nth_error_None in H. rewrite H. auto.
Qed.

Lemma turn_bounds l i : 0 <= turn l i <= Z.of_nat i.
Proof.
  revert l. induction i as [|i IH]; intros [|s t]; cbn [turn]; try lia. specialize (IH t). destruct (3 <=? s); lia.
Qed.

Lemma turn_strict l : forall i j s, (i < j)%nat -> nth_error l i = Some s -> 3 <= s -> turn l i < turn l j.
Proof.
  induction l as [|a t IH]; intros i j s HIJ HN H3; [destruct i; discriminate|].
  destruct j as [|j]; [lia|]. destruct i as [|i]; cbn [turn nth_error] in *.
  - injection HN as ->. destruct (Z.leb_spec 3 s); [|lia]. pose proof (turn_bounds t j). lia.
  - specialize (IH i j s ltac:(lia) HN H3). destruct (3 <=? a); lia.
Qed.

Lemma one_opening l n i j : 0 <= n ->
  open_after l n i = false -> open_after l (n + 1) i = true -> open_after l n j = false -> open_after l (n + 1) j = true -> i = j.
Proof.
  intros HN A B C D.
  assert (K : forall k, open_after l n k = false -> open_after l (n + 1) k = true -> exists s, nth_error l k = Some s /\ 3 <= s /\ turn l k = n).
  { intros k X Y. unfold open_after in *. destruct (nth_error l k) as [s|]; [|discriminate]. exists s.
    destruct (Z.leb_spec 3 s); [|discriminate]. cbn [andb] in *. apply andb_prop in Y. destruct Y as (Y1 & Y2).
    apply Z.ltb_lt in Y1. apply Z.leb_le in Y2. split; [auto|]. split; [auto|].
    destruct (Z.ltb_spec (turn l k) n); [|lia]. cbn [andb] in X. apply Z.leb_gt in X. lia. }
  destruct (K i A B) as (s & S1 & S2 & S3). destruct (K j C D) as (s' & S1' & S2' & S3').
  destruct (Nat.lt_trichotomy i j) as [H|[H|H]]; [|exact H|].
  - pose proof (turn_strict l i j s H S1 S2). lia.
  - pose proof (turn_strict l j i s' H S1' S2'). lia.
Qed.

Lemma count_interval a b N : 0 <= a -> a <= b -> b < Z.of_nat N ->
  length (filter (fun n => (a <? Z.of_nat n) && (Z.of_nat n <=? b)) (seq 0 N)) = Z.to_nat (b - a).
Proof.
  intros HA HAB HB.
  assert (K : forall m s, length (filter (fun n => (a <? Z.of_nat n) && (Z.of_nat n <=? b)) (seq s m)) =
     Z.to_nat (Z.max 0 (Z.min b (Z.of_nat (s + m) - 1) - Z.max a (Z.of_nat s - 1)))).
  { induction m as [|m IH]; intros s; cbn [seq filter].
    - cbn. rewrite Nat.add_0_r. lia.
    - destruct (Z.ltb_spec a (Z.of_nat s)); cbn [andb]; [destruct (Z.leb_spec (Z.of_nat s) b); cbn [length]|]; rewrite IH; lia. }
  rewrite K. cbn. lia.
Qed.

Lemma ticks_open_exact l i s N : nth_error l i = Some s -> 0 <= s -> turn l i + s / 3 < Z.of_nat N ->
  Z.of_nat (ticks_open l N i) = s / 3.
Proof.
  intros HN HS HB. unfold ticks_open, open_after. rewrite HN. pose proof (turn_bounds l i) as TB. pose proof (Z.div_pos s 3 HS ltac:(lia)) as DP.
  destruct (Z.leb_spec 3 s) as [H|H]; cbn [andb].
  - rewrite count_interval; lia.
  - rewrite Z.div_small by lia. assert (E : forall l0 : list nat, filter (fun _ => false) l0 = []) by (induction l0; auto). rewrite E. reflexivity.
Qed.

Lemma finished l d n : loaded l d -> (forall i s, nth_error l i = Some s -> Z.of_nat i + s / 3 < Z.of_nat n) -> l <> [] ->
  all_closed (d_t2 (after_ticks n d)) /\ Forall (fun s => s = 0) (d_sched (after_ticks n d)).
Proof.
  intros L H NE. assert (N0 : 0 < Z.of_nat n).
  { destruct l as [|s t]; [congruence|]. specialize (H O s eq_refl). destruct L as (_ & _ & _ & F). inversion_clear F as [|? ? Q _].
    pose proof (Z.div_pos s 3 Q ltac:(lia)). lia. }
  split; apply Forall_forall; intros x HX; apply In_nth_error in HX; destruct HX as (i & HI);
    destruct (valve_closed_form l d n i L) as (A & B).
  - rewrite A in HI. destruct (Nat.ltb_spec i (length l)) as [Q|Q]; [|discriminate]. injection HI as <-.
    apply nth_error_Some in Q. unfold open_after. destruct (nth_error l i) as [s|] eqn:E; [|congruence]. specialize (H i s E).
    pose proof (turn_bounds l i). destruct (Z.leb_spec (Z.of_nat n) (turn l i + s / 3)); [lia|]. apply andb_false_r.
  - rewrite B in HI. destruct (Nat.ltb_spec i (length l)) as [Q|Q]; [|discriminate]. injection HI as <-.
    apply nth_error_Some in Q. unfold left_after. destruct (nth_error l i) as [s|] eqn:E; [|congruence]. specialize (H i s E).
    pose proof (turn_bounds l i). destruct (3 <=? s).
    + destruct (Z.leb_spec (Z.of_nat n) (turn l i)).
      * destruct L as (_ & _ & _ & F). rewrite Forall_forall in F. pose proof (F s (nth_error_In _ _ E)). pose proof (Z.div_pos s 3 ltac:(lia) ltac:(lia)). lia.
      * destruct (Z.leb_spec (Z.of_nat n) (turn l i + s / 3)); [lia|reflexivity].
    + destruct (Z.eqb_spec (Z.of_nat n) 0); [lia|reflexivity].
Qed.

(** ** C29 *)
Lemma map_false_closed {A} (l : list A) : all_closed (map (fun _ => false) l).
Proof. unfold all_closed. induction l; cbn; constructor; auto. Qed.

Lemma set_nth_closed l i : all_closed l -> all_closed (set_nth l i false).
Proof.
  unfold all_closed. intros H. unfold set_nth. revert i. induction H as [|b l Hb H IH]; intros [|i]; cbn; auto.
  specialize (IH i). destruct (upd l i false); auto.
Qed.

Lemma drv_inv_step d c : ~ opens_thruster c ->
  (d_on d = false -> all_closed (d_t2 d)) -> d_on (dcall_run d c) = false -> all_closed (d_t2 (dcall_run d c)).
Proof.
  intros NO I. destruct c; cbn [dcall_run]; intros E.
  - unfold drv_reset, drv_clear. cbn. apply map_false_closed.
  - apply map_false_closed.
  - unfold drv_start in *. destruct (d_on d); cbn in *; [apply map_false_closed|discriminate].
  - unfold drv_clear in *. destruct (d_on d) eqn:Q; cbn in *; [congruence|auto].
  - unfold drv_set_schedule in *. destruct (d_on d) eqn:Q; cbn in *; [congruence|].
    match goal with |- context [existsb ?f ?x] => destruct (existsb f x) end; cbn in *; auto.
  - unfold drv_tick in *. destruct (d_on d) eqn:Q; [|auto]. exfalso. unfold thrust_valve_loop in E. destruct (valve_loop _ _ _). cbn in E. congruence.
  - destruct t; cbn in *; [auto|]. destruct b; [exfalso; apply NO; exists i; reflexivity|]. apply set_nth_closed. auto.
Qed.

Lemma drv_inv cs : forall d, (d_on d = false -> all_closed (d_t2 d)) -> Forall (fun c => ~ opens_thruster c) cs ->
  d_on (fold_left dcall_run cs d) = false -> all_closed (d_t2 (fold_left dcall_run cs d)).
Proof.
  induction cs as [|c cs IH]; intros d I F; cbn; [auto|]. inversion_clear F as [|? ? F1 F2]. apply IH; [|exact F2].
  apply drv_inv_step; assumption.
Qed.

Lemma reset_safe d : safe (drv_reset d).
Proof.
  unfold safe, drv_reset, drv_clear, drv_disable. cbn.
  split; [apply map_false_closed|]. split; [apply map_false_closed|]. split; [|reflexivity]. induction (d_sched d); cbn; constructor; auto.
Qed.

(** ** C31 *)
Lemma schedule_loaded l d : d_on d = false -> Forall (fun v => v = 0 \/ 10 <= v <= 999) l ->
  snd (drv_set_schedule l d) = true /\ d_sched (fst (drv_set_schedule l d)) = l.
Proof.
  intros E F. unfold drv_set_schedule. rewrite E. replace (existsb (fun a => 1000 <=? a) l) with false.
  - cbn. split; [reflexivity|]. induction F as [|v l Hv F IH]; cbn; [reflexivity|]. rewrite IH. f_equal. destruct (Z.leb_spec 10 v); lia.
  - symmetry. apply not_true_is_false. rewrite existsb_exists. intros (v & HI & HV). rewrite Forall_forall in F. apply Z.leb_le in HV.
    destruct (F v HI); lia.
Qed.
