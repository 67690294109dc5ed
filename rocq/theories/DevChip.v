(** Proofs about the second magnetometer, its driver and its calibration. *)
From Verif Require Import Base AdcsModel DevModel DevSpec DevProofs.

Section C.
Context (off : Z * Z * Z) (field : nat -> Z * Z * Z) (bad : nat -> bool).
Notation B := (chip_bus off field bad).

Lemma pop_ok : forall (c : bst B) n, pop B (c, mk_dev true n false) = ((c, mk_dev true 0 false), false).
Proof. reflexivity. Qed.

(** from [t0] on no call fails *)
Definition calm (t0 : nat) : Prop := forall t, (t0 <= t)%nat -> bad t = false.

Definition pos_after (v : Z) (pos : bool) : bool := if v =? 0x20 then true else if v =? 0x40 then false else pos.

Lemma step_write : forall l t tx p rx ctl pos m n, bad t = false ->
  call B (Write l) (mk_chip t tx p rx ctl pos m, mk_dev true n false) = ((mk_chip (S t) (tx ++ l) p rx ctl pos m, mk_dev true n false), []).
Proof. intros. unfold call. cbn [bcall chip_bus fst snd]. unfold chip_call. cbn [c_now]. rewrite H. reflexivity. Qed.
Lemma step_end : forall t tx p rx ctl pos m n, bad t = false ->
  call B EndTx (mk_chip t tx p rx ctl pos m, mk_dev true n false) = ((chip_end off field (mk_chip t tx p rx ctl pos m), mk_dev true n false), []).
Proof. intros. unfold call. cbn [bcall chip_bus fst snd]. unfold chip_call. cbn [c_now]. rewrite H. reflexivity. Qed.
Lemma step_take : forall k t tx p rx ctl pos m n, bad t = false ->
  call B (Take k) (mk_chip t tx p rx ctl pos m, mk_dev true n false) = ((mk_chip (S t) tx p rx ctl pos m, mk_dev true n false), rx).
Proof. intros. unfold call. cbn [bcall chip_bus fst snd]. unfold chip_call. cbn [c_now]. rewrite H. reflexivity. Qed.

Lemma control_ok : forall v t p rx ctl pos m n, calm t ->
  control B v (mk_chip t [] p rx ctl pos m, mk_dev true n false) =
  (mk_chip (3 + t) [] p rx v (pos_after v pos) (if measuring v then output off (pos_after v pos) (field (2 + t)) else m), mk_dev true n false).
Proof.
  intros v t p rx ctl pos m n H. unfold control, calls. cbn [fold_left].
  rewrite step_write by (apply H; lia). cbn [fst]. rewrite step_write by (apply H; lia). cbn [fst].
  rewrite step_end by (apply H; lia). reflexivity.
Qed.

(** what the output registers hold when asked at [t] *)
Definition shown (ctl : Z) (pos : bool) (m : Z * Z * Z) (t : nat) : Z * Z * Z := if Z.testbit ctl 1 then output off pos (field t) else m.

Lemma step_request : forall k t tx p rx ctl pos m n, bad t = false ->
  call B (Request k) (mk_chip t tx p rx ctl pos m, mk_dev true n false) =
  ((mk_chip (S t) tx p (firstn k (if p =? 6 then [if measuring ctl then 1 else 0] else if p =? 0 then bytes3 (shown ctl pos m t) else []))
            ctl pos (shown ctl pos m t), mk_dev true n false), []).
Proof. intros. unfold call. cbn [bcall chip_bus fst snd]. unfold chip_call. cbn [c_now]. rewrite H. reflexivity. Qed.

Lemma ready_ok : forall t p rx ctl pos m n, calm t ->
  ready_late B 6 0 (mk_chip t [] p rx ctl pos m, mk_dev true n false) =
  ((mk_chip (4 + t) [] 6 [if measuring ctl then 1 else 0] ctl pos (shown ctl pos m (2 + t)), mk_dev true 0 false), measuring ctl).
Proof.
  intros t p rx ctl pos m n H. unfold ready_late, calls. cbn [fold_left].
  rewrite step_write by (apply H; lia). cbn [fst]. rewrite step_end by (apply H; lia).
  cbn [fst app chip_end c_tx c_now c_ptr c_rx c_ctl c_pos c_meas].
  rewrite step_request by (apply H; lia). cbn [fst]. rewrite pop_ok. cbv iota beta. rewrite step_take by (apply H; lia).
  change (6 =? 6) with true. cbv iota. cbn [firstn]. f_equal. unfold byte. cbn [nth]. destruct (measuring ctl); reflexivity.
Qed.

Lemma bytes3_six : forall m, firstn 6 (bytes3 m) = bytes3 m.
Proof. intros [[a b] c]. reflexivity. Qed.

Lemma read_ok : forall t p rx ctl pos m n, calm t ->
  read_reg B 0 6 (mk_chip t [] p rx ctl pos m, mk_dev true n false) =
  ((mk_chip (4 + t) [] 0 (bytes3 (shown ctl pos m (2 + t))) ctl pos (shown ctl pos m (2 + t)), mk_dev true 0 false),
   Some (bytes3 (shown ctl pos m (2 + t)))).
Proof.
  intros t p rx ctl pos m n H. unfold read_reg, calls. cbn [fold_left].
  rewrite step_write by (apply H; lia). cbn [fst]. rewrite step_end by (apply H; lia).
  cbn [fst app chip_end c_tx c_now c_ptr c_rx c_ctl c_pos c_meas].
  rewrite step_request by (apply H; lia). cbn [fst]. rewrite step_take by (apply H; lia). rewrite pop_ok. cbv iota beta.
  change (0 =? 6) with false. change (0 =? 0) with true. cbv iota. rewrite bytes3_six. reflexivity.
Qed.

Lemma single_ok : forall k t p rx ctl pos m n, calm t ->
  single_read B (S k) (mk_chip t [] p rx ctl pos m, mk_dev true n false) =
  Ended (B := B) (mk_chip (11 + t) [] 0 (bytes3 (output off pos (field (2 + t)))) 1 pos (output off pos (field (2 + t))), mk_dev true 0 false)
        (Some (mag2_words (bytes3 (output off pos (field (2 + t)))))).
Proof.
  intros k t p rx ctl pos m n H. unfold single_read. rewrite control_ok by auto. cbn [wait_ready].
  assert (H2 : forall i, calm (i + t)) by (intros i x Hx; apply H; lia).
  rewrite ready_ok by apply H2. change (measuring 1) with true. cbv iota beta. rewrite read_ok by (apply (H2 7%nat)). reflexivity.
Qed.

Definition average (a b : Z * Z * Z) : Z * Z * Z := map3 (fun x y => Z.quot (x + y) 2) a b.

Lemma calibrate_ok : forall k t p rx ctl pos m n, calm t ->
  exists c, calibrate B (S k) (mk_chip t [] p rx ctl pos m, mk_dev true n false) =
    Ended (B := B) (c, fresh_dev) (Some (average (mag2_words (bytes3 (output off true (field (19 + t)%nat))))
                                                 (mag2_words (bytes3 (output off false (field (36 + t)%nat)))))) /\
    set_up c /\ c_now c = (48 + t)%nat.
Proof.
  intros k t p rx ctl pos m n H.
  assert (H2 : forall i, calm (i + t)) by (intros i x Hx; apply H; lia).
  unfold calibrate.
  rewrite control_ok by auto. rewrite pop_ok. cbv iota beta.
  rewrite control_ok by apply H2. rewrite pop_ok. cbv iota beta.
  change (pos_after 0x20 (pos_after 0x80 pos)) with true.
  rewrite single_ok by (apply (H2 6%nat)). cbv iota beta.
  rewrite single_ok by (apply (H2 17%nat)). cbv iota beta. rewrite pop_ok. cbv iota beta.
  rewrite control_ok by (apply (H2 28%nat)). rewrite pop_ok. cbv iota beta.
  rewrite control_ok by (apply (H2 31%nat)). rewrite pop_ok. cbv iota beta.
  change (pos_after 0x40 (pos_after 0x80 true)) with false.
  rewrite single_ok by (apply (H2 34%nat)). cbv iota beta. rewrite pop_ok. cbv iota beta.
  rewrite control_ok by (apply (H2 45%nat)). rewrite pop_ok. cbv iota beta.
  eexists. split; [reflexivity|]. split; [split; [|split]|]; reflexivity.
Qed.

(** a pass over a chip that measures by itself *)
Lemma pass_ok : forall t p rx pos m n, calm t ->
  exists c, mag2_pass B (mk_chip t [] p rx 0x0E pos m, mk_dev true n false) = ((c, fresh_dev), Some (bytes3 (output off pos (field (6 + t)%nat)))) /\
    c_ctl c = 0x0E /\ c_pos c = pos /\ c_tx c = [] /\ c_now c = (8 + t)%nat.
Proof.
  intros t p rx pos m n H. assert (H2 : forall i, calm (i + t)) by (intros i x Hx; apply H; lia).
  unfold mag2_pass. cbn [snd d_fn]. rewrite ready_ok by auto. change (measuring 0x0E) with true. cbv iota.
  rewrite read_ok by (apply (H2 4%nat)). eexists. split; [reflexivity|]. repeat split; reflexivity.
Qed.

(** a pass over a chip that does not measure *)
Lemma pass_idle : forall t p rx ctl pos m n, calm t -> measuring ctl = false ->
  exists c, mag2_pass B (mk_chip t [] p rx ctl pos m, mk_dev true n false) = ((c, fresh_dev), None) /\ c_ctl c = ctl /\ c_tx c = [] /\ c_now c = (4 + t)%nat.
Proof.
  intros t p rx ctl pos m n H M. unfold mag2_pass. cbn [snd d_fn]. rewrite ready_ok by auto. rewrite M.
  eexists. split; [reflexivity|]. repeat split; reflexivity.
Qed.

Lemma passes_ok : forall n t p rx pos m d, calm t -> d_fn d = true -> d_acc d = false ->
  let '(s, l) := passes (mag2_pass B) n (mk_chip t [] p rx 0x0E pos m, d) in
  d_fn (snd s) = true /\ length l = n /\
  forall i, (i < n)%nat -> nth_error l i = Some (Some (bytes3 (output off pos (field (6 + 8 * i + t)%nat)))).
Proof.
  induction n as [|n IH]; intros t p rx pos m d H F A; cbn [passes].
  - repeat split; auto. intros; lia.
  - destruct d as [fn cnt acc]. cbn in F, A. subst fn acc.
    destruct (pass_ok t p rx pos m cnt H) as (c & E & C1 & C2 & C3 & C4). rewrite E.
    destruct c as [t' tx p' rx' ctl' pos' m']. cbn [c_ctl c_pos c_tx c_now] in C1, C2, C3, C4. subst tx ctl' pos' t'.
    assert (H8 : calm (8 + t)) by (intros x Hx; apply H; lia).
    specialize (IH (8 + t)%nat p' rx' pos m' fresh_dev H8 eq_refl eq_refl).
    destruct (passes (mag2_pass B) n _) as [s l]. destruct IH as (I1 & I2 & I3).
    split; [auto|split; [cbn; congruence|]].
    intros i Hi. destruct i as [|i]; cbn [nth_error]; [reflexivity|].
    rewrite I3 by lia. do 5 f_equal. lia.
Qed.

Lemma passes_idle : forall n t p rx ctl pos m d, calm t -> d_fn d = true -> d_acc d = false -> measuring ctl = false ->
  let '(s, l) := passes (mag2_pass B) n (mk_chip t [] p rx ctl pos m, d) in d_fn (snd s) = true /\ l = repeat None n.
Proof.
  induction n as [|n IH]; intros t p rx ctl pos m d H F A M; cbn [passes repeat]; [auto|].
  destruct d as [fn cnt acc]. cbn in F, A. subst fn acc.
  destruct (pass_idle t p rx ctl pos m cnt H M) as (c & E & C1 & C3 & C4). rewrite E.
  destruct c as [t' tx p' rx' ctl' pos' m']. cbn [c_ctl c_tx c_now] in C1, C3, C4. subst tx ctl' t'.
  assert (H8 : calm (4 + t)) by (intros x Hx; apply H; lia).
  specialize (IH (4 + t)%nat p' rx' ctl pos' m' fresh_dev H8 eq_refl eq_refl M).
  destruct (passes (mag2_pass B) n _) as [s l]. destruct IH as (I1 & ->). auto.
Qed.
End C.

Lemma words_bytes : forall m, all3 word16 m -> mag2_words (bytes3 m) = m.
Proof.
  intros [[a b] c] (Ha & Hb & Hc). unfold word16 in *. unfold mag2_words, bytes3, split16, word, byte. cbn [app nth].
  f_equal; [f_equal|]; Z.div_mod_to_equations; lia.
Qed.

Lemma average_back : forall off f, average (output off true f) (output off false f) = off.
Proof.
  intros [[a b] c] [[x y] z]. unfold average, output, map3.
  replace (a + x + (a - x)) with (a * 2) by lia. replace (b + y + (b - y)) with (b * 2) by lia. replace (c + z + (c - z)) with (c * 2) by lia.
  rewrite !Z.quot_mul by lia. reflexivity.
Qed.

Lemma published_half : forall off f, all3 word16 (output off false f) -> published off (bytes3 (output off false f)) = half f.
Proof.
  intros off f H. unfold published. rewrite words_bytes by auto. destruct off as [[a b] c], f as [[x y] z].
  unfold output, map3, mag2_value, half. f_equal; [f_equal|]; f_equal; lia.
Qed.

(** calibration in a steady field, then any number of passes *)
Lemma calibration : forall off field k c n, c_tx c = [] -> d_fn (snd (c, n)) = true -> d_acc n = false ->
  forall f, (forall t, (c_now c <= t < c_now c + 48)%nat -> field t = f) -> in_range off f ->
  let B := chip_bus off field (fun _ => false) in
  exists s, calibrate B (S k) (c, n) = Ended (B := B) s (Some off) /\ d_fn (snd s) = true /\ set_up (fst s) /\
    forall passed i, (i < passed)%nat -> exists bs, nth_error (snd (passes (mag2_pass B) passed s)) i = Some (Some bs) /\
      let now := field (54 + 8 * i + c_now c)%nat in all3 word16 (output off false now) -> published off bs = half now.
Proof.
  intros off field k c n T F A f Hf [R1 R2] B. destruct c as [t tx p rx ctl pos m]. cbn [c_tx c_now] in *. subst tx.
  destruct n as [fn cnt acc]. cbn in F, A. subst fn acc.
  assert (K : forall t, calm (fun _ => false) t) by (intros ? ? ?; reflexivity).
  destruct (calibrate_ok off field (fun _ => false) k t p rx ctl pos m cnt (K t)) as (c' & E & U & N).
  exists (c', fresh_dev). fold B in E. rewrite E. rewrite !Hf by lia. rewrite !words_bytes by auto. rewrite average_back.
  split; [reflexivity|]. split; [reflexivity|]. split; [exact U|]. intros n i Hi.
  destruct c' as [t' tx p' rx' ctl' pos' m']. destruct U as (U1 & U2 & U3). cbn [c_ctl c_pos c_tx c_now] in *. subst.
  pose proof (passes_ok off field (fun _ => false) n (48 + t)%nat p' rx' false m' fresh_dev (K _) eq_refl eq_refl) as P. fold B in P.
  destruct (passes (mag2_pass B) n _) as [s l]. destruct P as (_ & _ & P). cbn [snd]. rewrite (P i Hi).
  eexists. split; [reflexivity|]. cbv zeta. intros W. replace (6 + 8 * i + (48 + t))%nat with (54 + 8 * i + t)%nat by lia.
  apply published_half. exact W.
Qed.

(** ** Witnesses *)

(** a device whose status can be read but whose data cannot *)
Definition deaf_call (o : wop) (b : unit) : unit * wres :=
  match o with Take n => if (n <=? 1)%nat then (tt, mk_wres true [255]) else (tt, mk_wres false []) | _ => (tt, mk_wres true []) end.
Definition deaf : bus := mk_bus unit deaf_call.

Lemma deaf_passes : forall pass : (bst deaf * dev) -> (bst deaf * dev) * option (list Z),
  (forall c, pass (tt, mk_dev true c false) = ((tt, mk_dev true 1 false), None)) ->
  forall n c, let '(s, l) := passes pass n (tt, mk_dev true c false) in d_fn (snd s) = true /\ l = repeat None n.
Proof.
  intros pass H n. induction n as [|n IH]; intros c; cbn [passes repeat]; [auto|].
  rewrite H. specialize (IH 1). destruct (passes pass n _) as [s l]. destruct IH as [? ->]. auto.
Qed.
Lemma deaf_gyr : forall n, let '(s, l) := passes (gyr_pass deaf) n (tt, fresh_dev) in d_fn (snd s) = true /\ l = repeat None n.
Proof. intros n. apply deaf_passes. reflexivity. Qed.
Lemma deaf_mag1 : forall n, let '(s, l) := passes (mag1_pass deaf) n (tt, fresh_dev) in d_fn (snd s) = true /\ l = repeat None n.
Proof. intros n. apply deaf_passes. reflexivity. Qed.
Lemma deaf_mag2 : forall n, let '(s, l) := passes (mag2_pass deaf) n (tt, fresh_dev) in d_fn (snd s) = true /\ l = repeat None n.
Proof. intros n. apply deaf_passes. reflexivity. Qed.

(** a bus on which every call works, the alert pin stays low and no device is ever ready *)
Definition slow_call (o : wop) (b : unit) : unit * wres :=
  match o with Pin => (tt, mk_wres false []) | Take n => (tt, mk_wres true (repeat 0 n)) | _ => (tt, mk_wres true []) end.
Definition slow : bus := mk_bus unit slow_call.

Lemma slow_adc : forall fuel, adc_pass slow fuel [0; 0] (tt, fresh_dev) = None.
Proof.
  intros fuel. assert (W : forall k, adc_wait slow k tt = None) by (induction k; cbn; auto).
  unfold adc_pass, adc_end. cbn [snd fresh_dev d_fn].
  replace (fst (adc_start slow [0; 0] (tt, fresh_dev))) with tt by reflexivity. rewrite W. reflexivity.
Qed.
Lemma slow_cal : forall fuel, calibrate slow fuel (tt, fresh_dev) = Waiting.
Proof.
  intros fuel. assert (W : forall k c, wait_ready slow k (tt, mk_dev true c false) = Waiting) by (induction k as [|k IH]; intros c; [reflexivity|exact (IH 0)]).
  unfold calibrate. change (pop slow (control slow 0x80 (tt, fresh_dev))) with ((tt, mk_dev true 0 false), false) at 1. cbv iota beta.
  change (pop slow (control slow 0x20 (tt, mk_dev true 0 false))) with ((tt, mk_dev true 0 false), false) at 1. cbv iota beta.
  unfold single_read at 1. change (control slow 1 (tt, mk_dev true 0 false)) with (tt, mk_dev true 0 false) at 1. rewrite W. reflexivity.
Qed.

(** on a dead bus calibration ends *)
Lemma dead_cal : forall B, lost B -> forall b k, exists s, calibrate B k (b, fresh_dev) = Ended (B := B) s None.
Proof.
  intros B L b k. unfold calibrate, control.
  pose proof (calls_lost B L [Write [7]; Write [0x80]; EndTx] (b, fresh_dev) ltac:(discriminate)) as A.
  destruct (pop_cases B (calls B [Write [7]; Write [0x80]; EndTx] (b, fresh_dev))) as [(_ & E & _)|(X & _)]; [|congruence].
  destruct (pop B _) as [s e]. cbn in E. subst e. eauto.
Qed.

(** a chip in use; one call fails *)
Definition steady (f : Z * Z * Z) : nat -> Z * Z * Z := fun _ => f.
Definition once (k : nat) : nat -> bool := Nat.eqb k.
Definition level : Z * Z * Z := (32768, 32768, 32768).
Definition started : chip := mk_chip 0 [] 0 [] 0x0E false (0, 0, 0).

Lemma ended_is : forall (B : bus) k s s' o, (match calibrate B k s with Ended t x => Some (t, x) | Waiting => None end) = Some (s', o) ->
  calibrate B k s = Ended (B := B) s' o.
Proof. intros B k s s' o H. destruct (calibrate B k s); [injection H as -> ->; reflexivity|discriminate]. Qed.

(** the last step but one of the sequence is lost: the chip does not measure any more *)
Lemma mute : forall n, let f := (200, -400, 600) in let B := chip_bus level (steady f) (once 33) in
  exists s, calibrate B 10 (started, fresh_dev) = Ended (B := B) s None /\ d_fn (snd s) = true /\
    let '(s, l) := passes (mag2_pass B) n s in d_fn (snd s) = true /\ l = repeat None n.
Proof.
  intros n f B.
  assert (E : exists m rx p, calibrate B 10 (started, fresh_dev) =
     Ended (B := B) (mk_chip 34 [] p rx 0x80 true m, mk_dev true 1 false) None).
  { exists (32968, 32368, 33368), (bytes3 (32968, 32368, 33368)), 0. apply ended_is. vm_compute. reflexivity. }
  destruct E as (m & rx & p & ->). eexists. split; [reflexivity|]. split; [reflexivity|].
  apply passes_idle; auto. intros t Ht. unfold once. apply Nat.eqb_neq. lia.
Qed.
(** the filling of the capacitor between the two is lost: the same measurement is read for ever *)
Lemma frozen : exists f1 f2, f1 <> f2 /\ let field := fun t => if (t <? 40)%nat then f1 else f2 in let B := chip_bus level field (once 30) in
  exists s, calibrate B 10 (started, fresh_dev) = Ended (B := B) s None /\ d_fn (snd s) = true /\
    forall n, let '(s, l) := passes (mag2_pass B) n s in d_fn (snd s) = true /\ Forall (fun r => option_map (published level) r = Some (half (opposite f1))) l.
Proof.
  exists (200, -400, 600), (800, 800, 800). split; [discriminate|]. intros field B.
  set (c := fun t p rx => mk_chip t [] p rx 1 true (32968, 32368, 33368)).
  assert (E : calibrate B 10 (started, fresh_dev) = Ended (B := B) (c 31%nat 0 (bytes3 (32968, 32368, 33368)), mk_dev true 1 false) None) by (apply ended_is; vm_compute; reflexivity).
  rewrite E. eexists. split; [reflexivity|]. split; [reflexivity|].
  assert (G : forall n t p rx k, (31 <= t)%nat -> let '(s, l) := passes (mag2_pass B) n (c t p rx, mk_dev true k false) in
    d_fn (snd s) = true /\ Forall (fun r => option_map (published level) r = Some (half (opposite (200, -400, 600)))) l).
  { assert (K : forall t, (31 <= t)%nat -> calm (once 30) t) by (intros t Ht x Hx; unfold once; apply Nat.eqb_neq; lia).
    induction n as [|n IH]; intros t p rx k Ht; cbn [passes]; [auto|].
    unfold mag2_pass at 1. cbn [snd d_fn]. unfold c at 1. unfold B at 1. rewrite ready_ok by auto. change (measuring 1) with true. cbv iota.
    unfold B at 1. rewrite read_ok by (apply K; lia).
    change (shown level field 1 true (shown level field 1 true (32968, 32368, 33368) (2 + t)) (2 + (4 + t))) with (32968, 32368, 33368).
    specialize (IH (4 + (4 + t))%nat 0 (bytes3 (32968, 32368, 33368)) 0 ltac:(lia)). unfold c in IH at 1.
    fold B. destruct (passes (mag2_pass B) n _) as [s l]. destruct IH as [I1 I2]. split; auto. }
  intros n. apply (G n 31%nat 0 _ 1). apply Nat.le_refl.
Qed.

(** calibrated, calibrated again with one call lost, reset: readings point the other way *)
Definition inverted_run (B : bus) (start : bst B) : option (option (Z * Z * Z) * bool * list (option (list Z))) :=
  match calibrate B 10 (start, fresh_dev) with
  | Waiting => None
  | Ended s o1 =>
    match calibrate B 10 s with
    | Waiting => None
    | Ended s o2 => match reset B mag2_setup s with
                    | None => None
                    | Some (s, r) => Some (o1, r, snd (passes (mag2_pass B) 3 s))
                    end
    end
  end.

Lemma inverted : let f := (200, -400, 600) in let B := chip_bus level (steady f) (once 80) in
  exists l, inverted_run B started = Some (Some level, true, l) /\ length l = 3%nat /\
    Forall (fun r => option_map (published level) r = Some (half (opposite f))) l.
Proof.
  intros f B. exists (repeat (Some (bytes3 (32968, 32368, 33368))) 3). split; [vm_compute; reflexivity|]. split; [reflexivity|].
  repeat constructor.
Qed.
