(** Proofs about the device drivers. *)
From Verif Require Import Base AdcsModel DevModel DevSpec.

Section P.
Context (B : bus).
Notation st := (bst B * dev)%type.

Lemma call_bus : forall o (s : st), fst (fst (call B o s)) = fst (bcall B o (fst s)).
Proof. intros o s. unfold call. destruct (bcall B o (fst s)) as [b r]. reflexivity. Qed.

Lemma call_dev : forall o (s : st), snd (fst (call B o s)) =
  mk_dev (d_fn (snd s)) (d_cnt (snd s)) (d_acc (snd s) || negb (w_ok (snd (bcall B o (fst s))))).
Proof. intros o s. unfold call. destruct (bcall B o (fst s)) as [b r]. reflexivity. Qed.

Lemma calls_keep : forall l (s : st), d_fn (snd (calls B l s)) = d_fn (snd s) /\ d_cnt (snd (calls B l s)) = d_cnt (snd s).
Proof.
  induction l as [|o l IH]; intros s; cbn; auto.
  unfold calls in *. cbn. destruct (IH (fst (call B o s))) as [-> ->]. rewrite call_dev. auto.
Qed.

(** the accumulator after calls tells whether one of them failed *)
Lemma calls_sends : forall l (s : st), l <> [] ->
  let '(b, ok, _) := sends B l (fst s) in fst (calls B l s) = b /\ d_acc (snd (calls B l s)) = d_acc (snd s) || negb ok.
Proof.
  induction l as [|o l IH]; intros s H; [congruence|].
  destruct l as [|o2 l].
  - cbn -[call]. rewrite call_bus, call_dev. destruct (bcall B o (fst s)) as [b r]. cbn. auto.
  - specialize (IH (fst (call B o s)) ltac:(discriminate)).
    change (sends B (o :: o2 :: l) (fst s)) with
      (let '(b, r) := bcall B o (fst s) in let '(b, ok, d) := sends B (o2 :: l) b in (b, w_ok r && ok, d)).
    change (calls B (o :: o2 :: l) s) with (calls B (o2 :: l) (fst (call B o s))).
    rewrite call_bus in IH. rewrite call_dev in IH.
    destruct (bcall B o (fst s)) as [b r]. cbn [fst snd] in *.
    destruct (sends B (o2 :: l) b) as [[b' ok] d]. destruct IH as [-> ->]. split; auto.
    cbn. destruct (d_acc (snd s)), (w_ok r), ok; reflexivity.
Qed.

Lemma pop_cases : forall s : st,
  (d_acc (snd s) = true /\ snd (pop B s) = true /\ d_cnt (snd (fst (pop B s))) = u32 (d_cnt (snd s) + 1) /\
     d_fn (snd (fst (pop B s))) = (if error_limit <=? u32 (d_cnt (snd s) + 1) then false else d_fn (snd s))) \/
  (d_acc (snd s) = false /\ snd (pop B s) = false /\ d_cnt (snd (fst (pop B s))) = 0 /\ d_fn (snd (fst (pop B s))) = d_fn (snd s)).
Proof. intros s. unfold pop. destruct (d_acc (snd s)); cbn; auto. Qed.

Lemma pop_acc : forall s : st, d_acc (snd (fst (pop B s))) = false.
Proof. intros s. unfold pop. destruct (d_acc (snd s)); reflexivity. Qed.

Lemma pop_bus : forall s : st, fst (fst (pop B s)) = fst s.
Proof. intros s. unfold pop. destruct (d_acc (snd s)); reflexivity. Qed.

(** ** Three failures in a row *)

(** [n] failures at the end of what happened so far *)
Definition trail (n : nat) (l : list bool) : Prop := exists l1, l = l1 ++ repeat true n /\ (l1 = [] \/ exists l2, l1 = l2 ++ [false]).

End P.

Lemma thrice_cons : forall {A} (x y : A) l, thrice x (y :: l) <-> (y = x /\ exists l2, l = [x; x] ++ l2) \/ thrice x l.
Proof.
  intros A x y l. split.
  - intros (l1 & l2 & H). destruct l1 as [|a l1]; cbn in H.
    + injection H as E1 E2. subst. left. split; auto. eexists; reflexivity.
    + injection H as E1 E2. subst. right. exists l1, l2. reflexivity.
  - intros [(-> & l2 & ->) | (l1 & l2 & ->)].
    + exists [], l2. reflexivity.
    + exists (y :: l1), l2. reflexivity.
Qed.

Lemma thrice_nil : forall {A} (x : A), ~ thrice x [].
Proof. intros A x (l1 & l2 & H). destruct l1; discriminate. Qed.

(** [c] failures before [l]: three in a row *)
Definition pending {A} (x : A) (c : Z) (l : list A) : Prop := thrice x (repeat x (Z.to_nat c) ++ l).

Lemma pending_cases : forall {A} (x : A) c y l, 0 <= c <= 2 ->
  (y = x -> pending x c (y :: l) <-> (c = 2 \/ pending x (c + 1) l)) /\ (y <> x -> pending x c (y :: l) <-> pending x 0 l).
Proof.
  intros A x c y l Hc. unfold pending. assert (c = 0 \/ c = 1 \/ c = 2) as [-> | [-> | -> ]] by lia;
  change (Z.to_nat 0) with 0%nat; change (Z.to_nat 1) with 1%nat; change (Z.to_nat 2) with 2%nat;
  change (Z.to_nat (0 + 1)) with 1%nat; change (Z.to_nat (1 + 1)) with 2%nat; change (Z.to_nat (2 + 1)) with 3%nat;
  cbn [repeat app]; split; intros E.
  - subst. split; auto. intros [H|H]; [lia|auto].
  - rewrite thrice_cons. intuition congruence.
  - subst. split; auto. intros [H|H]; [lia|auto].
  - rewrite !thrice_cons. split; [|tauto]. intros [(? & l2 & H2)|[(? & H)|H]]; cbn [app] in *; try congruence; auto.
  - subst. split; auto. intros _. exists [], l. reflexivity.
  - rewrite !thrice_cons. split; [|tauto].
    intros [(? & l2 & H2)|[(? & l2 & H)|[(? & H)|H]]]; cbn in *; try congruence; auto.
Qed.

Lemma pending_zero : forall {A} (x : A) l, pending x 0 l <-> thrice x l.
Proof. intros. reflexivity. Qed.

Section Q.
Context (B : bus).
Notation st := (bst B * dev)%type.

Lemma out_stays : forall ms (s : st), d_fn (snd s) = false -> d_fn (snd (fst (exchanges B ms s))) = false.
Proof.
  induction ms as [|m ms IH]; intros s H; cbn [exchanges]; auto.
  pose proof (proj1 (calls_keep B m s)) as K. destruct (pop_cases B (calls B m s)) as [(_ & _ & _ & F)|(_ & _ & _ & F)];
  destruct (pop B (calls B m s)) as [s1 e]; cbn [fst snd] in *;
  specialize (IH s1); destruct (exchanges B ms s1) as [s2 l]; cbn [fst snd] in *; apply IH; rewrite F, ?K, H; auto.
  destruct (error_limit <=? _); reflexivity.
Qed.

Lemma exchanges_exact : forall ms (s : st), d_fn (snd s) = true -> 0 <= d_cnt (snd s) <= 2 ->
  let '(s', l) := exchanges B ms s in d_fn (snd s') = false <-> pending true (d_cnt (snd s)) l.
Proof.
  induction ms as [|m ms IH]; intros s F C; cbn [exchanges].
  - split; [congruence|]. intros (l1 & l2 & H). exfalso.
    apply (f_equal (@length bool)) in H. rewrite !app_length, repeat_length in H. cbn in H. lia.
  - pose proof (calls_keep B m s) as [K1 K2].
    destruct (pop_cases B (calls B m s)) as [(_ & E & Hc & Hf)|(_ & E & Hc & Hf)];
    destruct (pop B (calls B m s)) as [s1 e] eqn:P; cbn [fst snd] in *; subst e; rewrite ?K1, ?K2 in Hf; rewrite ?K2 in Hc.
    + assert (U : u32 (d_cnt (snd s) + 1) = d_cnt (snd s) + 1) by (apply u32_id; lia).
      rewrite U in *. unfold error_limit in *.
      destruct (exchanges B ms s1) as [s2 l] eqn:X.
      rewrite (proj1 (pending_cases true (d_cnt (snd s)) true l C) eq_refl).
      destruct (3 <=? d_cnt (snd s) + 1) eqn:L.
      * pose proof (out_stays ms s1) as O. rewrite X in O. cbn in O. split; intros _; [left; lia|auto].
      * specialize (IH s1). rewrite X in IH. rewrite Hf, F, Hc in IH. specialize (IH eq_refl ltac:(lia)).
        rewrite IH. intuition lia.
    + destruct (exchanges B ms s1) as [s2 l] eqn:X.
      rewrite (proj2 (pending_cases true (d_cnt (snd s)) false l C) ltac:(discriminate)).
      specialize (IH s1). rewrite X in IH. rewrite Hf, F, Hc in IH. exact (IH eq_refl ltac:(lia)).
Qed.

Lemma exchanges_thrice : forall b ms, let '(s, l) := exchanges B ms (b, fresh_dev) in d_fn (snd s) = false <-> thrice true l.
Proof. intros b ms. pose proof (exchanges_exact ms (b, fresh_dev) eq_refl ltac:(cbn; lia)) as H. exact H. Qed.

(** *** converters *)
Lemma wait_dev : forall fuel cfg (s : st) s' r, d_fn (snd s) = true -> adc_pass B fuel cfg s = Some (s', r) ->
  (r = None /\ d_cnt (snd s') = u32 (d_cnt (snd s) + 1) /\ d_fn (snd s') = (if error_limit <=? u32 (d_cnt (snd s) + 1) then false else true)) \/
  (r <> None /\ d_cnt (snd s') = 0 /\ d_fn (snd s') = true).
Proof.
  intros fuel cfg s s' r F H. unfold adc_pass, adc_end, read_reg in H. rewrite F in H.
  set (s1 := adc_start B cfg s) in *.
  assert (K1 : d_fn (snd s1) = true /\ d_cnt (snd s1) = d_cnt (snd s)).
  { unfold s1, adc_start. pose proof (calls_keep B [Finish; Write (1 :: cfg); EndTx] s) as [-> ->]. auto. }
  destruct (adc_wait B fuel (fst s1)) as [b|]; [|discriminate].
  set (s2 := calls B _ _) in H.
  assert (K2 : d_fn (snd s2) = true /\ d_cnt (snd s2) = d_cnt (snd s)).
  { unfold s2. pose proof (calls_keep B [Write [0]; EndTx; Request 2] (b, snd s1)) as [-> ->]. auto. }
  destruct (call B (Take 2) s2) as [s3 l] eqn:C.
  assert (K3 : d_fn (snd s3) = true /\ d_cnt (snd s3) = d_cnt (snd s)).
  { pose proof (call_dev B (Take 2) s2) as D. rewrite C in D. cbn in D. rewrite D. cbn. auto. }
  destruct K3 as [A1 A2].
  destruct (pop_cases B s3) as [(_ & E & Hc & Hf)|(_ & E & Hc & Hf)];
  destruct (pop B s3) as [s4 e]; cbn [fst snd] in *; subst e; injection H as <- <-; rewrite ?A1, ?A2 in Hf; rewrite ?A2 in Hc; [left|right]; repeat split; auto.
  discriminate.
Qed.

Lemma conv_out : forall fuel cfgs (s s' : st) l, d_fn (snd s) = false -> conversions B fuel cfgs s = Some (s', l) -> d_fn (snd s') = false.
Proof.
  induction cfgs as [|c cs IH]; intros s s' l F H; cbn [conversions] in H; [injection H as <- <-; auto|].
  unfold adc_pass in H. rewrite F in H. destruct (conversions B fuel cs s) as [[s2 l2]|] eqn:X; [|discriminate].
  injection H as <- <-. eauto.
Qed.

Lemma conversions_exact : forall fuel cfgs (s s' : st) l, d_fn (snd s) = true -> 0 <= d_cnt (snd s) <= 2 ->
  conversions B fuel cfgs s = Some (s', l) -> d_fn (snd s') = false <-> pending None (d_cnt (snd s)) l.
Proof.
  induction cfgs as [|c cs IH]; intros s s' l F C H; cbn [conversions] in H.
  - injection H as <- <-. split; [congruence|]. intros (l1 & l2 & E). exfalso.
    apply (f_equal (@length _)) in E. rewrite !app_length, repeat_length in E. cbn in E. lia.
  - destruct (adc_pass B fuel c s) as [[s1 r]|] eqn:P; [|discriminate].
    destruct (conversions B fuel cs s1) as [[s2 l2]|] eqn:X; [|discriminate]. injection H as <- <-.
    destruct (wait_dev fuel c s s1 r F P) as [(-> & Hc & Hf)|(Hr & Hc & Hf)].
    + assert (U : u32 (d_cnt (snd s) + 1) = d_cnt (snd s) + 1) by (apply u32_id; lia).
      rewrite U in *. unfold error_limit in *.
      rewrite (proj1 (pending_cases None (d_cnt (snd s)) None l2 C) eq_refl).
      destruct (3 <=? d_cnt (snd s) + 1) eqn:L.
      * pose proof (conv_out fuel cs s1 s2 l2 Hf X). split; intros _; [left; lia|auto].
      * rewrite (IH s1 s2 l2 Hf ltac:(lia) X), Hc. intuition lia.
    + rewrite (proj2 (pending_cases None (d_cnt (snd s)) r l2 C) Hr).
      rewrite (IH s1 s2 l2 Hf ltac:(lia) X), Hc. reflexivity.
Qed.

Lemma conversions_thrice : forall fuel cfgs b s l, conversions B fuel cfgs (b, fresh_dev) = Some (s, l) -> d_fn (snd s) = false <-> thrice None l.
Proof. intros fuel cfgs b s l H. exact (conversions_exact fuel cfgs (b, fresh_dev) s l eq_refl ltac:(cbn; lia) H). Qed.

(** ** Reset *)
Lemma one_round : forall msg (s : st), msg <> [] -> d_acc (snd s) = false ->
  let '(b, ok, _) := sends B msg (fst s) in
  exists c, pop B (calls B msg s) = ((b, mk_dev (if ok then d_fn (snd s) else if error_limit <=? u32 (d_cnt (snd s) + 1) then false else d_fn (snd s)) c false), negb ok) /\
    c = (if ok then 0 else u32 (d_cnt (snd s) + 1)).
Proof.
  intros msg s N A. pose proof (calls_sends B msg s N) as H. pose proof (calls_keep B msg s) as [K1 K2].
  destruct (sends B msg (fst s)) as [[b ok] d]. destruct H as [H1 H2]. rewrite A in H2. cbn in H2.
  unfold pop. rewrite H2, H1, K1, K2. destruct ok; cbn; eexists; split; reflexivity.
Qed.

Lemma reset_exact : forall msg (s : st), msg <> [] ->
  let '(b1, ok1, _) := sends B msg (fst s) in
  let '(b2, ok2, _) := sends B msg b1 in
  let '(b3, ok3, _) := sends B msg b2 in
  exists d, reset B msg s = Some ((if ok1 then b1 else if ok2 then b2 else b3, d), ok1 || ok2 || ok3) /\
    d_fn d = ok1 || ok2 || ok3 /\ (d_fn d = true -> d = fresh_dev).
Proof.
  intros msg s N. unfold reset, dev_clear.
  pose proof (one_round msg (fst s, mk_dev true 0 false) N eq_refl) as R1. cbn [fst] in R1.
  destruct (sends B msg (fst s)) as [[b1 ok1] d1]. destruct R1 as (c1 & R1 & C1). cbn [fst snd d_fn d_cnt d_acc] in R1, C1. change (u32 (0 + 1)) with 1 in *. change (error_limit <=? 1) with false in *. cbv iota in R1.
  pose proof (one_round msg (b1, mk_dev true 1 false) N eq_refl) as R2. cbn [fst] in R2.
  destruct (sends B msg b1) as [[b2 ok2] d2]. destruct R2 as (c2 & R2 & C2). cbn [fst snd d_fn d_cnt d_acc] in R2, C2. change (u32 (1 + 1)) with 2 in *. change (error_limit <=? 2) with false in *. cbv iota in R2.
  pose proof (one_round msg (b2, mk_dev true 2 false) N eq_refl) as R3. cbn [fst] in R3.
  destruct (sends B msg b2) as [[b3 ok3] d3]. destruct R3 as (c3 & R3 & C3). cbn [fst snd d_fn d_cnt d_acc] in R3, C3. change (u32 (2 + 1)) with 3 in *. change (error_limit <=? 3) with true in *. cbv iota in R3.
  cbn [reset_loop snd d_fn]. rewrite R1. subst c1 c2 c3. destruct ok1; cbn [negb snd fst d_fn orb].
  { eexists. split; [reflexivity|]. split; auto. }
  rewrite R2. destruct ok2; cbn [negb snd fst d_fn orb].
  { eexists. split; [reflexivity|]. split; auto. }
  rewrite R3. destruct ok3; cbn [negb snd fst d_fn orb].
  { eexists. split; [reflexivity|]. split; auto. }
  eexists. split; [reflexivity|]. split; auto. cbn. congruence.
Qed.

(** ** Readings *)
Lemma sends_snoc : forall l o b, l <> [] ->
  sends B (l ++ [o]) b = (let '(b1, ok1, _) := sends B l b in let '(b2, r) := bcall B o b1 in (b2, ok1 && w_ok r, w_data r)).
Proof.
  induction l as [|x l IH]; intros o b N; [congruence|]. destruct l as [|y l].
  - cbn. destruct (bcall B x b) as [b1 r1]. cbn. destruct (bcall B o b1) as [b2 r2]. reflexivity.
  - change ((x :: y :: l) ++ [o]) with (x :: (y :: l) ++ [o]).
    assert (E : forall z (t : list wop) b, t <> [] -> sends B (z :: t) b =
      (let '(b, r) := bcall B z b in let '(b, ok, d) := sends B t b in (b, w_ok r && ok, d))).
    { intros z t b0 Ht. destruct t; [congruence|reflexivity]. }
    rewrite E by (destruct l; discriminate). rewrite E by discriminate.
    destruct (bcall B x b) as [b1 r1]. rewrite IH by discriminate.
    destruct (sends B (y :: l) b1) as [[b2 ok2] d2]. destruct (bcall B o b2) as [b3 r3].
    rewrite Bool.andb_assoc. reflexivity.
Qed.

Definition data_calls (reg : Z) (n : nat) : list wop := [Write [reg]; EndTx; Request n; Take n].

Lemma read_reg_exact : forall reg n (s : st),
  let '(b, ok, d) := sends B (data_calls reg n) (fst s) in
  snd (read_reg B reg n s) = (if ok && negb (d_acc (snd s)) then Some d else None) /\
  fst (fst (read_reg B reg n s)) = b.
Proof.
  intros reg n s. unfold read_reg.
  pose proof (calls_sends B [Write [reg]; EndTx; Request n] s ltac:(discriminate)) as H.
  change (data_calls reg n) with ([Write [reg]; EndTx; Request n] ++ [Take n]). rewrite sends_snoc by discriminate.
  destruct (sends B [Write [reg]; EndTx; Request n] (fst s)) as [[b1 ok1] d1]. destruct H as [H1 H2].
  set (s1 := calls B _ s) in *. destruct (call B (Take n) s1) as [s2 l] eqn:C.
  pose proof (call_bus B (Take n) s1) as CB. pose proof (call_dev B (Take n) s1) as CD. rewrite C in CB, CD. cbn [fst] in CB, CD.
  assert (L : l = w_data (snd (bcall B (Take n) (fst s1)))).
  { unfold call in C. destruct (bcall B (Take n) (fst s1)) as [x y]. injection C as <- <-. reflexivity. }
  rewrite H1 in *. destruct (bcall B (Take n) b1) as [b2 r2]. cbn [fst snd] in *.
  destruct (pop_cases B s2) as [(X & E & _)|(X & E & _)]; pose proof (pop_bus B s2) as PB;
  destruct (pop B s2) as [s3 e]; cbn [fst snd] in *; subst e; rewrite CD in X; cbn [d_acc] in X; rewrite H2 in X; clear CD H2;
  (split; [|congruence]); destruct ok1, (w_ok r2), (d_acc (snd s)); cbn in *; congruence.
Qed.

(** a reading came with all calls of its exchange *)
Lemma gyr_complete : forall (s s' : st) l, gyr_pass B s = (s', Some l) ->
  exists b, sends B (data_calls 0x20 8) b = (fst s', true, l).
Proof.
  intros s s' l H. unfold gyr_pass in H. destruct (d_fn (snd s)); [|discriminate].
  destruct (gyr_ready B s) as [s1 r]. destruct r; [|discriminate].
  pose proof (read_reg_exact 0x20 8 s1) as E. exists (fst s1). rewrite H in E.
  destruct (sends B (data_calls 0x20 8) (fst s1)) as [[b ok] d]. cbn in E. destruct E as [E1 E2].
  destruct (ok && negb (d_acc (snd s1))) eqn:A; [|discriminate]. injection E1 as ->. apply andb_true_iff in A as [-> _]. congruence.
Qed.
Lemma mag1_complete : forall (s s' : st) l, mag1_pass B s = (s', Some l) ->
  exists b, sends B (data_calls 0x68 6) b = (fst s', true, l).
Proof.
  intros s s' l H. unfold mag1_pass in H. destruct (d_fn (snd s)); [|discriminate].
  destruct (ready_late B 0x67 3 s) as [s1 r]. destruct r; [|discriminate].
  pose proof (read_reg_exact 0x68 6 s1) as E. exists (fst s1). rewrite H in E.
  destruct (sends B (data_calls 0x68 6) (fst s1)) as [[b ok] d]. cbn in E. destruct E as [E1 E2].
  destruct (ok && negb (d_acc (snd s1))) eqn:A; [|discriminate]. injection E1 as ->. apply andb_true_iff in A as [-> _]. congruence.
Qed.
Lemma mag2_complete : forall (s s' : st) l, mag2_pass B s = (s', Some l) ->
  exists b, sends B (data_calls 0 6) b = (fst s', true, l).
Proof.
  intros s s' l H. unfold mag2_pass in H. destruct (d_fn (snd s)); [|discriminate].
  destruct (ready_late B 6 0 s) as [s1 r]. destruct r; [|discriminate].
  pose proof (read_reg_exact 0 6 s1) as E. exists (fst s1). rewrite H in E.
  destruct (sends B (data_calls 0 6) (fst s1)) as [[b ok] d]. cbn in E. destruct E as [E1 E2].
  destruct (ok && negb (d_acc (snd s1))) eqn:A; [|discriminate]. injection E1 as ->. apply andb_true_iff in A as [-> _]. congruence.
Qed.
Lemma adc_complete : forall fuel cfg (s s' : st) v, adc_pass B fuel cfg s = Some (s', Some v) ->
  exists b l, sends B (data_calls 0 2) b = (fst s', true, l) /\ v = adc_code (byte l 0) (byte l 1).
Proof.
  intros fuel cfg s s' v H. unfold adc_pass, adc_end in H. destruct (d_fn (snd s)); [|discriminate].
  destruct (adc_wait B fuel _) as [b|]; [|discriminate].
  set (s1 := (b, _)) in H. pose proof (read_reg_exact 0 2 s1) as E. exists (fst s1).
  destruct (sends B (data_calls 0 2) (fst s1)) as [[b2 ok] d]. destruct (read_reg B 0 2 s1) as [s2 r].
  destruct E as [E1 E2]. clearbody s1. cbn [fst snd] in E1, E2. injection H as <- H2. subst r b2.
  destruct (ok && negb (d_acc (snd s1))) eqn:A; cbn [option_map] in H2; [|discriminate H2]. apply andb_true_iff in A as [-> _].
  injection H2 as <-. eauto.
Qed.

End Q.

Lemma byte_coded : forall z, int16 z -> s16 (z mod 256 mod 256 + 256 * (z / 256 mod 256 mod 256)) = z.
Proof. intros z H. unfold int16, s16 in *. rewrite !Z.mod_mod by lia.
  destruct (Z.ltb_spec (z mod 256 + 256 * (z / 256 mod 256)) 32768); Z.div_mod_to_equations; lia. Qed.

Lemma gyr_decode : forall t x y z, int16 t -> int16 x -> int16 y -> int16 z ->
  gyr_values (coded t ++ coded x ++ coded y ++ coded z) = (t, (x, y, z)).
Proof. intros. unfold gyr_values, word, byte, coded. cbn [app nth]. rewrite !byte_coded by auto. reflexivity. Qed.
Lemma mag1_decode : forall x y z, int16 x -> int16 y -> int16 z -> mag1_values (coded x ++ coded y ++ coded z) = (x, y, z).
Proof. intros. unfold mag1_values, word, byte, coded. cbn [app nth]. rewrite !byte_coded by auto. reflexivity. Qed.

(** ** Buses that always or never work *)
Section D.
Context (B : bus).
Notation st := (bst B * dev)%type.

Lemma calls_lost : lost B -> forall l (s : st), l <> [] -> d_acc (snd (calls B l s)) = true.
Proof.
  intros L l s N. pose proof (calls_sends B l s N) as H. destruct (sends B l (fst s)) as [[b ok] d] eqn:E. destruct H as [_ ->].
  assert (ok = false); [|subst; destruct (d_acc (snd s)); reflexivity].
  destruct l as [|o l]; [congruence|]. destruct l as [|o2 l].
  - cbn in E. specialize (L o (fst s)). destruct (bcall B o (fst s)) as [x r]. injection E as <- <- <-. exact L.
  - change (sends B (o :: o2 :: l) (fst s)) with
      (let '(b, r) := bcall B o (fst s) in let '(b, ok, d) := sends B (o2 :: l) b in (b, w_ok r && ok, d)) in E.
    specialize (L o (fst s)). destruct (bcall B o (fst s)) as [x r]. cbn in L.
    destruct (sends B (o2 :: l) x) as [[? ?] ?]. injection E as <- <- <-. rewrite L. reflexivity.
Qed.

Lemma calls_sound : sound B -> forall l (s : st), d_acc (snd (calls B l s)) = d_acc (snd s).
Proof.
  intros L l. induction l as [|o l IH]; intros s; cbn; auto. unfold calls in *. cbn. rewrite IH, call_dev.
  rewrite L. cbn. rewrite Bool.orb_false_r. reflexivity.
Qed.
Lemma call_sound : sound B -> forall o (s : st), d_acc (snd (fst (call B o s))) = d_acc (snd s).
Proof. intros L o s. rewrite call_dev, L. cbn. apply Bool.orb_false_r. Qed.
Lemma call_lost : lost B -> forall o (s : st), d_acc (snd (fst (call B o s))) = true.
Proof. intros L o s. rewrite call_dev, L. cbn. apply Bool.orb_true_r. Qed.

Definition counted (s : st) (c : Z) : Prop := d_fn (snd s) = (if 3 <=? c then false else true) /\ d_cnt (snd s) = c.

Lemma pop_lost : forall (s : st) c, d_acc (snd s) = true -> counted s c -> 0 <= c <= 2 -> counted (fst (pop B s)) (c + 1) /\ snd (pop B s) = true.
Proof.
  intros s c A [F C] R. destruct (pop_cases B s) as [(_ & E & Hc & Hf)|(X & _)]; [|congruence].
  rewrite C in *. unfold counted. rewrite Hc, Hf, E, F.
  assert (U : u32 (c + 1) = c + 1) by (apply u32_id; lia). rewrite U. unfold error_limit.
  split; auto. split; auto. replace (3 <=? c) with false by lia. reflexivity.
Qed.

Lemma ready_late_lost : lost B -> forall reg bit (s : st) c, counted s c -> 0 <= c <= 2 ->
  counted (fst (ready_late B reg bit s)) (c + 1) /\ snd (ready_late B reg bit s) = false.
Proof.
  intros L reg bit s c K R. unfold ready_late.
  pose proof (calls_keep B [Write [reg]; EndTx; Request 1] s) as [K1 K2].
  pose proof (calls_lost L [Write [reg]; EndTx; Request 1] s ltac:(discriminate)) as A.
  set (s1 := calls B _ s) in *. assert (C1 : counted s1 c) by (unfold counted in *; rewrite K1, K2; auto).
  destruct (pop_lost s1 c A C1 R) as [P1 P2]. destruct (pop B s1) as [s2 e]. cbn in *. subst e. auto.
Qed.

Lemma gyr_ready_lost : lost B -> forall (s : st) c, counted s c -> 0 <= c <= 2 ->
  counted (fst (gyr_ready B s)) (c + 1) /\ snd (gyr_ready B s) = false.
Proof.
  intros L s c K R. unfold gyr_ready.
  pose proof (calls_keep B [Write [0x1E]; EndTx; Request 1] s) as [K1 K2].
  set (s1 := calls B _ s) in *.
  pose proof (call_lost L (Take 1) s1) as A. pose proof (call_dev B (Take 1) s1) as D.
  destruct (call B (Take 1) s1) as [s2 l]. cbn [fst] in *.
  assert (C1 : counted s2 c) by (unfold counted in *; rewrite D; cbn [d_fn d_cnt]; rewrite K1, K2; auto).
  destruct (pop_lost s2 c A C1 R) as [P1 P2]. destruct (pop B s2) as [s3 e]. cbn in *. subst e. auto.
Qed.

(** three passes on a dead bus *)
Lemma three_dead : forall pass : st -> st * option (list Z),
  (forall s c, counted s c -> 0 <= c <= 2 -> counted (fst (pass s)) (c + 1) /\ snd (pass s) = None) ->
  forall b, let '(s, l) := passes pass 3 (b, fresh_dev) in d_fn (snd s) = false /\ l = [None; None; None].
Proof.
  intros pass H b. cbn [passes].
  destruct (H (b, fresh_dev) 0) as [H1 E1]; [split; reflexivity|lia|]. destruct (pass (b, fresh_dev)) as [s1 r1].
  destruct (H s1 1) as [H2 E2]; [exact H1|lia|]. destruct (pass s1) as [s2 r2].
  destruct (H s2 2) as [H3 E3]; [exact H2|lia|]. destruct (pass s2) as [s3 r3]. cbn in *. subst. split; auto. apply H3.
Qed.

Lemma counted_in_use : forall (s : st) c, counted s c -> 0 <= c <= 2 -> d_fn (snd s) = true.
Proof. intros s c [-> _] H. replace (3 <=? c) with false by lia. reflexivity. Qed.

Lemma dead_gyr : lost B -> forall b, let '(s, l) := passes (gyr_pass B) 3 (b, fresh_dev) in d_fn (snd s) = false /\ l = [None; None; None].
Proof.
  intros L. apply three_dead. intros s c K R. unfold gyr_pass. rewrite (counted_in_use s c K R).
  destruct (gyr_ready_lost L s c K R) as [A E]. destruct (gyr_ready B s) as [s1 r]. cbn in *. subst r. auto.
Qed.
Lemma dead_mag1 : lost B -> forall b, let '(s, l) := passes (mag1_pass B) 3 (b, fresh_dev) in d_fn (snd s) = false /\ l = [None; None; None].
Proof.
  intros L. apply three_dead. intros s c K R. unfold mag1_pass. rewrite (counted_in_use s c K R).
  destruct (ready_late_lost L 0x67 3 s c K R) as [A E]. destruct (ready_late B 0x67 3 s) as [s1 r]. cbn in *. subst r. auto.
Qed.
Lemma dead_mag2 : lost B -> forall b, let '(s, l) := passes (mag2_pass B) 3 (b, fresh_dev) in d_fn (snd s) = false /\ l = [None; None; None].
Proof.
  intros L. apply three_dead. intros s c K R. unfold mag2_pass. rewrite (counted_in_use s c K R).
  destruct (ready_late_lost L 6 0 s c K R) as [A E]. destruct (ready_late B 6 0 s) as [s1 r]. cbn in *. subst r. auto.
Qed.

(** a device on a sound bus stays in use *)
Definition good (s : st) : Prop := d_fn (snd s) = true /\ d_acc (snd s) = false.
Lemma pop_good : forall s : st, good s -> good (fst (pop B s)) /\ snd (pop B s) = false.
Proof.
  intros s [F A]. destruct (pop_cases B s) as [(X & _)|(_ & E & _ & Hf)]; [congruence|].
  unfold good. rewrite Hf, pop_acc. auto.
Qed.
Lemma calls_good : sound B -> forall l s, good s -> good (calls B l s).
Proof. intros L l s [F A]. split; [rewrite (proj1 (calls_keep B l s)); auto|rewrite calls_sound; auto]. Qed.
Lemma call_good : sound B -> forall o s, good s -> good (fst (call B o s)).
Proof. intros L o s [F A]. split; [rewrite call_dev; auto|rewrite call_sound; auto]. Qed.

Lemma ready_late_good : sound B -> forall reg bit s, good s -> good (fst (ready_late B reg bit s)).
Proof.
  intros L reg bit s G. unfold ready_late. pose proof (pop_good _ (calls_good L [Write [reg]; EndTx; Request 1] s G)) as [P E].
  destruct (pop B _) as [s1 e]. cbn in *. subst e. pose proof (call_good L (Take 1) s1 P) as Q.
  destruct (call B (Take 1) s1) as [s2 l]. exact Q.
Qed.
Lemma gyr_ready_good : sound B -> forall s, good s -> good (fst (gyr_ready B s)).
Proof.
  intros L s G. unfold gyr_ready. pose proof (call_good L (Take 1) _ (calls_good L [Write [0x1E]; EndTx; Request 1] s G)) as Q.
  destruct (call B (Take 1) _) as [s1 l]. cbn in Q. pose proof (pop_good _ Q) as [P E].
  destruct (pop B s1) as [s2 e]. exact P.
Qed.
Lemma read_good : sound B -> forall reg n s, good s -> good (fst (read_reg B reg n s)).
Proof.
  intros L reg n s G. unfold read_reg. pose proof (call_good L (Take n) _ (calls_good L [Write [reg]; EndTx; Request n] s G)) as Q.
  destruct (call B (Take n) _) as [s1 l]. cbn in Q. pose proof (pop_good _ Q) as [P E].
  destruct (pop B s1) as [s2 e]. exact P.
Qed.
Lemma passes_good : forall pass : st -> st * option (list Z), (forall s, good s -> good (fst (pass s))) ->
  forall n s, good s -> good (fst (passes pass n s)).
Proof.
  intros pass H n. induction n as [|n IH]; intros s G; cbn [passes]; auto.
  specialize (H s G). destruct (pass s) as [s1 r]. specialize (IH s1 H). destruct (passes pass n s1). exact IH.
Qed.
Lemma sound_in_use : sound B -> forall b n,
  d_fn (snd (fst (passes (gyr_pass B) n (b, fresh_dev)))) = true /\ d_fn (snd (fst (passes (mag1_pass B) n (b, fresh_dev)))) = true /\
  d_fn (snd (fst (passes (mag2_pass B) n (b, fresh_dev)))) = true.
Proof.
  intros L b n. assert (G : good (b, fresh_dev)) by (split; reflexivity).
  split; [|split]; refine (proj1 (passes_good _ _ n _ G)); intros s K; unfold gyr_pass, mag1_pass, mag2_pass; rewrite (proj1 K).
  - pose proof (gyr_ready_good L s K) as R. destruct (gyr_ready B s) as [s1 r]. destruct r; auto. apply read_good; auto.
  - pose proof (ready_late_good L 0x67 3 s K) as R. destruct (ready_late B 0x67 3 s) as [s1 r]. destruct r; auto. apply read_good; auto.
  - pose proof (ready_late_good L 6 0 s K) as R. destruct (ready_late B 6 0 s) as [s1 r]. destruct r; auto. apply read_good; auto.
Qed.

(** waiting *)
Lemma wait_ends : forall k b b', (exists n, (n < k)%nat /\ adc_wait B (S n) b = Some b') -> adc_wait B k b = Some b'.
Proof.
  induction k as [|k IH]; intros b b' (n & Hn & H); [lia|]. cbn in *. destruct (bcall B Pin b) as [b1 r].
  destruct (w_ok r); auto. destruct n as [|n]; [discriminate|]. apply IH. exists n. split; [lia|exact H].
Qed.
End D.
