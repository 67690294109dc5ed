(** Lemmas about the flight computer's device class and the power supply's driver. *)
From Verif Require Import Base DevModel EpsModel EpsSpec.

(** * Device class *)

Section Class.
Context (B : bus).
Notation st := (bst B * fdev)%type.

Lemma fcall_count o (s : st) : fd_count (snd (fcall B o s)) = fd_count (snd s).
Proof. unfold fcall. destruct (bcall B o (fst s)). reflexivity. Qed.
Lemma fread_count buf (s : st) : fd_count (snd (fst (fread B buf s))) = fd_count (snd s).
Proof. unfold fread. destruct (bcall B _ (fst s)). reflexivity. Qed.

(** no exchange, whatever becomes of it, changes the verdicts *)
Definition exchange (o : fop) : Prop := match o with OCall _ | ORead _ | OPop => True | _ => False end.
Lemma op_count ping (s : st) o : exchange o -> fd_count (snd (fd_op B ping s o)) = fd_count (snd s).
Proof.
  destruct o; cbn; intros []; [apply fcall_count|apply fread_count|reflexivity].
Qed.
Lemma run_count ping l : forall s : st, Forall exchange l -> fd_count (snd (fold_left (fd_op B ping) l s)) = fd_count (snd s).
Proof.
  induction l as [|o l IH]; intros s H; [reflexivity|]. inversion H; subst. cbn [fold_left]. rewrite IH by assumption. apply op_count; assumption.
Qed.

(** [n] failed pings before the end of a setup *)
Inductive pings (ping : st -> st * bool) : nat -> bool -> st -> Prop :=
| ping_ok s s' : ping s = (s', true) -> pings ping 0 true s
| ping_end s : pings ping 0 false s
| ping_no n r s s' : ping s = (s', false) -> pings ping n r (fst s', mk_fd (u32 (fd_count (snd s') + 1)) (fd_recent (snd s')) (fd_timeout (snd s'))) ->
    pings ping (S n) r s.

Lemma setup_counts ping k : (forall s, fd_count (snd (fst (ping s))) = fd_count (snd s)) ->
  forall s : st, 0 <= fd_count (snd s) -> fd_count (snd s) + Z.of_nat k < 2 ^ 32 ->
  exists n, (n <= k)%nat /\ fd_count (snd (fst (fd_setup B ping k s))) = fd_count (snd s) + Z.of_nat n /\
    (snd (fd_setup B ping k s) = true -> (n < k)%nat /\ pings ping n true s) /\ (snd (fd_setup B ping k s) = false -> n = k /\ pings ping k false s).
Proof.
  intros P. induction k as [|k IH]; intros s C H.
  - exists 0%nat. cbn. split; [lia|]. split; [lia|]. split; [discriminate|]. intros _. split; [reflexivity|constructor].
  - cbn [fd_setup]. specialize (P s). destruct (ping s) as [s1 ok] eqn:E. cbn [fst snd] in P. destruct ok.
    + exists 0%nat. cbn [fst snd]. split; [lia|]. split; [lia|]. split; [|discriminate]. intros _. split; [lia|]. apply ping_ok with s1. exact E.
    + destruct (IH (fst s1, mk_fd (u32 (fd_count (snd s1) + 1)) (fd_recent (snd s1)) (fd_timeout (snd s1)))) as (n & N & F & T1 & T2).
      { cbn. rewrite P. rewrite u32_id by lia. lia. } { cbn. rewrite P. rewrite u32_id by lia. lia. }
      exists (S n). split; [lia|]. split. { rewrite F. cbn. rewrite P, u32_id by lia. lia. }
      split; intros R.
      * destruct (T1 R) as (T & Q). split; [lia|]. apply ping_no with s1; assumption.
      * destruct (T2 R) as (T & Q). split; [lia|]. apply ping_no with s1; assumption.
Qed.

(** a device that was disabled *)
Lemma disabled_run ping l : (forall s, fd_count (snd (fst (ping s))) = fd_count (snd s)) -> forall s : st,
  3 <= fd_count (snd s) -> fd_count (snd s) + 3 * Z.of_nat (length l) < 2 ^ 32 -> ~ In OReset l -> 3 <= fd_count (snd (fold_left (fd_op B ping) l s)).
Proof.
  intros P. induction l as [|o l IH]; intros s C H N; [exact C|]. cbn [fold_left length] in *. rewrite Nat2Z.inj_succ in H.
  assert (Q : 3 <= fd_count (snd (fd_op B ping s o)) /\ fd_count (snd (fd_op B ping s o)) <= fd_count (snd s) + 3).
  { destruct o; try (rewrite op_count by exact I; lia).
    - cbn [fd_op]. destruct (setup_counts ping 3 P s) as (n & N' & F & _); [lia|lia|]. rewrite F. lia.
    - exfalso. apply N. left. reflexivity.
    - cbn. unfold disable_at. lia. }
  apply IH; [lia|lia|]. intros X. apply N. right. exact X.
Qed.
End Class.

(** * Bytes *)

Lemma le_bytes_length w v : length (le_bytes w v) = w.
Proof. revert v. induction w as [|w IH]; intros v; [reflexivity|]. cbn. now rewrite IH. Qed.
Lemma le_bytes_bytes w v : bytes (le_bytes w v).
Proof. revert v. induction w as [|w IH]; intros v; constructor; [lia|apply IH]. Qed.
Lemma le_bytes_le s : bytes s -> le_bytes (length s) (le s) = s.
Proof.
  induction s as [|b s IH]; intros H; [reflexivity|]. inversion H; subst. cbn [length le le_bytes]. f_equal; [lia|].
  replace ((b + 256 * le s) / 256) with (le s) by lia. apply IH. assumption.
Qed.
Lemma bytes_app a b : bytes (a ++ b) <-> bytes a /\ bytes b.
Proof. unfold bytes. apply Forall_app. Qed.
Lemma bytes_firstn n l : bytes l -> bytes (firstn n l).
Proof. intros H. rewrite <- (firstn_skipn n l) in H. apply bytes_app in H. tauto. Qed.
Lemma bytes_skipn n l : bytes l -> bytes (skipn n l).
Proof. intros H. rewrite <- (firstn_skipn n l) in H. apply bytes_app in H. tauto. Qed.
Lemma bytes_rev l : bytes l -> bytes (rev l).
Proof. intros H. unfold bytes. apply Forall_rev. exact H. Qed.
Lemma bytes_u8 l : bytes (map u8 l).
Proof. unfold bytes. apply Forall_map. apply Forall_forall. intros x _. unfold u8, uwrap. lia. Qed.
Lemma u8_bytes l : bytes l -> map u8 l = l.
Proof. intros H. induction H as [|b l Hb H IH]; [reflexivity|]. cbn. rewrite IH, u8_id by lia. reflexivity. Qed.
Lemma junk_bytes jk n : bytes (junk jk n).
Proof. unfold junk, bytes. apply Forall_map. apply Forall_forall. intros x _. unfold u8, uwrap. lia. Qed.
Lemma junk_length jk n : length (junk jk n) = n.
Proof. unfold junk. now rewrite map_length, seq_length. Qed.

(** swapping a field turns its bytes around *)
Definition turn (f : nat * nat * nat) (m : list Z) : list Z :=
  let '(w, wb, off) := f in
  firstn off m ++ (rev (firstn wb (skipn off m)) ++ repeat 0 (w - wb)) ++ skipn (off + w) m.
Definition turns (l : list (nat * nat * nat)) (m : list Z) : list Z := fold_left (fun m f => turn f m) l m.

Lemma le_app a b : le (a ++ b) = le a + 256 ^ Z.of_nat (length a) * le b.
Proof.
  induction a as [|x a IH]; [cbn [app length le]; rewrite Z.pow_0_r; lia|]. cbn [app length le]. rewrite IH, Nat2Z.inj_succ, Z.pow_succ_r by lia. lia.
Qed.
Lemma le_zeros n : le (repeat 0 n) = 0.
Proof. induction n as [|n IH]; [reflexivity|]. cbn. rewrite IH. reflexivity. Qed.
Lemma le_bytes_mod w s k : (w = length s)%nat -> bytes s -> le_bytes w (le s + 256 ^ Z.of_nat w * k) = s.
Proof.
  intros ->. revert k. induction s as [|b s IH]; intros k H; [reflexivity|]. inversion H; subst. cbn [length le le_bytes].
  rewrite Nat2Z.inj_succ, Z.pow_succ_r by lia. set (P := 256 ^ Z.of_nat (length s)) in *.
  replace (b + 256 * le s + 256 * P * k) with (b + 256 * (le s + P * k)) by ring.
  specialize (IH k H3). set (X := le s + P * k) in *. clearbody X.
  replace ((b + 256 * X) mod 256) with b by lia. replace ((b + 256 * X) / 256) with X by lia. rewrite IH. reflexivity.
Qed.

Lemma flip_turn w wb off m : bytes m -> (wb <= w)%nat -> (off + w <= length m)%nat -> flip (w, wb, off) m = turn (w, wb, off) m.
Proof.
  intros H W L. unfold flip, turn, store, blit. f_equal. f_equal; [|rewrite le_bytes_length; reflexivity].
  unfold load. set (s := firstn w (skipn off m)).
  assert (Ls : length s = w) by (unfold s; rewrite firstn_length, skipn_length; lia).
  assert (Bs : bytes s) by (unfold s; apply bytes_firstn, bytes_skipn, H).
  replace (firstn wb (skipn off m)) with (firstn wb s) by (unfold s; rewrite firstn_firstn; f_equal; lia).
  set (a := firstn wb s). set (b := skipn wb s).
  assert (E : s = a ++ b) by (unfold a, b; symmetry; apply firstn_skipn).
  assert (La : length a = wb) by (unfold a; rewrite firstn_length; lia).
  assert (Ba : bytes a) by (unfold a; apply bytes_firstn, Bs).
  unfold bswap. rewrite E, le_app, La, (le_bytes_mod wb a) by (auto || lia).
  assert (X : le (rev a) = le (rev a ++ repeat 0 (w - wb))) by (rewrite le_app, le_zeros; lia).
  rewrite X. replace w with (length (rev a ++ repeat 0 (w - wb))) at 1 by (rewrite app_length, rev_length, repeat_length; lia).
  apply le_bytes_le. apply bytes_app. split; [apply bytes_rev, Ba|]. unfold bytes. apply Forall_forall. intros x Hx. apply repeat_spec in Hx. lia.
Qed.
Lemma turn_length w wb off m : (wb <= w)%nat -> (off + w <= length m)%nat -> length (turn (w, wb, off) m) = length m.
Proof. intros W L. unfold turn. repeat rewrite ?app_length, ?rev_length, ?firstn_length, ?skipn_length, ?repeat_length. lia. Qed.
Lemma turn_bytes w wb off m : bytes m -> bytes (turn (w, wb, off) m).
Proof.
  intros H. unfold turn. apply bytes_app. split; [apply bytes_firstn, H|]. apply bytes_app. split; [|apply bytes_skipn, H].
  apply bytes_app. split; [apply bytes_rev, bytes_firstn, bytes_skipn, H|]. unfold bytes. apply Forall_forall. intros x Hx. apply repeat_spec in Hx. lia.
Qed.
Definition fits (n : nat) (f : nat * nat * nat) : bool := let '(w, wb, off) := f in Nat.leb wb w && Nat.leb (off + w) n.
Lemma flips_turns l : forall m, bytes m -> forallb (fits (length m)) l = true -> flips l m = turns l m.
Proof.
  induction l as [|[[w wb] off] l IH]; intros m H F; [reflexivity|]. cbn [forallb fits] in F. apply andb_prop in F. destruct F as (F1 & F2).
  apply andb_prop in F1. destruct F1 as (W & L). apply Nat.leb_le in W, L. unfold flips, turns in *. cbn [fold_left].
  rewrite flip_turn by assumption. apply IH; [apply turn_bytes, H|]. rewrite turn_length by assumption. exact F2.
Qed.

Lemma big_length w v : length (big w v) = w.
Proof. induction w as [|w IH]; [reflexivity|]. cbn. now rewrite IH. Qed.
Lemma big_bytes w v : bytes (big w v).
Proof. induction w as [|w IH]; constructor; [lia|apply IH]. Qed.
Lemma image_bytes v a b : bytes (hk_image v a b).
Proof. unfold hk_image, bytes. apply Forall_flat_map. apply Forall_forall. intros i _. apply big_bytes. Qed.

(** * Conversations *)

Definition drv_of (t : talk) (d : fdev) (hk : list Z) : drv scripted := @mk_drv scripted t d hk.

(** what the buffer holds afterwards *)
Definition filled (r buf : list Z) : list Z := map u8 (firstn (length buf) r) ++ skipn (length (firstn (length buf) r)) buf.
Lemma filled_length r buf : length (filled r buf) = length buf.
Proof. unfold filled. rewrite app_length, map_length, skipn_length, firstn_length. lia. Qed.
Lemma filled_all r buf : bytes r -> length r = length buf -> filled r buf = r.
Proof.
  intros H L. unfold filled. rewrite <- L, firstn_all, L, skipn_all, app_nil_r. apply u8_bytes, H.
Qed.
Lemma filled_nil buf : filled [] buf = buf.
Proof. unfold filled. rewrite firstn_nil. reflexivity. Qed.
Lemma filled_bytes r buf : bytes buf -> bytes (filled r buf).
Proof. intros H. unfold filled. apply bytes_app. split; [apply bytes_u8|apply bytes_skipn, H]. Qed.

Lemma send_parts parts : forall t d, exists d', fold_left (fun s p => fcall scripted (Write p) s) parts (t, d) =
  (mk_talk (t_replies t) (t_wait t) (t_msg t ++ concat parts) (t_sent t), d') /\ fd_count d' = fd_count d /\ fd_timeout d' = fd_timeout d.
Proof.
  induction parts as [|p parts IH]; intros t d.
  - exists d. cbn. rewrite app_nil_r. destruct t. repeat split.
  - cbn [fold_left]. unfold fcall at 2. cbn. destruct (IH (mk_talk (t_replies t) (t_wait t) (t_msg t ++ p) (t_sent t)) (fd_err false d)) as (d' & E & C & T).
    exists d'. unfold fcall in *. cbn in *. rewrite E, <- app_assoc. repeat split; assumption.
Qed.
Lemma send_scripted parts t d hk : t_msg t = [] -> exists d', send scripted parts (drv_of t d hk) =
  drv_of (mk_talk (t_replies t) (t_wait t) [] (t_sent t ++ [concat parts])) d' hk /\ fd_count d' = fd_count d.
Proof.
  intros M. unfold send, on_dev, drv_of. cbn [g_bus g_dev g_hk]. destruct (send_parts parts t d) as (d' & E & C & T). rewrite E. unfold fcall. cbn.
  rewrite M. cbn. eexists. split; [reflexivity|]. exact C.
Qed.
Lemma recv_scripted buf t d hk : exists d', recv scripted buf (drv_of t d hk) =
  (drv_of (mk_talk (tl (t_replies t)) (skipn (length buf) (hd [] (t_replies t))) (t_msg t) (t_sent t)) d' hk, filled (hd [] (t_replies t)) buf) /\ fd_count d' = fd_count d.
Proof.
  unfold recv, drv_of, fread, fcall. cbn. rewrite firstn_firstn, Nat.min_id, map_length.
  eexists. split; [reflexivity|reflexivity].
Qed.

Definition all_flips := vi_flips ++ out_flips ++ wdt_flips ++ basic_flips.

Lemma blit_0 src m : (length m <= length src)%nat -> blit 0 src m = src.
Proof. intros H. unfold blit. cbn [firstn app Nat.add]. rewrite skipn_all2 by exact H. apply app_nil_r. Qed.

Lemma get_hk_reply jk t d hk : t_msg t = [] -> length hk = hk_size ->
  let l := filled (hd [] (t_replies t)) (junk jk 133) in
  let ok := (at_ l 0 =? 8) && (at_ l 1 =? 0) in
  exists t' d', get_hk scripted jk (drv_of t d hk) = (drv_of t' d' (if ok then turns all_flips (skipn 2 l) else hk), ok) /\
    fd_count d' = fd_count d /\ t_msg t' = [] /\ t_replies t' = tl (t_replies t) /\ t_sent t' = t_sent t ++ [[8; 0]].
Proof.
  intros M L l ok. unfold get_hk.
  destruct (send_scripted [[8; 0]] t d hk M) as (d1 & E1 & C1). rewrite E1. cbn [concat app].
  match goal with |- context [recv scripted ?b (drv_of ?t1 d1 hk)] => destruct (recv_scripted b t1 d1 hk) as (d2 & E2 & C2) end. rewrite E2.
  cbn [t_replies t_msg t_sent]. fold (junk jk 133). change (hk_size + 2)%nat with 133%nat. fold l.
  unfold on_dev, drv_of. cbn [g_bus g_dev g_hk]. unfold fcall. cbn [fst snd bcall scripted w_ok negb].
  replace (negb (at_ l 0 =? 8) || negb (at_ l 1 =? 0)) with (negb ok) by (unfold ok; destruct (at_ l 0 =? 8), (at_ l 1 =? 0); reflexivity).
  destruct ok; cbn [negb].
  - assert (BL : bytes l) by (apply filled_bytes, junk_bytes).
    assert (LL : length (skipn 2 l) = hk_size) by (rewrite skipn_length; unfold l; rewrite filled_length, junk_length; reflexivity).
    cbn [g_bus g_dev g_hk]. rewrite (blit_0 (skipn 2 l) hk) by lia. fold all_flips. rewrite flips_turns; [|apply bytes_skipn, BL|rewrite LL; reflexivity].
    eexists. eexists. split; [reflexivity|]. cbn. split; [congruence|repeat split; exact M].
  - eexists. eexists. split; [reflexivity|]. cbn. split; [congruence|repeat split; exact M].
Qed.

Lemma image_published v : hk_legal v -> published (turns all_flips (hk_image v 0 65)) =
  map (fun i => if Nat.eqb i reboots then v reboots / 65536 else shown v i) hk_telemetered.
Proof.
  intros H. lazy -[Z.div Z.modulo Z.pow Z.mul Z.add Z.sub Z.ltb Z.eqb hk_legal].
  assert (H1 : forall i, (i < 65)%nat -> hk_width i = 1%nat -> (v i / 256 ^ 0) mod 256 + 256 * 0 = v i).
  { intros i L W. specialize (H i L). rewrite W in H. change (256 ^ Z.of_nat 1) with 256 in H. change (256 ^ 0) with 1. rewrite Z.div_1_r. lia. }
  assert (H2 : forall i, (i < 65)%nat -> hk_width i = 2%nat -> (v i / 256 ^ 0) mod 256 + 256 * ((v i / 256 ^ 1) mod 256 + 256 * 0) = v i).
  { intros i L W. specialize (H i L). rewrite W in H. change (256 ^ Z.of_nat 2) with 65536 in H. change (256 ^ 0) with 1. change (256 ^ 1) with 256. rewrite Z.div_1_r. lia. }
  assert (H4 : forall i, (i < 65)%nat -> hk_width i = 4%nat ->
    (v i / 256 ^ 0) mod 256 + 256 * ((v i / 256 ^ 1) mod 256 + 256 * ((v i / 256 ^ 2) mod 256 + 256 * ((v i / 256 ^ 3) mod 256 + 256 * 0))) = v i /\
    (v i / 256 ^ 2) mod 256 + 256 * ((v i / 256 ^ 3) mod 256 + 256 * (0 + 256 * (0 + 256 * 0))) = v i / 65536).
  { intros i L W. specialize (H i L). rewrite W in H. change (256 ^ Z.of_nat 4) with 4294967296 in H. change (256 ^ 0) with 1. change (256 ^ 1) with 256.
    change (256 ^ 2) with 65536. change (256 ^ 3) with 16777216. rewrite Z.div_1_r. split; lia. }
  repeat match goal with |- context [v ?i / 256 ^ 3] =>
    let P := fresh in let Q := fresh in destruct (H4 i ltac:(lia) eq_refl) as (P & Q); first [rewrite P|rewrite Q]; clear P Q end.
  repeat match goal with |- context [v ?i / 256 ^ 1] => rewrite (H2 i ltac:(lia) eq_refl) end.
  repeat match goal with |- context [v ?i / 256 ^ 0] => rewrite (H1 i ltac:(lia) eq_refl) end.
  reflexivity.
Qed.

(** * Messages sent by the driver and the controller *)

Notation sdrv := (drv scripted).
Definition sent_of (g : sdrv) : list (list Z) := t_sent (g_bus g).
Definition idle (g : sdrv) : Prop := t_msg (g_bus g) = [].
Definition says (ms : list (list Z)) (g g' : sdrv) : Prop :=
  idle g -> idle g' /\ sent_of g' = sent_of g ++ ms /\ g_hk g' = g_hk g /\ fd_count (g_dev g') = fd_count (g_dev g).

Lemma says_nil g : says [] g g.
Proof. intros H. split; [exact H|]. rewrite app_nil_r. repeat split. Qed.
Lemma says_app a b g g1 g2 : says a g g1 -> says b g1 g2 -> says (a ++ b) g g2.
Proof.
  intros A B H. destruct (A H) as (I1 & S1 & K1 & C1). destruct (B I1) as (I2 & S2 & K2 & C2). split; [exact I2|].
  rewrite S2, S1, app_assoc. repeat split; congruence.
Qed.
Lemma drv_eta (g : sdrv) : drv_of (g_bus g) (g_dev g) (g_hk g) = g.
Proof. destruct g. reflexivity. Qed.
Lemma send_says parts g : says [concat parts] g (send scripted parts g).
Proof.
  intros H. destruct (send_scripted parts (g_bus g) (g_dev g) (g_hk g) H) as (d' & E & C). rewrite drv_eta in E. rewrite E.
  unfold idle, sent_of. cbn. repeat split. exact C.
Qed.
Lemma recv_says buf g : says [] g (fst (recv scripted buf g)).
Proof.
  intros H. destruct (recv_scripted buf (g_bus g) (g_dev g) (g_hk g)) as (d' & E & C). rewrite drv_eta in E. rewrite E.
  unfold idle, sent_of. cbn. rewrite app_nil_r. repeat split; [exact H|exact C].
Qed.
Lemma recv_send_says parts buf g : says [concat parts] g (fst (recv scripted buf (send scripted parts g))).
Proof. apply (says_app [concat parts] []) with (send scripted parts g); [apply send_says|apply recv_says]. Qed.
Lemma fst_let {A B C : Type} (p : A * B) (f : A -> B -> C) : fst (let '(a, b) := p in (a, f a b)) = fst p.
Proof. destruct p. reflexivity. Qed.
Lemma command_says parts port jk g : says [concat parts] g (fst (command scripted parts port jk g)).
Proof. unfold command, check_error. rewrite fst_let. apply recv_send_says. Qed.
Lemma set_heater_says m jk g : says [[13; 0; 1; Z.b2z m]] g (fst (set_heater scripted m jk g)).
Proof. unfold set_heater. rewrite fst_let. apply (recv_send_says [[13; 0; 1; Z.b2z m]]). Qed.
Lemma get_heater_says jk g : says [[13]] g (fst (get_heater scripted jk g)).
Proof. unfold get_heater. rewrite fst_let. apply (recv_send_says [[13]]). Qed.
Lemma single_says ch v dl jk g : 0 <= ch <= 5 -> 0 <= v <= 1 -> says [single_message ch v dl] g (fst (set_single_output scripted ch v dl jk g)).
Proof.
  intros Hc Hv. unfold set_single_output. destruct (5 <? ch) eqn:E1; [lia|]. destruct (1 <? v) eqn:E2; [lia|].
  pose proof (command_says [single_message ch v dl] 10 jk g) as X. cbn [concat] in X. rewrite app_nil_r in X. exact X.
Qed.

(** messages that switch outputs *)
Definition switches (ms : list (list Z)) : Prop := Forall (fun m => hd 0 m = 10) ms.
Lemma cycle_says jk pub l : Forall (fun i => (i < 6)%nat) l -> forall s, exists ms, switches ms /\
  says ms (fst s) (fst (fold_left (cycle_one scripted jk pub) l s)) /\
  let c := snd s in let c' := snd (fold_left (cycle_one scripted jk pub) l s) in
  (m_pv c', m_ppt c', m_heat c', m_cnt c', m_rst c', m_boot c', m_off c', m_period c', m_thr c') =
  (m_pv c, m_ppt c, m_heat c, m_cnt c, m_rst c, m_boot c, m_off c, m_period c, m_thr c).
Proof.
  induction l as [|i l IH]; intros H s; [exists []; split; [constructor|]; split; [apply says_nil|reflexivity]|].
  inversion H as [|? ? Hi Hl]; subst. cbn [fold_left].
  assert (X : exists ms, switches ms /\ says ms (fst s) (fst (cycle_one scripted jk pub s i)) /\
    let c := snd s in let c' := snd (cycle_one scripted jk pub s i) in
    (m_pv c', m_ppt c', m_heat c', m_cnt c', m_rst c', m_boot c', m_off c', m_period c', m_thr c') =
    (m_pv c, m_ppt c, m_heat c, m_cnt c, m_rst c, m_boot c, m_off c, m_period c, m_thr c)).
  { destruct s as [g c]. unfold cycle_one. destruct (m_cyc c i).
    - destruct (at_ pub (p_output + i) =? 1).
      + exists [single_message (Z.of_nat i) 0 0]. split; [repeat constructor|]. split; [cbn [fst]; apply single_says; lia|reflexivity].
      + exists [single_message (Z.of_nat i) 1 0]. split; [repeat constructor|]. split; [cbn [fst]; apply single_says; lia|reflexivity].
    - exists []. split; [constructor|]. split; [apply says_nil|reflexivity]. }
  destruct X as (ms1 & W1 & S1 & C1). destruct (IH Hl (cycle_one scripted jk pub s i)) as (ms2 & W2 & S2 & C2).
  exists (ms1 ++ ms2). split; [apply Forall_app; split; assumption|]. split; [eapply says_app; eassumption|].
  cbv zeta in *. rewrite C2. exact C1.
Qed.

Lemma get_hk_says jk (g : sdrv) : idle g -> length (g_hk g) = hk_size -> let g' := fst (get_hk scripted jk g) in
  idle g' /\ sent_of g' = sent_of g ++ [[8; 0]] /\ fd_count (g_dev g') = fd_count (g_dev g) /\
  t_replies (g_bus g') = tl (t_replies (g_bus g)) /\
  let l := filled (hd [] (t_replies (g_bus g))) (junk jk 133) in
  let ok := (at_ l 0 =? 8) && (at_ l 1 =? 0) in
  snd (get_hk scripted jk g) = ok /\ g_hk g' = if ok then turns all_flips (skipn 2 l) else g_hk g.
Proof.
  intros I L. destruct (get_hk_reply jk (g_bus g) (g_dev g) (g_hk g) I L) as (t' & d' & E & C & M & R & S). rewrite drv_eta in E.
  cbv zeta in *. rewrite E. unfold idle, sent_of. cbn [fst snd g_bus g_dev g_hk drv_of]. repeat split; assumption.
Qed.

(** messages of the other commands *)
Definition others (m : list Z) : Prop := In (hd 0 m) [8; 10; 11; 12; 13].
Ltac others1 := solve [constructor | constructor; [unfold others; cbn; tauto|constructor]].

(** One cycle: what is sent, what becomes of the housekeeping and of the reset commands.  [hk0] is the struct after the
    reading. *)
Lemma gexec_says cc jk x x' ev : idle (x_drv x) -> length (g_hk (x_drv x)) = hk_size -> gexec scripted cc jk x = Some (x', ev) ->
  exists pre post, Forall others pre /\ Forall others post /\
  sent_of (x_drv x') = sent_of (x_drv x) ++ pre ++
     (if m_cnt (x_cmd x) && negb (cc =? 1) then [[15; 0x42]] else []) ++ (if m_rst (x_cmd x) && negb (cc =? 1) then [[20]] else []) ++
     (if m_boot (x_cmd x) && negb (cc =? 1) then [[4; 0x80; 7; 0x80; 7]] else []) ++ post /\
  m_cnt (x_cmd x') = false /\ m_rst (x_cmd x') = false /\ m_boot (x_cmd x') = false /\
  idle (x_drv x') /\ g_hk (x_drv x') = g_hk (fst (get_hk scripted (jk 6%nat) (x_drv x))) /\ x_pub x' = published (g_hk (x_drv x')) /\
  ev = (negb (snd (get_hk scripted (jk 6%nat) (x_drv x))), at_ (x_pub x) p_vbatt <? m_thr (x_cmd x)).
Proof.
  intros I L H. unfold gexec in H.
  destruct (get_hk_says (jk 6%nat) (x_drv x) I L) as (I0 & S0 & C0 & R0 & _). cbv zeta in I0, S0, C0, R0.
  destruct (get_hk scripted (jk 6%nat) (x_drv x)) as [g0 ok]. cbn [fst snd] in *.
  (* first cycle *)
  set (first := if cc =? 1 then _ else _) in H.
  assert (F : exists g1 c1 m1, first = (g1, c1) /\ Forall others m1 /\ says m1 g0 g1 /\
    m_cnt c1 = m_cnt (x_cmd x) && negb (cc =? 1) /\ m_rst c1 = m_rst (x_cmd x) && negb (cc =? 1) /\ m_boot c1 = m_boot (x_cmd x) && negb (cc =? 1)).
  { unfold first. destruct (cc =? 1).
    - pose proof (get_heater_says (jk 7%nat) g0) as X. destruct (get_heater scripted (jk 7%nat) g0) as [g1 h]. cbn [fst] in X.
      do 3 eexists. split; [reflexivity|]. cbn [m_cnt m_rst m_boot negb]. rewrite !andb_false_r.
      split; [|split; [exact X|repeat split]]. others1.
    - do 3 eexists. split; [reflexivity|]. cbn [negb]. rewrite !andb_true_r. split; [constructor|]. split; [apply says_nil|repeat split]. }
  destruct F as (g1 & c1 & m1 & EF & O1 & S1 & F1 & F2 & F3). rewrite EF in H. clear first EF.
  destruct (m_period c1 =? 0); [discriminate|].
  (* power cycling *)
  set (cyc := if cc mod m_period c1 =? 0 then _ else _) in H.
  assert (F : exists g2 c2 m2, cyc = (g2, c2) /\ Forall others m2 /\ says m2 g1 g2 /\ m_cnt c2 = m_cnt c1 /\ m_rst c2 = m_rst c1 /\ m_boot c2 = m_boot c1).
  { unfold cyc. destruct (cc mod m_period c1 =? 0).
    - unfold cycle_outputs. cbn [snd].
      assert (A : Forall (fun i => (i < 6)%nat) ((if m_off c1 then [] else [0%nat]) ++ [1; 2; 3; 4; 5]%nat)) by (destruct (m_off c1); repeat constructor; lia).
      destruct (cycle_says jk (x_pub x) _ A (g1, c1)) as (ms & W & S & C). cbv zeta in C. cbn [snd fst] in *.
      destruct (fold_left (cycle_one scripted jk (x_pub x)) ((if m_off c1 then [] else [0%nat]) ++ [1; 2; 3; 4; 5]%nat) (g1, c1)) as [g2 c2].
      exists g2, c2, ms. split; [reflexivity|]. split; [|split; [exact S|inversion C; repeat split; assumption]].
      eapply Forall_impl; [|exact W]. intros m Hm. unfold others. cbn beta in Hm. rewrite Hm. cbn. tauto.
    - do 3 eexists. split; [reflexivity|]. split; [constructor|]. split; [apply says_nil|repeat split]. }
  destruct F as (g2 & c2 & m2 & EF & O2 & S2 & F4 & F5 & F6). rewrite EF in H. clear cyc EF.
  (* panel voltages *)
  match type of H with context [if ?b then fst (set_pv_volt ?B ?a1 ?a2 ?a3 ?j ?g) else ?g] => set (g3 := if b then fst (set_pv_volt B a1 a2 a3 j g) else g) in H;
    assert (F : exists m3, Forall others m3 /\ says m3 g2 g3) by
    (unfold g3; destruct b; [exists [pv_message a1 a2 a3]; split; [others1|];
       pose proof (command_says [pv_message a1 a2 a3] 11 j g) as X; cbn [concat] in X; rewrite app_nil_r in X; exact X
     |exists []; split; [constructor|apply says_nil]]) end.
  destruct F as (m3 & O3 & S3). clearbody g3.
  (* tracker mode *)
  match type of H with context [if ?b then fst (set_ppt_mode ?B ?a1 ?j ?g) else ?g] => set (g4 := if b then fst (set_ppt_mode B a1 j g) else g) in H;
    assert (F : exists m4, Forall others m4 /\ says m4 g3 g4) by
    (unfold g4, set_ppt_mode; destruct b; [destruct (2 <? a1); [exists []; split; [constructor|apply says_nil]|
       exists [[12; a1]]; split; [others1|apply (command_says [[12; a1]] 12 j g)]]
     |exists []; split; [constructor|apply says_nil]]) end.
  destruct F as (m4 & O4 & S4). clearbody g4.
  (* heater *)
  pose proof (get_heater_says (jk 10%nat) g4) as S5. destruct (get_heater scripted (jk 10%nat) g4) as [g5 h5]. cbn [fst] in S5.
  match type of H with context [if m_heat c2 then ?a else ?b] => set (g6 := if m_heat c2 then a else b) in H;
    assert (F : exists m6, Forall others m6 /\ says m6 g5 g6) by
    (unfold g6; destruct (m_heat c2); [destruct (h5 =? 0); [exists [[13; 0; 1; Z.b2z true]]|exists []]|destruct (h5 =? 1); [exists [[13; 0; 1; Z.b2z false]]|exists []]];
      (split; [others1|first [apply says_nil|apply set_heater_says]])) end.
  destruct F as (m6 & O6 & S6). clearbody g6.
  (* resets *)
  set (g7 := if m_cnt c2 then _ else _) in H.
  assert (S7 : says (if m_cnt c2 then [[15; 0x42]] else []) g6 g7).
  { unfold g7. destruct (m_cnt c2); [apply (command_says [[15; 0x42]])|apply says_nil]. }
  clearbody g7. set (g8 := if m_rst c2 then _ else _) in H.
  assert (S8 : says (if m_rst c2 then [[20]] else []) g7 g8).
  { unfold g8. destruct (m_rst c2); [apply (command_says [[20]])|apply says_nil]. }
  clearbody g8. set (g9 := if m_boot c2 then _ else _) in H.
  assert (S9 : says (if m_boot c2 then [[4; 0x80; 7; 0x80; 7]] else []) g8 g9).
  { unfold g9. destruct (m_boot c2); [apply (send_says [[4]; [0x80; 7; 0x80; 7]])|apply says_nil]. }
  clearbody g9. cbn [m_off] in H.
  pose proof (get_heater_says (jk 14%nat) g9) as S10. destruct (get_heater scripted (jk 14%nat) g9) as [g10 h10]. cbn [fst] in S10.
  set (g11 := if m_off c2 then _ else _) in H.
  assert (F : exists m11, Forall others m11 /\ says m11 g10 g11).
  { unfold g11. destruct (m_off c2); [|exists []; split; [constructor|apply says_nil]].
    exists [single_message 0 0 0]. split; [others1|]. apply single_says; lia. }
  destruct F as (m11 & O11 & S11). clearbody g11.
  assert (Ex : x' = mk_ctl g11 (published (g_hk g9)) (h10 =? 1) (mk_cmd (m_cyc c2) (m_pv c2) (m_ppt c2) (m_heat c2) false false false (m_off c2) (m_period c2) (m_thr c2)))
    by congruence.
  assert (Ev : ev = (negb ok, at_ (x_pub x) p_vbatt <? m_thr (x_cmd x))) by congruence. clear H. subst x' ev. cbn [x_drv x_cmd x_pub m_cnt m_rst m_boot].
  pose proof (says_app _ _ _ _ _ S1 (says_app _ _ _ _ _ S2 (says_app _ _ _ _ _ S3 (says_app _ _ _ _ _ S4 (says_app _ _ _ _ _ S5 S6))))) as P1.
  pose proof (says_app _ _ _ _ _ S7 (says_app _ _ _ _ _ S8 S9)) as P2.
  pose proof (says_app _ _ _ _ _ S10 S11) as P3.
  destruct (P1 I0) as (I6 & T6 & K6 & _). destruct (P2 I6) as (I9 & T9 & K9 & _). destruct (P3 I9) as (I11 & T11 & K11 & _).
  exists ([[8; 0]] ++ m1 ++ m2 ++ m3 ++ m4 ++ [[13]] ++ m6), ([[13]] ++ m11).
  split. { repeat (apply Forall_app; split); try assumption; others1. }
  split. { repeat (apply Forall_app; split); try assumption; others1. }
  split. { rewrite T11, T9, T6, S0, F4, F5, F6, F1, F2, F3. repeat rewrite <- app_assoc. reflexivity. }
  split; [reflexivity|]. split; [reflexivity|]. split; [reflexivity|]. split; [exact I11|]. split; [congruence|]. split; [congruence|reflexivity].
Qed.

(** * Parts of the housekeeping *)

Lemma turns_bytes l : forall m, bytes m -> bytes (turns l m).
Proof. induction l as [|[[w wb] o] l IH]; intros m H; [exact H|]. unfold turns in *. cbn [fold_left]. apply IH. apply turn_bytes, H. Qed.
Lemma turns_length l : forall m, forallb (fits (length m)) l = true -> length (turns l m) = length m.
Proof.
  induction l as [|[[w wb] o] l IH]; intros m F; [reflexivity|]. cbn [forallb fits] in F. apply andb_prop in F. destruct F as (F1 & F2).
  apply andb_prop in F1. destruct F1 as (W & L). apply Nat.leb_le in W, L. unfold turns in *. cbn [fold_left].
  rewrite IH; rewrite turn_length by assumption; [reflexivity|exact F2].
Qed.
Lemma blit_bytes o src m : bytes src -> bytes m -> bytes (blit o src m).
Proof. intros A B. unfold blit. apply bytes_app. split; [apply bytes_firstn, B|]. apply bytes_app. split; [exact A|apply bytes_skipn, B]. Qed.
Lemma blit_length o src m : (o + length src <= length m)%nat -> length (blit o src m) = length m.
Proof. intros H. unfold blit. rewrite !app_length, firstn_length, skipn_length. lia. Qed.

Lemma get_part_reply sel size off fl buf t d hk r : t_msg t = [] -> bytes hk -> length buf = (size + 2)%nat -> (off + size <= length hk)%nat ->
  forallb (fits (length hk)) fl = true -> hd [] (t_replies t) = r -> bytes r -> length r = (size + 2)%nat -> at_ r 1 = 0 ->
  exists t' d', get_part scripted sel size off fl buf (drv_of t d hk) = (drv_of t' d' (turns fl (blit off (skipn 2 r) hk)), true).
Proof.
  intros M Bh Lb Lo F R Br Lr Z1. unfold get_part.
  destruct (send_scripted [[8; sel]] t d hk M) as (d1 & E1 & C1). rewrite E1. cbn [concat app].
  match goal with |- context [recv scripted buf (drv_of ?t1 d1 hk)] => destruct (recv_scripted buf t1 d1 hk) as (d2 & E2 & C2) end. rewrite E2.
  cbn [t_replies]. rewrite R, (filled_all r buf) by (auto || congruence). rewrite Z1. change (negb (0 =? 0)) with false. cbv iota.
  unfold drv_of. cbn [g_bus g_dev g_hk].
  assert (Ls : length (skipn 2 r) = size) by (rewrite skipn_length; lia).
  rewrite flips_turns; [eexists; eexists; reflexivity|apply blit_bytes; [apply bytes_skipn, Br|exact Bh]|].
  rewrite blit_length by lia. exact F.
Qed.

Lemma image_length v : length (hk_image v 0 65) = hk_size.
Proof. reflexivity. Qed.
Lemma get_hk_good jk t d hk v : t_msg t = [] -> length hk = hk_size -> hd [] (t_replies t) = [8; 0] ++ hk_image v 0 65 ->
  exists t' d', get_hk scripted jk (drv_of t d hk) = (drv_of t' d' (turns all_flips (hk_image v 0 65)), true) /\ t_msg t' = [] /\ t_replies t' = tl (t_replies t).
Proof.
  intros M L R. destruct (get_hk_reply jk t d hk M L) as (t' & d' & E & _ & M' & R' & _). exists t', d'. rewrite E, R.
  assert (Br : bytes ([8; 0] ++ hk_image v 0 65)) by (apply bytes_app; split; [repeat constructor; lia|apply image_bytes]).
  rewrite (filled_all ([8; 0] ++ hk_image v 0 65) (junk jk 133)); [|exact Br|rewrite app_length, image_length, junk_length; reflexivity].
  split; [reflexivity|]. split; assumption.
Qed.

Definition merged (a b : nat) (v v' : nat -> Z) : nat -> Z := fun i => if Nat.leb a i && Nat.ltb i b then v i else v' i.
Lemma full_fits : forallb (fits hk_size) (vi_flips ++ out_flips ++ wdt_flips ++ basic_flips) = true.
Proof. reflexivity. Qed.
Lemma part_merge v v' :
  turns vi_flips (blit 0 (hk_image v 0 10) (turns all_flips (hk_image v' 0 65))) = turns all_flips (hk_image (merged 0 10 v v') 0 65) /\
  turns out_flips (blit out_at (hk_image v 10 46) (turns all_flips (hk_image v' 0 65))) = turns all_flips (hk_image (merged 10 46 v v') 0 65) /\
  turns wdt_flips (blit wdt_at (hk_image v 46 54) (turns all_flips (hk_image v' 0 65))) = turns all_flips (hk_image (merged 46 54 v v') 0 65) /\
  turns basic_flips (blit basic_at (hk_image v 54 65) (turns all_flips (hk_image v' 0 65))) = turns all_flips (hk_image (merged 54 65 v v') 0 65).
Proof. repeat split; lazy -[Z.div Z.modulo Z.pow Z.mul Z.add]; reflexivity. Qed.

(** reading a part after a full reading gives what a full reading of the merged values gives *)
Definition part_agrees (get : stack -> drv scripted -> drv scripted * bool) (a b : nat) : Prop :=
  forall v v' jk1 jk2 jk3 d1 d3 hk1 hk3 p rs rs3 s1 s3,
  length hk1 = hk_size -> length hk3 = hk_size -> 0 <= p < 256 ->
  let g1 := fst (get_hk scripted jk1 (drv_of (conversation (([8; 0] ++ hk_image v' 0 65) :: ([p; 0] ++ hk_image v a b) :: rs) s1) d1 hk1)) in
  let g3 := fst (get_hk scripted jk3 (drv_of (conversation (([8; 0] ++ hk_image (merged a b v v') 0 65) :: rs3) s3) d3 hk3)) in
  snd (get jk2 g1) = true /\ g_hk (fst (get jk2 g1)) = g_hk g3.

Lemma part_agrees_intro sel size off fl buf a b :
  (forall jk, length (buf jk) = (size + 2)%nat) -> (off + size <= hk_size)%nat -> forallb (fits hk_size) fl = true ->
  (forall v, length (hk_image v a b) = size) ->
  (forall v v', turns fl (blit off (hk_image v a b) (turns all_flips (hk_image v' 0 65))) = turns all_flips (hk_image (merged a b v v') 0 65)) ->
  part_agrees (fun jk => get_part scripted sel size off fl (buf jk)) a b.
Proof.
  intros Lb Lo F Li Em. unfold part_agrees. intros v v' jk1 jk2 jk3 d1 d3 hk1 hk3 p rs rs3 s1 s3 L1 L3 Hp.
  set (t1 := conversation (([8; 0] ++ hk_image v' 0 65) :: ([p; 0] ++ hk_image v a b) :: rs) s1).
  set (t3 := conversation (([8; 0] ++ hk_image (merged a b v v') 0 65) :: rs3) s3).
  destruct (get_hk_good jk1 t1 d1 hk1 v' eq_refl L1 eq_refl) as (t1' & d1' & E1 & M1 & R1).
  destruct (get_hk_good jk3 t3 d3 hk3 (merged a b v v') eq_refl L3 eq_refl) as (t3' & d3' & E3 & _). cbv zeta. rewrite E1, E3. cbn [fst].
  assert (Lt : length (turns all_flips (hk_image v' 0 65)) = hk_size) by (rewrite turns_length; [apply image_length|rewrite image_length; exact full_fits]).
  destruct (get_part_reply sel size off fl (buf jk2) t1' d1' (turns all_flips (hk_image v' 0 65)) ([p; 0] ++ hk_image v a b)) as (t2 & d2 & E2).
  { exact M1. } { apply turns_bytes, image_bytes. } { apply Lb. } { rewrite Lt. exact Lo. } { rewrite Lt. exact F. }
  { rewrite R1. reflexivity. } { apply bytes_app. split; [repeat constructor; lia|apply image_bytes]. } { rewrite app_length, Li. cbn. lia. } { reflexivity. }
  rewrite E2. cbn [fst snd g_hk drv_of]. split; [reflexivity|]. change (skipn 2 ([p; 0] ++ hk_image v a b)) with (hk_image v a b). apply Em.
Qed.
Lemma parts_agree : part_agrees (get_hk_vi scripted) 0 10 /\ part_agrees (get_hk_out scripted) 10 46 /\ part_agrees (get_hk_wdt scripted) 46 54 /\
  part_agrees (get_hk_basic scripted) 54 65.
Proof.
  split; [|split; [|split]].
  - apply (part_agrees_intro 1 vi_size 0 vi_flips (fun jk => junk jk (vi_size + 2))); [intros; apply junk_length|unfold vi_size, hk_size; lia|reflexivity|reflexivity|intros v v'; exact (proj1 (part_merge v v'))].
  - apply (part_agrees_intro 2 out_size out_at out_flips (fun jk => junk jk (out_size + 2))); [intros; apply junk_length|unfold out_size, out_at, hk_size; lia|reflexivity|reflexivity|intros v v'; exact (proj1 (proj2 (part_merge v v')))].
  - apply (part_agrees_intro 3 wdt_size wdt_at wdt_flips (fun _ => repeat 0 (wdt_size + 2))); [reflexivity|unfold wdt_size, wdt_at, hk_size; lia|reflexivity|reflexivity|intros v v'; exact (proj1 (proj2 (proj2 (part_merge v v'))))].
  - apply (part_agrees_intro 4 basic_size basic_at basic_flips (fun jk => junk jk (basic_size + 2))); [intros; apply junk_length|unfold basic_size, basic_at, hk_size; lia|reflexivity|reflexivity|intros v v'; exact (proj2 (proj2 (proj2 (part_merge v v'))))].
Qed.

(** * Configurations *)

Lemma memory_bytes ws : forall vs, bytes (in_memory ws vs).
Proof. induction ws as [|w ws IH]; intros [|v vs]; try constructor. cbn. apply bytes_app. split; [apply bytes_rev, big_bytes|apply IH]. Qed.
Lemma memory_length ws : forall vs, length vs = length ws -> length (in_memory ws vs) = list_sum ws.
Proof.
  induction ws as [|w ws IH]; intros [|v vs] H; try discriminate; [reflexivity|]. cbn [in_memory list_sum fold_right]. rewrite app_length, rev_length, big_length, IH by (cbn in H; lia). reflexivity.
Qed.
Lemma config_swapped vs : length vs = 39%nat -> flips config_flips (in_memory cfg_widths vs) = as_sent cfg_widths vs.
Proof.
  intros L. rewrite flips_turns; [|apply memory_bytes|rewrite memory_length by exact L; reflexivity].
  do 39 (destruct vs as [|? vs]; [discriminate L|]). destruct vs; [|discriminate L]. lazy -[Z.div Z.modulo Z.pow Z.mul Z.add]. reflexivity.
Qed.
Lemma config2_swapped vs : length vs = 16%nat -> flips config2_flips (in_memory cfg2_widths vs) = as_sent cfg2_widths vs.
Proof.
  intros L. rewrite flips_turns; [|apply memory_bytes|rewrite memory_length by exact L; reflexivity].
  do 16 (destruct vs as [|? vs]; [discriminate L|]). destruct vs; [|discriminate L]. lazy -[Z.div Z.modulo Z.pow Z.mul Z.add]. reflexivity.
Qed.
