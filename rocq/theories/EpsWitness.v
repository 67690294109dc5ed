(** Single calls of the power supply's driver against any bus and any reply, and witnesses. *)
From Verif Require Import Base DevModel EpsModel EpsSpec EpsProofs.

(** * Any bus *)

Section Any.
Context (B : bus).

Lemma fold_write_count parts : forall s : bst B * fdev, fd_count (snd (fold_left (fun s p => fcall B (Write p) s) parts s)) = fd_count (snd s).
Proof. induction parts as [|p l IH]; intros s; [reflexivity|]. cbn [fold_left]. rewrite IH. apply fcall_count. Qed.
Lemma send_count parts (g : drv B) : fd_count (g_dev (send B parts g)) = fd_count (g_dev g) /\ g_hk (send B parts g) = g_hk g.
Proof.
  unfold send, on_dev. destruct (fcall B EndTx _) as [b d] eqn:E. cbn [g_dev g_hk]. split; [|reflexivity].
  change d with (snd (b, d)). rewrite <- E, fcall_count, fold_write_count. reflexivity.
Qed.
Lemma recv_count buf (g : drv B) : fd_count (g_dev (fst (recv B buf g))) = fd_count (g_dev g) /\ g_hk (fst (recv B buf g)) = g_hk g.
Proof.
  unfold recv. destruct (fread B buf _) as [[b d] l] eqn:E. cbn [fst g_dev g_hk]. split; [|reflexivity].
  change d with (snd (fst (b, d, l))). rewrite <- E, fread_count, fcall_count. reflexivity.
Qed.
Lemma ping_count v jk (g : drv B) : fd_count (g_dev (fst (ping B v jk g))) = fd_count (g_dev g).
Proof.
  unfold ping. destruct (recv B (junk jk 3) (send B [[1; v]] g)) as [g' l] eqn:E. cbn [fst].
  change g' with (fst (g', l)). rewrite <- E. rewrite (proj1 (recv_count _ _)). apply send_count.
Qed.

(** setup of the supply *)
Definition pinged (jk : stack) (hk : list Z) (s : bst B * fdev) : bst B * fdev * bool :=
  let '(g, ok) := ping B 0xFF jk (mk_drv (fst s) (snd s) hk) in (g_bus g, g_dev g, ok).
Lemma pinged_count jk hk s : fd_count (snd (fst (pinged jk hk s))) = fd_count (snd s).
Proof.
  unfold pinged. destruct (ping B 255 jk _) as [g ok] eqn:E. cbn [fst snd]. change g with (fst (g, ok)). rewrite <- E. apply ping_count.
Qed.
Lemma gs_setup_pinged jk (g : drv B) : gs_setup B jk g =
  let '(b, d, ok) := fd_setup B (pinged jk (g_hk g)) 3 (g_bus g, g_dev g) in (mk_drv b d (g_hk g), ok).
Proof. reflexivity. Qed.
Lemma setup_verdict jk (g : drv B) : 0 <= fd_count (g_dev g) -> fd_count (g_dev g) + 3 < 2 ^ 32 ->
  let '(g', ok) := gs_setup B jk g in
  fd_count (g_dev g) <= fd_count (g_dev g') <= fd_count (g_dev g) + 3 /\ (ok = false -> fd_functional (g_dev g') = false) /\
  (ok = true -> fd_count (g_dev g') < fd_count (g_dev g) + 3).
Proof.
  intros H1 H2. rewrite gs_setup_pinged.
  destruct (setup_counts B (pinged jk (g_hk g)) 3 (pinged_count jk (g_hk g)) (g_bus g, g_dev g) H1 H2) as (n & Hn & C & T & F).
  destruct (fd_setup B (pinged jk (g_hk g)) 3 (g_bus g, g_dev g)) as [[b d] ok] eqn:E. cbn [fst snd g_dev] in *.
  split; [lia|]. split; intros ->; [destruct (F eq_refl) as [-> _]|destruct (T eq_refl) as [L _]; lia].
  unfold fd_functional, disable_at. apply Z.ltb_ge. lia.
Qed.
End Any.

(** * Timeouts *)

Lemma timeout_kept t d : 0 <= t -> t * 1000 < 2 ^ 32 -> fd_get_timeout (fd_set_timeout t d) = t.
Proof. intros H1 H2. unfold fd_get_timeout, fd_set_timeout. cbn [fd_timeout]. unfold u32, uwrap. rewrite Z.mod_small by lia. apply Z.div_mul. lia. Qed.

(** * Reading the housekeeping in a control cycle *)

Definition replies_of (x : ctl scripted) : list (list Z) := t_replies (g_bus (x_drv x)).
Definition quiet (x : ctl scripted) : Prop := t_msg (g_bus (x_drv x)) = [] /\ length (g_hk (x_drv x)) = hk_size.

Lemma cycle_complete cc jk x x' ev r rs : quiet x -> replies_of x = r :: rs -> bytes r -> length r = 133%nat ->
  gexec scripted cc jk x = Some (x', ev) ->
  fst ev = negb ((at_ r 0 =? 8) && (at_ r 1 =? 0)) /\ (fst ev = true -> g_hk (x_drv x') = g_hk (x_drv x) /\ x_pub x' = published (g_hk (x_drv x))) /\
  (fst ev = false -> g_hk (x_drv x') = turns all_flips (skipn 2 r) /\ x_pub x' = published (turns all_flips (skipn 2 r))).
Proof.
  intros [I L] R Br Lr X. destruct (gexec_says cc jk x x' ev I L X) as (pre & post & _ & _ & _ & _ & _ & _ & _ & H & P & V).
  destruct (get_hk_says (jk 6%nat) (x_drv x) I L) as (_ & _ & _ & _ & O & K). unfold replies_of in R. rewrite R in O, K. cbn [hd] in O, K.
  rewrite (filled_all r) in O, K by (assumption || (rewrite junk_length; exact Lr)).
  rewrite O in V. rewrite V. cbn [fst]. split; [reflexivity|]. rewrite P, H, K.
  destruct ((at_ r 0 =? 8) && (at_ r 1 =? 0)); split; intros E; try discriminate; split; reflexivity.
Qed.

Lemma cycle_telemetry cc jk x x' ev v rs : quiet x -> hk_legal v -> replies_of x = ([8; 0] ++ hk_image v 0 65) :: rs ->
  gexec scripted cc jk x = Some (x', ev) ->
  fst ev = false /\ x_pub x' = map (fun i => if Nat.eqb i reboots then v reboots / 65536 else shown v i) hk_telemetered.
Proof.
  intros Q Lv R X.
  assert (Br : bytes ([8; 0] ++ hk_image v 0 65)). { apply bytes_app. split; [repeat constructor; lia|apply image_bytes]. }
  assert (Lr : length ([8; 0] ++ hk_image v 0 65) = 133%nat) by (rewrite app_length, image_length; reflexivity).
  destruct (cycle_complete cc jk x x' ev _ rs Q R Br Lr X) as (E & _ & N).
  change (at_ ([8; 0] ++ hk_image v 0 65) 0) with 8 in E. change (at_ ([8; 0] ++ hk_image v 0 65) 1) with 0 in E. cbn in E.
  split; [exact E|]. destruct (N E) as [_ P]. rewrite P. change (skipn 2 ([8; 0] ++ hk_image v 0 65)) with (hk_image v 0 65).
  apply image_published, Lv.
Qed.

Lemma telemetry_fields cc jk x x' ev v rs : quiet x -> hk_legal v -> replies_of x = ([8; 0] ++ hk_image v 0 65) :: rs ->
  gexec scripted cc jk x = Some (x', ev) -> fst ev = false /\ length (x_pub x') = length hk_telemetered /\
  forall k i, nth_error hk_telemetered k = Some i -> i <> reboots -> nth_error (x_pub x') k = Some (shown v i).
Proof.
  intros Q Lv R X. destruct (cycle_telemetry cc jk x x' ev v rs Q Lv R X) as [E P]. split; [exact E|]. split; [rewrite P; apply map_length|].
  intros k i K N. rewrite P, (map_nth_error _ _ _ K). apply Nat.eqb_neq in N. rewrite N. reflexivity.
Qed.

(** * Commands *)

Lemma command_sent parts port jk (g : drv scripted) : t_msg (g_bus g) = [] ->
  t_sent (g_bus (fst (command scripted parts port jk g))) = t_sent (g_bus g) ++ [concat parts].
Proof. intros I. destruct (command_says parts port jk g I) as (_ & S & _). exact S. Qed.

Lemma check_error_complete port jk (g : drv scripted) r rs : t_replies (g_bus g) = r :: rs -> bytes r -> length r = 2%nat ->
  snd (check_error scripted port jk g) = (at_ r 0 =? port) && (at_ r 1 =? 0).
Proof.
  intros R Br Lr. unfold check_error. rewrite <- (drv_eta g). destruct (recv_scripted (junk jk 2) (g_bus g) (g_dev g) (g_hk g)) as (d' & E & _).
  rewrite E. cbn [snd]. rewrite R. cbn [hd]. rewrite filled_all by (assumption || (rewrite junk_length; exact Lr)). reflexivity.
Qed.
Lemma command_complete parts port jk (g : drv scripted) r rs : t_msg (g_bus g) = [] -> t_replies (g_bus g) = r :: rs -> bytes r -> length r = 2%nat ->
  snd (command scripted parts port jk g) = (at_ r 0 =? port) && (at_ r 1 =? 0) /\ t_replies (g_bus (fst (command scripted parts port jk g))) = rs.
Proof.
  intros I R Br Lr. unfold command. rewrite <- (drv_eta g). destruct (send_scripted parts (g_bus g) (g_dev g) (g_hk g) I) as (d' & E & _). rewrite E. split.
  - apply (check_error_complete _ _ _ r rs); assumption.
  - unfold check_error. destruct (recv_scripted (junk jk 2) (mk_talk (t_replies (g_bus g)) (t_wait (g_bus g)) [] (t_sent (g_bus g) ++ [concat parts])) d' (g_hk g)) as (d2 & E2 & _).
    rewrite E2. cbn [fst g_bus]. cbn. rewrite R. reflexivity.
Qed.

Lemma single_sent ch v dl jk (g : drv scripted) : 0 <= ch -> 0 <= v -> t_msg (g_bus g) = [] ->
  t_sent (g_bus (fst (set_single_output scripted ch v dl jk g))) =
  t_sent (g_bus g) ++ (if (ch <=? 5) && (v <=? 1) then [single_message ch v dl] else []).
Proof.
  intros Hc Hv I. destruct (Z.leb_spec ch 5), (Z.leb_spec v 1); cbn [andb].
  - destruct (single_says ch v dl jk g ltac:(lia) ltac:(lia) I) as (_ & S & _). exact S.
  - unfold set_single_output. destruct (Z.ltb_spec 5 ch), (Z.ltb_spec 1 v); try lia. cbn [fst]. rewrite app_nil_r. reflexivity.
  - unfold set_single_output. destruct (Z.ltb_spec 5 ch); try lia. cbn [fst]. rewrite app_nil_r. reflexivity.
  - unfold set_single_output. destruct (Z.ltb_spec 5 ch); try lia. cbn [fst]. rewrite app_nil_r. reflexivity.
Qed.
Lemma single_understood ch v dl : 0 <= dl < 65536 -> understood_switch (single_message ch v dl) = Some (ch, v, value (rev (big 2 dl))).
Proof.
  intros H. unfold single_message, understood_switch, bswap. cbn [le_bytes rev app le]. unfold value. cbn [big rev app fold_left]. change (256 ^ Z.of_nat 1) with 256. change (256 ^ Z.of_nat 0) with 1.
  rewrite Z.div_1_r. do 2 f_equal. lia.
Qed.
Lemma single_equal_bytes ch v b : 0 <= b < 256 -> understood_switch (single_message ch v (257 * b)) = Some (ch, v, 257 * b).
Proof.
  intros H. rewrite single_understood by lia. unfold value. cbn [big rev app fold_left]. change (256 ^ Z.of_nat 1) with 256. change (256 ^ Z.of_nat 0) with 1.
  rewrite Z.div_1_r. do 2 f_equal. lia.
Qed.

(** * Heater *)
Lemma heater_complete mode jk (g : drv scripted) r rs : t_msg (g_bus g) = [] -> t_replies (g_bus g) = r :: rs -> bytes r -> length r = 4%nat ->
  snd (set_heater scripted mode jk g) = (at_ r 0 =? 13) && (at_ r 1 =? 0).
Proof.
  intros I R Br Lr. unfold set_heater. rewrite <- (drv_eta g).
  destruct (send_scripted [[13; 0; 1; Z.b2z mode]] (g_bus g) (g_dev g) (g_hk g) I) as (d' & E & _). rewrite E.
  match goal with |- context [recv scripted ?b (drv_of ?t ?d ?h)] => destruct (recv_scripted b t d h) as (d2 & E2 & _) end. rewrite E2. cbn [snd t_replies].
  rewrite R. cbn [hd]. rewrite filled_all by (assumption || (rewrite junk_length; exact Lr)).
  change (1 =? Z.lor 1 2) with false. rewrite andb_false_r. destruct (at_ r 0 =? 13), (at_ r 1 =? 0); reflexivity.
Qed.

(** * Configurations *)

Lemma config_get_complete port size jk (g : drv scripted) r rs : (4 < size)%nat -> t_msg (g_bus g) = [] -> t_replies (g_bus g) = r :: rs -> bytes r -> length r = (size + 2)%nat ->
  at_ r 1 = 0 -> config_read scripted port size jk g = Undefined.
Proof.
  intros Hs I R Br Lr Z1. unfold config_read. rewrite <- (drv_eta g).
  destruct (send_scripted [[port]] (g_bus g) (g_dev g) (g_hk g) I) as (d' & E & _). rewrite E.
  match goal with |- context [recv scripted ?b (drv_of ?t ?d ?h)] => destruct (recv_scripted b t d h) as (d2 & E2 & _) end. rewrite E2. cbn [t_replies].
  rewrite R. cbn [hd]. rewrite filled_all by (assumption || (rewrite junk_length; exact Lr)). rewrite Z1. cbn [Z.eqb negb].
  unfold pointer_size. destruct (Nat.leb_spec size 4); [lia|reflexivity].
Qed.

Lemma config_set_sent vs jk (g : drv scripted) r rs : length vs = 39%nat -> t_msg (g_bus g) = [] -> t_replies (g_bus g) = r :: rs -> bytes r -> length r = 2%nat ->
  t_sent (g_bus (fst (config_set scripted (in_memory cfg_widths vs) jk g))) = t_sent (g_bus g) ++ [19 :: as_sent cfg_widths vs] /\
  snd (config_set scripted (in_memory cfg_widths vs) jk g) = (at_ r 0 =? 19) && (at_ r 1 =? 0).
Proof.
  intros L I R Br Lr. unfold config_set. rewrite (config_swapped vs L). split.
  - rewrite command_sent by exact I. cbn [concat app]. rewrite app_nil_r. reflexivity.
  - apply (command_complete _ _ _ _ r rs); assumption.
Qed.
Lemma config2_set_sent vs jk jk2 (g : drv scripted) r r2 rs : length vs = 16%nat -> t_msg (g_bus g) = [] -> t_replies (g_bus g) = r :: r2 :: rs ->
  bytes r -> length r = 2%nat -> bytes r2 -> length r2 = 2%nat ->
  let ok := (at_ r 0 =? 23) && (at_ r 1 =? 0) in
  t_sent (g_bus (fst (config2_set scripted (in_memory cfg2_widths vs) jk jk2 g))) =
    t_sent (g_bus g) ++ (23 :: as_sent cfg2_widths vs) :: (if ok then [[21; 2]] else []) /\
  snd (config2_set scripted (in_memory cfg2_widths vs) jk jk2 g) = ok && ((at_ r2 0 =? 21) && (at_ r2 1 =? 0)).
Proof.
  intros L I R Br Lr Br2 Lr2 ok. unfold config2_set. rewrite (config2_swapped vs L).
  pose proof (command_sent [[23]; as_sent cfg2_widths vs] 23 jk g I) as S.
  destruct (command_complete [[23]; as_sent cfg2_widths vs] 23 jk g r (r2 :: rs) I R Br Lr) as [K RS]. fold ok in K.
  destruct (command_says [[23]; as_sent cfg2_widths vs] 23 jk g I) as (I2 & _).
  destruct (command scripted [[23]; as_sent cfg2_widths vs] 23 jk g) as [g1 b]. cbn [fst snd] in *. subst b.
  cbn [concat app] in S. rewrite app_nil_r in S. unfold and_confirm. destruct ok.
  - unfold config2_confirm. rewrite (command_sent _ _ _ _ I2), S, <- app_assoc. split; [reflexivity|].
    cbn [andb]. apply (command_complete _ _ _ _ r2 rs); assumption.
  - cbn [fst snd andb]. split; [exact S|reflexivity].
Qed.

(** * Witnesses *)

Definition stack0 : stack := fun _ => 7.
Definition d0 : fdev := fd_new 10000.
Definition hk0 : list Z := repeat 0 131.
Definition g_of (rs : list (list Z)) : drv scripted := @mk_drv scripted (conversation rs []) d0 hk0.
Definition cmds0 : cmds := mk_cmd (fun _ => false) (fun _ => 0) 0 false false false false false 250 0.
Definition x_of (rs : list (list Z)) (c : cmds) : ctl scripted := mk_ctl (g_of rs) (published hk0) false c.

(** a supply that answers every second ping *)
Definition flaky_setups (jk : stack) : drv scripted * list bool :=
  let g := g_of [[]; [1; 0; 255]; []; [1; 0; 255]; []; [1; 0; 255]] in
  let '(g, a) := gs_setup scripted jk g in let '(g, b) := gs_setup scripted jk g in let '(g, c) := gs_setup scripted jk g in (g, [a; b; c]).
Lemma flaky : snd (flaky_setups stack0) = [true; true; true] /\ fd_functional (g_dev (fst (flaky_setups stack0))) = false.
Proof. vm_compute. split; reflexivity. Qed.

(** the supply says nothing; the buffer still holds a reply read before *)
Definition old_reply : stack := fun i => nth i ([8; 0] ++ hk_image (fun _ => 77) 0 65) 0.
Lemma silent_accepted : exists x', gexec scripted 5 (fun _ => old_reply) (x_of [] cmds0) = Some (x', (false, false)) /\ x_pub x' <> x_pub (x_of [] cmds0).
Proof.
  destruct (gexec scripted 5 (fun _ => old_reply) (x_of [] cmds0)) as [[x' ev]|] eqn:E; [|exfalso; vm_compute in E; discriminate].
  assert (F : match gexec scripted 5 (fun _ => old_reply) (x_of [] cmds0) with Some (x, e) => Some (x_pub x, e) | None => None end =
    Some (map (fun i => if Nat.eqb i reboots then 0 else shown (fun _ => 77) i) hk_telemetered, (false, false))) by (vm_compute; reflexivity).
  rewrite E in F. injection F as F1 F2. exists x'. rewrite F2. split; [reflexivity|]. rewrite F1. vm_compute. discriminate.
Qed.

(** a reply with 5 reboots *)
Definition five (i : nat) : Z := if Nat.eqb i reboots then 5 else Z.of_nat i.
Lemma five_legal : hk_legal five.
Proof.
  assert (F : forallb (fun i => (0 <=? five i) && (five i <? 256 ^ Z.of_nat (hk_width i))) (seq 0 65) = true) by (vm_compute; reflexivity).
  rewrite forallb_forall in F. intros i Hi. specialize (F i). rewrite in_seq in F. specialize (F ltac:(lia)). lia.
Qed.
Lemma five_quiet c rs : quiet (x_of rs c).
Proof. split; reflexivity. Qed.
Lemma five_ran : exists x' ev, gexec scripted 5 (fun _ => stack0) (x_of [[8; 0] ++ hk_image five 0 65] cmds0) = Some (x', ev) /\ nth_error (x_pub x') 23 = Some 0.
Proof.
  destruct (gexec scripted 5 (fun _ => stack0) (x_of [[8; 0] ++ hk_image five 0 65] cmds0)) as [[x' ev]|] eqn:E; [|exfalso; vm_compute in E; discriminate]. exists x', ev. split; [reflexivity|].
  assert (F : match gexec scripted 5 (fun _ => stack0) (x_of [[8; 0] ++ hk_image five 0 65] cmds0) with Some (x, _) => nth_error (x_pub x) 23 | None => None end = Some 0) by (vm_compute; reflexivity).
  rewrite E in F. exact F.
Qed.

(** * Commands of one cycle *)
Lemma others_filter p l : ~ In p [8; 10; 11; 12; 13] -> Forall others l -> filter (fun m => hd 0 m =? p) l = [].
Proof.
  intros N H. induction H as [|m l O _ IH]; [reflexivity|]. cbn [filter]. destruct (Z.eqb_spec (hd 0 m) p) as [E|_]; [|exact IH].
  exfalso. apply N. rewrite <- E. exact O.
Qed.
Lemma resets_once cc jk x x' ev : quiet x -> gexec scripted cc jk x = Some (x', ev) ->
  exists new, t_sent (g_bus (x_drv x')) = t_sent (g_bus (x_drv x)) ++ new /\
  filter (fun m => hd 0 m =? 15) new = (if m_cnt (x_cmd x) && negb (cc =? 1) then [[15; 66]] else []) /\
  filter (fun m => hd 0 m =? 20) new = (if m_rst (x_cmd x) && negb (cc =? 1) then [[20]] else []) /\
  filter (fun m => hd 0 m =? 4) new = (if m_boot (x_cmd x) && negb (cc =? 1) then [[4; 128; 7; 128; 7]] else []) /\
  m_cnt (x_cmd x') = false /\ m_rst (x_cmd x') = false /\ m_boot (x_cmd x') = false.
Proof.
  intros [I L] X. destruct (gexec_says cc jk x x' ev I L X) as (pre & post & P & Q & S & C1 & C2 & C3 & _).
  eexists. split; [exact S|]. repeat rewrite filter_app. split; [|split; [|split; [|auto]]];
    rewrite (others_filter _ pre), (others_filter _ post) by (assumption || (cbn; lia));
    destruct (m_cnt (x_cmd x) && negb (cc =? 1)), (m_rst (x_cmd x) && negb (cc =? 1)), (m_boot (x_cmd x) && negb (cc =? 1)); reflexivity.
Qed.

(** * Validity of data *)
Lemma setup_valid (B : bus) jk (g : drv B) : fd_count (g_dev g) = 0 ->
  fd_valid (g_dev (fst (gs_setup B jk g))) = snd (ping B 255 jk g).
Proof.
  intros C. rewrite gs_setup_pinged. cbn [fd_setup].
  assert (P : pinged B jk (g_hk g) (g_bus g, g_dev g) = (g_bus (fst (ping B 255 jk g)), g_dev (fst (ping B 255 jk g)), snd (ping B 255 jk g))).
  { unfold pinged. cbn [fst snd]. destruct g as [b d h]. cbn [g_bus g_dev g_hk]. destruct (ping B 255 jk _); reflexivity. }
  pose proof (ping_count B 255 jk g) as K. rewrite P. destruct (snd (ping B 255 jk g)); cbn [fst snd g_dev].
  - unfold fd_valid. rewrite K, C. reflexivity.
  - match goal with |- context [pinged B jk (g_hk g) ?s] => set (s2 := s) end.
    destruct (setup_counts B (pinged B jk (g_hk g)) 2 (pinged_count B jk (g_hk g)) s2) as (n & Hn & Cn & _).
    { subst s2. cbn [snd fd_count]. rewrite K, C. vm_compute. discriminate. }
    { subst s2. cbn [snd fd_count]. rewrite K, C. vm_compute. reflexivity. }
    cbn [fd_setup] in Cn.
    match goal with |- fd_valid (g_dev (fst (let '(p, ok) := ?e in _))) = _ => set (r := e) in * end.
    assert (F : fd_count (snd (fst r)) = 1 + Z.of_nat n). { etransitivity; [exact Cn|]. subst s2. cbn [snd fd_count]. rewrite K, C. reflexivity. }
    destruct r as [[b d] ok]. cbn [fst snd g_dev] in *. unfold fd_valid. apply Z.eqb_neq. lia.
Qed.

(** after one failed ping data are never valid again before a reset, however well the exchanges go *)
Lemma never_valid (B : bus) ping l (s : bst B * fdev) : Forall exchange l -> fd_valid (snd (fold_left (fd_op B ping) l s)) = fd_valid (snd s).
Proof. intros H. unfold fd_valid. rewrite (run_count B ping l s H). reflexivity. Qed.

(** * The whole struct *)
Lemma fold_big w v : forall a, fold_left (fun a b => 256 * a + b) (big w v) a = a * 256 ^ Z.of_nat w + v mod 256 ^ Z.of_nat w.
Proof.
  induction w as [|k IH]; intros a.
  - cbn [big fold_left]. change (256 ^ Z.of_nat 0) with 1. rewrite Z.mod_1_r. lia.
  - cbn [big fold_left]. rewrite IH. rewrite Nat2Z.inj_succ, Z.pow_succ_r by lia.
    assert (P : 0 < 256 ^ Z.of_nat k) by (apply Z.pow_pos_nonneg; lia).
    rewrite (Z.mul_comm 256 (256 ^ _)), Z.rem_mul_r by lia. lia.
Qed.
Lemma value_big w v : 0 <= v < 256 ^ Z.of_nat w -> value (big w v) = v.
Proof. intros H. unfold value. rewrite fold_big, Z.mod_small by exact H. lia. Qed.

Definition kept_fields : list nat := (seq 0 9 ++ seq 10 44 ++ seq 55 9)%nat.
Lemma struct_bytes v : map (fun i => firstn (hk_width i) (skipn (hk_place i) (turns all_flips (hk_image v 0 65)))) kept_fields =
  map (fun i => rev (big (hk_width i) (v i))) kept_fields.
Proof. lazy -[Z.div Z.modulo Z.pow Z.mul Z.add Z.sub]. reflexivity. Qed.
Lemma struct_values v i : hk_legal v -> (i < 65)%nat -> i <> 9%nat -> i <> reboots -> i <> 64%nat ->
  peek (hk_width i) (hk_place i) (turns all_flips (hk_image v 0 65)) = v i.
Proof.
  intros L Hi N1 N2 N3. unfold reboots in N2. unfold peek.
  assert (In i kept_fields) as I. { unfold kept_fields. rewrite !in_app_iff, !in_seq. lia. }
  pose proof (ext_in_map (struct_bytes v) i I) as E. cbn beta in E. rewrite E, rev_involutive. apply value_big, L, Hi.
Qed.
Lemma cycle_struct cc jk x x' ev v rs : quiet x -> hk_legal v -> replies_of x = ([8; 0] ++ hk_image v 0 65) :: rs ->
  gexec scripted cc jk x = Some (x', ev) ->
  forall i, (i < 65)%nat -> i <> 9%nat -> i <> reboots -> i <> 64%nat -> peek (hk_width i) (hk_place i) (g_hk (x_drv x')) = v i.
Proof.
  intros Q Lv R X i Hi N1 N2 N3.
  assert (Br : bytes ([8; 0] ++ hk_image v 0 65)). { apply bytes_app. split; [repeat constructor; lia|apply image_bytes]. }
  assert (Lr : length ([8; 0] ++ hk_image v 0 65) = 133%nat) by (rewrite app_length, image_length; reflexivity).
  destruct (cycle_complete cc jk x x' ev _ rs Q R Br Lr X) as (E & _ & N).
  change (at_ ([8; 0] ++ hk_image v 0 65) 0) with 8 in E. change (at_ ([8; 0] ++ hk_image v 0 65) 1) with 0 in E. cbn in E.
  destruct (N E) as [P _]. rewrite P. change (skipn 2 ([8; 0] ++ hk_image v 0 65)) with (hk_image v 0 65). apply struct_values; assumption.
Qed.
