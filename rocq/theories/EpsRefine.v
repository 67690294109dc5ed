(** The controller against the supply of EpsNanoSpec behaves as PowerModel says. *)
From Verif Require Import Base PowerModel DevModel EpsModel EpsSpec EpsProofs EpsWitness PowerSpec PowerProofs PowerRunProofs EpsNanoSpec.

Notation ndrv := (drv nano).
Definition nidle (g : ndrv) : Prop := n_msg (g_bus g) = [].

Lemma nsend parts : forall (s : bst nano) d, exists d', fold_left (fun s p => fcall nano (Write p) s) parts (s, d) =
  ((mk_nano (n_env s) (n_board s) (n_msg s ++ concat parts) (n_rep s) (n_wait s) : bst nano), d').
Proof.
  induction parts as [|p l IH]; intros s d.
  - exists d. cbn. rewrite app_nil_r. destruct s; reflexivity.
  - cbn [fold_left concat]. unfold fcall at 2. cbn [bcall nano fst snd].
    destruct (IH (mk_nano (n_env s) (n_board s) (n_msg s ++ p) (n_rep s) (n_wait s)) (fd_err (negb true) d)) as (d' & E). cbn in E. cbn. rewrite E.
    exists d'. rewrite app_assoc. reflexivity.
Qed.

(** one exchange *)
Lemma exchange_nano parts buf (g : ndrv) : nidle g -> exists g', recv nano buf (send nano parts g) = (g', filled (snd (answer (env g) (concat parts) (brd g))) buf) /\
  nidle g' /\ brd g' = fst (answer (env g) (concat parts) (brd g)) /\ env g' = env g /\ g_hk g' = g_hk g.
Proof.
  intros I. destruct g as [s d hk]. unfold nidle in *. unfold send, on_dev. cbn [g_bus g_dev g_hk] in *.
  destruct (nsend parts s d) as (d' & E). rewrite E. rewrite I. cbn [app].
  unfold fcall at 1. cbn [fst snd bcall nano n_env n_msg n_board].
  destruct (answer (n_env s) (concat parts) (n_board s)) as [b r]. cbn [fst snd]. unfold recv, fcall. cbn [fst snd bcall nano n_env n_msg n_board n_rep g_bus g_dev g_hk].
  unfold fread. cbn [fst snd bcall nano n_env n_msg n_board n_rep n_wait w_data w_ok].
  eexists. split; [|split; [|split; [|split]]].
  - f_equal. unfold filled. rewrite firstn_firstn, Nat.min_id, map_length. reflexivity.
  - reflexivity.
  - reflexivity.
  - reflexivity.
  - reflexivity.
Qed.

(** commands whose answer is not looked at *)
Definition does (m : list Z) (g g' : ndrv) : Prop :=
  nidle g -> nidle g' /\ brd g' = fst (answer (env g) m (brd g)) /\ env g' = env g /\ g_hk g' = g_hk g.
Lemma command_does parts port jk g : does (concat parts) g (fst (command nano parts port jk g)).
Proof.
  intros I. unfold command, check_error. destruct (exchange_nano parts (junk jk 2) g I) as (g' & E & I' & P). rewrite E. cbn [fst]. exact (conj I' P).
Qed.
Lemma heater_does mode jk g : does [13; 0; 1; Z.b2z mode] g (fst (set_heater nano mode jk g)).
Proof.
  intros I. unfold set_heater. destruct (exchange_nano [[13; 0; 1; Z.b2z mode]] (junk jk 4) g I) as (g' & E & I' & P). rewrite E. cbn [fst]. exact (conj I' P).
Qed.
Lemma switch_does i (v : bool) jk g : (i < 6)%nat -> does [10; Z.of_nat i; Z.b2z v; 0; 0] g (fst (set_single_output nano (Z.of_nat i) (Z.b2z v) 0 jk g)).
Proof.
  intros Hi I. unfold set_single_output. destruct (Z.ltb_spec 5 (Z.of_nat i)); [lia|]. destruct (Z.ltb_spec 1 (Z.b2z v)); [destruct v; cbn in *; lia|].
  apply (command_does [single_message (Z.of_nat i) (Z.b2z v) 0] 10 jk g I).
Qed.
Lemma query_nano jk g : nidle g -> (ge_query (env g) = false -> u8 (jk 0%nat) <> 13) -> does [13] g (fst (EpsModel.get_heater nano jk g)) /\
  brd (fst (EpsModel.get_heater nano jk g)) = brd g /\
  snd (EpsModel.get_heater nano jk g) = if ge_query (env g) then Z.b2z (b_heat (brd g)) else 2.
Proof.
  intros I C. unfold EpsModel.get_heater. destruct (exchange_nano [[13]] (junk jk 4) g I) as (g' & E & I' & P). rewrite E. cbn [fst snd].
  split; [exact (fun _ => conj I' P)|]. destruct P as (P & _). cbn [concat app] in *. unfold answer in *. cbn [heard noted obey] in *.
  destruct (ge_query (env g)); cbn [fst snd] in *.
  - split; [exact P|]. destruct (b_heat (brd g)); reflexivity.
  - split; [exact P|]. rewrite filled_nil. unfold at_. cbn [junk seq map nth]. specialize (C eq_refl). apply Z.eqb_neq in C. rewrite C. reflexivity.
Qed.

Lemma hk_nano jk (g : ndrv) : nidle g -> length (g_hk g) = hk_size -> (ge_hk (env g) = false -> u8 (jk 0%nat) <> 8) -> board_legal (brd g) ->
  let g' := fst (EpsModel.get_hk nano jk g) in nidle g' /\ brd g' = brd g /\ env g' = env g /\ length (g_hk g') = hk_size /\
  snd (EpsModel.get_hk nano jk g) = ge_hk (env g) /\
  if ge_hk (env g) then g_hk g' = turns all_flips (hk_image (hk_of (brd g)) 0 65) else g_hk g' = g_hk g.
Proof.
  intros I L C Bl. unfold EpsModel.get_hk. destruct (exchange_nano [[8; 0]] (junk jk (hk_size + 2)) g I) as (g' & E & I' & P1 & P2 & P3).
  rewrite E. clear E. cbn [concat app] in *. unfold answer in *. cbn [heard noted obey] in *.
  assert (F : forall g : ndrv, on_dev nano (fcall nano Finish) g = mk_drv (g_bus g) (fd_err false (g_dev g)) (g_hk g)) by reflexivity. rewrite F.
  destruct (ge_hk (env g)); cbn [fst snd] in *.
  - rewrite filled_all.
    + assert (Lm : length (hk_image (hk_of (brd g)) 0 65) = hk_size) by apply image_length. set (im := hk_image (hk_of (brd g)) 0 65) in *.
      change (at_ ([8; 0] ++ im) 0) with 8. change (at_ ([8; 0] ++ im) 1) with 0. change (skipn 2 ([8; 0] ++ im)) with im.
      change (negb (8 =? 8) || negb (0 =? 0)) with false. cbv iota. cbn [fst snd g_bus g_hk].
      rewrite blit_0 by (rewrite P3, L, Lm; lia). rewrite flips_turns; [|apply image_bytes|rewrite Lm; exact full_fits].
      split; [exact I'|]. split; [exact P1|]. split; [exact P2|]. split; [|split; reflexivity].
      rewrite turns_length; [exact Lm|rewrite Lm; exact full_fits].
    + constructor; [lia|]. constructor; [lia|]. apply image_bytes.
    + rewrite junk_length. exact (f_equal (fun n => S (S n)) (image_length (hk_of (brd g)))).
  - rewrite filled_nil. change (at_ (junk jk (hk_size + 2)) 0) with (u8 (jk 0%nat)). specialize (C eq_refl). apply Z.eqb_neq in C. rewrite C.
    change (negb false) with true. cbv [orb]. cbn [fst snd g_bus g_hk].
    split; [exact I'|]. split; [exact P1|]. split; [exact P2|]. split; [rewrite P3; exact L|]. split; [reflexivity|exact P3].
Qed.

(** supply, telemetered values and commands as PowerModel sees them *)
Definition same_supply (b : board) (g : gom) : Prop :=
  (forall i, (i < 6)%nat -> b_out b i = p_out g i) /\ b_heat b = p_heat g /\ b_ppt b = p_ppt g /\ (forall i, (i < 3)%nat -> b_vb b i = p_vb g i).
Definition same_values (l : list Z) (out : nat -> bool) (ppt : Z) (vb : nat -> Z) : Prop :=
  (forall i, (i < 6)%nat -> nth (15 + i) l 0 = Z.b2z (out i)) /\ nth 30 l 0 = ppt /\ (forall i, (i < 3)%nat -> nth i l 0 = vb i).
(** values shown after a reading *)
Lemma shown_values b g : board_legal b -> same_supply b g -> same_values (published (turns all_flips (hk_image (hk_of b) 0 65))) (p_out g) (p_ppt g) (p_vb g).
Proof.
  intros L (S1 & S2 & S3 & S4). rewrite (image_published _ L). split; [|split].
  - intros i Hi. rewrite <- (S1 i Hi). do 6 (destruct i as [|i]; [cbn; match goal with |- context [b_out b ?k] => destruct (b_out b k) end; reflexivity|]). lia.
  - cbn. exact S3.
  - intros i Hi. rewrite <- (S4 i Hi). do 3 (destruct i as [|i]; [reflexivity|]). lia.
Qed.

(** the relation between the two models *)
Definition same_cmds (c : cmds) (g : gom) : Prop :=
  (forall i, (i < 6)%nat -> m_cyc c i = c_cyc g i) /\ (forall i, (i < 3)%nat -> m_pv c i = c_pv g i) /\ m_ppt c = c_ppt g /\ m_heat c = c_heat g /\
  m_off c = c_off g /\ m_period c = c_period g.
Record agree (e : genv) (log : list (nat * bool)) (pub : list Z) (d : ndrv) (c : cmds) (g : gom) : Prop := mk_agree {
  a_idle : nidle d; a_env : env d = e; a_log : b_log (brd d) = log; a_legal : board_legal (brd d); a_len : length (g_hk d) = hk_size;
  a_sup : same_supply (brd d) g; a_hk : same_values (published (g_hk d)) (k_out g) (k_ppt g) (k_vb g);
  a_pub : same_values pub (f_out g) (f_ppt g) (f_vb g); a_cmd : same_cmds c g;
  a_ppt : 0 <= c_ppt g; a_rst : m_rst c = false; a_boot : m_boot c = false }.

Lemma legal_out b i v : board_legal b -> board_legal (mk_board (fun j => if Nat.eqb j i then v else b_out b j) (b_heat b) (b_ppt b) (b_vb b) (b_rest b) (b_log b)).
Proof.
  intros L k Hk. specialize (L k Hk). unfold hk_of in *. cbn [b_out b_heat b_ppt b_vb b_rest] in *.
  destruct (Nat.ltb k 3); [exact L|]. destruct (Nat.leb 16 k && Nat.leb k 21) eqn:Q; [|exact L].
  assert (W : 1 <= 256 ^ Z.of_nat (hk_width k) - 1).
  { assert (0 < hk_width k)%nat. { clear -Hk. do 65 (destruct k as [|k]; [cbv; lia|]). lia. }
    assert (256 ^ 1 <= 256 ^ Z.of_nat (hk_width k)) as P by (apply Z.pow_le_mono_r; lia). rewrite Z.pow_1_r in P. lia. }
  destruct (Nat.eqb (k - 16) i); [destruct v; cbn [Z.b2z]; lia|exact L].
Qed.

(** switching an output *)
Lemma switch_agree e log pub d c g i v jk : agree e log pub d c g -> (i < 6)%nat ->
  agree e (log ++ [(i, v)]) pub (fst (set_single_output nano (Z.of_nat i) (Z.b2z v) 0 jk d)) c (set_single e i v g).
Proof.
  intros A Hi. destruct (switch_does i v jk d Hi (a_idle _ _ _ _ _ _ A)) as (I & B & E & H).
  set (d' := fst _) in *. rewrite (a_env _ _ _ _ _ _ A) in *. unfold answer in B. cbn [heard noted obey] in B. rewrite Nat2Z.id in B.
  assert (V : negb (Z.b2z v =? 0) = v) by (destruct v; reflexivity). rewrite V in B.
  unfold set_single. destruct (Nat.ltb_spec 5 i); [lia|].
  destruct A as [AI AE AL ALg AN AS AH AP AC AX AY AZ]. destruct AS as (S1 & S2 & S3 & S4).
  destruct (ge_out e i) eqn:G.
  - cbn [fst] in B. split; try assumption.
    + rewrite B. cbn. rewrite AL. reflexivity.
    + rewrite B. exact (legal_out _ _ _ ALg).
    + rewrite H. exact AN.
    + rewrite B. split; [|split; [exact S2|split; [exact S3|exact S4]]]. intros j Hj. cbn. unfold fset. destruct (Nat.eqb j i); [reflexivity|apply S1, Hj].
    + rewrite H. exact AH.
  - cbn [fst] in B. split; try assumption.
    + rewrite B. cbn. rewrite AL. reflexivity.
    + rewrite B. exact ALg.
    + rewrite H. exact AN.
    + rewrite B. exact (conj S1 (conj S2 (conj S3 S4))).
    + rewrite H. exact AH.
Qed.

Lemma cycle_agree e jk pub : forall l log tr d c g, (forall i, In i l -> (i < 6)%nat) -> agree e (log ++ tr) pub d c g ->
  let r := fold_left (EpsModel.cycle_one nano jk pub) l (d, c) in let q := fold_left (PowerModel.cycle_one e) l (g, tr) in
  agree e (log ++ snd q) pub (fst r) (snd r) (fst q).
Proof.
  induction l as [|i l IH]; intros log tr d c g Hl A; [exact A|].
  cbn [fold_left]. assert (Hi : (i < 6)%nat) by (apply Hl; left; reflexivity).
  assert (C : m_cyc c i = c_cyc g i) by (apply (a_cmd _ _ _ _ _ _ A), Hi).
  assert (F : nth (15 + i) pub 0 = Z.b2z (f_out g i)) by (apply (a_pub _ _ _ _ _ _ A), Hi).
  assert (X : EpsModel.cycle_one nano jk pub (d, c) i = if c_cyc g i then
    if f_out g i then (fst (set_single_output nano (Z.of_nat i) 0 0 (jk i) d), c)
    else (fst (set_single_output nano (Z.of_nat i) 1 0 (jk i) d), EpsModel.set_cyc i false c) else (d, c)).
  { unfold EpsModel.cycle_one. rewrite C. unfold at_. change (p_output + i)%nat with (15 + i)%nat. rewrite F. destruct (f_out g i); reflexivity. }
  assert (Y : PowerModel.cycle_one e (g, tr) i = if c_cyc g i then
    if f_out g i then (set_single e i false g, tr ++ [(i, false)]) else (PowerModel.set_cyc (set_single e i true g) i false, tr ++ [(i, true)]) else (g, tr)) by reflexivity.
  rewrite X, Y. clear X Y. destruct (c_cyc g i).
  - destruct (f_out g i).
    + apply IH; [intros; apply Hl; right; assumption|].
      rewrite app_assoc. exact (switch_agree e _ pub d c g i false (jk i) A Hi).
    + apply IH; [intros; apply Hl; right; assumption|].
      rewrite app_assoc. pose proof (switch_agree e _ pub d c g i true (jk i) A Hi) as N. destruct N as [N1 N2 N3 N4 N5 N6 N7 N8 N9 NX NY NZ].
      split; try assumption.
      destruct N9 as (M1 & M2). split; [|exact M2]. intros j Hj. cbn. unfold upd, fset. destruct (Nat.eqb j i); [reflexivity|apply M1, Hj].
  - apply IH; [intros; apply Hl; right; assumption|exact A].
Qed.

Lemma outputs_agree e jk log pub d c g : agree e log pub d c g ->
  let r := EpsModel.cycle_outputs nano jk pub (d, c) in let q := PowerModel.cycle_outputs e g in agree e (log ++ snd q) pub (fst r) (snd r) (fst q).
Proof.
  intros A. unfold EpsModel.cycle_outputs, PowerModel.cycle_outputs. cbn [snd].
  assert (O : m_off c = c_off g) by (apply (a_cmd _ _ _ _ _ _ A)). rewrite O.
  apply cycle_agree; [intros i; destruct (c_off g); cbn; lia|]. rewrite app_nil_r. exact A.
Qed.

(** panel voltages *)
Lemma pv_message_is a b c : pv_message a b c = [11; bswap16 a / 256 mod 256; bswap16 a mod 256; bswap16 b / 256 mod 256; bswap16 b mod 256; bswap16 c / 256 mod 256; bswap16 c mod 256].
Proof.
  assert (E : forall v, bswap 2 v = bswap16 v). { intros v. unfold bswap, bswap16. cbn. lia. }
  unfold pv_message. cbn [flat_map app]. rewrite !E. reflexivity.
Qed.
Lemma bswap16_range v : 0 <= bswap16 v < 65536.
Proof. unfold bswap16. lia. Qed.
Lemma bswap16_bytes v : value [bswap16 v / 256 mod 256; bswap16 v mod 256] = bswap16 v.
Proof. pose proof (bswap16_range v). cbn. lia. Qed.
Lemma legal_vb b vb : board_legal b -> (forall i, (i < 3)%nat -> 0 <= vb i < 65536) -> board_legal (mk_board (b_out b) (b_heat b) (b_ppt b) vb (b_rest b) (b_log b)).
Proof.
  intros L V k Hk. specialize (L k Hk). unfold hk_of in *. cbn [b_out b_heat b_ppt b_vb b_rest] in *.
  destruct (Nat.ltb_spec k 3); [|exact L]. specialize (V k H). do 3 (destruct k as [|k]; [exact V|]). lia.
Qed.
Lemma pv_agree e jk log pub d c g : agree e log pub d c g ->
  agree e log pub (if (at_ pub p_pptmode =? 2) && (negb (at_ pub 0 =? m_pv c 0) || negb (at_ pub 1 =? m_pv c 1) || negb (at_ pub 2 =? m_pv c 2))
           then fst (set_pv_volt nano (m_pv c 0) (m_pv c 1) (m_pv c 2) jk d) else d) c (pv_step e g).
Proof.
  intros A. unfold pv_step. destruct A as [AI AE AL ALg AN AS AH AP AC AX AY AZ].
  assert (P := AP). destruct P as (_ & P2 & P3). assert (Q := AC). destruct Q as (_ & Q2 & _).
  unfold at_, p_pptmode. rewrite P2, (P3 0%nat), (P3 1%nat), (P3 2%nat), (Q2 0%nat), (Q2 1%nat), (Q2 2%nat) by lia.
  destruct ((f_ppt g =? 2) && _); [|split; assumption].
  destruct (command_does [pv_message (c_pv g 0) (c_pv g 1) (c_pv g 2)] 11 jk d AI) as (I & B & E & H). fold (set_pv_volt nano (c_pv g 0) (c_pv g 1) (c_pv g 2)) in *.
  set (d' := fst _) in *. rewrite AE in *. cbn [concat] in B. rewrite app_nil_r, pv_message_is in B. unfold answer in B. cbn [heard noted obey] in B. rewrite !bswap16_bytes in B.
  destruct AS as (S1 & S2 & S3 & S4).
  destruct (ge_pv e); cbn [fst] in B.
  - split; try assumption.
    + rewrite B. exact AL.
    + rewrite B. apply legal_vb; [exact ALg|]. intros i Hi. do 3 (destruct i as [|i]; [apply bswap16_range|]). lia.
    + rewrite H. exact AN.
    + rewrite B. split; [exact S1|split; [exact S2|split; [exact S3|]]]. intros i Hi. do 3 (destruct i as [|i]; [reflexivity|]). lia.
    + rewrite H. exact AH.
  - split; try assumption; try (rewrite B; assumption).
    + rewrite H. exact AN.
    + rewrite B. exact (conj S1 (conj S2 (conj S3 S4))).
    + rewrite H. exact AH.
Qed.

(** tracker mode *)
Lemma legal_ppt b m : board_legal b -> 0 <= m < 256 -> board_legal (mk_board (b_out b) (b_heat b) m (b_vb b) (b_rest b) (b_log b)).
Proof.
  intros L V k Hk. specialize (L k Hk). unfold hk_of in *. cbn [b_out b_heat b_ppt b_vb b_rest] in *.
  destruct (Nat.ltb k 3); [exact L|]. destruct (Nat.leb 16 k && Nat.leb k 21); [exact L|]. destruct (Nat.eqb_spec k 63); [subst k; exact V|exact L].
Qed.
Lemma ppt_agree e jk log pub d c g : agree e log pub d c g ->
  agree e log pub (if negb (at_ pub p_pptmode =? m_ppt c) then fst (set_ppt_mode nano (m_ppt c) jk d) else d) c (ppt_step e g).
Proof.
  intros A. unfold ppt_step. destruct A as [AI AE AL ALg AN AS AH AP AC AX AY AZ].
  assert (P := AP). destruct P as (_ & P2 & _). assert (Q := AC). destruct Q as (_ & _ & Q3 & _).
  unfold at_, p_pptmode. rewrite P2, Q3. destruct (f_ppt g =? c_ppt g); cbn [negb andb]; [split; assumption|].
  unfold set_ppt_mode. destruct (Z.ltb_spec 2 (c_ppt g)); destruct (Z.leb_spec (c_ppt g) 2); try lia; cbn [andb fst]; [split; assumption|].
  destruct (command_does [[12; c_ppt g]] 12 jk d AI) as (I & B & E & H'). set (d' := fst _) in *. rewrite AE in *. unfold answer in B. cbn [concat app heard noted obey] in B.
  destruct AS as (S1 & S2 & S3 & S4).
  destruct (ge_ppt e); cbn [fst] in B.
  - split; try assumption.
    + rewrite B. exact AL.
    + rewrite B. apply legal_ppt; [exact ALg|lia].
    + rewrite H'. exact AN.
    + rewrite B. split; [exact S1|split; [exact S2|split; [reflexivity|exact S4]]].
    + rewrite H'. exact AH.
  - split; try assumption; try (rewrite B; assumption).
    + rewrite H'. exact AN.
    + rewrite B. exact (conj S1 (conj S2 (conj S3 S4))).
    + rewrite H'. exact AH.
Qed.

(** the heater *)
Lemma query_agree e jk log pub d c g : agree e log pub d c g -> (ge_query e = false -> u8 (jk 0%nat) <> 13) ->
  agree e log pub (fst (EpsModel.get_heater nano jk d)) c g /\ snd (EpsModel.get_heater nano jk d) = PowerModel.get_heater e g.
Proof.
  intros [AI AE AL ALg AN AS AH AP AC AX AY AZ] C. rewrite <- AE in C. destruct (query_nano jk d AI C) as (D & B & V). destruct (D AI) as (I & _ & E & H). rewrite AE in *.
  split.
  - split; try assumption; try (rewrite B; assumption); try (rewrite H; assumption).
  - rewrite V. unfold PowerModel.get_heater. destruct AS as (_ & S2 & _). rewrite S2. destruct (ge_query e), (p_heat g); reflexivity.
Qed.
Lemma heater_agree e jk log pub d c g m : agree e log pub d c g ->
  agree e log pub (fst (set_heater nano m jk d)) c
    (if ge_heat e then mk_g (p_out g) m (p_ppt g) (p_vb g) (k_out g) (k_ppt g) (k_vb g) (f_out g) (f_ppt g) (f_vb g)
      (c_cyc g) (c_pv g) (c_ppt g) (c_heat g) (c_off g) (c_period g) else g).
Proof.
  intros [AI AE AL ALg AN AS AH AP AC AX AY AZ]. destruct (heater_does m jk d AI) as (I & B & E & H). set (d' := fst _) in *. rewrite AE in *.
  unfold answer in B. cbn [heard noted obey] in B. assert (V : negb (Z.b2z m =? 0) = m) by (destruct m; reflexivity). rewrite V in B.
  destruct AS as (S1 & S2 & S3 & S4).
  destruct (ge_heat e); cbn [fst] in B.
  - split; try assumption.
    + rewrite B. exact AL.
    + rewrite B. exact ALg.
    + rewrite H. exact AN.
    + rewrite B. split; [exact S1|split; [reflexivity|split; [exact S3|exact S4]]].
    + rewrite H. exact AH.
  - split; try assumption; try (rewrite B; assumption).
    + rewrite H. exact AN.
    + rewrite B. exact (conj S1 (conj S2 (conj S3 S4))).
    + rewrite H. exact AH.
Qed.
(** resetting the counters changes nothing here *)
Lemma counters_agree e jk log pub d c g : agree e log pub d c g -> agree e log pub (fst (reset_counters nano jk d)) c g.
Proof.
  intros [AI AE AL ALg AN AS AH AP AC AX AY AZ]. destruct (command_does [[15; 0x42]] 15 jk d AI) as (I & B & E & H). fold (reset_counters nano jk d) in *. set (d' := fst _) in *.
  assert (N : fst (answer (env d) (concat [[15; 0x42]]) (brd d)) = brd d) by reflexivity.
  rewrite N in B. split; try assumption; try (rewrite B; assumption); try (rewrite H; assumption). rewrite E. exact AE.
Qed.
(** housekeeping *)
Lemma hk_agree e jk log pub d c g : agree e log pub d c g -> (ge_hk e = false -> u8 (jk 0%nat) <> 8) ->
  agree e log pub (fst (EpsModel.get_hk nano jk d)) c (PowerModel.get_hk e g) /\ snd (EpsModel.get_hk nano jk d) = ge_hk e.
Proof.
  intros [AI AE AL ALg AN AS AH AP AC AX AY AZ] C. rewrite <- AE in C. destruct (hk_nano jk d AI AN C ALg) as (I & B & E & H & V & K). set (d' := fst _) in *. rewrite AE in *.
  split; [|exact V]. unfold PowerModel.get_hk. destruct (ge_hk e).
  - split; try assumption; try (rewrite B; assumption). rewrite K. exact (shown_values _ _ ALg AS).
  - split; try assumption; try (rewrite B; assumption). rewrite K. exact AH.
Qed.
(** the first cycle *)
Lemma first_agree e jk log pub d c g : agree e log pub d c g -> (ge_query e = false -> u8 (jk 0%nat) <> 13) ->
  agree e log pub (fst (EpsModel.get_heater nano jk d))
    (mk_cmd (fun _ => false) (fun i => if Nat.ltb i 3 then load 2 (o_vboost + 2 * i) (g_hk (fst (EpsModel.get_heater nano jk d))) else m_pv c i) (m_ppt c)
            (negb (snd (EpsModel.get_heater nano jk d) =? 0)) false false false (m_off c) (m_period c) (m_thr c)) (first_cycle e g).
Proof.
  intros A C. destruct (query_agree e jk log pub d c g A C) as ([AI AE AL ALg AN AS AH AP AC AX AY AZ] & V). set (d' := fst _) in *. rewrite V.
  split; try assumption; [|reflexivity|reflexivity]. unfold first_cycle, same_cmds in *. cbn [m_cyc m_pv m_ppt m_heat m_off m_period c_cyc c_pv c_ppt c_heat c_off c_period].
  destruct AC as (C1 & C2 & C3 & C4 & C5 & C6). repeat split; try assumption.
  intros i Hi. destruct (Nat.ltb_spec i 3); [|lia]. destruct AH as (_ & _ & AH). rewrite <- (AH i Hi). do 3 (destruct i as [|i]; [reflexivity|]). lia.
Qed.

(** * One cycle *)
Theorem cycle_refines cc jk e log x g : clean e jk -> agree e log (x_pub x) (x_drv x) (x_cmd x) g ->
  match gexec nano cc jk x, gom_exec cc e g with
  | Some (x', ev), Some (g', tr) => agree e (log ++ tr) (x_pub x') (x_drv x') (x_cmd x') g' /\ fst ev = negb (ge_hk e)
  | None, None => True
  | _, _ => False
  end.
Proof.
  intros K A. unfold gexec, gom_exec.
  destruct (hk_agree e (jk 6%nat) _ _ _ _ _ A (fun q => proj1 K 6%nat q)) as (A1 & V1). clear A.
  destruct (EpsModel.get_hk nano (jk 6%nat) (x_drv x)) as [d1 ok]. cbn [fst snd] in *. subst ok.
  remember (PowerModel.get_hk e g) as g1 eqn:G1. clear G1 g.
  (* first cycle *)
  set (p2 := if cc =? 1 then let '(g, h) := EpsModel.get_heater nano (jk 7%nat) d1 in let c := x_cmd x in
      (g, mk_cmd (fun _ => false) (fun i => if Nat.ltb i 3 then load 2 (o_vboost + 2 * i) (g_hk g) else m_pv c i) (m_ppt c)
            (negb (h =? 0)) false false false (m_off c) (m_period c) (m_thr c)) else (d1, x_cmd x)).
  assert (A2 : agree e log (x_pub x) (fst p2) (snd p2) (if cc =? 1 then first_cycle e g1 else g1)).
  { unfold p2. destruct (cc =? 1); [|exact A1].
    pose proof (first_agree e (jk 7%nat) _ _ _ _ _ A1 (fun q => proj2 K 7%nat q)) as F. destruct (EpsModel.get_heater nano (jk 7%nat) d1) as [d h]. exact F. }
  clearbody p2. destruct p2 as [d2 c2]. cbn [fst snd] in A2. remember (if cc =? 1 then first_cycle e g1 else g1) as g2 eqn:G2. clear G2 A1 g1 d1.
  assert (Pr : m_period c2 = c_period g2) by (apply (a_cmd _ _ _ _ _ _ A2)). rewrite Pr. destruct (c_period g2 =? 0); [exact I|].
  (* outputs *)
  set (p3 := if cc mod c_period g2 =? 0 then EpsModel.cycle_outputs nano jk (x_pub x) (d2, c2) else (d2, c2)).
  set (q3 := if cc mod c_period g2 =? 0 then PowerModel.cycle_outputs e g2 else (g2, [])).
  assert (A3 : agree e (log ++ snd q3) (x_pub x) (fst p3) (snd p3) (fst q3)).
  { unfold p3, q3. destruct (cc mod c_period g2 =? 0); [apply outputs_agree; exact A2|]. cbn [fst snd]. rewrite app_nil_r. exact A2. }
  clearbody p3 q3. destruct p3 as [d3 c3], q3 as [g3 tr]. cbn [fst snd] in A3. clear A2 Pr g2 d2 c2.
  pose proof (pv_agree e (jk 8%nat) _ _ _ _ _ A3) as A4. clear A3. set (d4 := if (at_ (x_pub x) p_pptmode =? 2) && _ then _ else _) in *. clearbody d4.
  remember (pv_step e g3) as g4 eqn:G4. clear G4 g3 d3.
  pose proof (ppt_agree e (jk 9%nat) _ _ _ _ _ A4) as A5. clear A4. set (d5 := if negb (at_ (x_pub x) p_pptmode =? m_ppt c3) then _ else _) in *. clearbody d5.
  remember (ppt_step e g4) as g5 eqn:G5. clear G5 g4 d4.
  (* heater *)
  destruct (query_agree e (jk 10%nat) _ _ _ _ _ A5 (fun q => proj2 K 10%nat q)) as (A6 & V6). clear A5. destruct (EpsModel.get_heater nano (jk 10%nat) d5) as [d6 h]. cbn [fst snd] in *. subst h. clear d5.
  set (d7 := if m_heat c3 then _ else _).
  assert (A7 : agree e (log ++ tr) (x_pub x) d7 c3 (heater_step e g5)).
  { unfold d7, heater_step. assert (Hh : m_heat c3 = c_heat g5) by (apply (a_cmd _ _ _ _ _ _ A6)). rewrite Hh.
    pose proof (heater_agree e (jk 11%nat) _ _ _ _ _ (c_heat g5) A6) as Y.
    destruct (c_heat g5); [destruct (PowerModel.get_heater e g5 =? 0)|destruct (PowerModel.get_heater e g5 =? 1)]; cbn [andb]; assumption. }
  clearbody d7. remember (heater_step e g5) as g7 eqn:G7. clear G7 A6 g5 d6.
  set (d8 := if m_cnt c3 then _ else _).
  assert (A8 : agree e (log ++ tr) (x_pub x) d8 c3 g7). { unfold d8. destruct (m_cnt c3); [apply counters_agree|]; exact A7. }
  clearbody d8. clear A7 d7. rewrite (a_rst _ _ _ _ _ _ A8), (a_boot _ _ _ _ _ _ A8).
  set (c9 := mk_cmd _ _ _ _ _ _ _ _ _ _).
  assert (A9 : agree e (log ++ tr) (published (g_hk d8)) d8 c9 (publish g7)). { destruct A8. split; try assumption; try reflexivity. }
  destruct (query_agree e (jk 14%nat) _ _ _ _ _ A9 (fun q => proj2 K 14%nat q)) as (A10 & V10). clear V10.
  destruct (EpsModel.get_heater nano (jk 14%nat) d8) as [d10 h]. cbn [fst snd] in *.
  assert (O : m_off c9 = c_off (publish g7)) by (apply (a_cmd _ _ _ _ _ _ A9)). rewrite O. destruct (c_off (publish g7)).
  - split; [|reflexivity]. cbn [x_pub x_drv x_cmd]. rewrite app_assoc. exact (switch_agree e _ _ _ _ _ 0 false (jk 15%nat) A10 ltac:(lia)).
  - split; [|reflexivity]. exact A10.
Qed.

(** * Runs *)
Definition seen (l : list Z) (i : nat) : bool := negb (nth (15 + i) l 0 =? 0).
Definition abs (x : ctl nano) : gom :=
  let b := brd (x_drv x) in let h := published (g_hk (x_drv x)) in let c := x_cmd x in
  mk_g (b_out b) (b_heat b) (b_ppt b) (b_vb b) (seen h) (nth 30 h 0) (fun i => nth i h 0) (seen (x_pub x)) (nth 30 (x_pub x) 0) (fun i => nth i (x_pub x) 0)
    (m_cyc c) (m_pv c) (m_ppt c) (m_heat c) (m_off c) (m_period c).
Lemma seen_values l : (forall i, (i < 6)%nat -> nth (15 + i) l 0 = 0 \/ nth (15 + i) l 0 = 1) -> same_values l (seen l) (nth 30 l 0) (fun i => nth i l 0).
Proof. intros H. split; [|split]; try reflexivity. intros i Hi. unfold seen. destruct (H i Hi) as [-> | ->]; reflexivity. Qed.
Lemma published_outputs m i : (i < 6)%nat -> nth (15 + i) (published m) 0 = 0 \/ nth (15 + i) (published m) 0 = 1.
Proof.
  intros Hi. assert (T : exists z, nth (15 + i) (published m) 0 = truth z). { do 6 (destruct i as [|i]; [eexists; reflexivity|]). lia. }
  destruct T as (z & ->). unfold truth. destruct (z =? 0); auto.
Qed.
Lemma abs_agree x : sound x -> agree (env (x_drv x)) (b_log (brd (x_drv x))) (x_pub x) (x_drv x) (x_cmd x) (abs x).
Proof.
  intros (S1 & S2 & S3 & S4 & S5 & S6 & S7). split; try assumption; try reflexivity.
  - repeat split.
  - apply seen_values. intros i Hi. apply published_outputs, Hi.
  - apply seen_values, S4.
  - repeat split.
Qed.
Lemma working_clean e jk : working e -> clean e jk.
Proof. intros (W1 & _ & _ & _ & W5 & _). split; intros k H; congruence. Qed.

(** one cycle from a sound state *)
Lemma cycle_abs cc jk x x' ev : sound x -> clean (env (x_drv x)) jk -> gexec nano cc jk x = Some (x', ev) ->
  exists g' tr, gom_exec cc (env (x_drv x)) (abs x) = Some (g', tr) /\ agree (env (x_drv x)) (b_log (brd (x_drv x)) ++ tr) (x_pub x') (x_drv x') (x_cmd x') g' /\
    fst ev = negb (ge_hk (env (x_drv x))).
Proof.
  intros S C X. pose proof (cycle_refines cc jk _ _ x (abs x) C (abs_agree x S)) as R. rewrite X in R.
  destruct (gom_exec cc (env (x_drv x)) (abs x)) as [[g' tr]|]; [|contradiction]. exists g', tr. split; [reflexivity|exact R].
Qed.

(** a run of the controller is a run of PowerModel *)
Lemma run_abs i cc n x x' : (i < 6)%nat -> sound x -> nanorun i cc n x x' ->
  exists tr g' e, pcrun i cc n (abs x) tr g' /\ agree e (b_log (brd (x_drv x)) ++ tr) (x_pub x') (x_drv x') (x_cmd x') g'.
Proof.
  intros Hi S R. induction R as [x|n x x1 x2 jk x3 ev R IH M W N X].
  - exists [], (abs x), (env (x_drv x)). split; [constructor|]. rewrite app_nil_r. apply abs_agree, S.
  - destruct (IH S) as (tr & g1 & e1 & P & A). destruct M as (S2 & M1 & M2 & M3 & M4 & M5 & M6 & M7).
    assert (S2' := S2). destruct S2' as (T1 & T2 & T3 & T4 & T5 & T6 & T7).
    destruct A as [AI AE AL ALg AN AS AH AP AC AX AY AZ].
    set (b := brd (x_drv x2)). set (c := x_cmd x2).
    set (g2 := mk_g (p_out g1) (b_heat b) (b_ppt b) (b_vb b) (k_out g1) (k_ppt g1) (k_vb g1) (f_out g1) (f_ppt g1) (f_vb g1)
      (m_cyc c) (m_pv c) (m_ppt c) (m_heat c) (m_off c) (m_period c)).
    assert (A2 : agree (env (x_drv x2)) (b_log (brd (x_drv x)) ++ tr) (x_pub x2) (x_drv x2) (x_cmd x2) g2).
    { split; try assumption; try reflexivity.
      - rewrite M2. exact AL.
      - destruct AS as (Q1 & _). repeat split. intros j Hj. rewrite (M1 j Hj). exact (Q1 j Hj).
      - rewrite M3. exact AH.
      - rewrite M4. exact AP.
      - repeat split. }
    pose proof (cycle_refines (u32 (cc + (n + 1))) jk _ _ x2 g2 (working_clean _ jk W) A2) as Q. rewrite X in Q.
    destruct (gom_exec (u32 (cc + (n + 1))) (env (x_drv x2)) g2) as [[g3 t]|] eqn:G; [|contradiction].
    exists (tr ++ t), g3, (env (x_drv x2)). split; [|rewrite app_assoc; exact (proj1 Q)].
    refine (pc_S i cc n (abs x) tr g1 g2 (env (x_drv x2)) g3 t P _ W N G).
    unfold elsewhere, g2. cbn [p_out k_out f_out c_cyc c_period c_off]. destruct AC as (C1 & _ & _ & _ & _ & C6).
    repeat split; try reflexivity.
    + unfold c. rewrite M5. exact (C1 i Hi).
    + unfold c. rewrite M6. exact C6.
    + exact M7.
Qed.

Theorem power_cycle_bytes i cc n x x' : (i < 6)%nat -> sound x -> 0 < m_period (x_cmd x) < 2 ^ 32 ->
  m_cyc (x_cmd x) i = true -> b_out (brd (x_drv x)) i = true -> nth (15 + i) (x_pub x) 0 = 1 -> b_log (brd (x_drv x)) = [] -> nanorun i cc n x x' ->
  let sent := sent i (b_log (brd (x_drv x'))) in let cyc := m_cyc (x_cmd x') i in let out := b_out (brd (x_drv x')) i in
  ((sent = [] /\ cyc = true /\ out = true) \/ ((sent = [false] \/ sent = [false; false]) /\ cyc = true /\ out = false) \/
   ((sent = [false; true] \/ sent = [false; false; true]) /\ cyc = false /\ out = true)) /\
  (3 * m_period (x_cmd x) <= n -> cyc = false /\ out = true).
Proof.
  intros Hi S Hp Hc Ho Hf Hl R. destruct (run_abs i cc n x x' Hi S R) as (tr & g' & e & P & A).
  rewrite Hl in A. cbn [app] in A. cbv zeta. rewrite (a_log _ _ _ _ _ _ A).
  assert (C : m_cyc (x_cmd x') i = c_cyc g' i) by (apply (a_cmd _ _ _ _ _ _ A), Hi).
  assert (O : b_out (brd (x_drv x')) i = p_out g' i) by (apply (a_sup _ _ _ _ _ _ A), Hi).
  rewrite C, O. apply (power_cycle_run i cc n (abs x) tr g' Hi Hp Hc Ho); [|exact P].
  cbn [abs f_out]. unfold seen. rewrite Hf. reflexivity.
Qed.
Theorem power_on_bytes i cc n x x' : (i < 6)%nat -> sound x -> 0 < m_period (x_cmd x) < 2 ^ 32 ->
  m_cyc (x_cmd x) i = true -> b_out (brd (x_drv x)) i = false -> nth (15 + i) (x_pub x) 0 = 0 -> b_log (brd (x_drv x)) = [] -> nanorun i cc n x x' ->
  let sent := sent i (b_log (brd (x_drv x'))) in let cyc := m_cyc (x_cmd x') i in let out := b_out (brd (x_drv x')) i in
  ((sent = [] /\ cyc = true /\ out = false) \/ (sent = [true] /\ cyc = false /\ out = true)) /\ (m_period (x_cmd x) <= n -> out = true).
Proof.
  intros Hi S Hp Hc Ho Hf Hl R. destruct (run_abs i cc n x x' Hi S R) as (tr & g' & e & P & A).
  rewrite Hl in A. cbn [app] in A. cbv zeta. rewrite (a_log _ _ _ _ _ _ A).
  assert (C : m_cyc (x_cmd x') i = c_cyc g' i) by (apply (a_cmd _ _ _ _ _ _ A), Hi).
  assert (O : b_out (brd (x_drv x')) i = p_out g' i) by (apply (a_sup _ _ _ _ _ _ A), Hi).
  rewrite C, O. apply (power_on_run i cc n (abs x) tr g' Hi Hp Hc Ho); [|exact P].
  cbn [abs f_out]. unfold seen. rewrite Hf. reflexivity.
Qed.
Theorem others_bytes cc jk x x' ev j v : sound x -> clean (env (x_drv x)) jk -> gexec nano cc jk x = Some (x', ev) ->
  exists tr, b_log (brd (x_drv x')) = b_log (brd (x_drv x)) ++ tr /\
    (In (j, v) tr -> (m_cyc (x_cmd x) j = true /\ v = (nth (15 + j) (x_pub x) 0 =? 0)) \/ (j = 0%nat /\ v = false /\ m_off (x_cmd x) = true)).
Proof.
  intros S C X. destruct (cycle_abs cc jk x x' ev S C X) as (g' & tr & G & A & _). exists tr. split; [exact (a_log _ _ _ _ _ _ A)|].
  intros H. destruct (exec_touch cc _ _ g' tr j v G H) as [(H1 & H2)|H1]; [left|right; exact H1]. split; [exact H1|].
  rewrite H2. cbn [abs f_out]. unfold seen. rewrite Bool.negb_involutive. reflexivity.
Qed.
Theorem heater_bytes cc jk x x' ev : sound x -> working (env (x_drv x)) -> cc <> 1 -> gexec nano cc jk x = Some (x', ev) ->
  b_heat (brd (x_drv x')) = m_heat (x_cmd x).
Proof.
  intros S W N X. destruct (cycle_abs cc jk x x' ev S (working_clean _ _ W) X) as (g' & tr & G & A & _).
  destruct (a_sup _ _ _ _ _ _ A) as (_ & -> & _). exact (heater_follows cc _ _ g' tr W N G).
Qed.
Theorem voltage_bytes cc jk x x' ev i : sound x -> working (env (x_drv x)) -> cc <> 1 -> gexec nano cc jk x = Some (x', ev) ->
  nth 30 (x_pub x) 0 = 2 -> (i < 3)%nat -> nth i (x_pub x) 0 <> m_pv (x_cmd x) i -> b_vb (brd (x_drv x')) i = bswap16 (m_pv (x_cmd x) i).
Proof.
  intros S W N X F Hi D. destruct (cycle_abs cc jk x x' ev S (working_clean _ _ W) X) as (g' & tr & G & A & _).
  destruct (a_sup _ _ _ _ _ _ A) as (_ & _ & _ & V). rewrite (V i Hi). exact (voltage_sent cc _ (abs x) g' tr i W N G F Hi D).
Qed.
Theorem receiver_off_bytes cc jk x x' ev : sound x -> clean (env (x_drv x)) jk -> gexec nano cc jk x = Some (x', ev) ->
  m_off (x_cmd x) = true -> ge_out (env (x_drv x)) 0%nat = true -> b_out (brd (x_drv x')) 0%nat = false.
Proof.
  intros S C X O H. destruct (cycle_abs cc jk x x' ev S C X) as (g' & tr & G & A & _).
  destruct (a_sup _ _ _ _ _ _ A) as (V & _). rewrite (V 0%nat) by lia. exact (exec_off cc _ _ g' tr G O H).
Qed.
Theorem tracker_bytes cc1 jk1 x x1 ev1 cc2 jk2 x1' x2 ev2 : sound x -> sound x1' -> working (env (x_drv x)) -> working (env (x_drv x1')) -> cc1 <> 1 -> cc2 <> 1 ->
  m_ppt (x_cmd x) <= 2 -> gexec nano cc1 jk1 x = Some (x1, ev1) ->
  b_ppt (brd (x_drv x1')) = b_ppt (brd (x_drv x1)) -> x_pub x1' = x_pub x1 -> m_ppt (x_cmd x1') = m_ppt (x_cmd x1) ->
  gexec nano cc2 jk2 x1' = Some (x2, ev2) -> b_ppt (brd (x_drv x2)) = m_ppt (x_cmd x).
Proof.
  intros S S1 W W1 N N1 Hm X E1 E2 E3 X1. destruct (cycle_abs cc1 jk1 x x1 ev1 S (working_clean _ _ W) X) as (g1 & t1 & G & A & _).
  destruct (cycle_abs cc2 jk2 x1' x2 ev2 S1 (working_clean _ _ W1) X1) as (g2 & t2 & G1 & A1 & _).
  destruct (a_sup _ _ _ _ _ _ A1) as (_ & _ & V & _). rewrite V. destruct (a_sup _ _ _ _ _ _ A) as (_ & _ & U & _).
  refine (tracker_follows cc1 _ (abs x) g1 t1 cc2 _ (abs x1') g2 t2 W W1 N N1 Hm G _ _ _ G1).
  - cbn [abs p_ppt]. rewrite E1. exact U.
  - cbn [abs f_ppt]. rewrite E2. apply (a_pub _ _ _ _ _ _ A).
  - cbn [abs c_ppt]. rewrite E3. apply (a_cmd _ _ _ _ _ _ A).
Qed.
Theorem boot_bytes jk x x' ev : sound x -> working (env (x_drv x)) -> gexec nano 1 jk x = Some (x', ev) ->
  m_heat (x_cmd x') = b_heat (brd (x_drv x)) /\ b_heat (brd (x_drv x')) = b_heat (brd (x_drv x)) /\
  (forall i, (i < 3)%nat -> m_pv (x_cmd x') i = b_vb (brd (x_drv x)) i) /\ (forall i, (i < 6)%nat -> m_cyc (x_cmd x') i = false).
Proof.
  intros S W X. destruct (cycle_abs 1 jk x x' ev S (working_clean _ _ W) X) as (g' & tr & G & A & _).
  destruct (boot_takes_over _ _ g' tr W G) as (B1 & B2 & B3 & B4). destruct (a_sup _ _ _ _ _ _ A) as (_ & V & _).
  destruct (a_cmd _ _ _ _ _ _ A) as (C1 & C2 & _ & C4 & _). repeat split.
  - rewrite C4. exact B1.
  - rewrite V. exact B2.
  - intros i Hi. rewrite (C2 i Hi). exact (B3 i Hi).
  - intros i Hi. rewrite (C1 i Hi). exact (B4 i).
Qed.
(** states stay sound *)
Lemma sound_cycle cc jk x x' ev : sound x -> clean (env (x_drv x)) jk -> gexec nano cc jk x = Some (x', ev) ->
  sound x' /\ env (x_drv x') = env (x_drv x).
Proof.
  intros S C X. destruct (cycle_abs cc jk x x' ev S C X) as (g' & tr & G & [AI AE AL ALg AN AS AH AP AC AX AY AZ] & _).
  split; [|exact AE]. split; [exact AI|]. split; [exact ALg|]. split; [exact AN|]. split.
  - intros i Hi. destruct AP as (P & _). rewrite (P i Hi). destruct (f_out g' i); auto.
  - destruct AC as (_ & _ & -> & _). auto.
Qed.
