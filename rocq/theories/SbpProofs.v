(** The GPS driver and its control task. *)
From Verif Require Import Base SbpModel SbpSpec SbpCrcProofs SbpParseProofs SbpStreamProofs.

Ltac Zify.zify_post_hook ::= Z.div_mod_to_equations.

Lemma boot_wf s : parser_boot s -> wf s.
Proof. intros (H1 & H2 & H3 & H4 & H5). unfold wf. rewrite H1. repeat split; assumption. Qed.

(** *** grouping *)
Lemma delivered_feed reads : forall s, wf s -> Forall (Forall is_byte) reads ->
  exists s' l, delivered s reads = Some (s', l) /\ feed s (concat reads) = (s', concat l) /\ length l = length reads.
Proof.
  induction reads as [|r t IH]; intros s W H.
  - exists s, []. repeat split.
  - inversion H; subst. cbn [delivered concat]. rewrite drain_feed by assumption.
    destruct (IH (fst (feed s r)) (feed_wf r s W ltac:(assumption)) ltac:(assumption)) as (s' & l & E1 & E2 & E3).
    rewrite E1. exists s', (snd (feed s r) :: l). repeat split; [|cbn [length]; lia]. rewrite feed_app, E2. reflexivity.
Qed.

Theorem delivered_messages s reads : parser_boot s -> Forall (Forall is_byte) reads ->
  exists s' l, delivered s reads = Some (s', l) /\ length l = length reads /\ messages (concat reads) (map view (concat l)).
Proof.
  intros B H. pose proof (boot_wf s B) as W. destruct (delivered_feed reads s W H) as (s' & l & E1 & E2 & E3).
  exists s', l. repeat split; try assumption.
  assert (HB : Forall is_byte (concat reads)).
  { clear - H. induction H; cbn [concat]; [constructor|]. apply Forall_app. split; assumption. }
  destruct (messages_total _ HB) as (is & M). pose proof (feed_messages _ _ M s W (proj1 B) HB) as F. rewrite E2 in F. cbn [snd] in F. rewrite F. exact M.
Qed.

Definition some_parser : sbp := mk_sbp Waiting [0; 0] [0; 0] [0; 0] 0 0 (repeat 0 256).
Lemma some_parser_boot : parser_boot some_parser. Proof. repeat split. Qed.

Theorem messages_unique l a b : Forall is_byte l -> messages l a -> messages l b -> a = b.
Proof.
  intros H A B. rewrite <- (feed_messages _ _ A some_parser (boot_wf _ some_parser_boot) eq_refl H).
  apply (feed_messages _ _ B some_parser (boot_wf _ some_parser_boot) eq_refl H).
Qed.

(** the sender's side agrees with the receiver's *)
Theorem sent_message ty sender payload : two ty -> two sender -> (length payload < 256)%nat ->
  Forall is_byte ty -> Forall is_byte sender -> Forall is_byte payload ->
  sbp_send ty sender payload = framed ty sender payload (remainder (body ty sender payload)) /\
  Forall is_byte (sbp_send ty sender payload).
Proof.
  intros T S L B1 B2 B3.
  assert (B : Forall is_byte (body ty sender payload)).
  { unfold body. repeat (apply Forall_app; split; try assumption). constructor; [unfold is_byte; lia|constructor]. }
  assert (E : sbp_send ty sender payload = framed ty sender payload (remainder (body ty sender payload))).
  { unfold sbp_send, framed. rewrite <- crc_remainder by assumption. unfold body, len. rewrite !crc_app. rewrite <- !app_assoc. reflexivity. }
  split; [exact E|]. rewrite E. unfold framed. destruct (remainder_bytes (body ty sender payload)) as (R1 & R2 & _).
  constructor; [unfold is_byte; lia|]. apply Forall_app. split; [assumption|]. repeat (apply Forall_cons || apply Forall_nil); assumption.
Qed.

(** *** damage *)
Lemma xorl_app a : forall b c d, length a = length b -> xorl (a ++ c) (b ++ d) = xorl a b ++ xorl c d.
Proof. induction a as [|x a IH]; intros [|y b] c d H; cbn [length] in H; try lia; cbn [app xorl]; f_equal; auto. Qed.
Lemma xorl_self a : xorl a a = repeat false (length a).
Proof. induction a as [|x a IH]; cbn [xorl length repeat]; [reflexivity|]. rewrite Bool.xorb_nilpotent, IH. reflexivity. Qed.
Lemma xorl_length a : forall b, length a = length b -> length (xorl a b) = length a.
Proof. induction a as [|x a IH]; intros [|y b] H; cbn [length xorl] in *; try lia. f_equal. apply IH. lia. Qed.
Lemma xorl_differ a : forall b, length a = length b -> a <> b -> In true (xorl a b).
Proof.
  induction a as [|x a IH]; intros [|y b] H N; cbn [length] in H; try lia; [congruence|]. cbn [xorl].
  destruct (xorb x y) eqn:E; [left; reflexivity|]. right. apply IH; [lia|]. intros ->. apply N. f_equal. apply Bool.xorb_eq. exact E.
Qed.

Lemma burst_remainder l l' a w w' z : bits l = a ++ w ++ z -> bits l' = a ++ w' ++ z -> length w = 16%nat -> length w' = 16%nat ->
  w <> w' -> remainder l <> remainder l'.
Proof.
  intros E E' L L' N H. unfold remainder in H.
  assert (X : fold_left divide (xorl (bits l) (bits l')) (Z.lxor 0 0) = 0).
  { rewrite fold_linear, H; [apply Z.lxor_nilpotent|]. rewrite E, E', !app_length. lia. }
  rewrite E, E' in X. rewrite !xorl_app in X by lia. rewrite !xorl_self in X.
  revert X. apply burst_nonzero; [rewrite xorl_length; lia|]. apply xorl_differ; [lia|assumption].
Qed.

Lemma feed_bad s ty se payload c0 c1 : wf s -> p_st s = Waiting -> two ty -> two se ->
  Forall is_byte (0x55 :: body ty se payload) -> is_byte c0 -> is_byte c1 -> c0 + 256 * c1 <> remainder (body ty se payload) ->
  snd (feed s (0x55 :: body ty se payload ++ [c0; c1])) = [Corrupt].
Proof.
  intros W St T S B C0 C1 N. destruct (feed_message s ty se payload c0 c1 W St T S B C0 C1) as (s' & e & F & _ & _ & V & _).
  rewrite F. cbn [snd]. destruct (Z.eqb_spec (c0 + 256 * c1) (remainder (body ty se payload))); [congruence|].
  destruct e; cbn [view] in V; [discriminate|reflexivity].
Qed.

(** last byte of the payload and first byte of the checksum damaged *)
Lemma remainder_snoc l b : Forall is_byte (l ++ [b]) ->
  remainder (l ++ [Z.lxor b 0x89]) = Z.lxor (remainder (l ++ [b])) 0xA1.
Proof.
  intros B. unfold remainder, bits. rewrite !flat_map_app, !fold_left_app. cbn [flat_map]. rewrite !app_nil_r.
  set (r := fold_left divide (flat_map byte_bits l) 0). 
  assert (E : byte_bits (Z.lxor b 0x89) = xorl (byte_bits b) (byte_bits 0x89)).
  { unfold byte_bits. cbn [map xorl]. rewrite !Z.lxor_spec. reflexivity. }
  rewrite E. rewrite <- (Z.lxor_0_r r) at 1. rewrite fold_linear by reflexivity. reflexivity.
Qed.

(** *** the driver *)
Definition ev_ok (e : event) : Prop :=
  match e with Message ty se n buf => length ty = 2%nat /\ length buf = 256%nat /\ 0 <= n < 256 | Corrupt => True end.

Lemma bstep_ok s b : wf s -> is_byte b -> Forall ev_ok (snd (bstep s b)).
Proof.
  intros W Hb. destruct (norm_wf s W) as [W1 M]. unfold bstep. set (s1 := norm s) in *. clearbody s1. clear s W.
  destruct W1 as (H1 & H2 & H3 & H4 & H5). destruct s1 as [st ty se cr ml nr mb]. sbpsimp.
  destruct (two_list _ H3) as (c0 & c1 & ->).
  unfold sbp_process. sbpsimp. destruct st.
  - unfold uart_read. change (Z.to_nat 1) with 1%nat. cbn [firstn skipn]. destruct (b =? 85); constructor.
  - unfold uart_read. destruct (put _ _ _); cbn [snd]; constructor.
  - unfold uart_read. destruct (put _ _ _); cbn [snd]; constructor.
  - unfold uart_read. change (Z.to_nat 1) with 1%nat. cbn [firstn skipn]. constructor.
  - unfold uart_read. destruct (put _ _ _); cbn [snd]; constructor.
  - unfold uart_read. destruct (put _ _ _); cbn [snd]; [|constructor].
    destruct (2 <=? _); cbn [snd]; [|constructor]. constructor; [|constructor].
    destruct (_ =? _); [|exact I]. cbn [ev_ok]. repeat split; try assumption; lia.
Qed.
Lemma feed_ok l : forall s, wf s -> Forall is_byte l -> Forall ev_ok (snd (feed s l)).
Proof.
  induction l as [|b l IH]; intros s W H; cbn [feed snd]; [constructor|]. inversion H; subst.
  pose proof (bstep_ok s b W ltac:(assumption)) as A. pose proof (bstep_wf s b W ltac:(assumption)) as W'.
  destruct (bstep s b) as [s1 e1]. cbn [fst snd] in *. specialize (IH s1 W' ltac:(assumption)). destruct (feed s1 l). cbn [snd] in *.
  apply Forall_app. split; assumption.
Qed.
Lemma copies_inside evs : Forall ev_ok evs -> forallb copy_inside evs = true.
Proof.
  intros H. apply forallb_forall. intros e He. rewrite Forall_forall in H. specialize (H e He). destruct e as [ty se n buf|]; [|reflexivity].
  destruct H as (_ & H & _). cbn [copy_inside]. destruct (find _ _) as [[t m]|] eqn:F; [|reflexivity].
  apply find_some in F as [F _]. unfold len. rewrite H. cbn [callbacks In] in F.
  repeat (destruct F as [F|F]; [injection F as <- <-; reflexivity|]). contradiction.
Qed.

(** *** what the callbacks leave *)
Lemma is_type_eq ty lo hi : length ty = 2%nat -> is_type ty lo hi = if list_eq_dec Z.eq_dec ty [lo; hi] then true else false.
Proof.
  intros H. destruct (two_list _ H) as (x & y & ->). unfold is_type. cbn [nth].
  destruct (list_eq_dec Z.eq_dec [x; y] [lo; hi]) as [E|N].
  - injection E as -> ->. rewrite !Z.eqb_refl. reflexivity.
  - destruct (Z.eqb_spec x lo), (Z.eqb_spec y hi); cbn; congruence.
Qed.

Definition isSome {A} (o : option A) : bool := match o with Some _ => true | None => false end.
Definition opt {A} (n : nat) (o : option (list A)) (d : list A) : list A := match o with Some p => firstn n p | None => d end.
Definition pick (ty : list Z) (acc : option (list Z)) (it : item) : option (list Z) :=
  match it with Good t _ p => if list_eq_dec Z.eq_dec t ty then Some p else acc | Bad => acc end.

Record left_by (k0 k : piksi) (a b c d : option (list Z)) : Prop := mk_left {
  l_sbp : k_sbp k = k_sbp k0;
  l_time : k_time k = opt 11 a (k_time k0); l_time_u : k_time_u k = isSome a;
  l_pos : k_pos k = opt 32 b (k_pos k0); l_pos_u : k_pos_u k = isSome b;
  l_vel : k_vel k = opt 20 c (k_vel k0); l_vel_u : k_vel_u k = isSome c;
  l_base : k_base k = opt 20 d (k_base k0); l_base_u : k_base_u k = isSome d }.

Lemma firstn_prefix {A} (m n : nat) (l : list A) : (m <= length (firstn n l))%nat -> firstn m l = firstn m (firstn n l).
Proof. intros H. rewrite firstn_firstn. f_equal. rewrite firstn_length in H. lia. Qed.

Lemma callback_left k0 k a b c d e : left_by k0 k a b c d -> ev_ok e -> full_length [view e] ->
  left_by k0 (callback k e) (pick ty_time a (view e)) (pick ty_pos b (view e)) (pick ty_vel c (view e)) (pick ty_base d (view e)).
Proof.
  intros L O F. destruct e as [ty se n buf|]; [|exact L]. destruct O as (O1 & O2 & O3). cbn [view callback pick].
  destruct (F ty se (firstn (Z.to_nat n) buf) (or_introl eq_refl)) as (F1 & F2 & F3 & F4).
  rewrite !is_type_eq by assumption. fold ty_time ty_pos ty_vel ty_base.
  destruct L. 
  destruct (list_eq_dec Z.eq_dec ty ty_time) as [->|N1].
  { destruct (list_eq_dec Z.eq_dec ty_time ty_pos); [discriminate|]. destruct (list_eq_dec Z.eq_dec ty_time ty_vel); [discriminate|].
    destruct (list_eq_dec Z.eq_dec ty_time ty_base); [discriminate|]. constructor; cbn [k_sbp k_time k_pos k_vel k_base k_time_u k_pos_u k_vel_u k_base_u opt isSome]; try assumption; try reflexivity.
    apply firstn_prefix. auto. }
  destruct (list_eq_dec Z.eq_dec ty ty_pos) as [->|N2].
  { destruct (list_eq_dec Z.eq_dec ty_pos ty_vel); [discriminate|].
    destruct (list_eq_dec Z.eq_dec ty_pos ty_base); [discriminate|]. constructor; cbn [k_sbp k_time k_pos k_vel k_base k_time_u k_pos_u k_vel_u k_base_u opt isSome]; try assumption; try reflexivity.
    apply firstn_prefix. auto. }
  destruct (list_eq_dec Z.eq_dec ty ty_vel) as [->|N3].
  { destruct (list_eq_dec Z.eq_dec ty_vel ty_base); [discriminate|]. constructor; cbn [k_sbp k_time k_pos k_vel k_base k_time_u k_pos_u k_vel_u k_base_u opt isSome]; try assumption; try reflexivity.
    apply firstn_prefix. auto. }
  destruct (list_eq_dec Z.eq_dec ty ty_base) as [->|N4].
  { constructor; cbn [k_sbp k_time k_pos k_vel k_base k_time_u k_pos_u k_vel_u k_base_u opt isSome]; try assumption; try reflexivity.
    apply firstn_prefix. auto. }
  constructor; assumption.
Qed.

Lemma callbacks_left k0 evs : forall k a b c d, left_by k0 k a b c d -> Forall ev_ok evs -> full_length (map view evs) ->
  left_by k0 (fold_left callback evs k) (fold_left (pick ty_time) (map view evs) a) (fold_left (pick ty_pos) (map view evs) b)
    (fold_left (pick ty_vel) (map view evs) c) (fold_left (pick ty_base) (map view evs) d).
Proof.
  induction evs as [|e evs IH]; intros k a b c d L O F; cbn [fold_left map]; [assumption|]. inversion O; subst.
  apply IH; [|assumption|].
  - apply callback_left; [assumption|assumption|]. intros t s p [E|[]]. apply (F t s p). left. exact E.
  - intros t s p H. apply (F t s p). right. exact H.
Qed.
Lemma last_pick ty items : last_payload ty items = fold_left (pick ty) items None. Proof. reflexivity. Qed.

Lemma existsb_bad evs : existsb corrupt evs = true <-> In Bad (map view evs).
Proof.
  rewrite existsb_exists, in_map_iff. split.
  - intros ([|] & H & E); [discriminate|]. exists Corrupt. auto.
  - intros ([|] & E & H); [discriminate|]. exists Corrupt. auto.
Qed.

(** *** numbers *)
Lemma le_little l : le l = little l.
Proof. induction l as [|b l IH]; [reflexivity|]. cbn [le fold_right little]. fold (le l). rewrite IH. reflexivity. Qed.
Lemma field_num l off n : field l off n = num l off n. Proof. apply le_little. Qed.
Lemma num_firstn p m off n : (off + n <= m)%nat -> num (firstn m p) off n = num p off n.
Proof. intros H. unfold num. f_equal. rewrite skipn_firstn_comm, firstn_firstn. f_equal. lia. Qed.
Lemma little_range l : Forall is_byte l -> 0 <= little l < 256 ^ Z.of_nat (length l).
Proof.
  induction 1 as [|b l Hb Hl IH]; cbn [little length]; [cbn; lia|]. rewrite Nat2Z.inj_succ, Z.pow_succ_r by lia. unfold is_byte in Hb. lia.
Qed.
