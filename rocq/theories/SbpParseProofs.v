(** The parser of the GPS link works byte by byte, whatever the grouping of the bytes into reads. *)
From Verif Require Import Base SbpModel SbpSpec SbpCrcProofs.

Definition wf (s : sbp) : Prop :=
  length (p_ty s) = 2%nat /\ length (p_se s) = 2%nat /\ length (p_crc s) = 2%nat /\ length (p_buf s) = 256%nat /\
  match p_st s with
  | Waiting | GetLen => True
  | GetType | GetSender => 0 <= p_nread s < 2
  | GetMsg => 0 <= p_nread s /\ p_nread s <= p_len s < 256 /\ (p_nread s = p_len s -> p_len s = 0)
  | GetCrc => 0 <= p_nread s < 2 /\ 0 <= p_len s < 256
  end.

(** a message of length 0 is announced: the next call reads nothing *)
Definition msg0 (s : sbp) : bool := match p_st s with GetMsg => p_len s =? 0 | _ => false end.
Definition norm (s : sbp) : sbp := if msg0 s then set_st (set_nread s 0) GetCrc else s.

Lemma two_list (l : list Z) : length l = 2%nat -> exists x y, l = [x; y].
Proof. destruct l as [|x [|y [|]]]; cbn; try lia. eauto. Qed.

Lemma put_length buf off bs b : put buf off bs = Some b -> 0 <= off -> length b = length buf.
Proof.
  unfold put, len. destruct (Z.leb_spec (off + Z.of_nat (length bs)) (Z.of_nat (length buf))); [|discriminate].
  intros E Hoff. injection E as <-. rewrite !app_length, firstn_length, skipn_length. lia.
Qed.
Lemma put_some buf off bs : 0 <= off -> off + len bs <= len buf -> exists b, put buf off bs = Some b.
Proof. intros H1 H2. unfold put. destruct (Z.leb_spec (off + len bs) (len buf)); [eauto|lia]. Qed.

Lemma skipn_skipn {A} (x : nat) : forall y (l : list A), skipn x (skipn y l) = skipn (y + x) l.
Proof. induction y as [|y IH]; intros [|a l]; cbn [skipn Nat.add]; rewrite ?skipn_nil; auto. Qed.

Lemma put_cons buf off x bs b1 : 0 <= off -> put buf off [x] = Some b1 ->
  put buf off (x :: bs) = put b1 (off + 1) bs.
Proof.
  intros Hoff H1. pose proof (put_length _ _ _ _ H1 Hoff) as HL.
  unfold put in *. unfold len in *. cbn [length] in *.
  destruct (Z.leb_spec (off + Z.of_nat 1) (Z.of_nat (length buf))); [|discriminate]. injection H1 as H1.
  rewrite HL.
  destruct (Z.leb_spec (off + Z.of_nat (S (length bs))) (Z.of_nat (length buf))), (Z.leb_spec (off + 1 + Z.of_nat (length bs)) (Z.of_nat (length buf))); try lia; [|reflexivity].
  f_equal. subst b1. set (o := Z.to_nat off). replace (Z.to_nat (off + 1)) with (S o) by lia.
  assert (Ho : (o < length buf)%nat) by lia.
  assert (Hf : length (firstn o buf) = o) by (rewrite firstn_length; lia).
  rewrite (firstn_app (S o)), Hf. rewrite (firstn_all2 (n := S o) (firstn o buf)) by (rewrite Hf; lia). replace (S o - o)%nat with 1%nat by lia. cbn [firstn app].
  rewrite (skipn_app (S o + length bs)), Hf. rewrite (skipn_all2 (n := S o + length bs) (firstn o buf)) by (rewrite Hf; lia). cbn [app].
  replace (S o + length bs - o)%nat with (S (length bs)) by lia. cbn [skipn].
  rewrite skipn_skipn. rewrite <- app_assoc. cbn [app]. do 4 f_equal. lia.
Qed.

Ltac sbpsimp := unfold set_st, set_nread, set_ty, set_se, set_crc, set_len, set_buf in *; cbn [p_st p_ty p_se p_crc p_len p_nread p_buf] in *.

Lemma u32_small x : 0 <= x < 4294967296 -> u32 x = x.
Proof. intros. apply u32_id. lia. Qed.
Lemma u8_small x : 0 <= x < 256 -> u8 x = x.
Proof. intros. apply u8_id. lia. Qed.

Ltac wfc b := unfold wf; sbpsimp; change (u8 (0 + len [b])) with 1; change (u8 (1 + len [b])) with 2; cbn; repeat split; assumption || lia.

(** one byte *)
Lemma process_one s b : wf s -> msg0 s = false -> is_byte b ->
  exists s' es, sbp_process s [b] = Some (s', [], es) /\ wf s' /\
    (forall inp, inp <> [] -> sbp_process s (b :: inp) = Some (s', inp, es) \/
                              (es = [] /\ msg0 s' = false /\ sbp_process s (b :: inp) = sbp_process s' inp)).
Proof.
  intros (H1 & H2 & H3 & H4 & H5) H0 Hb. unfold is_byte in Hb.
  destruct s as [st ty se cr ml nr mb]. sbpsimp.
  destruct (two_list _ H1) as (t0 & t1 & ->). destruct (two_list _ H2) as (s0 & s1 & ->). destruct (two_list _ H3) as (c0 & c1 & ->).
  destruct st; unfold sbp_process; sbpsimp.
  - (* Waiting *)
    unfold uart_read. change (Z.to_nat 1) with 1%nat. cbn [firstn skipn].
    destruct (b =? 85); eexists _, _; (split; [reflexivity|]); (split; [unfold wf; sbpsimp; repeat split; assumption || lia|]); intros inp _; left; reflexivity.
  - (* GetType *)
    assert (nr = 0 \/ nr = 1) as [->| ->] by lia.
    + change (u32 (2 - 0)) with 2. unfold uart_read. change (Z.to_nat 2) with 2%nat. cbn [firstn skipn].
      eexists _, _. split; [reflexivity|]. split; [wfc b|].
      intros inp Hi. right. destruct inp as [|x inp]; [congruence|]. repeat split.
    + change (u32 (2 - 1)) with 1. unfold uart_read. change (Z.to_nat 1) with 1%nat. cbn [firstn skipn].
      eexists _, _. split; [reflexivity|]. split; [wfc b|].
      intros inp _. left. reflexivity.
  - (* GetSender *)
    assert (nr = 0 \/ nr = 1) as [->| ->] by lia.
    + change (u32 (2 - 0)) with 2. unfold uart_read. change (Z.to_nat 2) with 2%nat. cbn [firstn skipn].
      eexists _, _. split; [reflexivity|]. split; [wfc b|].
      intros inp Hi. right. destruct inp as [|x inp]; [congruence|]. repeat split.
    + change (u32 (2 - 1)) with 1. unfold uart_read. change (Z.to_nat 1) with 1%nat. cbn [firstn skipn].
      eexists _, _. split; [reflexivity|]. split; [wfc b|].
      intros inp _. left. reflexivity.
  - (* GetLen *)
    unfold uart_read. change (Z.to_nat 1) with 1%nat. cbn [firstn skipn].
    eexists _, _. split; [reflexivity|]. split; [unfold wf; sbpsimp; repeat split; try assumption; lia|].
    intros inp _. left. reflexivity.
  - (* GetMsg *)
    unfold msg0 in H0. sbpsimp. assert (ml <> 0) by lia. assert (Hn : 0 <= nr < ml) by lia. assert (Hm : ml < 256) by lia. clear H5 H0.
    rewrite (u32_small (ml - nr)) by lia.
    unfold uart_read. destruct (Z.to_nat (ml - nr)) as [|k] eqn:Ek; [lia|]. cbn [firstn skipn].
    rewrite firstn_nil, skipn_nil.
    assert (Hl : len mb = 256) by (unfold len; lia).
    destruct (put_some mb nr [b]) as [b1 Eb]; [lia|unfold len at 1; cbn; lia|].
    pose proof (put_length _ _ _ _ Eb ltac:(lia)) as Hb1.
    rewrite Eb. unfold len at 1 2. cbn [length]. rewrite !(u8_small (nr + Z.of_nat 1)) by lia.
    eexists _, _. split; [reflexivity|].
    destruct (Z.leb_spec (ml - (nr + Z.of_nat 1)) 0).
    + split; [unfold wf; sbpsimp; cbn [length]; repeat split; try assumption; lia|].
      intros inp _. left. assert (k = O) by lia. subst k. cbn [firstn skipn]. rewrite Eb. unfold len. cbn [length].
      rewrite !(u8_small (nr + Z.of_nat 1)) by lia. destruct (Z.leb_spec (ml - (nr + Z.of_nat 1)) 0); [reflexivity|lia].
    + split; [unfold wf; sbpsimp; cbn [length]; repeat split; try assumption; lia|].
      intros inp Hi. right. split; [reflexivity|]. split; [unfold msg0; sbpsimp; lia|].
      sbpsimp. rewrite (put_cons mb nr b (firstn k inp) b1) by (assumption || lia).
      replace (u32 (ml - (nr + Z.of_nat 1))) with (Z.of_nat k) by (rewrite u32_small; lia).
      rewrite Nat2Z.id. replace (nr + Z.of_nat 1) with (nr + 1) by lia.
      destruct (put b1 (nr + 1) (firstn k inp)); [|reflexivity].
      unfold len. cbn [length]. rewrite firstn_length. replace (nr + Z.of_nat (S (Nat.min k (length inp)))) with (nr + 1 + Z.of_nat (Nat.min k (length inp))) by lia.
      reflexivity.
  - (* GetCrc *)
    destruct H5 as [H5 H6]. assert (nr = 0 \/ nr = 1) as [->| ->] by lia.
    + change (u32 (2 - 0)) with 2. unfold uart_read. change (Z.to_nat 2) with 2%nat. cbn [firstn skipn].
      eexists _, _. split; [reflexivity|]. split; [wfc b|].
      intros inp Hi. right. destruct inp as [|x inp]; [congruence|]. split; [reflexivity|]. split; [reflexivity|].
      change (u32 (2 - u8 (0 + len [b]))) with 1. change (Z.to_nat 1) with 1%nat. cbn [firstn skipn]. reflexivity.
    + change (u32 (2 - 1)) with 1. unfold uart_read. change (Z.to_nat 1) with 1%nat. cbn [firstn skipn].
      eexists _, _. split; [reflexivity|]. split; [wfc b|].
      intros inp _. left. reflexivity.
Qed.

(** the parser fed one byte at a time *)
Definition bstep (s : sbp) (b : Z) : sbp * list event :=
  match sbp_process (norm s) [b] with Some (s', _, es) => (s', es) | None => (norm s, []) end.
Fixpoint feed (s : sbp) (l : list Z) : sbp * list event :=
  match l with
  | [] => (s, [])
  | b :: t => let '(s1, e1) := bstep s b in let '(s2, e2) := feed s1 t in (s2, e1 ++ e2)
  end.

Lemma norm_wf s : wf s -> wf (norm s) /\ msg0 (norm s) = false.
Proof.
  intros H. unfold norm. destruct (msg0 s) eqn:E; [|auto]. split; [|reflexivity].
  destruct H as (H1 & H2 & H3 & H4 & H5). unfold wf, msg0 in *. sbpsimp. destruct (p_st s); try discriminate. repeat split; try assumption; lia.
Qed.
Lemma bstep_wf s b : wf s -> is_byte b -> wf (fst (bstep s b)).
Proof.
  intros H Hb. destruct (norm_wf s H) as [H1 H2]. destruct (process_one (norm s) b H1 H2 Hb) as (s' & es & E & W & _).
  unfold bstep. rewrite E. exact W.
Qed.
Lemma feed_wf l : forall s, wf s -> Forall is_byte l -> wf (fst (feed s l)).
Proof.
  induction l as [|b l IH]; intros s H Hl; cbn [feed]; [assumption|]. inversion Hl; subst.
  pose proof (bstep_wf s b H H2) as W. destruct (bstep s b) as [s1 e1]. cbn [fst] in W. specialize (IH s1 W H3).
  destruct (feed s1 l) as [s2 e2]. exact IH.
Qed.

(** the announcement of an empty message is worked off without reading *)
Lemma process_msg0 s inp : wf s -> msg0 s = true -> inp <> [] -> sbp_process s inp = Some (norm s, inp, []).
Proof.
  intros (H1 & H2 & H3 & H4 & H5) H0 Hi. unfold norm. rewrite H0. unfold msg0 in H0. destruct s as [st ty se cr ml nr mb]. sbpsimp.
  destruct st; try discriminate. assert (ml = 0) by lia. subst ml. assert (nr = 0) by lia. subst nr.
  unfold sbp_process; sbpsimp. change (u32 (0 - 0)) with 0. unfold uart_read. change (Z.to_nat 0) with O. cbn [firstn skipn].
  unfold put. unfold len at 1. cbn [length]. destruct (Z.leb_spec (0 + Z.of_nat 0) (len mb)); [|unfold len in *; lia].
  change (Z.to_nat 0) with O. cbn [firstn app skipn Nat.add].
  change (u8 (0 + len [])) with 0. cbn [Z.leb Z.sub]. reflexivity.
Qed.

Lemma drain_feed_norm : forall inp s evs f, wf s -> Forall is_byte inp ->
  (msg0 s = false -> (2 * length inp - 1 <= f)%nat -> drain f s inp evs = Done (fst (feed s inp)) (evs ++ snd (feed s inp))) /\
  ((2 * length inp <= f)%nat -> drain f s inp evs = Done (fst (feed s inp)) (evs ++ snd (feed s inp))).
Proof.
  induction inp as [|b inp IH]; intros s evs f W Hl.
  { split; intros; destruct f; cbn [drain feed fst snd]; rewrite app_nil_r; reflexivity. }
  inversion Hl as [|? ? Hb Hi]; subst.
  assert (A : forall s f, wf s -> msg0 s = false -> (2 * length (b :: inp) - 1 <= f)%nat ->
              drain f s (b :: inp) evs = Done (fst (feed s (b :: inp))) (evs ++ snd (feed s (b :: inp)))).
  { clear s f W. intros s f W M F. destruct (process_one s b W M Hb) as (s' & es & E & W' & P).
    assert (EB : bstep s b = (s', es)) by (unfold bstep, norm; rewrite M, E; reflexivity).
    cbn [feed]. rewrite EB.
    destruct f as [|f]; [cbn [length] in F; lia|].
    destruct inp as [|c inp].
    - cbn [drain]. rewrite E. destruct f; cbn [drain feed fst snd]; rewrite app_nil_r; reflexivity.
    - destruct (P (c :: inp)) as [P1|(Ee & M' & P1)]; [congruence| |].
      + change (drain (S f) s (b :: c :: inp) evs) with
          (match sbp_process s (b :: c :: inp) with None => Overrun | Some (s', rest, es) => drain f s' rest (evs ++ es) end).
        rewrite P1. destruct (IH s' (evs ++ es) f W' Hi) as [_ IH2]. rewrite IH2 by (cbn [length] in *; lia).
        destruct (feed s' (c :: inp)) as [s2 e2]. cbn [fst snd]. rewrite <- app_assoc. reflexivity.
      + destruct (IH s' evs (S f) W' Hi) as [IH1 _]. specialize (IH1 M' ltac:(cbn [length] in *; lia)).
        change (drain (S f) s (b :: c :: inp) evs) with
          (match sbp_process s (b :: c :: inp) with None => Overrun | Some (s', rest, es) => drain f s' rest (evs ++ es) end).
        change (drain (S f) s' (c :: inp) evs) with
          (match sbp_process s' (c :: inp) with None => Overrun | Some (s', rest, es) => drain f s' rest (evs ++ es) end) in IH1.
        rewrite P1, IH1. subst es. destruct (feed s' (c :: inp)) as [s2 e2]. cbn [fst snd app]. reflexivity. }
  split; [apply A; assumption|]. intros F. destruct (msg0 s) eqn:M.
  - destruct f as [|f]; [cbn [length] in F; lia|].
    change (drain (S f) s (b :: inp) evs) with
          (match sbp_process s (b :: inp) with None => Overrun | Some (s', rest, es) => drain f s' rest (evs ++ es) end).
    rewrite process_msg0 by (assumption || discriminate). rewrite app_nil_r.
    destruct (norm_wf s W) as [W' M']. rewrite A; [|assumption|assumption|cbn [length] in *; lia].
    assert (EB : bstep (norm s) b = bstep s b) by (unfold bstep; replace (norm (norm s)) with (norm s); [reflexivity|unfold norm at 2; rewrite M'; reflexivity]).
    cbn [feed]. rewrite EB. reflexivity.
  - apply A; [assumption|assumption|lia].
Qed.

Lemma drain_feed s inp : wf s -> Forall is_byte inp ->
  drain (2 * length inp) s inp [] = Done (fst (feed s inp)) (snd (feed s inp)).
Proof. intros W H. destruct (drain_feed_norm inp s [] (2 * length inp) W H) as [_ E]. rewrite E by lia. reflexivity. Qed.

Lemma feed_app a : forall s b, feed s (a ++ b) =
  (fst (feed (fst (feed s a)) b), snd (feed s a) ++ snd (feed (fst (feed s a)) b)).
Proof.
  induction a as [|x a IH]; intros s b; cbn [feed app fst snd]; [destruct (feed s b); reflexivity|].
  destruct (bstep s x) as [s1 e1]. rewrite IH. destruct (feed s1 a) as [s2 e2]. cbn [fst snd].
  destruct (feed s2 b) as [s3 e3]. cbn [fst snd]. rewrite app_assoc. reflexivity.
Qed.
