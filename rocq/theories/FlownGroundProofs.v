From Coq Require Import String List.
From Verif Require Import Base BitArrayModel BitArrayProofs IntSerModel IntSerSpec IntSerProofs
  DownlinkModel DownlinkSpec DownlinkProofs DownlinkGroundProofs DownlinkTableProofs FlownModel FlownSpec FlownProofs.
Open Scope string_scope.
Open Scope list_scope.
Open Scope Z_scope.
Opaque flown registry.

(** ** clearing bits *)
Lemma clear_length l : forall k, length (clear k l) = length l.
Proof. induction l as [|b l IH]; intros [|k]; cbn [clear length]; try reflexivity. rewrite IH. reflexivity. Qed.
Lemma clear_app_r a : forall k b, clear (length a + k) (a ++ b) = a ++ clear k b.
Proof. induction a as [|x a IH]; intros k b; [reflexivity|]. cbn [length Nat.add app clear]. rewrite IH. reflexivity. Qed.
Lemma clear_app_l a : forall k b, (k < length a)%nat -> clear k (a ++ b) = clear k a ++ b.
Proof. induction a as [|x a IH]; intros [|k] b H; cbn [length] in *; try lia; [reflexivity|]. cbn [app clear]. rewrite IH by lia. reflexivity. Qed.
Lemma clear_nth l : forall k i, nth_error (clear k l) i = if (i =? k)%nat then (if Nat.ltb k (length l) then Some false else None) else nth_error l i.
Proof.
  induction l as [|b l IH]; intros k i.
  - cbn [clear length]. destruct (Nat.ltb_spec k 0); [lia|]. destruct (i =? k)%nat, i; reflexivity.
  - destruct k as [|k], i as [|i]; try reflexivity. cbn [clear nth_error length Nat.eqb]. rewrite IH.
    destruct (i =? k)%nat; [|reflexivity]. destruct (Nat.ltb_spec k (length l)), (Nat.ltb_spec (S k) (S (length l))); try lia; reflexivity.
Qed.

(** ** cutting received bits into packets *)
Lemma chop q : forall w r, length w = (560 * q + S r)%nat ->
  exists ps m tail, w = concat (map (fun p => fst p :: snd p) ps) ++ m :: tail /\ length ps = q /\
    Forall (fun p : bool * list bool => length (snd p) = 559%nat) ps /\ length tail = r /\
    (forall j, (j < 559 * q + r)%nat -> (r < 560)%nat -> nth_error (concat (map snd ps) ++ tail) j = nth_error w (j + 1 + j / 559)).
Proof.
  induction q as [|q IH]; intros w r HL.
  - destruct w as [|m tail]; [discriminate|]. exists [], m, tail. cbn [map concat app length] in *.
    split; [reflexivity|]. split; [reflexivity|]. split; [constructor|]. split; [lia|].
    intros j Hj Hr. destruct (Nat.eq_dec j 559) as [->|].
    { exfalso. lia. }
    rewrite Nat.div_small by lia. rewrite Nat.add_0_r, Nat.add_1_r. reflexivity.
  - destruct w as [|m w]; [cbn [length] in HL; lia|].
    destruct (IH (skipn 559 w) r) as (ps & m' & tail & E & LP & FA & LT & NT).
    { rewrite skipn_length. cbn [length] in HL. lia. }
    exists ((m, firstn 559 w) :: ps), m', tail. cbn [map concat fst snd length].
    split. { cbn [app]. rewrite <- app_assoc, <- E, firstn_skipn. reflexivity. }
    split; [lia|]. split.
    { constructor; [|exact FA]. cbn [snd]. rewrite firstn_length. cbn [length] in HL. lia. }
    split; [exact LT|]. intros j Hj Hr. rewrite <- app_assoc.
    assert (LF : length (firstn 559 w) = 559%nat) by (rewrite firstn_length; cbn [length] in HL; lia).
    destruct (Nat.ltb_spec j 559) as [X|X].
    + rewrite nth_error_app1 by lia. rewrite Nat.div_small by lia. rewrite Nat.add_0_r, Nat.add_1_r. cbn [nth_error].
      rewrite nth_error_firstn_lt by exact X. reflexivity.
    + rewrite nth_error_app2 by lia. rewrite LF, NT by lia.
      replace (j + 1 + j / 559)%nat with (S (559 + (j - 559 + 1 + (j - 559) / 559)))%nat by lia. cbn [nth_error].
      rewrite <- (firstn_skipn 559 w) at 2. rewrite nth_error_app2 by lia. f_equal. lia.
Qed.

(** the lenient library on any frame: the markers go; of whole packets, so does the last bit *)
Definition lenient : list bool -> option (list bool) := fun l => Some (removelast l).
Definition kept (w : list bool) : list bool := if (length w mod 560 =? 0)%nat then removelast w else w.

Lemma removelast_length {A} (l : list A) : length (removelast l) = (length l - 1)%nat.
Proof. induction l as [|x [|y l] IH]; [reflexivity|reflexivity|]. cbn [removelast length] in *. rewrite IH. lia. Qed.

Lemma strip_lenient w : (1 <= length w)%nat ->
  exists D, strip_headers lenient (Z.to_nat (Z.of_nat (length w) / num_bits_in_packet)) w = Some D /\
    (forall j, nth_error D j = nth_error (kept w) (j + 1 + j / 559)) /\
    Z.of_nat (length D) = Z.of_nat (length (kept w)) - (Z.of_nat (length (kept w)) + 559) / 560.
Proof.
  intros H1. set (L := length w) in *. unfold num_bits_in_packet, kept. fold L.
  destruct (Nat.eqb_spec (L mod 560) 0) as [M|M].
  - assert (EL : exists q, L = (560 * S q)%nat) by (exists (L / 560 - 1)%nat; lia).
    destruct EL as (q & EL). replace (Z.to_nat (Z.of_nat L / 560)) with (S q) by lia. cbn [strip_headers].
    unfold erase_at at 1. change num_bits_in_packet with 560. fold L.
    destruct (Z.ltb_spec (Z.of_nat (S q) * 560) (Z.of_nat L)); [lia|]. destruct (Z.eqb_spec (Z.of_nat (S q) * 560) (Z.of_nat L)); [|lia].
    unfold lenient at 1. destruct (chop q (removelast w) 558) as (ps & m & tail & E & LP & FA & LT & NT).
    { rewrite removelast_length. fold L. lia. }
    assert (LD : length (concat (map snd ps) ++ tail) = (559 * q + 558)%nat).
    { rewrite app_length, LT. f_equal. rewrite <- LP. clear - FA. induction FA as [|p ps HP _ IH]; [reflexivity|].
      cbn [map concat length]. rewrite app_length, IH, HP. lia. }
    exists (concat (map snd ps) ++ tail). split.
    { rewrite E at 1. rewrite <- LP. apply strip_packets. exact FA. }
    split; [|rewrite LD, removelast_length; fold L; lia].
    intros j. destruct (Nat.ltb_spec j (559 * q + 558)) as [X|X]; [apply NT; lia|].
    transitivity (@None bool); [|symmetry]; apply nth_error_None; [lia|]. rewrite removelast_length. fold L. lia.
  - assert (EL : exists q r, L = (560 * q + S r)%nat /\ (r < 559)%nat) by (exists (L / 560)%nat, (L mod 560 - 1)%nat; lia).
    destruct EL as (q & r & EL & HR). replace (Z.to_nat (Z.of_nat L / 560)) with q by lia.
    destruct (chop q w r EL) as (ps & m & tail & E & LP & FA & LT & NT).
    assert (LD : length (concat (map snd ps) ++ tail) = (559 * q + r)%nat).
    { rewrite app_length, LT. f_equal. rewrite <- LP. clear - FA. induction FA as [|p ps HP _ IH]; [reflexivity|].
      cbn [map concat length]. rewrite app_length, IH, HP. lia. }
    exists (concat (map snd ps) ++ tail). split.
    { rewrite E at 1. rewrite <- LP. apply strip_packets. exact FA. }
    split; [|rewrite LD; fold L; lia].
    intros j. destruct (Nat.ltb_spec j (559 * q + r)) as [X|X]; [apply NT; lia|].
    transitivity (@None bool); [|symmetry]; apply nth_error_None; [lia|]. fold L. lia.
Qed.

(** ** what the frame carries: the telemetry with bit 63, and in a third packet bit 127, cleared *)
Definition damaged (n : Z) (P : list bool) : list bool :=
  let P1 := if 559 <? n then clear 63 P else P in
  if 1118 <? n then clear 127 P1 else P1.

Lemma damaged_length n P : length (damaged n P) = length P.
Proof. unfold damaged. cbv zeta. destruct (559 <? n), (1118 <? n); rewrite ?clear_length; reflexivity. Qed.

Lemma frame_slots cc flows buf st :
  length cc = 32%nat -> Forall flow_ok flows -> build_frame cc flows buf = Some st ->
  let P := payload cc flows in
  let n := Z.of_nat (length P) in
  n <= 1677 ->
  forall j p, p = (j + 1 + j / 559)%nat -> Z.of_nat p < 8 * (frame_length n / 8) + 8 ->
  nth_error (fs_buf st) p = if Nat.ltb j (length P) then nth_error (damaged n P) j else Some false.
Proof.
  intros HC HF HB P n HN j p Ep Hp.
  destruct (build_frame_ok cc flows buf st HC HF HB) as (L & _ & FIT & BITS). fold P n in FIT, BITS.
  assert (H32 : 32 <= n) by (unfold n, P; rewrite payload_app, app_length; lia).
  specialize (BITS (Z.of_nat p) ltac:(lia)). unfold bit_at at 1 in BITS. rewrite Nat2Z.id in BITS. rewrite BITS. clear BITS.
  assert (CE : continuations n = (n - 1) / 559) by (unfold continuations; destruct (Z.leb_spec n 0); lia).
  assert (FE : frame_length n = n + 1 + (n - 1) / 559) by (unfold frame_length; lia).
  assert (PZ : Z.of_nat p = Z.of_nat j + 1 + Z.of_nat j / 559) by lia.
  assert (LPn : Z.of_nat (length P) = n) by reflexivity.
  destruct (Nat.ltb_spec j (length P)) as [J|J].
  - assert (SL : Z.of_nat p < frame_length n).
    { rewrite FE, PZ. assert (Z.of_nat j / 559 <= (n - 1) / 559) by (apply Z.div_le_mono; lia). lia. }
    destruct (Z.leb_spec (frame_length n) (Z.of_nat p)); [lia|]. cbn [andb].
    unfold frame_bit. fold n. destruct (Z.eqb_spec (Z.of_nat p) 0); [lia|].
    assert (DV : Z.of_nat p / 560 = Z.of_nat j / 559) by lia.
    destruct (Z.eqb_spec (Z.of_nat p mod 560) 0); [lia|].
    destruct (Z.ltb_spec (Z.of_nat p) (frame_length n)); [|lia]. rewrite DV.
    replace (Z.to_nat (Z.of_nat p - 1 - Z.of_nat j / 559)) with j by lia.
    unfold damaged. cbv zeta. unfold hit. rewrite CE.
    assert (HJ : forall k v, v = (Z.of_nat p mod 64 =? 0) && (1 <=? Z.of_nat p / 64) && (Z.of_nat p / 64 <=? k) ->
       k <= 2 -> v = ((1 <=? k) && (Nat.eqb j 63)) || ((2 <=? k) && Nat.eqb j 127)).
    { intros k v -> K.
      destruct (Z.eqb_spec (Z.of_nat p mod 64) 0), (Z.leb_spec 1 (Z.of_nat p / 64)), (Z.leb_spec (Z.of_nat p / 64) k),
        (Z.leb_spec 1 k), (Nat.eqb_spec j 63), (Z.leb_spec 2 k), (Nat.eqb_spec j 127); cbn [andb orb]; try reflexivity; lia. }
    rewrite (HJ ((n - 1) / 559) _ eq_refl) by lia.
    destruct (Z.ltb_spec 559 n) as [A|A], (Z.ltb_spec 1118 n) as [B|B]; try lia.
    + destruct (Z.leb_spec 1 ((n - 1) / 559)); [|lia]. destruct (Z.leb_spec 2 ((n - 1) / 559)); [|lia]. cbn [andb].
      rewrite !clear_nth, clear_length. destruct (Nat.ltb_spec 127 (length P)); [|lia]. destruct (Nat.ltb_spec 63 (length P)); [|lia].
      destruct (Nat.eqb_spec j 63), (Nat.eqb_spec j 127); cbn [orb]; reflexivity.
    + destruct (Z.leb_spec 1 ((n - 1) / 559)); [|lia]. destruct (Z.leb_spec 2 ((n - 1) / 559)); [lia|]. cbn [andb]. rewrite orb_false_r.
      rewrite !clear_nth. destruct (Nat.ltb_spec 63 (length P)); [|lia]. destruct (Nat.eqb_spec j 63); reflexivity.
    + destruct (Z.leb_spec 1 ((n - 1) / 559)); [lia|]. destruct (Z.leb_spec 2 ((n - 1) / 559)); [lia|]. reflexivity.
  - assert (SL : frame_length n <= Z.of_nat p).
    { rewrite FE, PZ. assert ((n - 1) / 559 <= Z.of_nat j / 559) by (apply Z.div_le_mono; lia). lia. }
    destruct (Z.leb_spec (frame_length n) (Z.of_nat p)); [|lia].
    destruct (Z.ltb_spec (Z.of_nat p) (8 * (frame_length n / 8) + 8)); [|lia]. reflexivity.
Qed.

(** the whole of what is sent, through the lenient library *)
Lemma frame_received cc flows buf st :
  length cc = 32%nat -> Forall flow_ok flows -> build_frame cc flows buf = Some st ->
  let P := payload cc flows in
  let n := Z.of_nat (length P) in
  559 < n < 1677 -> n <> 1118 ->
  let sent := firstn (8 * Z.to_nat ((n + (n + 559) / 560 + 7) / 8)) (fs_buf st) in
  exists pad, strip_headers lenient (Z.to_nat (Z.of_nat (length sent) / num_bits_in_packet)) sent = Some (damaged n P ++ repeat false pad).
Proof.
  intros HC HF HB P n HN HN2 sent.
  pose proof (frame_slots cc flows buf st HC HF HB ltac:(fold P; fold n; lia)) as NTH. cbv zeta in NTH. fold P n in NTH.
  destruct (build_frame_ok cc flows buf st HC HF HB) as (L & _ & FIT & _). fold P n in FIT.
  set (Lb := (8 * Z.to_nat ((n + (n + 559) / 560 + 7) / 8))%nat) in *.
  assert (FE : frame_length n = n + 1 + (n - 1) / 559) by (unfold frame_length, continuations; destruct (Z.leb_spec n 0); lia).
  assert (LB : frame_length n <= Z.of_nat Lb <= 8 * (frame_length n / 8) + 8) by (rewrite FE; unfold Lb; lia).
  assert (LS : length sent = Lb) by (unfold sent; rewrite firstn_length; lia).
  destruct (strip_lenient sent ltac:(lia)) as (D & ES & ND & LD).
  assert (LK : length (kept sent) = if (Lb mod 560 =? 0)%nat then (Lb - 1)%nat else Lb).
  { unfold kept. rewrite LS. destruct (_ =? _)%nat; [rewrite removelast_length|]; congruence. }
  assert (KS : forall i, (i < length (kept sent))%nat -> nth_error (kept sent) i = nth_error (fs_buf st) i).
  { intros i Hi. rewrite LK in Hi. transitivity (nth_error sent i).
    - unfold kept. rewrite LS. destruct (Lb mod 560 =? 0)%nat; [|reflexivity].
      assert (NE : sent <> []) by (intros X; rewrite X in LS; cbn [length] in LS; lia).
      rewrite (app_removelast_last false NE) at 2. rewrite nth_error_app1; [reflexivity|]. rewrite removelast_length. lia.
    - unfold sent. apply nth_error_firstn_lt. destruct (_ =? _)%nat; lia. }
  assert (GE : Z.of_nat (length P) <= Z.of_nat (length D)).
  { rewrite LD, LK. fold n. destruct (Nat.eqb_spec (Lb mod 560) 0); lia. }
  exists (length D - length P)%nat. rewrite ES. f_equal. apply nth_error_ext. intros j.
  rewrite ND. destruct (Nat.ltb_spec j (length D)) as [J|J].
  - rewrite KS by lia.
    rewrite (NTH j _ eq_refl).
    + destruct (Nat.ltb_spec j (length P)).
      * rewrite nth_error_app1 by (rewrite damaged_length; exact H). reflexivity.
      * rewrite nth_error_app2 by (rewrite damaged_length; lia). rewrite damaged_length, nth_error_repeat by lia. reflexivity.
    + assert (LK2 : (length (kept sent) <= Lb)%nat) by (rewrite LK; destruct (_ =? _)%nat; lia). lia.
  - rewrite <- ND. transitivity (@None bool); [|symmetry]; apply nth_error_None; [lia|]. rewrite app_length, damaged_length, repeat_length. lia.
Qed.
