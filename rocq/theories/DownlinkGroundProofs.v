From Verif Require Import Base BitArrayModel BitArrayProofs IntSerModel IntSerSpec IntSerProofs
  DownlinkModel DownlinkSpec DownlinkProofs.

(** ** flow ids *)

(** [f] was built with id [id] in a table of [n] flows *)
Definition has_id (n : nat) (f : flow) (id : Z) : Prop :=
  (1 <= n <= 255)%nat /\ 1 <= id <= Z.of_nat n /\
  exists s0, id_serializer n = Some s0 /\ serialize s0 id = Some (fl_sr f).

Lemma id_serializer_spec n : (1 <= n <= 255)%nat ->
  exists s0, id_serializer n = Some s0 /\ declared s0 /\ arith_safe s0 /\ is_ty s0 = UChar /\ is_min s0 = 0 /\
    is_max s0 = Z.of_nat n /\ Z.of_nat n <= 2 ^ Z.of_nat (length (is_bits s0)) - 1 /\ cstep s0 = 1 /\
    is_bits s0 = repeat false (length (is_bits s0)) /\ (1 <= length (is_bits s0) <= 8)%nat.
Proof.
  intros H. unfold id_serializer, iser_make_auto, cpp_range. rewrite u8_id by lia.
  rewrite Z.sub_0_r, u32_id by lia.
  eexists. split; [reflexivity|].
  pose proof (log2i_covers (Z.of_nat n) ltac:(lia)) as [C1 C2].
  assert (L8 : 1 <= log2i (Z.of_nat n) <= 8).
  { unfold log2i. rewrite log2i_loop_spec by (change (Z.of_nat 32) with 32; lia).
    destruct (Z.eqb_spec (Z.of_nat n) 0); [lia|]. pose proof (Z.log2_nonneg (Z.of_nat n)).
    assert (Z.log2 (Z.of_nat n) < 8) by (apply Z.log2_lt_pow2; lia). lia. }
  set (s0 := mk_iser UChar 0 (Z.of_nat n) (repeat false (Z.to_nat (log2i (Z.of_nat n))))).
  assert (LB : Z.of_nat (length (is_bits s0)) = log2i (Z.of_nat n)) by (cbn [is_bits s0]; rewrite repeat_length; lia).
  assert (D : declared s0).
  { unfold declared. rewrite LB. cbn [is_ty is_min is_max s0 ity_min ity_max ity_bits]. lia. }
  split; [exact D|]. split; [exact I|]. split; [reflexivity|]. split; [reflexivity|]. split; [reflexivity|].
  rewrite LB. split; [exact C1|].
  split.
  { destruct (cstep_is_step s0 D) as [S1 S2]. pose proof (cstep_nonneg s0 D). rewrite LB in S1, S2.
    change (extent s0) with (Z.of_nat n - 0) in S1, S2. specialize (S2 1 ltac:(lia) ltac:(lia)).
    assert (cstep s0 <> 0); [|lia]. intros E. rewrite E in S1. lia. }
  split; [cbn [is_bits s0]; rewrite repeat_length; reflexivity|]. lia.
Qed.

Lemma has_id_spec n f id s0 : has_id n f id -> id_serializer n = Some s0 ->
  deserialize (fl_sr f) = Some id /\ length (fl_idbits f) = length (is_bits s0) /\ set_bits s0 (fl_idbits f) = fl_sr f.
Proof.
  intros (HN & HI & s1 & E1 & E2) E0. rewrite E0 in E1. injection E1 as <-.
  destruct (id_serializer_spec n HN) as (s1 & E1 & D & A & T & MN & MX & CV & CS & _).
  rewrite E0 in E1. injection E1 as <-.
  destruct (roundtrip_exact s0 id D A ltac:(lia)) as (s' & R1 & R2).
  rewrite E2 in R1. injection R1 as <-. split.
  { rewrite R2. unfold clamp. f_equal. lia. }
  rewrite serialize_spec in E2 by assumption. injection E2 as E2. unfold fl_idbits. rewrite <- E2. cbn [is_bits].
  rewrite val_bits_length. split; [reflexivity|]. unfold set_bits, assign. rewrite val_bits_length, Nat.eqb_refl. reflexivity.
Qed.

Lemma zero_id n s0 k : (1 <= n <= 255)%nat -> id_serializer n = Some s0 -> k = length (is_bits s0) ->
  deserialize (set_bits s0 (repeat false k)) = Some 0.
Proof.
  intros HN E0 ->. destruct (id_serializer_spec n HN) as (s1 & E1 & D & A & T & MN & MX & CV & CS & _).
  rewrite E0 in E1. injection E1 as <-. rewrite decode_any by (try assumption; apply repeat_length).
  rewrite bits_val_repeat_false, MN, T. reflexivity.
Qed.

(** ** the parser *)
Lemma take_fields_concat fs rest :
  take_fields (map (@length bool) fs) (concat fs ++ rest) = Some (fs, rest).
Proof.
  induction fs as [|b fs IH]; [reflexivity|]. cbn [map take_fields concat]. unfold take.
  rewrite <- app_assoc. destruct (Nat.ltb_spec (length (b ++ concat fs ++ rest)) (length b)) as [H|H].
  - rewrite app_length in H. lia.
  - cbn [bind fst snd]. rewrite firstn_app, Nat.sub_diag, firstn_all, firstn_O, app_nil_r.
    rewrite skipn_app, Nat.sub_diag, skipn_all, skipn_O. cbn [app]. rewrite IH. reflexivity.
Qed.

Lemma find_flow_spec n l : forall ids id f,
  Forall2 (has_id n) l ids -> NoDup ids -> In (f, id) (combine l ids) -> find_flow l id = Some (Some f).
Proof.
  induction l as [|g l IH]; intros ids id f F2 ND HI; inversion F2 as [|? i ? ids' HG F2' E1 E2]; subst; [contradiction|].
  cbn [combine] in HI. apply NoDup_cons_iff in ND. destruct ND as [NI ND].
  pose proof HG as (HN & _ & s0 & E0 & _). destruct (has_id_spec n g i s0 HG E0) as (DG & _).
  cbn [find_flow]. rewrite DG. destruct HI as [HI|HI].
  - injection HI as -> ->. rewrite Z.eqb_refl. reflexivity.
  - destruct (Z.eqb_spec i id) as [->|]; [|eapply IH; eauto].
    exfalso. apply NI. apply in_combine_r in HI. assumption.
Qed.

Definition telemetry (l : list flow) : list bool :=
  flat_map (fun f => if fl_active f then fl_idbits f ++ concat (fl_fields f) else []) l.

(** what is reported for a table given as pairs (flow, id) *)
Definition report (l : list (flow * Z)) : list pflow :=
  map (fun p => (snd p, fl_fields (fst p))) (filter (fun p => fl_active (fst p)) l).

Lemma parse_loop_step k idsr flows l found : (1 <= length l)%nat ->
  parse_loop (S k) idsr flows l found =
  if Nat.ltb (length l) (length (is_bits idsr)) then Some (rev found, IdIncomplete)
  else match deserialize (set_bits idsr (firstn (length (is_bits idsr)) l)) with
       | None => None
       | Some id =>
         if id =? 0 then Some (rev found, NoError)
         else if existsb (fun pf => fst pf =? id) found then Some (rev found, DuplicateId id)
         else match find_flow flows id with
              | None => None
              | Some None => Some (rev ((id, []) :: found), IdInvalid id)
              | Some (Some f) =>
                bind (take_fields (map (@length bool) (fl_fields f)) (skipn (length (is_bits idsr)) l)) (fun p =>
                parse_loop k idsr flows (snd p) ((id, fst p) :: found))
              end
       end.
Proof. destruct l; [cbn [length]; lia|reflexivity]. Qed.

Lemma parse_loop_spec n table ids s0 : (1 <= n <= 255)%nat ->
  Forall2 (has_id n) table ids -> NoDup ids -> id_serializer n = Some s0 ->
  forall todo found pad fuel,
  incl todo (combine table ids) -> NoDup (map snd todo) ->
  (forall p, In p todo -> ~ In (snd p) (map fst found)) ->
  (length (telemetry (map fst todo)) + pad < fuel)%nat ->
  parse_loop fuel s0 table (telemetry (map fst todo) ++ repeat false pad) found =
  Some (rev found ++ report todo,
        if (0 <? Z.of_nat pad) && (Z.of_nat pad <? Z.of_nat (length (is_bits s0))) then IdIncomplete else NoError).
Proof.
  intros HN F2 ND E0. destruct (id_serializer_spec n HN) as (s1 & E1 & D & A & T & MN & MX & CV & CS & _ & LB).
  rewrite E0 in E1. injection E1 as <-.
  induction todo as [|[f id] todo IH]; intros found pad fuel HI NT HD HF.
  - cbn [map telemetry flat_map report filter] in *. rewrite app_nil_r. change ([] ++ repeat false pad) with (repeat false pad).
    destruct pad as [|pad].
    + destruct fuel; reflexivity.
    + destruct fuel as [|k]; [lia|]. cbn [repeat parse_loop].
      change (false :: repeat false pad) with (repeat false (S pad)). rewrite repeat_length.
      destruct (Nat.ltb_spec (S pad) (length (is_bits s0))) as [L|L].
      * destruct (Z.ltb_spec 0 (Z.of_nat (S pad))), (Z.ltb_spec (Z.of_nat (S pad)) (Z.of_nat (length (is_bits s0)))); try lia. reflexivity.
      * replace (firstn (length (is_bits s0)) (repeat false (S pad))) with (repeat false (length (is_bits s0))).
        2:{ replace (S pad) with (length (is_bits s0) + (S pad - length (is_bits s0)))%nat by lia. rewrite repeat_app.
            rewrite firstn_app, repeat_length, Nat.sub_diag, firstn_O, app_nil_r, firstn_all2; [reflexivity|rewrite repeat_length; lia]. }
        rewrite (zero_id n) by (try assumption; reflexivity). cbn [Z.eqb].
        destruct (Z.ltb_spec (Z.of_nat (S pad)) (Z.of_nat (length (is_bits s0)))); [lia|]. rewrite andb_false_r. reflexivity.
  - cbn [map fst snd] in *. apply NoDup_cons_iff in NT. destruct NT as [NI NT].
    assert (HIN : In (f, id) (combine table ids)) by (apply HI; left; reflexivity).
    assert (HID : has_id n f id).
    { clear -F2 HIN. revert ids F2 HIN. induction table as [|g l IH]; intros ids F2 HIN; inversion F2; subst; [contradiction|].
      cbn [combine] in HIN. destruct HIN as [HIN|HIN]; [injection HIN as -> ->; assumption|eapply IH; eauto]. }
    destruct (has_id_spec n f id s0 HID E0) as (DF & LF & SF).
    assert (ET : telemetry (f :: map fst todo) = (if fl_active f then fl_idbits f ++ concat (fl_fields f) else []) ++ telemetry (map fst todo)) by reflexivity.
    rewrite ET in *. unfold report. cbn [filter fst]. destruct (fl_active f) eqn:EA.
    + rewrite <- !app_assoc. destruct fuel as [|k]; [lia|].
      rewrite !app_length in HF.
      set (l := fl_idbits f ++ concat (fl_fields f) ++ telemetry (map fst todo) ++ repeat false pad).
      assert (LL : (1 <= length l)%nat) by (unfold l; rewrite app_length; lia).
      rewrite parse_loop_step by assumption. unfold l in *. clear l.
      destruct (Nat.ltb_spec (length (fl_idbits f ++ concat (fl_fields f) ++ telemetry (map fst todo) ++ repeat false pad)) (length (is_bits s0))) as [X|X].
      { rewrite app_length in X. lia. }
      clear X LL.
      assert (FW : forall r, firstn (length (is_bits s0)) (fl_idbits f ++ r) = fl_idbits f).
      { intros r. rewrite <- LF, firstn_app, Nat.sub_diag, firstn_all, firstn_O, app_nil_r. reflexivity. }
      assert (SW : forall r, skipn (length (is_bits s0)) (fl_idbits f ++ r) = r).
      { intros r. rewrite <- LF, skipn_app, Nat.sub_diag, skipn_all, skipn_O. reflexivity. }
      rewrite FW, SW.
      rewrite SF, DF. pose proof HID as (_ & HR & _). destruct (Z.eqb_spec id 0); [lia|].
      replace (existsb (fun pf => fst pf =? id) found) with false.
      2:{ symmetry. apply not_true_is_false. intros X. apply existsb_exists in X. destruct X as (pf & X1 & X2).
          apply Z.eqb_eq in X2. apply (HD (f, id)); [left; reflexivity|]. cbn [snd]. rewrite <- X2. apply in_map. assumption. }
      rewrite (find_flow_spec n table ids id f) by assumption.
      rewrite take_fields_concat. cbn [bind snd fst].
      rewrite IH.
      * cbn [map rev fst snd]. unfold report. rewrite <- app_assoc. reflexivity.
      * intros p Hp. apply HI. right. assumption.
      * assumption.
      * intros p Hp. cbn [map fst]. intros [X|X].
        -- apply NI. rewrite X. apply in_map. assumption.
        -- apply (HD p); [right; assumption|assumption].
      * lia.
    + cbn [app] in *. rewrite IH.
      * reflexivity.
      * intros p Hp. apply HI. right. assumption.
      * assumption.
      * intros p Hp. apply HD. right. assumption.
      * assumption.
Qed.

Lemma Forall2_len {A B} (R : A -> B -> Prop) l m : Forall2 R l m -> length l = length m.
Proof. induction 1; cbn [length]; congruence. Qed.

Lemma combine_fst {A B} (l : list A) (m : list B) : length l = length m -> map fst (combine l m) = l.
Proof. revert m; induction l as [|x l IH]; intros [|y m] H; try discriminate; [reflexivity|]. cbn. f_equal. apply IH. cbn in H; lia. Qed.
Lemma combine_snd {A B} (l : list A) (m : list B) : length l = length m -> map snd (combine l m) = m.
Proof. revert m; induction l as [|x l IH]; intros [|y m] H; try discriminate; [reflexivity|]. cbn. f_equal. apply IH. cbn in H; lia. Qed.

(** one packet shorter than 560 bits: a marker, the payload, zero padding *)
Lemma parse_frame_single eoe table ids cc pad m :
  Forall2 (has_id (length table)) table ids -> NoDup ids -> table <> [] -> length cc = 32%nat ->
  let bits := m :: payload cc table ++ repeat false pad in
  Z.of_nat (length bits) < 560 ->
  exists s0, id_serializer (length table) = Some s0 /\
  parse_frame eoe table bits =
    Some (mk_pr cc (report (combine table ids))
      (if (0 <? Z.of_nat pad) && (Z.of_nat pad <? Z.of_nat (length (is_bits s0))) then IdIncomplete else NoError)).
Proof.
  intros F2 ND NE HC bits HL.
  assert (HN : (1 <= length table <= 255)%nat) by (inversion F2 as [|? ? ? ? (X & _)]; subst; [congruence|exact X]).
  destruct (id_serializer_spec _ HN) as (s0 & E0 & _). exists s0. split; [exact E0|].
  pose proof (Forall2_len _ _ _ F2) as LE.
  unfold parse_frame, num_bits_in_packet. rewrite (Z.div_small (Z.of_nat (length bits)) 560) by lia.
  change (Z.to_nat 0) with 0%nat. cbn [strip_headers]. unfold erase_at. change (Z.of_nat 0 * num_bits_in_packet) with 0.
  destruct (Z.ltb_spec 0 (Z.of_nat (length bits))); [|unfold bits in *; cbn [length] in *; lia].
  unfold bits at 1 2. change (Z.to_nat 0) with 0%nat. rewrite firstn_O. cbn [skipn app bind].
  unfold payload. rewrite <- app_assoc. unfold take.
  destruct (Nat.ltb_spec (length (cc ++ flat_map (fun f => if fl_active f then fl_idbits f ++ concat (fl_fields f) else []) table ++ repeat false pad)) 32) as [X|X];
    [rewrite app_length in X; lia|]. clear X.
  assert (FW : forall r, firstn 32 (cc ++ r) = cc).
  { intros r. rewrite <- HC, firstn_app, Nat.sub_diag, firstn_all, firstn_O, app_nil_r. reflexivity. }
  assert (SW : forall r, skipn 32 (cc ++ r) = r).
  { intros r. rewrite <- HC, skipn_app, Nat.sub_diag, skipn_all, skipn_O. reflexivity. }
  cbn [bind fst snd]. rewrite FW, SW, E0. cbn [bind].
  fold (telemetry table).
  pose proof (parse_loop_spec (length table) table ids s0 HN F2 ND E0 (combine table ids) [] pad
    (S (length (telemetry table ++ repeat false pad)))) as P.
  rewrite combine_fst, combine_snd in P by assumption.
  etransitivity; [refine (f_equal (fun o => bind o _) (P _ _ _ _))|reflexivity].
  - intros p Hp; assumption.
  - assumption.
  - intros p Hp. intros [].
  - rewrite app_length, repeat_length. lia.
Qed.

(** the part of the parser after the removal of the packet markers *)
Lemma parse_payload eoe table ids cc pad bits :
  Forall2 (has_id (length table)) table ids -> NoDup ids -> table <> [] -> length cc = 32%nat ->
  strip_headers eoe (Z.to_nat (Z.of_nat (length bits) / num_bits_in_packet)) bits = Some (payload cc table ++ repeat false pad) ->
  exists s0, id_serializer (length table) = Some s0 /\
  parse_frame eoe table bits =
    Some (mk_pr cc (report (combine table ids))
      (if (0 <? Z.of_nat pad) && (Z.of_nat pad <? Z.of_nat (length (is_bits s0))) then IdIncomplete else NoError)).
Proof.
  intros F2 ND NE HC HS.
  assert (HN : (1 <= length table <= 255)%nat) by (inversion F2 as [|? ? ? ? (X & _)]; subst; [congruence|exact X]).
  destruct (id_serializer_spec _ HN) as (s0 & E0 & _). exists s0. split; [exact E0|].
  pose proof (Forall2_len _ _ _ F2) as LE.
  unfold parse_frame. rewrite HS. cbn [bind].
  unfold payload. rewrite <- app_assoc. unfold take.
  destruct (Nat.ltb_spec (length (cc ++ flat_map (fun f => if fl_active f then fl_idbits f ++ concat (fl_fields f) else []) table ++ repeat false pad)) 32) as [X|X];
    [rewrite app_length in X; lia|]. clear X.
  assert (FW : forall r, firstn 32 (cc ++ r) = cc).
  { intros r. rewrite <- HC, firstn_app, Nat.sub_diag, firstn_all, firstn_O, app_nil_r. reflexivity. }
  assert (SW : forall r, skipn 32 (cc ++ r) = r).
  { intros r. rewrite <- HC, skipn_app, Nat.sub_diag, skipn_all, skipn_O. reflexivity. }
  cbn [bind fst snd]. rewrite FW, SW, E0. cbn [bind].
  fold (telemetry table).
  pose proof (parse_loop_spec (length table) table ids s0 HN F2 ND E0 (combine table ids) [] pad
    (S (length (telemetry table ++ repeat false pad)))) as P.
  rewrite combine_fst, combine_snd in P by assumption.
  etransitivity; [refine (f_equal (fun o => bind o _) (P _ _ _ _))|reflexivity].
  - intros p Hp; assumption.
  - assumption.
  - intros p Hp. intros [].
  - rewrite app_length, repeat_length. lia.
Qed.

(** whole packets followed by the beginning of one: the markers go, the rest stays in order *)
Lemma packets_length (ps : list (bool * list bool)) : Forall (fun p => length (snd p) = 559%nat) ps ->
  length (concat (map (fun p => fst p :: snd p) ps)) = (560 * length ps)%nat.
Proof. induction 1 as [|p ps H _ IH]; [reflexivity|]. cbn [map concat]. rewrite app_length, IH. cbn [length]. lia. Qed.

Lemma strip_packets eoe ps : Forall (fun p : bool * list bool => length (snd p) = 559%nat) ps -> forall m tail,
  strip_headers eoe (length ps) (concat (map (fun p => fst p :: snd p) ps) ++ m :: tail) = Some (concat (map snd ps) ++ tail).
Proof.
  induction ps as [|[m' q] ps IH] using rev_ind; intros H m tail.
  - reflexivity.
  - pose proof (packets_length _ H) as L. rewrite app_length in L |- *. cbn [length] in L |- *.
    apply Forall_app in H. destruct H as [H HQ]. apply Forall_inv in HQ. cbn [snd] in HQ.
    replace (length ps + 1)%nat with (S (length ps)) in * by lia. cbn [strip_headers].
    set (c := concat (map (fun p => fst p :: snd p) (ps ++ [(m', q)]))) in *. unfold erase_at, num_bits_in_packet.
    destruct (Z.ltb_spec (Z.of_nat (S (length ps)) * 560) (Z.of_nat (length (c ++ m :: tail)))) as [X|X];
      [|rewrite app_length in X; cbn [length] in X; lia].
    replace (Z.to_nat (Z.of_nat (S (length ps)) * 560)) with (length c) by lia.
    rewrite firstn_app, Nat.sub_diag, firstn_all, firstn_O, app_nil_r.
    rewrite skipn_app. rewrite (skipn_all2 c) by lia. replace (S (length c) - length c)%nat with 1%nat by lia. cbn [skipn app].
    unfold c. rewrite map_app, concat_app. cbn [map concat fst snd]. rewrite app_nil_r, <- app_assoc. cbn [app].
    rewrite (IH H m' (q ++ tail)). rewrite map_app, concat_app. cbn [map concat snd]. rewrite app_nil_r, <- app_assoc. reflexivity.
Qed.

Lemma parse_frame_packets eoe table ids cc pad ps m tail :
  Forall2 (has_id (length table)) table ids -> NoDup ids -> table <> [] -> length cc = 32%nat ->
  Forall (fun p => length (snd p) = 559%nat) ps -> (length tail < 559)%nat ->
  concat (map snd ps) ++ tail = payload cc table ++ repeat false pad ->
  exists err, parse_frame eoe table (concat (map (fun p => fst p :: snd p) ps) ++ m :: tail) =
    Some (mk_pr cc (map (fun p => (snd p, fl_fields (fst p))) (filter (fun p => fl_active (fst p)) (combine table ids))) err) /\
    (err = NoError \/ err = IdIncomplete).
Proof.
  intros F2 ND NE HC HP HT E.
  destruct (parse_payload eoe table ids cc pad (concat (map (fun p => fst p :: snd p) ps) ++ m :: tail) F2 ND NE HC) as (s0 & _ & P).
  - rewrite <- E, <- (strip_packets eoe ps HP m tail). f_equal. rewrite app_length, packets_length by assumption. cbn [length].
    unfold num_bits_in_packet. lia.
  - eexists. split; [exact P|]. destruct (_ && _); auto.
Qed.

(** a full 70-byte packet, with a library whose erase at the end drops the last element *)
Lemma parse_frame_full table ids cc pad m :
  Forall2 (has_id (length table)) table ids -> NoDup ids -> table <> [] -> length cc = 32%nat ->
  let bits := m :: payload cc table ++ repeat false (S pad) in
  Z.of_nat (length bits) = 560 ->
  exists s0, id_serializer (length table) = Some s0 /\
  parse_frame (fun l => Some (removelast l)) table bits =
    Some (mk_pr cc (report (combine table ids))
      (if (0 <? Z.of_nat pad) && (Z.of_nat pad <? Z.of_nat (length (is_bits s0))) then IdIncomplete else NoError)).
Proof.
  intros F2 ND NE HC bits HL.
  destruct (parse_frame_single (fun l => Some (removelast l)) table ids cc pad m F2 ND NE HC) as (s0 & E0 & P).
  { unfold bits in HL. cbn [length] in *. rewrite !app_length, !repeat_length in *. lia. }
  exists s0. split; [exact E0|]. rewrite <- P. unfold parse_frame. f_equal.
  assert (ER : removelast bits = m :: payload cc table ++ repeat false pad).
  { unfold bits. replace (S pad) with (pad + 1)%nat by lia. rewrite repeat_app, app_assoc.
    change (m :: (payload cc table ++ repeat false pad) ++ repeat false 1) with ((m :: payload cc table ++ repeat false pad) ++ [false]).
    rewrite removelast_last. reflexivity. }
  rewrite HL. change (Z.to_nat (560 / num_bits_in_packet)) with 1%nat.
  cbn [strip_headers]. unfold erase_at at 1. change (Z.of_nat 1 * num_bits_in_packet) with 560.
  rewrite HL, Z.ltb_irrefl, Z.eqb_refl, ER.
  assert (HS : Z.of_nat (length (m :: payload cc table ++ repeat false pad)) < 560).
  { unfold bits in HL. cbn [length] in *. rewrite !app_length, !repeat_length in *. lia. }
  unfold num_bits_in_packet. rewrite (Z.div_small (Z.of_nat _) 560) by lia. reflexivity.
Qed.
