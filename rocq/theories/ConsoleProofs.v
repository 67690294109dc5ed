From Verif Require Import Base ConsoleModel ConsoleSpec.

(** ** The messages of a line *)
Lemma braces_app a : forall k b, braces k (a ++ b) = braces k a ++ braces (k + length a) b.
Proof.
  induction a as [|c a IH]; intros k b; cbn [app braces length]; [f_equal; lia|].
  rewrite IH. replace (S k + length a)%nat with (k + S (length a))%nat by lia. destruct (c =? brace); reflexivity.
Qed.
Lemma braces_none a : forall k, ~ In brace a -> braces k a = [].
Proof.
  induction a as [|c a IH]; intros k H; [reflexivity|]. cbn [braces].
  destruct (Z.eqb_spec c brace) as [E|E]; [exfalso; apply H; left; exact E|]. apply IH. intros X. apply H. right. exact X.
Qed.
Lemma cstr_app s : forall r, ~ In 0 s -> cstr (s ++ 0 :: r) = Some s.
Proof.
  induction s as [|c s IH]; intros r H; [reflexivity|]. cbn [app cstr].
  destruct (Z.eqb_spec c 0) as [E|E]; [exfalso; apply H; left; exact E|]. rewrite IH; [reflexivity|].
  intros X. apply H. right. exact X.
Qed.

(** the request, as the buffer stands when it is carried out *)
Definition asks (buf : text) (d : jdoc) (q : request) : Prop :=
  match q with
  | Read n => j_mode d = JNum 114 /\ is_null (j_field d) = false /\ as_cstr buf (j_field d) = Some (Some n)
  | Write n v => j_mode d = JNum 119 /\ is_null (j_field d) = false /\ as_cstr buf (j_field d) = Some (Some n) /\
                 is_null (j_val d) = false /\ as_cstr buf (j_val d) = Some (Some v)
  | Uplink bytes => j_mode d = JNum 117 /\ j_field d = JNull /\ as_cstr buf (j_val d) = Some (Some (packet_text bytes)) /\
                    j_length d = JNum (Z.of_nat (length bytes))
  end.

Lemma string_at pre m rest v s : string_in m v s ->
  as_cstr (pre ++ m ++ rest) (shift_val (length pre) v) = Some (Some s) /\ is_null (shift_val (length pre) v) = false.
Proof.
  intros (k & num & r & -> & L & E & NZ). cbn [shift_val as_cstr is_null]. split; [|reflexivity].
  rewrite skipn_app, skipn_all2 by lia. replace (length pre + k - length pre)%nat with k by lia. cbn [app].
  rewrite skipn_app, E. replace (k - length m)%nat with 0%nat by lia. rewrite <- app_assoc. cbn [app].
  rewrite cstr_app by exact NZ. reflexivity.
Qed.
Lemma finds_asks pre m rest d q : finds m d q -> asks (pre ++ m ++ rest) (shift_doc (length pre) d) q.
Proof.
  destruct q as [n|n v|bytes]; cbn [finds asks shift_doc j_mode j_field j_val j_length].
  - intros [-> S1]. destruct (string_at pre m rest _ _ S1). auto.
  - intros (-> & S1 & S2). destruct (string_at pre m rest _ _ S1), (string_at pre m rest _ _ S2). auto.
  - intros (-> & -> & S1 & ->). destruct (string_at pre m rest _ _ S1). auto.
Qed.

Definition part_says (lib : jlib) (p : text * text) (q : request) : Prop :=
  ~ In brace (fst p) /\ message (snd p) /\ says lib (snd p) q.

Lemma parse_line lib parts : forall qs tail junk pre, Forall2 (part_says lib) parts qs -> ~ In brace tail ->
  exists docs rest, parse_all lib (braces (length pre) (line_of parts tail)) junk (pre ++ line_of parts tail) =
    (map (pair true) docs, pre ++ rest) /\ Forall2 (asks (pre ++ rest)) docs qs.
Proof.
  induction parts as [|[g m] parts IH]; intros qs tail junk pre F NT; inversion F as [|? q ? qs' H F']; subst.
  - exists [], tail. unfold line_of. cbn [flat_map app]. rewrite braces_none by exact NT. cbn [parse_all map]. auto.
  - destruct H as (NG & (body & EM & NB) & d & m' & LM & OK & FD & HL). cbn [fst snd] in *.
    unfold line_of. cbn [flat_map fst snd]. rewrite <- !app_assoc. fold (line_of parts tail).
    rewrite braces_app, (braces_none g) by exact NG. cbn [app].
    rewrite braces_app.
    assert (B1 : forall k, braces k m = [k]).
    { intros k. rewrite EM. cbn [braces]. rewrite Z.eqb_refl, (braces_none body) by exact NB. reflexivity. }
    rewrite B1. cbn [app parse_all]. replace (length pre + length g)%nat with (length (pre ++ g)) by (rewrite app_length; reflexivity).
    replace (pre ++ g ++ m ++ line_of parts tail) with ((pre ++ g) ++ m ++ line_of parts tail) by (rewrite <- app_assoc; reflexivity).
    rewrite skipn_app, skipn_all, Nat.sub_diag. cbn [skipn app]. rewrite HL.
    rewrite firstn_app, firstn_all, Nat.sub_diag, firstn_O, app_nil_r.
    replace (length (pre ++ g) + length m)%nat with (length ((pre ++ g) ++ m')) by (rewrite app_length, LM; reflexivity).
    destruct (IH qs' tail (tl junk) ((pre ++ g) ++ m') F' NT) as (docs & rest & P & A).
    repeat rewrite <- app_assoc in P. repeat rewrite <- app_assoc in A. repeat rewrite <- app_assoc. rewrite P.
    exists (shift_doc (length (pre ++ g)) d :: docs), (g ++ m' ++ rest). rewrite OK. cbn [orb map].
    split; [reflexivity|]. constructor; [|exact A].
    pose proof (finds_asks (pre ++ g) m' rest d q FD) as X. rewrite <- app_assoc in X. exact X.
Qed.

(** ** Reads and writes *)
Definition is_uplink (q : request) : bool := match q with Uplink _ => true | _ => false end.

Lemma do_rw pl buf i d q c : is_uplink q = false -> asks buf d q -> do_message pl buf i d c = Some (answer q c, i).
Proof.
  destruct q as [n|n v|]; [| |discriminate]; intros _; cbn [asks]; unfold do_message.
  - intros (-> & -> & ->). cbn. destruct (find_cf (c_reg c) n); reflexivity.
  - intros (-> & -> & -> & -> & ->). cbn. destruct (find_cf (c_reg c) n) as [f|]; [|reflexivity].
    destruct (cf_read f v); reflexivity.
Qed.

Lemma skipn_cons {A} (ms : list A) : forall i x t, skipn i ms = x :: t -> nth_error ms i = Some x /\ skipn (S i) ms = t.
Proof.
  induction ms as [|y ms IH]; intros [|i] x t H; cbn [skipn nth_error] in *; try discriminate.
  - injection H as -> ->. split; reflexivity.
  - destruct (IH i x t H). split; assumption.
Qed.

Lemma messages_rw pl buf ms docs : forall qs rest i c fuel, Forall2 (asks buf) docs qs -> forallb (fun q => negb (is_uplink q)) qs = true ->
  skipn i ms = map (pair true) docs ++ rest ->
  messages (length docs + fuel) pl buf ms i c = messages fuel pl buf ms (i + length docs) (answers qs c) /\
  skipn (i + length docs) ms = rest.
Proof.
  induction docs as [|d docs IH]; intros qs rest i c fuel F U SK; inversion F as [|? q ? qs' A F']; subst.
  - cbn. rewrite Nat.add_0_r. split; [reflexivity|exact SK].
  - cbn [map app] in SK. destruct (skipn_cons _ _ _ _ SK) as [N S']. cbn [forallb] in U. apply andb_true_iff in U. destruct U as [U1 U].
    apply negb_true_iff in U1. cbn [length plus messages]. rewrite N. cbn [negb].
    rewrite (do_rw pl buf i d q c U1 A). destruct (IH qs' rest (S i) (answer q c) fuel F' U S') as [E1 E2].
    rewrite E1. replace (i + S (length docs))%nat with (S i + length docs)%nat by lia. split; [reflexivity|exact E2].
Qed.

(** ** Uplinks *)
Lemma hex_digit_digit d : 0 <= d < 16 -> hex_digit (digit d) = Some d.
Proof.
  intros H. unfold hex_digit, digit. destruct (Z.ltb_spec d 10).
  - replace ((48 <=? 48 + d) && (48 + d <=? 57)) with true by lia. f_equal. lia.
  - replace ((48 <=? 87 + d) && (87 + d <=? 57)) with false by lia.
    replace ((97 <=? 87 + d) && (87 + d <=? 102)) with true by lia. f_equal. lia.
Qed.
Lemma digit_range d : 0 <= d < 16 -> (48 <= digit d <= 57) \/ (97 <= digit d <= 102).
Proof. intros H. unfold digit. destruct (Z.ltb_spec d 10); lia. Qed.

Lemma strtol16_hex lb b r : 9 <= lb -> 0 <= b < 256 -> strtol16 lb (hex b ++ 0 :: r) = Some b.
Proof.
  intros HL HB. assert (P : 2 ^ 8 <= 2 ^ (lb - 1)) by (apply Z.pow_le_mono_r; lia).
  assert (S0 : forall m, 0 <= m < 256 -> saturate (2 ^ (lb - 1)) false m = m) by (intros m Hm; unfold saturate; lia).
  unfold hex, strtol16. destruct (Z.ltb_spec b 16) as [H|H]; cbn [app].
  - pose proof (digit_range b ltac:(lia)). cbn [skip_blanks]. unfold blank.
    replace ((digit b =? 32) || ((9 <=? digit b) && (digit b <=? 13))) with false by lia.
    replace (digit b =? 45) with false by lia. replace (digit b =? 43) with false by lia.
    assert (E : hex_prefix (digit b :: 0 :: r) = digit b :: 0 :: r).
    { unfold hex_prefix. destruct r; [reflexivity|]. destruct (digit b =? 48); reflexivity. }
    rewrite E. cbn [hex_digits]. rewrite hex_digit_digit by lia. change (hex_digit 0) with (@None Z). cbv iota. rewrite S0 by lia. reflexivity.
  - set (h := b / 16). set (l := b mod 16). assert (Hh : 0 <= h < 16) by (unfold h; lia). assert (Hl : 0 <= l < 16) by (unfold l; lia).
    assert (EB : 16 * h + l = b) by (unfold h, l; lia). clearbody h l.
    pose proof (digit_range h Hh). pose proof (digit_range l Hl). cbn [skip_blanks]. unfold blank.
    replace ((digit h =? 32) || ((9 <=? digit h) && (digit h <=? 13))) with false by lia.
    replace (digit h =? 45) with false by lia. replace (digit h =? 43) with false by lia.
    assert (E : hex_prefix (digit h :: digit l :: 0 :: r) = digit h :: digit l :: 0 :: r).
    { unfold hex_prefix. replace ((digit l =? 120) || (digit l =? 88)) with false by lia. rewrite andb_false_r. reflexivity. }
    rewrite E. cbn [hex_digits]. rewrite !hex_digit_digit by lia. change (hex_digit 0) with (@None Z). cbv iota.
    rewrite S0 by lia. f_equal. lia.
Qed.

Lemma hex_chars b : 0 <= b < 256 -> ~ In 92 (hex b) /\ (1 <= length (hex b) <= 2)%nat.
Proof.
  intros H. unfold hex. destruct (Z.ltb_spec b 16) as [L|L]; cbn [In length].
  - pose proof (digit_range b ltac:(lia)). split; [|lia]. intros [X|[]]. lia.
  - pose proof (digit_range (b / 16) ltac:(lia)). pose proof (digit_range (b mod 16) ltac:(lia)).
    split; [|lia]. intros [X|[X|[]]]; lia.
Qed.

Lemma copy_token_spec w : forall p t done_, ~ In 92 w -> (length w <= length t)%nat ->
  copy_token (w ++ 92 :: p) t done_ = Some (done_ ++ w ++ skipn (length w) t, 92 :: p).
Proof.
  induction w as [|c w IH]; intros p t done_ N L; cbn [app copy_token length].
  - reflexivity.
  - destruct (Z.eqb_spec c 92) as [E|E]; [exfalso; apply N; left; exact E|].
    destruct t as [|x t]; [cbn [length] in L; lia|]. cbn [length] in L.
    rewrite IH; [|intros X; apply N; right; exact X|lia]. cbn [skipn]. rewrite <- app_assoc. reflexivity.
Qed.

Lemma uplink_bytes_spec lb n bytes : forall z token, 9 <= lb -> (3 <= n)%nat -> (n <= length token)%nat ->
  Forall (fun b => 0 <= b < 256) bytes ->
  uplink_bytes lb (length bytes) n (packet_text bytes ++ 92 :: 120 :: z) token = Some bytes.
Proof.
  induction bytes as [|b bytes IH]; intros z token HL HN HT F; [reflexivity|].
  apply Forall_cons_iff in F. destruct F as [HB F]. destruct (hex_chars b HB) as [N1 N2].
  cbn [length uplink_bytes packet_text flat_map]. fold (packet_text bytes). cbn [app]. rewrite <- app_assoc.
  unfold clear. destruct (Nat.ltb_spec (length token) n); [lia|].
  assert (EP : exists q, packet_text bytes ++ 92 :: 120 :: z = 92 :: q).
  { destruct bytes; cbn [packet_text flat_map app]; eexists; reflexivity. }
  destruct EP as [q EQ]. specialize (IH z). rewrite EQ in *.
  rewrite copy_token_spec; [|exact N1|rewrite app_length, repeat_length; lia]. cbn [app].
  assert (ET : exists r, skipn (length (hex b)) (repeat 0 n ++ skipn n token) = 0 :: r).
  { destruct n as [|[|[|n]]]; try lia. destruct (length (hex b)) as [|[|[|k]]]; try lia; cbn [repeat app skipn]; eexists; reflexivity. }
  destruct ET as [r ET]. rewrite ET. rewrite strtol16_hex by assumption.
  rewrite IH; [rewrite u8_id by lia; reflexivity|assumption|assumption| |assumption].
  apply (f_equal (@length Z)) in ET. rewrite skipn_length, !app_length, repeat_length, skipn_length in ET. cbn [length] in ET.
  rewrite app_length. cbn [length]. lia.
Qed.

Lemma packet_text_length bytes : Forall (fun b => 0 <= b < 256) bytes ->
  (3 * length bytes <= length (packet_text bytes) <= 4 * length bytes)%nat.
Proof.
  induction bytes as [|b bytes IH]; intros F; [cbn; lia|]. apply Forall_cons_iff in F. destruct F as [HB F].
  destruct (hex_chars b HB). specialize (IH F). cbn [packet_text flat_map length app]. fold (packet_text bytes).
  rewrite app_length. lia.
Qed.

(** what an uplink leaves *)
Definition uplinked (bytes : text) (c c' : con) : Prop :=
  c_reg c' = c_reg c /\ c_len c' = Z.of_nat (length bytes) /\ firstn (length bytes) (c_mt c') = bytes /\
  length (c_mt c') = length (c_mt c) /\ c_out c' = c_out c ++ [RUplink (packet_text bytes) (Z.of_nat (length bytes))].

Lemma do_up pl buf i d bytes c : 9 <= pl_long pl -> asks buf d (Uplink bytes) ->
  Forall (fun b => 0 <= b < 256) bytes -> (3 <= length bytes <= 74)%nat ->
  (length bytes <= length (c_mt c))%nat -> (pl_ptr pl <= length (c_mt c))%nat ->
  exists c', do_message pl buf i d c = Some (c', length bytes) /\ uplinked bytes c c'.
Proof.
  intros HL (EM & EF & EV & EL) F HN M1 M2. unfold do_message. rewrite EM, EF. cbn [as_cstr is_null as_uchar number is_uchar].
  change (Some (None (A := text))) with (Some (@None text)). cbn.
  pose proof (packet_text_length bytes F) as PL.
  unfold do_uplink. rewrite EV, EL.
  assert (AS : as_size (JNum (Z.of_nat (length bytes))) = Z.of_nat (length bytes)).
  { unfold as_size. cbn [number]. replace ((0 <=? Z.of_nat (length bytes)) && (Z.of_nat (length bytes) <? 2 ^ 32)) with true by lia. reflexivity. }
  rewrite AS, Nat2Z.id. unfold uplink_data, deliver. set (sz := length (packet_text bytes)) in *. unfold uplink_packet_size.
  destruct (Nat.ltb_spec 300 (sz + 2 + 1)); [lia|].
  cbn [app]. rewrite uplink_bytes_spec; [|assumption|lia| |assumption].
  2:{ rewrite firstn_length, app_length, repeat_length. lia. }
  unfold clear. destruct (Nat.ltb_spec (length (c_mt c)) (pl_ptr pl)); [lia|].
  assert (LM : length (repeat 0 (pl_ptr pl) ++ skipn (pl_ptr pl) (c_mt c)) = length (c_mt c)).
  { rewrite app_length, repeat_length, skipn_length. lia. }
  rewrite LM. destruct (Nat.ltb_spec (length (c_mt c)) (length bytes)); [lia|].
  eexists. split; [reflexivity|]. unfold uplinked, say. cbn [c_reg c_mt c_len c_out]. repeat split.
  - rewrite firstn_app, firstn_all, Nat.sub_diag, firstn_O, app_nil_r. reflexivity.
  - rewrite app_length, skipn_length, LM. lia.
Qed.

(** ** Whole lines *)
Lemma Forall2_len {A B} (P : A -> B -> Prop) a b : Forall2 P a b -> length a = length b.
Proof. induction 1; cbn; congruence. Qed.

Lemma load_line parts tail : (length (line_of parts tail) <= 512)%nat ->
  exists z, load (line_of parts tail) = line_of parts (tail ++ repeat 0 z).
Proof.
  intros H. exists (512 - length (line_of parts tail))%nat. unfold load, buf_size.
  rewrite firstn_app, firstn_all2 by exact H.
  assert (E : forall k n, (k <= n)%nat -> firstn k (repeat 0 n) = repeat 0 k).
  { induction k as [|k IH]; intros [|n] L; cbn; try reflexivity; try lia. f_equal. apply IH. lia. }
  rewrite E by lia. unfold line_of. rewrite <- app_assoc. reflexivity.
Qed.

Lemma starts_count lib parts : forall qs tail k, Forall2 (part_says lib) parts qs -> ~ In brace tail ->
  length (braces k (line_of parts tail)) = length parts.
Proof.
  induction parts as [|[g m] parts IH]; intros qs tail k F NT; inversion F as [|? q ? qs' H F']; subst.
  - unfold line_of. cbn [flat_map app]. rewrite braces_none by exact NT. reflexivity.
  - destruct H as (NG & (body & EM & NB) & _). cbn [fst snd] in *.
    assert (B1 : forall k, braces k m = [k]).
    { intros j. rewrite EM. cbn [braces]. rewrite Z.eqb_refl, (braces_none body) by exact NB. reflexivity. }
    unfold line_of. cbn [flat_map fst snd]. repeat rewrite <- app_assoc. fold (line_of parts tail).
    rewrite braces_app, (braces_none g) by exact NG. cbn [app]. rewrite braces_app, B1. cbn [app length]. f_equal.
    apply (IH qs'); assumption.
Qed.

Lemma parsed_line lib parts qs tail junk : Forall2 (part_says lib) parts qs -> ~ In brace tail ->
  (length parts <= 5)%nat -> (length (line_of parts tail) <= 512)%nat ->
  exists docs buf, parse_all lib (msg_starts (load (line_of parts tail))) junk (load (line_of parts tail)) =
    (map (pair true) docs, buf) /\ Forall2 (asks buf) docs qs.
Proof.
  intros F NT L5 L512. destruct (load_line parts tail L512) as [z ->].
  assert (NT' : ~ In brace (tail ++ repeat 0 z)).
  { intros X. apply in_app_or in X. destruct X as [X|X]; [exact (NT X)|]. apply repeat_spec in X. discriminate. }
  unfold msg_starts, max_msgs. rewrite firstn_all2 by (rewrite (starts_count lib parts qs _ 0 F NT'); exact L5).
  destruct (parse_line lib parts qs _ junk [] F NT') as (docs & rest & P & A). cbn [app length] in *. eauto.
Qed.

Lemma line_rw fuel pl lib junk parts qs tail c : Forall2 (part_says lib) parts qs -> ~ In brace tail ->
  (length parts <= 5)%nat -> (length (line_of parts tail) <= 512)%nat ->
  Forall (fun q => match q with Uplink _ => False | _ => True end) qs -> (5 < fuel)%nat ->
  process_line fuel pl lib junk (line_of parts tail) c = Returned (answers qs c).
Proof.
  intros F NT L5 L512 U HF. destruct (parsed_line lib parts qs tail junk F NT L5 L512) as (docs & buf & P & A).
  unfold process_line. rewrite P.
  assert (LD : length docs = length parts) by (rewrite (Forall2_len _ _ _ A), (Forall2_len _ _ _ F); reflexivity).
  replace fuel with (length docs + S (fuel - length docs - 1))%nat by lia.
  destruct (messages_rw pl buf (map (pair true) docs) docs qs [] 0 c (S (fuel - length docs - 1)) A) as [E1 E2].
  - apply forallb_forall. intros q HI. rewrite Forall_forall in U. specialize (U q HI). destruct q; [reflexivity|reflexivity|contradiction].
  - cbn [skipn]. rewrite app_nil_r. reflexivity.
  - rewrite E1. cbn [messages plus]. rewrite (proj2 (nth_error_None _ _)); [reflexivity|]. rewrite map_length. lia.
Qed.

Lemma line_up fuel pl lib junk parts qs bytes tail c : Forall2 (part_says lib) parts (qs ++ [Uplink bytes]) -> ~ In brace tail ->
  (length parts <= 5)%nat -> (length (line_of parts tail) <= 512)%nat ->
  Forall (fun q => match q with Uplink _ => False | _ => True end) qs -> (5 < fuel)%nat ->
  9 <= pl_long pl -> Forall (fun b => 0 <= b < 256) bytes -> (3 <= length bytes <= 74)%nat -> (length qs <= length bytes)%nat ->
  (length bytes <= length (c_mt c))%nat -> (pl_ptr pl <= length (c_mt c))%nat ->
  exists c', process_line fuel pl lib junk (line_of parts tail) c = Returned c' /\ uplinked bytes (answers qs c) c'.
Proof.
  intros F NT L5 L512 U HF HL HB HN HQ M1 M2.
  destruct (parsed_line lib parts _ tail junk F NT L5 L512) as (docs & buf & P & A).
  unfold process_line. rewrite P.
  assert (LD : length docs = length parts) by (rewrite (Forall2_len _ _ _ A), (Forall2_len _ _ _ F); reflexivity).
  assert (LQ : length docs = (length qs + 1)%nat) by (rewrite (Forall2_len _ _ _ A), app_length; reflexivity).
  apply Forall2_app_inv_r in A. destruct A as (d1 & d2 & A1 & A2 & ED). inversion A2 as [|d ? ? ? AU A3]; subst. inversion A3; subst.
  assert (L1 : length d1 = length qs) by (apply (Forall2_len _ _ _ A1)).
  replace fuel with (length d1 + S (fuel - length d1 - 1))%nat by lia.
  destruct (messages_rw pl buf (map (pair true) (d1 ++ [d])) d1 qs [(true, d)] 0 c (S (fuel - length d1 - 1)) A1) as [E1 E2].
  - apply forallb_forall. intros q HI. rewrite Forall_forall in U. specialize (U q HI). destruct q; [reflexivity|reflexivity|contradiction].
  - cbn [skipn]. rewrite map_app. reflexivity.
  - rewrite E1. destruct (skipn_cons _ _ _ _ E2) as [N _]. cbn [messages]. rewrite N. cbn [negb].
    assert (MT : c_mt (answers qs c) = c_mt c).
    { clear. revert c. induction qs as [|q qs IH]; intros c; [reflexivity|]. unfold answers in *. cbn [fold_left]. rewrite IH.
      destruct q as [n|n v|b]; cbn [answer]; [reflexivity| |reflexivity].
      destruct (find_cf (c_reg c) n) as [f|]; [|reflexivity]. destruct (cf_read f v); reflexivity. }
    destruct (do_up pl buf (0 + length d1) d bytes (answers qs c) HL AU HB HN) as (c' & D & UP); [rewrite MT; assumption|rewrite MT; assumption|].
    rewrite D. exists c'. split; [|exact UP].
    replace (fuel - length d1 - 1)%nat with (S (fuel - length d1 - 2)) by lia. cbn [messages].
    rewrite (proj2 (nth_error_None _ _)); [reflexivity|]. rewrite map_length. lia.
Qed.

(** ** Stepping *)
Lemma text_eqb_spec a : forall b, reflect (a = b) (text_eqb a b).
Proof.
  induction a as [|x a IH]; intros [|y b]; cbn [text_eqb]; try (constructor; congruence).
  destruct (Z.eqb_spec x y) as [->|N]; cbn [andb]; [|constructor; congruence].
  destruct (IH b) as [->|N]; constructor; congruence.
Qed.
Lemma find_write_same r n v : find_cf (write_cf r n v) n = match find_cf r n with Some f => Some (mk_cf v (cf_read f)) | None => None end.
Proof.
  induction r as [|[m f] r IH]; [reflexivity|]. cbn [write_cf find_cf].
  destruct (text_eqb m n) eqn:E; cbn [find_cf]; rewrite E; [reflexivity|exact IH].
Qed.
Lemma find_write_other r n m v : n <> m -> find_cf (write_cf r n v) m = find_cf r m.
Proof.
  intros H. induction r as [|[k f] r IH]; [reflexivity|]. cbn [write_cf find_cf].
  destruct (text_eqb_spec k n) as [->|N]; cbn [find_cf].
  - destruct (text_eqb_spec n m); [congruence|reflexivity].
  - destruct (text_eqb k m); [reflexivity|exact IH].
Qed.
Lemma names_differ : cycle_start <> cycle_auto.
Proof. discriminate. Qed.

Lemma unstart_spec c : stepping c -> stepping (unstart c) /\ flag cycle_start (unstart c) = false.
Proof.
  intros ([v E] & A). unfold stepping, flag, unstart in *. cbn [c_reg] in *.
  rewrite find_write_same, (find_write_other _ _ _ _ names_differ), E. cbn [cf_value]. repeat split; try exact A. eexists. reflexivity.
Qed.

(** effect of plain requests on the two fields *)
Lemma answer_flags q c : stepping c -> plain q -> stepping (answer q c) /\
  flag cycle_start (answer q c) = (match q with
     | Write n v => if text_eqb n cycle_start then (if text_eqb v true_text then true else if text_eqb v false_text then false else flag cycle_start c) else flag cycle_start c
     | _ => flag cycle_start c end).
Proof.
  intros ([w E] & A) PL. destruct q as [n|n v|b]; [| |contradiction].
  - split; [|reflexivity]. split; [exists w; exact E|exact A].
  - cbn [plain] in PL. cbn [answer]. destruct (text_eqb_spec n cycle_start) as [->|N].
    + rewrite E. cbn [cf_read]. unfold bool_read.
      destruct (text_eqb v true_text) eqn:E1.
      { unfold stepping, flag. cbn [say c_reg]. rewrite find_write_same, (find_write_other _ _ _ _ names_differ), E.
        repeat split; [eexists; reflexivity|exact A]. }
      destruct (text_eqb v false_text) eqn:E2.
      { unfold stepping, flag. cbn [say c_reg]. rewrite find_write_same, (find_write_other _ _ _ _ names_differ), E.
        repeat split; [eexists; reflexivity|exact A]. }
      split; [|reflexivity]. split; [exists w; exact E|exact A].
    + destruct (find_cf (c_reg c) n) as [f|]; [|split; [split; [exists w; exact E|exact A]|reflexivity]].
      destruct (cf_read f v) as [v'|]; [|split; [split; [exists w; exact E|exact A]|reflexivity]].
      unfold stepping, flag in *. cbn [say c_reg]. rewrite !find_write_other by assumption. rewrite E in *.
      repeat split; [eexists; reflexivity|exact A].
Qed.
Lemma answers_flags qs : forall c, stepping c -> Forall plain qs -> stepping (answers qs c) /\
  flag cycle_start (answers qs c) = fold_left (fun s q => match q with
                        | Write n v => if text_eqb n cycle_start then (if text_eqb v true_text then true else if text_eqb v false_text then false else s) else s
                        | _ => s
                        end) qs (flag cycle_start c).
Proof.
  induction qs as [|q qs IH]; intros c HS HP; [split; [exact HS|reflexivity]|].
  apply Forall_cons_iff in HP. destruct HP as [P1 P2]. destruct (answer_flags q c HS P1) as [S1 F1].
  unfold answers. cbn [fold_left]. destruct (IH (answer q c) S1 P2) as [S2 F2]. split; [exact S2|].
  etransitivity; [exact F2|]. rewrite F1. destruct q; reflexivity.
Qed.

Definition line_proc (pl : platform) (lib : jlib) (junk : list bool) (l : text) (c : con) : option con :=
  match process_line 6 pl lib junk l c with Returned c' => Some c' | _ => None end.

Lemma plain_line_proc pl lib junk l qs c : plain_line lib l qs -> stepping c -> flag cycle_start c = false ->
  exists c', line_proc pl lib junk l c = Some c' /\ stepping c' /\ flag cycle_start c' = starts qs /\ c' = answers qs c.
Proof.
  intros (parts & tail & -> & NT & L5 & L512 & F & PL) HS H0. unfold line_proc.
  rewrite (line_rw 6 pl lib junk parts qs tail c F NT L5 L512); [| |lia].
  - destruct (answers_flags qs c HS PL) as [S1 F1]. exists (answers qs c). repeat split; try apply S1. rewrite F1, H0. reflexivity.
  - eapply Forall_impl; [|exact PL]. intros [|n v|b]; cbn; auto.
Qed.

(** lines, with what each asks for *)
Lemma wait_spec pl lib junk ls : forall c, Forall (fun p => plain_line lib (fst p) (snd p)) ls ->
  stepping c -> flag cycle_start c = false ->
  match wait_start (line_proc pl lib junk) (map fst ls) c with
  | Some (c', left_) => exists u p r, ls = u ++ p :: r /\ left_ = map fst r /\ forallb (fun q => negb (starts (snd q))) u = true /\
                        starts (snd p) = true /\ stepping c'
  | None => forallb (fun q => negb (starts (snd q))) ls = true
  end.
Proof.
  induction ls as [|[l qs] ls IH]; intros c F HS H0; cbn [map wait_start fst].
  - pose proof (proj2 HS) as A. rewrite H0, A. cbn [orb]. reflexivity.
  - pose proof (proj2 HS) as A. rewrite H0, A. cbn [orb]. apply Forall_cons_iff in F. destruct F as [F1 F]. cbn [fst snd] in F1.
    destruct (plain_line_proc pl lib junk l qs c F1 HS H0) as (c' & E & S' & F' & _). rewrite E.
    destruct (starts qs) eqn:EB.
    + assert (W : wait_start (line_proc pl lib junk) (map fst ls) c' = Some (c', map fst ls)).
      { destruct ls as [|x ls]; cbn [map wait_start]; rewrite F'; reflexivity. }
      rewrite W. exists [], (l, qs), ls. cbn [app forallb snd]. auto.
    + specialize (IH c' F S' F'). destruct (wait_start _ _ c') as [[c2 left_]|].
      * destruct IH as (u & p & r & -> & -> & FU & SP & S2). exists ((l, qs) :: u), p, r. cbn [app forallb snd]. rewrite EB. cbn [negb andb]. auto.
      * cbn [forallb snd]. rewrite EB. exact IH.
Qed.

Lemma stepping_work work : (forall c, find_cf (c_reg (work c)) cycle_start = find_cf (c_reg c) cycle_start) ->
  (forall c, find_cf (c_reg (work c)) cycle_auto = find_cf (c_reg c) cycle_auto) -> forall c, stepping c -> stepping (work c).
Proof. intros H1 H2 c [[v E] A]. split; [exists v; rewrite H1; exact E|]. unfold flag in *. rewrite H2. exact A. Qed.

Lemma cycles_spec pl lib junk work n :
  (forall c, find_cf (c_reg (work c)) cycle_start = find_cf (c_reg c) cycle_start) ->
  (forall c, find_cf (c_reg (work c)) cycle_auto = find_cf (c_reg c) cycle_auto) ->
  forall ls c, Forall (fun p => plain_line lib (fst p) (snd p)) ls -> stepping c ->
  match cycles (line_proc pl lib junk) work n (map fst ls) c with
  | Some (c', left_) => exists u r, ls = u ++ r /\ left_ = map fst r /\ length (filter (fun p => starts (snd p)) u) = n /\
                        (forall v p, u = v ++ [p] -> starts (snd p) = true)
  | None => (length (filter (fun p => starts (snd p)) ls) < n)%nat
  end.
Proof.
  intros W1 W2. induction n as [|n IH]; intros ls c F HS; cbn [cycles].
  - exists [], ls. repeat split. intros v p X. destruct v; discriminate.
  - destruct (unstart_spec c HS) as [S1 F1]. unfold debug_task. rewrite (proj2 S1).
    pose proof (wait_spec pl lib junk ls (unstart c) F S1 F1) as W.
    destruct (wait_start (line_proc pl lib junk) (map fst ls) (unstart c)) as [[c1 l1]|].
    + destruct W as (u & p & r & -> & -> & FU & SP & S2).
      apply Forall_app in F. destruct F as [_ F]. apply Forall_cons_iff in F. destruct F as [_ F].
      specialize (IH r (work c1) F (stepping_work work W1 W2 c1 S2)).
      assert (FZ : filter (fun q => starts (snd q)) u = []).
      { clear -FU. induction u as [|x u IH]; [reflexivity|]. cbn [forallb filter] in *. apply andb_true_iff in FU. destruct FU as [A B].
        apply negb_true_iff in A. rewrite A. apply IH. exact B. }
      destruct (cycles (line_proc pl lib junk) work n (map fst r) (work c1)) as [[c2 l2]|].
      * destruct IH as (u2 & r2 & -> & -> & CN & LAST). exists (u ++ p :: u2), r2. rewrite <- app_assoc. cbn [app].
        split; [reflexivity|]. split; [reflexivity|]. rewrite filter_app, FZ. cbn [app filter]. rewrite SP. cbn [length]. rewrite CN.
        split; [reflexivity|]. intros v q E.
        destruct u2 as [|y u2].
        { apply app_inj_tail in E. destruct E as [_ <-]. exact SP. }
        { destruct (exists_last (l := y :: u2)) as (v2 & z & EZ); [discriminate|]. rewrite EZ in E.
          change (u ++ p :: v2 ++ [z]) with (u ++ (p :: v2) ++ [z]) in E. rewrite app_assoc in E.
          apply app_inj_tail in E. destruct E as [_ <-]. apply (LAST v2 z EZ). }
      * rewrite filter_app, FZ. cbn [app filter]. rewrite SP. cbn [length]. lia.
    + assert (FZ : filter (fun q => starts (snd q)) ls = []).
      { clear -W. induction ls as [|x u IH]; [reflexivity|]. cbn [forallb filter] in *. apply andb_true_iff in W. destruct W as [A B].
        apply negb_true_iff in A. rewrite A. apply IH. exact B. }
      rewrite FZ. cbn [length]. lia.
Qed.

(** automatic cycling: never waits *)
Lemma auto_spec (proc : text -> con -> option con) work : (forall c, flag cycle_auto (work c) = flag cycle_auto c) ->
  (forall l c, flag cycle_auto c = true -> exists c', proc l c = Some c' /\ flag cycle_auto c' = true) ->
  forall n lines c, flag cycle_auto c = true -> exists c', cycles proc work n lines c = Some (c', skipn n lines) /\ flag cycle_auto c' = true.
Proof.
  intros HW HP. assert (U : forall c, flag cycle_auto (unstart c) = flag cycle_auto c).
  { intros c. unfold flag, unstart. cbn [c_reg]. rewrite (find_write_other _ _ _ _ names_differ). reflexivity. }
  induction n as [|n IH]; intros lines c HA; cbn [cycles].
  - exists c. split; [reflexivity|exact HA].
  - unfold debug_task. rewrite U, HA. destruct lines as [|l t].
    + destruct (IH [] (work (unstart c))) as (c' & E & A); [rewrite HW, U; exact HA|]. rewrite skipn_nil in E. exists c'. split; [exact E|exact A].
    + destruct (HP l (unstart c)) as (c1 & E1 & A1); [rewrite U; exact HA|]. rewrite E1.
      destruct (IH t (work c1)) as (c' & E & A); [rewrite HW; exact A1|]. exists c'. split; [exact E|exact A].
Qed.

(** ** Returning *)
Lemma do_message_index pl buf i d c c' i' : do_message pl buf i d c = Some (c', i') ->
  i' = i \/ (as_uchar (j_mode d) = 117 /\ i' = Z.to_nat (as_size (j_length d))).
Proof.
  unfold do_message.
  repeat match goal with |- (match ?x with _ => _ end) = _ -> _ => destruct x eqn:? end; intros H; try discriminate H;
    injection H as <- <-; auto. right. split; [lia|reflexivity].
Qed.

Lemma messages_return pl buf ms :
  (forall i ok d, nth_error ms i = Some (ok, d) -> as_uchar (j_mode d) = 117 -> (i <= Z.to_nat (as_size (j_length d)))%nat) ->
  forall k i c, (length ms < i + k)%nat -> (0 < k)%nat -> messages k pl buf ms i c <> Running.
Proof.
  intros H. induction k as [|k IH]; intros i c L K; [lia|]. cbn [messages].
  destruct (nth_error ms i) as [[ok d]|] eqn:N; [|discriminate].
  assert (HI : (i < length ms)%nat) by (apply nth_error_Some; rewrite N; discriminate).
  destruct (negb ok); [apply IH; lia|].
  destruct (do_message pl buf i d c) as [[c' i']|] eqn:D; [|discriminate].
  destruct (do_message_index _ _ _ _ _ _ _ D) as [-> | [M ->]]; [apply IH; lia|].
  specialize (H i ok d N M). apply IH; lia.
Qed.

(** ** Messages that cannot be read *)
Lemma all_rejected fuel pl lib junk line c : (forall l, j_ok (fst (lib l)) = false) -> forallb negb junk = true -> (5 < fuel)%nat ->
  process_line fuel pl lib junk line c = Returned c.
Proof.
  intros HR HJ HF. unfold process_line.
  assert (P : forall ks j buf, forallb negb j = true -> forallb (fun m => negb (fst m)) (fst (parse_all lib ks j buf)) = true /\
             length (fst (parse_all lib ks j buf)) = length ks).
  { induction ks as [|k ks IH]; intros j buf J; [split; reflexivity|]. cbn [parse_all].
    specialize (HR (skipn k buf)). destruct (lib (skipn k buf)) as [d rest]. cbn [fst] in HR.
    assert (J' : forallb negb (tl j) = true /\ hd false j = false).
    { destruct j as [|b j]; [split; reflexivity|]. cbn [forallb tl hd] in *. apply andb_true_iff in J. destruct J as [A B].
      apply negb_true_iff in A. auto. }
    destruct J' as [J1 J2]. destruct (IH (tl j) (firstn k buf ++ rest) J1) as [A B].
    destruct (parse_all lib ks (tl j) (firstn k buf ++ rest)) as [ms b]. cbn [fst forallb length] in *. rewrite HR, J2, A, B. auto. }
  destruct (P (msg_starts (load line)) junk (load line) HJ) as [A B].
  destruct (parse_all lib (msg_starts (load line)) junk (load line)) as [ms buf]. cbn [fst] in *.
  assert (L : (length ms <= 5)%nat).
  { rewrite B. unfold msg_starts, max_msgs. rewrite firstn_length. lia. }
  assert (G : forall k i, (length ms < i + k)%nat -> (0 < k)%nat -> messages k pl buf ms i c = Returned c).
  { induction k as [|k IH]; intros i H K; [lia|]. cbn [messages].
    destruct (nth_error ms i) as [[ok d]|] eqn:N; [|reflexivity].
    assert (OK : ok = false).
    { rewrite forallb_forall in A. specialize (A (ok, d) (nth_error_In _ _ N)). cbn [fst] in A. destruct ok; [discriminate|reflexivity]. }
    subst ok. cbn [negb]. assert (HI : (i < length ms)%nat) by (apply nth_error_Some; rewrite N; discriminate).
    apply IH; lia. }
  apply G; lia.
Qed.
