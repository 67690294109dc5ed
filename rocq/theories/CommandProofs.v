From Coq Require Import String.
From Verif Require Import Base BitArrayModel BitArrayProofs IntSerModel IntSerSpec IntSerProofs BitstreamModel BitstreamSpec UplinkModel UplinkSpec
  UplinkProofs PropertiesUplink FlownModel RegistryModel BootModel BootSpec BootProofs CommandModel CommandSpec.
Open Scope string_scope.
Open Scope list_scope.
Open Scope Z_scope.

(** what the proofs need of each commandable field, checked by computation *)
Definition int_ok (f : bfield) (t : ity) (mn mx : Z) (c : option nat) : bool :=
  (match t with UInt | UChar => true | _ => false end) && (0 <=? mn) && (mn <=? mx) && (mx <=? ity_max t) &&
  match ser_of t mn mx c with
  | Some s => Nat.eqb (List.length (is_bits s)) (bf_width f) && (Z.of_nat (bf_width f) <=? ity_bits t)
  | None => false
  end &&
  match c with None => (mx - mn <=? 2 ^ Z.of_nat (bf_width f) - 1) && (mx <=? 2 ^ (Z.of_nat (bf_width f) + 1) - 1) | Some _ => true end.
Definition field_ok (f : bfield) : bool :=
  existsb (ctype_beq (bf_type f)) encoders && Nat.leb 1 (bf_width f) && Nat.leb (bf_width f) 149 &&
  match bf_decl f with
  | Some DBool => Nat.eqb (bf_width f) 1
  | Some (DInt t mn mx c) => int_ok f t mn mx c
  | Some _ => true
  | None => false
  end.

(** ** Integers *)
Lemma int_ok_spec f t mn mx c : int_ok f t mn mx c = true -> (1 <= bf_width f)%nat ->
  exists s, ser_of t mn mx c = Some s /\ declared s /\ arith_safe s /\ is_ty s = t /\ is_min s = mn /\ is_max s = mx /\
    List.length (is_bits s) = bf_width f /\ 0 <= mn <= mx /\ mx <= ity_max t /\ ity_min t = 0 /\
    (forall x, 0 <= x <= mx -> u32 x = x) /\
    (c = None -> mx - mn <= 2 ^ Z.of_nat (bf_width f) - 1 /\ mx <= 2 ^ (Z.of_nat (bf_width f) + 1) - 1).
Proof.
  unfold int_ok. intros H W. repeat (apply andb_true_iff in H; destruct H as [H ?]).
  apply Z.leb_le in H2, H3, H4.
  destruct (ser_of t mn mx c) as [s|] eqn:E; [|discriminate]. exists s. split; [reflexivity|].
  apply andb_true_iff in H1. destruct H1 as [L1 L2]. apply Nat.eqb_eq in L1. apply Z.leb_le in L2.
  assert (F : is_ty s = t /\ is_min s = mn /\ is_max s = mx).
  { unfold ser_of, iser_make_auto, iser_make in E. destruct c.
    - injection E as <-. auto.
    - destruct (cpp_range t mn mx); [|discriminate]. injection E as <-. auto. }
  destruct F as (F1 & F2 & F3).
  assert (T : ity_min t = 0 /\ 0 <= ity_max t < 2 ^ 32) by (destruct t; try discriminate; cbn; lia).
  split. { unfold declared. rewrite F1, F2, F3, L1. destruct T as [T _]. rewrite T. repeat split; lia. }
  split. { unfold arith_safe. rewrite F1. destruct t; try discriminate; exact I. }
  destruct T as [T T'].
  split; [exact F1|]. split; [exact F2|]. split; [exact F3|]. split; [exact L1|]. split; [lia|]. split; [lia|]. split; [exact T|].
  split.
  - intros x X. unfold u32, uwrap. apply Z.mod_small. lia.
  - intros ->. apply andb_true_iff in H0. destruct H0 as [P Q]. apply Z.leb_le in P, Q. auto.
Qed.

Lemma ground_int_in t mn mx len z : 0 <= mn -> mx <= ity_max t -> ity_min t = 0 -> (forall x, 0 <= x <= mx -> u32 x = x) ->
  mn <= z <= mx -> z <= 2 ^ (Z.of_nat len + 1) - 1 -> ground_int t mn mx len z = Some z.
Proof.
  intros A B C U D E. unfold ground_int. rewrite (ity_conv_id t z) by lia.
  destruct (Z.ltb_spec z mn); [lia|]. destruct (Z.ltb_spec mx z); [lia|]. cbn [orb].
  rewrite U by lia. destruct (Z.ltb_spec (2 ^ (Z.of_nat len + 1) - 1) z); [lia|reflexivity].
Qed.

(** ** Numbering *)
Lemma field_map_ge : forall l i n r, field_map i l n = Some r -> (i <= fst r)%nat /\ In (snd r) l /\ bf_name (snd r) = n.
Proof.
  induction l as [|f l IH]; intros i n r H; [discriminate|]. cbn in H.
  destruct (field_map (S i) l n) as [r'|] eqn:E.
  - injection H as <-. destruct (IH _ _ _ E) as (A & B & C). split; [lia|]. split; [right; exact B|exact C].
  - destruct (String.eqb_spec n (bf_name f)); [|discriminate]. injection H as <-. cbn. split; [lia|]. split; [left; reflexivity|congruence].
Qed.
Lemma field_map_none : forall l i n, ~ In n (map bf_name l) -> field_map i l n = None.
Proof.
  induction l as [|f l IH]; intros i n H; [reflexivity|]. cbn in *. rewrite IH by tauto.
  destruct (String.eqb_spec n (bf_name f)); [subst; tauto|reflexivity].
Qed.
Lemma field_map_at : forall l i k f, NoDup (map bf_name l) -> nth_error l k = Some f ->
  field_map i l (bf_name f) = Some ((i + k)%nat, f).
Proof.
  induction l as [|g l IH]; intros i k f ND H; [destruct k; discriminate|].
  cbn [map] in ND. inversion ND as [|? ? NI ND']; subst. destruct k as [|k]; cbn [nth_error] in H; cbn [field_map].
  - injection H as ->. rewrite field_map_none by assumption. rewrite String.eqb_refl. rewrite Nat.add_0_r. reflexivity.
  - rewrite (IH (S i) k f ND' H). f_equal. f_equal. lia.
Qed.
Lemma nth_error_ext_local {A} : forall (l l' : list A), List.length l = List.length l' ->
  (forall i, nth_error l i = nth_error l' i) -> l = l'.
Proof.
  induction l as [|x l IH]; intros [|y l'] L H; try discriminate; [reflexivity|].
  pose proof (H 0%nat) as H0. cbn in H0. injection H0 as ->. f_equal. apply IH; [cbn in L; lia|].
  intros i. exact (H (S i)).
Qed.

Lemma lens_isz : index_size 196 = 8%nat.
Proof. vm_compute. reflexivity. Qed.

Lemma encode_int_none f t mn mx c z : bf_decl f = Some (DInt t mn mx c) ->
  (ity_conv t z < mn \/ mx < ity_conv t z \/ 2 ^ (Z.of_nat (bf_width f) + 1) <= u32 (ity_conv t z)) -> encode f (JInt z) = None.
Proof.
  intros D H. unfold encode, encode_int. rewrite D. destruct (existsb _ _); [|reflexivity]. unfold ground_int.
  destruct (Z.ltb_spec (ity_conv t z) mn); [reflexivity|]. destruct (Z.ltb_spec mx (ity_conv t z)); [reflexivity|]. cbn [orb].
  destruct (Z.ltb_spec (2 ^ (Z.of_nat (bf_width f) + 1) - 1) (u32 (ity_conv t z))); [reflexivity|lia].
Qed.

Definition limit_ok (f : bfield) : bool :=
  match bf_decl f, limits (bf_name f) with
  | Some (DInt UInt mn mx (Some _)), Some (None, st) => (mn =? 5000) && (mx =? 9000) && Nat.eqb (bf_width f) 10
  | Some (DInt UInt mn mx (Some _)), Some (Some 1023, st) => (mn =? 0) && (mx =? 8500) && Nat.eqb (bf_width f) 9 && (st =? 17)
  | Some (DInt UInt mn mx (Some _)), Some (Some 127, st) => (mn =? 0) && (mx =? 1016470) && Nat.eqb (bf_width f) 6 && (st =? 16135)
  | Some (DInt _ _ _ (Some _)), _ => false
  | _, Some _ => false
  | _, None => true
  end.
Inductive limited (f : bfield) : Prop :=
| L_fine : ~ coarse f -> limits (bf_name f) = None -> limited f
| L_batt c st : bf_decl f = Some (DInt UInt 5000 9000 (Some c)) -> bf_width f = 10%nat ->
    limits (bf_name f) = Some (None, st) -> limited f
| L_pv c : bf_decl f = Some (DInt UInt 0 8500 (Some c)) -> bf_width f = 9%nat ->
    limits (bf_name f) = Some (Some 1023, 17) -> limited f
| L_dock c : bf_decl f = Some (DInt UInt 0 1016470 (Some c)) -> bf_width f = 6%nat ->
    limits (bf_name f) = Some (Some 127, 16135) -> limited f.

Lemma limit_ok_limited f : limit_ok f = true -> limited f.
Proof.
  unfold limit_ok. intros H. destruct (bf_decl f) as [d|] eqn:D.
  2:{ destruct (limits (bf_name f)) eqn:L; [discriminate|]. apply L_fine; [|exact L]. intros (t & mn & mx & c & E). congruence. }
  destruct d as [|t mn mx c| | | |].
  all: try (destruct (limits (bf_name f)) eqn:L; [discriminate|]; apply L_fine; [|exact L];
            intros (t' & mn' & mx' & c' & E); rewrite D in E; discriminate E).
  destruct c as [c|].
  2:{ assert (limits (bf_name f) = None) as L.
      { destruct t; destruct (limits (bf_name f)); try reflexivity; discriminate H. }
      apply L_fine; [|exact L]. intros (t' & mn' & mx' & c' & E). rewrite D in E. discriminate E. }
  destruct t; try (destruct (limits (bf_name f)) as [[[?|] ?]|]; discriminate H).
  destruct (limits (bf_name f)) as [[m st]|] eqn:L; [|discriminate H].
  destruct m as [m|].
  - assert (C : m = 1023 \/ m = 127).
    { clear -H. destruct (Z.eq_dec m 1023); [auto|]. destruct (Z.eq_dec m 127); [auto|]. exfalso.
      repeat match type of H with match ?x with _ => _ end = true => destruct x; try discriminate H; try congruence end. }
    destruct C as [-> | ->]; repeat (apply andb_true_iff in H; destruct H as [H ?]);
      apply Z.eqb_eq in H, H0, H2; apply Nat.eqb_eq in H1; subst.
    + eapply L_pv; eassumption.
    + eapply L_dock; eassumption.
  - repeat (apply andb_true_iff in H; destruct H as [H ?]). apply Z.eqb_eq in H, H1. apply Nat.eqb_eq in H0. subst.
    eapply L_batt; eassumption.
Qed.
Lemma u32_uint z : 0 <= z < 2 ^ 32 -> ity_conv UInt z = z.
Proof. intros H. apply ity_conv_id. cbn. lia. Qed.

(** the ground refuses what [refused] says *)
Lemma refused_encode f j : limited f -> refused (bf_name f, j) = true -> legal_value f j -> encode f j = None.
Proof.
  intros L R LV. unfold refused in R. cbn [fst snd] in R.
  destruct L as [_ E|c st D W E|c D W E|c D W E]; rewrite E in R; [discriminate| | |].
  - destruct j as [z|b|bits].
    + apply (encode_int_none _ _ _ _ _ _ D). destruct LV as (? & ? & ? & ? & D' & LV). rewrite D in D'. injection D' as <- <- <- <-.
      rewrite u32_uint by lia. rewrite W. change (u32 z) with (z mod 2 ^ 32). rewrite Z.mod_small by lia. cbn; lia.
    + cbn in LV. congruence.
    + destruct LV as (_ & X & _). exfalso. eapply X. exact D.
  - destruct j as [z|b|bits]; try discriminate. apply Z.ltb_lt in R.
    apply (encode_int_none _ _ _ _ _ _ D). destruct LV as (? & ? & ? & ? & D' & LV). rewrite D in D'. injection D' as <- <- <- <-.
    rewrite u32_uint by lia. rewrite W. change (u32 z) with (z mod 2 ^ 32). rewrite Z.mod_small by lia. cbn; lia.
  - destruct j as [z|b|bits]; try discriminate. apply Z.ltb_lt in R.
    apply (encode_int_none _ _ _ _ _ _ D). destruct LV as (? & ? & ? & ? & D' & LV). rewrite D in D'. injection D' as <- <- <- <-.
    rewrite u32_uint by lia. rewrite W. change (u32 z) with (z mod 2 ^ 32). rewrite Z.mod_small by lia. cbn; lia.
Qed.

(** what a coarse field keeps *)
Lemma step_is e w st k : is_step e w st -> 0 < k -> e <= k * (2 ^ w - 1) -> (k - 1) * (2 ^ w - 1) < e -> 0 < 2 ^ w - 1 -> st = k.
Proof.
  intros [A B] K C D E. specialize (B k ltac:(lia) C). assert (k - 1 < st) by nia. lia.
Qed.
Lemma quantised_is mx k z d : 0 < k -> 0 <= z <= mx -> quantised 0 mx k z d -> d = z / k * k.
Proof.
  intros K R [Q (m & M & ->)]. replace (clamp 0 mx z) with z in Q by (unfold clamp; lia). rewrite Z.max_l in Q by lia.
  assert (m = z / k); [|lia]. apply Z.div_unique with (r := z - m * k); lia.
Qed.


Definition sample_value (f : bfield) : jval :=
  match bf_decl f with
  | Some DBool => JBool true
  | Some (DInt _ mn _ _) => JInt mn
  | _ => JOther (repeat false (bf_width f))
  end.
Definition sample (l : list bfield) : list (string * jval) :=
  map (fun f => (bf_name f, sample_value f))
    (filter (fun f => match bf_decl f with Some (DInt _ _ _ (Some _)) => false | _ => true end) l).

(** ** Any table that passes the checks *)
Section Table.
Variable tbl : list bfield.
Hypothesis tbl_ok : forallb field_ok tbl = true.
Hypothesis tbl_names : NoDup (map bf_name tbl).
Hypothesis tbl_len : List.length tbl = 196%nat.
Hypothesis tbl_limits : forallb limit_ok tbl = true.
Hypothesis tbl_max : max_packet 8 (map bf_width tbl) = 3287%nat.
Lemma ok_of f : In f tbl -> field_ok f = true.
Proof. intros I. pose proof tbl_ok as A. rewrite forallb_forall in A. apply A. exact I. Qed.

Lemma ok_width f : In f tbl -> (1 <= bf_width f <= 149)%nat /\ existsb (ctype_beq (bf_type f)) encoders = true.
Proof.
  intros I. apply ok_of in I. unfold field_ok in I. repeat (apply andb_true_iff in I; destruct I as [I ?]).
  apply Nat.leb_le in H0, H1. auto.
Qed.

Lemma field_map_in n f : In f tbl -> bf_name f = n ->
  exists i, field_map 0 tbl n = Some (i, f) /\ nth_error tbl i = Some f.
Proof.
  intros I <-. apply In_nth_error in I. destruct I as [i H]. exists i. split; [|exact H].
  rewrite (field_map_at _ 0 i f tbl_names H). reflexivity.
Qed.

(** the value of a field, by the bits received *)
Lemma sat_int i f t mn mx c s s' d old :
  nth_error tbl i = Some f -> bf_decl f = Some (DInt t mn mx c) -> ser_of t mn mx c = Some s ->
  s' = mk_iser (is_ty s) (is_min s) (is_max s) (is_bits s') -> List.length (is_bits s') = List.length (is_bits s) ->
  deserialize s' = Some d -> sat_deser tbl i (is_bits s') old = SZ d.
Proof.
  intros N D S F L E. unfold sat_deser. rewrite N, D, S. unfold set_bits, assign. rewrite L, Nat.eqb_refl.
  rewrite <- F, E. reflexivity.
Qed.

(** a legal command within the limit of the ground, and what it leaves *)
Lemma encode_lands i f j : nth_error tbl i = Some f -> legal_value f j ->
  (forall z, j = JInt z -> z < 2 ^ (Z.of_nat (bf_width f) + 1)) ->
  exists b, encode f j = Some b /\ List.length b = bf_width f /\ forall old, lands f j (sat_deser tbl i b old).
Proof.
  intros N L LM. assert (I : In f tbl) by (eapply nth_error_In; exact N).
  destruct (ok_width f I) as [[W1 W2] EN]. pose proof (ok_of f I) as K. unfold field_ok in K.
  apply andb_true_iff in K. destruct K as [_ K]. unfold encode, encode_int. rewrite EN.
  destruct j as [z|v|bits]; cbn [legal_value] in L.
  - destruct L as (t & mn & mx & c & D & R). rewrite D in *. specialize (LM z eq_refl).
    destruct (int_ok_spec _ _ _ _ _ K W1) as (s & S & DS & AS & T1 & T2 & T3 & LB & M1 & M2 & M3 & U & _). clear K EN.
    assert (GI : ground_int t mn mx (bf_width f) z = Some z).
    { clear - M1 M2 M3 U LM R. apply ground_int_in; try assumption; lia. }
    rewrite GI, S.
    destruct (roundtrip_quantised s z DS AS) as (s' & d & st & E1 & E2 & LL & ST & Q).
    pose proof (serialize_spec s z DS AS) as E3. rewrite E1 in E3. injection E3 as E3.
    rewrite E1. cbn [option_map]. exists (is_bits s'). split; [reflexivity|].
    split; [rewrite LL; exact LB|]. intros old. cbn [lands].
    exists t, mn, mx, c, st, d. split; [exact D|]. rewrite T2, T3, LB in ST. rewrite T2, T3 in Q. split; [exact ST|]. split; [exact Q|].
    apply (sat_int i f t mn mx c s s' _ old N D S); [rewrite E3; reflexivity|exact LL|exact E2].
  - rewrite L in *. exists [v]. split; [reflexivity|]. apply Nat.eqb_eq in K. split; [symmetry; exact K|].
    intros old. unfold sat_deser. rewrite N, L. reflexivity.
  - destruct L as (L1 & L2 & L3). destruct (bf_decl f) as [d|] eqn:D; [|discriminate].
    exists bits. rewrite L3, Nat.eqb_refl. split; [|split; [reflexivity|]].
    + destruct d; try reflexivity; [exfalso; apply L1; reflexivity|exfalso; eapply L2; reflexivity].
    + intros old. unfold sat_deser. rewrite N, D.
      destruct d; try reflexivity; [exfalso; apply L1; reflexivity|exfalso; eapply L2; reflexivity].
Qed.

Lemma not_coarse_exact f : In f tbl -> ~ coarse f ->
  forall t mn mx c, bf_decl f = Some (DInt t mn mx c) ->
  0 <= mn <= mx /\ mx - mn <= 2 ^ Z.of_nat (bf_width f) - 1 /\ mx < 2 ^ (Z.of_nat (bf_width f) + 1).
Proof.
  intros I NC t mn mx c D. pose proof (ok_of f I) as K. unfold field_ok in K. destruct (ok_width f I) as [[W1 _] _].
  apply andb_true_iff in K. destruct K as [_ K]. rewrite D in K.
  destruct c as [c|]; [exfalso; apply NC; exists t, mn, mx, c; exact D|].
  destruct (int_ok_spec _ _ _ _ _ K W1) as (s & _ & _ & _ & _ & _ & _ & _ & M1 & _ & _ & _ & X).
  destruct (X eq_refl) as [X1 X2]. clear - M1 X1 X2. lia.
Qed.

(** a legal command to a field that holds all of its values *)
Lemma encode_legal i f j : nth_error tbl i = Some f -> legal_value f j -> ~ coarse f ->
  exists b, encode f j = Some b /\ List.length b = bf_width f /\ forall old, sat_deser tbl i b old = asked j.
Proof.
  intros N L NC. assert (I : In f tbl) by (eapply nth_error_In; exact N).
  destruct (encode_lands i f j N L) as (b & E & LB & A).
  { intros z ->. destruct L as (t & mn & mx & c & D & R).
    destruct (not_coarse_exact f I NC t mn mx c D) as (_ & _ & X). clear - R X. lia. }
  exists b. split; [exact E|]. split; [exact LB|]. intros old. specialize (A old). destruct j as [z|v|bits]; try exact A.
  destruct A as (t & mn & mx & c & st & d & D & [S1 S2] & [Q _] & ->). cbn [asked]. f_equal.
  destruct L as (t' & mn' & mx' & c' & D' & R). rewrite D in D'. injection D' as <- <- <- <-.
  destruct (not_coarse_exact f I NC t mn mx c D) as (X0 & X1 & _).
  specialize (S2 1 ltac:(clear; lia) ltac:(clear - X1; lia)). clear - Q S2 R X0. unfold clamp in Q. lia.
Qed.

(** ** A whole file *)
Definition takes (R : bfield -> jval -> sval -> Prop) (c : string * jval) : Prop :=
  exists i f b, nth_error tbl i = Some f /\ bf_name f = fst c /\ encode f (snd c) = Some b /\ List.length b = bf_width f /\
    forall old, R f (snd c) (sat_deser tbl i b old).

Lemma width_of_at i f : nth_error tbl i = Some f -> width_of tbl (bf_name f) = bf_width f.
Proof.
  unfold width_of. revert i tbl_names. clear. induction tbl as [|g l IH]; intros i ND N; [destruct i; discriminate|].
  cbn [map] in ND. inversion ND as [|? ? NI ND']; subst. cbn [find].
  destruct i as [|i]; cbn [nth_error] in N.
  - injection N as ->. rewrite String.eqb_refl. reflexivity.
  - destruct (String.eqb_spec (bf_name g) (bf_name f)) as [E|_]; [|exact (IH i ND' N)].
    exfalso. apply NI. rewrite E. apply in_map. eapply nth_error_In. exact N.
Qed.

Lemma entries_legal R junk : good_junk junk -> forall cmds,
  Forall (takes R) cmds -> NoDup (map fst cmds) ->
  exists es, entries tbl junk cmds = Some es /\ List.length es = List.length cmds /\
    valid_assignments (map bf_width tbl) (map fst es) /\
    Forall (fun e => ((List.length (snd (fst e)) + List.length (snd e)) mod 8 = 0)%nat /\
                     (8 * Z.of_nat (List.length (snd (fst e)) + List.length (snd e)) < 2 ^ 31 - 8)%Z) es /\
    (forall i f, nth_error tbl i = Some f ->
       match order cmds (bf_name f), assigned (map fst es) i with
       | Some j, Some b => forall old, R f j (sat_deser tbl i b old)
       | None, None => True
       | _, _ => False
       end) /\
    (forall i, In i (map fst (map fst es)) -> exists f, nth_error tbl i = Some f /\ In (bf_name f) (map fst cmds)) /\
    List.length (wire 8 (map fst es)) = cost tbl cmds.
Proof.
  intros GJ. induction cmds as [|[n j] cmds IH]; intros LG ND.
  - exists []. cbn [entries]. split; [reflexivity|]. split; [reflexivity|]. split; [split; constructor|].
    split; [constructor|]. split; [intros; exact I|]. split; [intros i []|reflexivity].
  - inversion LG as [|? ? (i & f & b & NT & FN & EB & LB & SD) LG']; subst.
    cbn [map fst] in ND. inversion ND as [|? ? NI ND']; subst. cbn [fst snd] in *.
    destruct (IH LG' ND') as (es & E & LE & (V1 & V2) & JK & AG & SRC & WL).
    assert (I : In f tbl) by (eapply nth_error_In; exact NT).
    assert (FM : field_map 0 tbl n = Some (i, f)) by (rewrite <- FN; exact (field_map_at tbl 0 i f tbl_names NT)).
    pose proof (ok_width f I) as [[W1 W2] _]. destruct (GJ (List.length b)) as [J1 J2].
    cbn [entries]. rewrite FM, EB, E. eexists. split; [reflexivity|]. cbn [List.length map fst snd].
    split; [rewrite LE; reflexivity|]. split.
    { split.
      - cbn [map fst]. constructor; [|exact V1]. intros HI. destruct (SRC i HI) as (f' & NT' & HI').
        rewrite NT in NT'. injection NT' as <-. rewrite FN in HI'. contradiction.
      - constructor; [|exact V2]. cbn [fst snd]. split.
        + rewrite nth_error_map, NT. cbn [option_map]. rewrite LB. reflexivity.
        + destruct b; [clear - LB W1; cbn in LB; lia|discriminate]. }
    split. { constructor; [|exact JK]. cbn [fst snd]. split; [exact J1|clear - LB W2 J2; lia]. }
    split.
    { intros i' f' NT'. cbn [order assigned map fst]. specialize (AG i' f' NT').
      destruct (String.eqb_spec n (bf_name f')) as [EQ|NE].
      - assert (i' = i).
        { pose proof (field_map_at tbl 0 i' f' tbl_names NT') as P. rewrite <- EQ, FM in P.
          injection P as P _. symmetry. exact P. }
        subst i'. rewrite NT in NT'. injection NT' as <-. rewrite Nat.eqb_refl. exact SD.
      - destruct (Nat.eqb_spec i i') as [->|_]; [|exact AG]. rewrite NT in NT'. injection NT' as <-. congruence. }
    split.
    { intros i' [<-|HI]; [exists f; split; [exact NT|left; congruence]|].
      destruct (SRC i' HI) as (f' & A & B). exists f'. split; [exact A|right; exact B]. }
    unfold wire in *. cbn [flat_map fst snd]. rewrite !app_length, val_bits_length. cbn [cost].
    rewrite <- FN, (width_of_at i f NT). clear - WL LB. lia.
Qed.

Lemma flown_small (fields : list (wfield sval)) : map (fun f => List.length (wf_bits f)) fields = (map bf_width tbl) ->
  (Z.of_nat (List.length fields) < 2 ^ 30)%Z /\
  Forall (fun f => (Z.of_nat (List.length (wf_bits f)) < 2 ^ 31)%Z) fields /\
  List.length fields = 196%nat.
Proof.
  intros E. assert (L : List.length fields = 196%nat).
  { rewrite <- tbl_len, <- (map_length bf_width tbl), <- E. symmetry. apply map_length. }
  split; [rewrite L; lia|]. split; [|exact L]. apply Forall_forall. intros w I.
  assert (J : In (List.length (wf_bits w)) (map bf_width tbl)) by (rewrite <- E; apply in_map_iff; exists w; auto).
  apply in_map_iff in J. destruct J as (f & EF & IF). pose proof (ok_width f IF). lia.
Qed.

Lemma commands_land : forall R junk cmds (fields : list (wfield sval)) tail,
  good_junk junk -> map (fun f => List.length (wf_bits f)) fields = (map bf_width tbl) ->
  cmds <> [] -> NoDup (map fst cmds) -> Forall (takes R) cmds -> wf_bytes tail ->
  exists msg fields', ground_message tbl junk cmds = Some (Some msg) /\
    List.length msg = ((cost tbl cmds + 7) / 8)%nat /\
    consumer_execute (sat_deser tbl) (mk_us fields (List.length msg) (Some (msg ++ tail))) =
      Some (mk_us fields' 0 (Some (msg ++ tail))) /\
    map (fun f => List.length (wf_bits f)) fields' = (map bf_width tbl) /\
    forall i f w, nth_error tbl i = Some f -> nth_error fields i = Some w ->
      match order cmds (bf_name f) with
      | Some j => exists b v, nth_error fields' i = Some (mk_wf b v) /\ R f j v
      | None => nth_error fields' i = Some w
      end.
Proof.
  intros R junk cmds fields tail GJ FL NE ND LG WT.
  destruct (flown_small fields FL) as (S1 & S2 & S3).
  destruct (entries_legal R junk GJ cmds LG ND) as (es & E & LE & V & JK & AG & _ & WL).
  assert (EN : es <> []) by (destruct es; [destruct cmds; [congruence|discriminate]|discriminate]).
  assert (MX : (8 * Z.of_nat (max_packet (index_size (List.length fields)) (map bf_width tbl)) < 2 ^ 31 - 8)%Z)
    by (rewrite S3, lens_isz, tbl_max; reflexivity).
  pose proof (C07_ground_uplink_takes_effect sval (sat_deser tbl) fields es tail) as H. cbv zeta in H. rewrite FL in H.
  destruct (H S1 S2 MX EN V JK WT) as (msg & fields' & E1 & E2 & E3 & E4).
  exists msg, fields'. split. { unfold ground_message. rewrite E. exact E1. }
  assert (LL : List.length (map bf_width tbl) = 196%nat) by (rewrite map_length; exact tbl_len).
  split.
  { destruct (create_packet_spec (map bf_width tbl) es) as (msg2 & F1 & F2 & _ & _ & _ & pad & P1 & P2); try assumption.
    - rewrite LL; lia.
    - rewrite <- FL. apply Forall_forall. intros l HI. apply in_map_iff in HI. destruct HI as (w & <- & HI).
      rewrite Forall_forall in S2. exact (S2 _ HI).
    - rewrite LL, lens_isz, tbl_max. reflexivity.
    - rewrite E1 in F1. injection F1 as <-. rewrite LL, lens_isz in P2.
      apply (f_equal (@List.length bool)) in P2. rewrite app_length, repeat_length in P2.
      assert (LC : List.length (concat msg) = (8 * List.length msg)%nat).
      { clear -F2. induction F2 as [|x l A B IH]; [reflexivity|]. cbn. rewrite app_length, IH.
        rewrite A. lia. }
      unfold strip in P2. rewrite LC, WL in P2. clear - P1 P2. apply (Nat.div_unique _ 8 _ (7 - pad)); lia. }
  split; [exact E2|]. split.
  { rewrite <- FL. apply nth_error_ext_local; [rewrite !map_length; exact E3|].
    intros i. rewrite !nth_error_map. destruct (nth_error fields i) as [w|] eqn:N.
    - rewrite (E4 i w N). destruct (assigned (map fst es) i) as [b|] eqn:A; [|reflexivity]. cbn [option_map wf_bits].
      destruct V as [_ V]. rewrite Forall_forall in V.
      assert (In (i, b) (map fst es)).
      { clear -A. induction (map fst es) as [|[i' b'] l IH]; [discriminate|]. cbn in A.
        destruct (Nat.eqb_spec i' i); [injection A as <-; subst; left; reflexivity|right; apply IH; exact A]. }
      destruct (V _ H0) as [V1 _]. cbn [fst snd] in V1. rewrite <- FL, nth_error_map, N in V1. cbn in V1. congruence.
    - assert (nth_error fields' i = None) as ->; [|reflexivity]. apply nth_error_None. rewrite E3. apply nth_error_None. exact N. }
  intros i f w NF NW. specialize (AG i f NF). specialize (E4 i w NW).
  destruct (order cmds (bf_name f)) as [j|], (assigned (map fst es) i) as [b|]; try contradiction.
  - exists b. eexists. split; [exact E4|apply AG].
  - exact E4.
Qed.

Lemma takes_asked c : legal tbl c -> ~ names_coarse tbl c -> takes (fun _ j v => v = asked j) c.
Proof.
  intros (f & I & FN & LV) NC. destruct (field_map_in _ f I FN) as (i & _ & NT).
  destruct (encode_legal i f (snd c) NT LV) as (b & E & LB & A).
  { intros C. apply NC. exists f. auto. }
  exists i, f, b. auto.
Qed.
Lemma takes_lands c : legal tbl c -> within_width tbl c -> takes lands c.
Proof.
  intros (f & I & FN & LV) WW. destruct (field_map_in _ f I FN) as (i & _ & NT).
  destruct (encode_lands i f (snd c) NT LV) as (b & E & LB & A).
  { intros z Z. exact (WW f z I FN Z). }
  exists i, f, b. auto.
Qed.

(** *** Refusals *)
Lemma entries_refused junk n j : forall cmds, In (n, j) cmds ->
  (forall i f, field_map 0 tbl n = Some (i, f) -> encode f j = None) -> entries tbl junk cmds = None.
Proof.
  induction cmds as [|[m k] cmds IH]; intros I H; [destruct I|]. cbn [entries].
  destruct I as [E|I].
  - injection E as -> ->. destruct (field_map 0 tbl n) as [[i f]|] eqn:F; [|reflexivity]. rewrite (H i f eq_refl). reflexivity.
  - rewrite (IH I H). destruct (field_map 0 tbl m) as [[i f]|]; [|reflexivity]. destruct (encode f k); reflexivity.
Qed.
Lemma file_refused junk n j cmds : In (n, j) cmds ->
  (forall f, In f tbl -> bf_name f = n -> encode f j = None) -> ground_message tbl junk cmds = Some None.
Proof.
  intros I H. unfold ground_message. rewrite (entries_refused junk n j cmds I); [reflexivity|].
  intros i f F. destruct (field_map_ge _ _ _ _ F) as (_ & A & B). exact (H f A B).
Qed.
Lemma flown_limited f : In f tbl -> limited f.
Proof. intros I. apply limit_ok_limited. pose proof tbl_limits as H. rewrite forallb_forall in H. exact (H f I). Qed.

Lemma accepted_takes c : legal tbl c -> refused c = false -> takes (fun f j v => v = kept (bf_name f) j) c.
Proof.
  intros (f & I & FN & LV) R. destruct c as [n j]. cbn [fst snd] in *. subst n.
  destruct (flown_limited f I) as [NC E|k st D W E|k D W E|k D W E].
  - destruct (takes_asked (bf_name f, j)) as (i & f' & b & N & F & EN & LB & A).
    { exists f. auto. }
    { intros (g & IG & GN & GC). cbn [fst] in GN. apply In_nth_error in I, IG. destruct I as [i I], IG as [i' IG].
      pose proof (field_map_at tbl 0 i f tbl_names I) as P.
      pose proof (field_map_at tbl 0 i' g tbl_names IG) as P'. rewrite GN, P in P'. injection P' as _ <-. exact (NC GC). }
    exists i, f', b. repeat (split; [assumption|]). intros old. unfold kept. cbn [fst snd] in *. rewrite F, E. apply A.
  - unfold refused in R. cbn [fst snd] in R. rewrite E in R. discriminate.
  - unfold refused in R. cbn [fst snd] in R. rewrite E in R.
    destruct j as [z|b|bits]; [|cbn in LV; congruence|destruct LV as (_ & X & _); exfalso; eapply X; exact D].
    apply Z.ltb_ge in R. apply In_nth_error in I. destruct I as [i I].
    destruct LV as (? & ? & ? & ? & D' & LV). pose proof D' as D0. rewrite D in D'. injection D' as <- <- <- <-.
    destruct (encode_lands i f (JInt z) I) as (b & EN & LB & A).
    { exists UInt, 0, 8500, (Some k). auto. }
    { intros z' Z. injection Z as <-. rewrite W. clear - R. cbn. lia. }
    exists i, f, b. repeat (split; [auto|]). intros old. destruct (A old) as (? & ? & ? & ? & st & d & D' & S & Q & V).
    rewrite D in D'. injection D' as <- <- <- <-. cbn [snd]. unfold kept. rewrite E, V. f_equal. rewrite W in S.
    assert (st = 17) by (apply (step_is _ _ _ _ S); clear; cbn; lia). subst st.
    apply (quantised_is 8500); [lia|exact LV|exact Q].
  - unfold refused in R. cbn [fst snd] in R. rewrite E in R.
    destruct j as [z|b|bits]; [|cbn in LV; congruence|destruct LV as (_ & X & _); exfalso; eapply X; exact D].
    apply Z.ltb_ge in R. apply In_nth_error in I. destruct I as [i I].
    destruct LV as (? & ? & ? & ? & D' & LV). pose proof D' as D0. rewrite D in D'. injection D' as <- <- <- <-.
    destruct (encode_lands i f (JInt z) I) as (b & EN & LB & A).
    { exists UInt, 0, 1016470, (Some k). auto. }
    { intros z' Z. injection Z as <-. rewrite W. clear - R. cbn. lia. }
    exists i, f, b. repeat (split; [auto|]). intros old. destruct (A old) as (? & ? & ? & ? & st & d & D' & S & Q & V).
    rewrite D in D'. injection D' as <- <- <- <-. cbn [snd]. unfold kept. rewrite E, V. f_equal. rewrite W in S.
    assert (st = 16135) by (apply (step_is _ _ _ _ S); clear; cbn; lia). subst st.
    apply (quantised_is 1016470); [lia|exact LV|exact Q].
Qed.

(** *** Files *)
Lemma delivered_of want cmds : cmds <> [] -> NoDup (map fst cmds) ->
  Forall (takes (fun f j v => v = want f j)) cmds -> delivered tbl cmds want.
Proof.
  intros NE ND T junk fields tail GJ FL WT.
  destruct (commands_land _ junk cmds fields tail GJ FL NE ND T WT) as (msg & fields' & A & B & C & D & E).
  exists msg, fields'. repeat (split; [assumption|]). intros i f w NF NW. specialize (E i f w NF NW).
  destruct (order cmds (bf_name f)) as [j|]; [|exact E]. destruct E as (b & v & E & ->). exists b. exact E.
Qed.
Lemma legal_delivered cmds : cmds <> [] -> NoDup (map fst cmds) -> Forall (legal tbl) cmds ->
  Forall (fun c => ~ names_coarse tbl c) cmds -> delivered tbl cmds (fun _ j => asked j).
Proof.
  intros NE ND L NC. apply delivered_of; try assumption. rewrite Forall_forall in *. intros c I.
  apply takes_asked; [exact (L c I)|exact (NC c I)].
Qed.
Lemma every_delivered cmds : cmds <> [] -> NoDup (map fst cmds) -> Forall (legal tbl) cmds ->
  if existsb refused cmds then forall junk, ground_message tbl junk cmds = Some None
  else delivered tbl cmds (fun f j => kept (bf_name f) j).
Proof.
  intros NE ND L. destruct (existsb refused cmds) eqn:R.
  - apply existsb_exists in R. destruct R as ([n j] & I & R). intros junk. apply (file_refused junk n j cmds I).
    intros f IF FN. subst n. apply refused_encode; [apply flown_limited; exact IF|exact R|].
    rewrite Forall_forall in L. destruct (L _ I) as (g & IG & GN & LV). cbn [fst snd] in *.
    apply In_nth_error in IF, IG. destruct IF as [i IF], IG as [i' IG].
    pose proof (field_map_at tbl 0 i f tbl_names IF) as P. pose proof (field_map_at tbl 0 i' g tbl_names IG) as P'.
    rewrite GN, P in P'. injection P' as _ <-. exact LV.
  - apply delivered_of; try assumption. rewrite Forall_forall in *. intros c I. apply accepted_takes; [exact (L c I)|].
    destruct (refused c) eqn:E; [|reflexivity]. assert (existsb refused cmds = true) by (apply existsb_exists; exists c; auto). congruence.
Qed.
Lemma outside_refused junk n z cmds : In (n, JInt z) cmds ->
  (forall f, In f tbl -> bf_name f = n -> exists t mn mx c, bf_decl f = Some (DInt t mn mx c) /\ ity_min t <= z <= ity_max t /\ ~ mn <= z <= mx) ->
  ground_message tbl junk cmds = Some None.
Proof.
  intros I H. apply (file_refused junk n (JInt z) cmds I). intros f IF FN.
  destruct (H f IF FN) as (t & mn & mx & c & D & R & O). apply (encode_int_none f t mn mx c z D).
  rewrite ity_conv_id by exact R. clear - O. lia.
Qed.
Lemma unknown_refused junk n j cmds : In (n, j) cmds -> ~ In n (map bf_name tbl) -> ground_message tbl junk cmds = Some None.
Proof.
  intros I NI. apply (file_refused junk n j cmds I). intros f IF FN. exfalso. apply NI. subst n. apply in_map. exact IF.
Qed.
Lemma cost_le : (forall f, In f tbl -> bf_width f <= 149)%nat -> forall cmds, (cost tbl cmds <= 157 * List.length cmds)%nat.
Proof.
  intros W. induction cmds as [|[n j] cmds IH]; [cbn; lia|]. cbn [cost List.length].
  assert (width_of tbl n <= 149)%nat; [|lia]. unfold width_of.
  destruct (find _ tbl) as [f|] eqn:F; [|lia]. apply find_some in F. exact (W f (proj1 F)).
Qed.
Lemma small_files cmds : (List.length cmds <= 17)%nat -> ((cost tbl cmds + 7) / 8 <= 340)%nat.
Proof.
  intros L. assert (C : (cost tbl cmds <= 157 * List.length cmds)%nat).
  { apply cost_le. intros f I. destruct (ok_width f I) as [[_ W] _]. exact W. }
  transitivity ((157 * 17 + 7) / 8)%nat; [|vm_compute; lia]. apply Nat.div_le_mono; lia.
Qed.

(** a file that orders every field that holds all of its values *)
Lemma sample_legal : Forall (legal tbl) (sample tbl) /\ Forall (fun c => ~ names_coarse tbl c) (sample tbl) /\ NoDup (map fst (sample tbl)).
Proof.
  assert (K : forall c, In c (sample tbl) -> exists f, In f tbl /\ ~ coarse f /\ c = (bf_name f, sample_value f)).
  { intros c I. unfold sample in I. apply in_map_iff in I. destruct I as (f & <- & I). apply filter_In in I. destruct I as [I F].
    exists f. split; [exact I|]. split; [|reflexivity]. intros (t & mn & mx & k & D). rewrite D in F. discriminate F. }
  split; [|split].
  - apply Forall_forall. intros c I. destruct (K c I) as (f & IF & _ & ->). exists f. cbn [fst snd]. split; [exact IF|]. split; [reflexivity|].
    pose proof (ok_of f IF) as O. unfold field_ok in O. apply andb_true_iff in O. destruct O as [_ O].
    destruct (ok_width f IF) as [[W1 _] _]. unfold sample_value, legal_value. destruct (bf_decl f) as [d|] eqn:D; [|discriminate].
    destruct d; try reflexivity; try (split; [discriminate|split; [discriminate|apply repeat_length]]).
    destruct (int_ok_spec _ _ _ _ _ O W1) as (s & _ & _ & _ & _ & _ & _ & _ & M1 & _).
    eexists _, _, _, _. split; [reflexivity|]. clear - M1. lia.
  - apply Forall_forall. intros c I. destruct (K c I) as (f & IF & NC & ->). intros (g & IG & GN & GC). cbn [fst] in GN.
    apply In_nth_error in IF, IG. destruct IF as [i IF], IG as [i' IG].
    pose proof (field_map_at tbl 0 i f tbl_names IF) as P. pose proof (field_map_at tbl 0 i' g tbl_names IG) as P'.
    rewrite GN, P in P'. injection P' as _ <-. exact (NC GC).
  - unfold sample. rewrite map_map. cbn [fst]. clear - tbl_names.
    induction tbl as [|g l IH]; [constructor|]. cbn [map] in tbl_names. inversion tbl_names as [|? ? NI ND]; subst. cbn [filter].
    destruct (match bf_decl g with Some (DInt _ _ _ (Some _)) => false | _ => true end); [|exact (IH ND)].
    cbn [map]. constructor; [|exact (IH ND)]. intros I. apply NI. apply in_map_iff in I. destruct I as (f & E & I).
    apply filter_In in I. apply in_map_iff. exists f. tauto.
Qed.
End Table.

(** ** The flown table *)
Lemma all_ok : forallb field_ok commandable = true.
Proof. vm_compute. reflexivity. Qed.
Lemma lens_len : List.length commandable = 196%nat.
Proof. vm_compute. reflexivity. Qed.
Lemma lens_max : max_packet 8 (map bf_width commandable) = 3287%nat.
Proof. vm_compute. reflexivity. Qed.
Lemma limits_checked : forallb limit_ok commandable = true.
Proof. vm_compute. reflexivity. Qed.

Definition flown_land := commands_land commandable all_ok commandable_names lens_len lens_max.
Lemma sample_cost : cost commandable (sample commandable) = 3204%nat.
Proof. vm_compute. reflexivity. Qed.
Lemma sample_some : sample commandable <> [].
Proof. intros E. pose proof sample_cost as C. rewrite E in C. discriminate C. Qed.

Lemma legal_by i n z : match nth_error commandable i with
    | Some f => String.eqb (bf_name f) n && match bf_decl f with Some (DInt _ mn mx _) => (mn <=? z) && (z <=? mx) | _ => false end
    | None => false end = true -> legal commandable (n, JInt z).
Proof.
  destruct (nth_error commandable i) as [f|] eqn:N; [|discriminate]. intros H. apply andb_true_iff in H. destruct H as [H K].
  apply String.eqb_eq in H. exists f. split; [eapply nth_error_In; exact N|]. split; [exact H|]. cbn [snd legal_value].
  destruct (bf_decl f) as [[| t mn mx c| | | |]|]; try discriminate. exists t, mn, mx, c. split; [reflexivity|].
  apply andb_true_iff in K. destruct K as [K1 K2]. apply Z.leb_le in K1, K2. split; assumption.
Qed.
Lemma legal_by_bool i n b : match nth_error commandable i with
    | Some f => String.eqb (bf_name f) n && match bf_decl f with Some DBool => true | _ => false end
    | None => false end = true -> legal commandable (n, JBool b).
Proof.
  destruct (nth_error commandable i) as [f|] eqn:N; [|discriminate]. intros H. apply andb_true_iff in H. destruct H as [H K].
  apply String.eqb_eq in H. exists f. split; [eapply nth_error_In; exact N|]. split; [exact H|]. cbn [snd legal_value].
  destruct (bf_decl f) as [[| t mn mx c| | | |]|]; try discriminate. reflexivity.
Qed.
Definition index_of (n : string) : nat := match field_map 0 commandable n with Some (i, _) => i | None => 0%nat end.
Lemma dock_legal : legal commandable ("docking_timeout_limit", JInt 100).
Proof. apply (legal_by (index_of "docking_timeout_limit")). vm_compute. reflexivity. Qed.

Lemma batt_never : exists c, legal commandable c /\
  forall junk cmds, In c cmds -> Forall (legal commandable) cmds -> NoDup (map fst cmds) -> ground_message commandable junk cmds = Some None.
Proof.
  exists ("gomspace.batt_threshold", JInt 7300). split; [apply (legal_by (index_of "gomspace.batt_threshold")); vm_compute; reflexivity|].
  intros junk cmds I L ND.
  assert (R : existsb refused cmds = true) by (apply existsb_exists; exists ("gomspace.batt_threshold", JInt 7300); split; [exact I|reflexivity]).
  assert (NE : cmds <> []) by (intros ->; destruct I).
  pose proof (every_delivered commandable all_ok commandable_names lens_len limits_checked lens_max cmds NE ND L) as H.
  rewrite R in H. apply H.
Qed.

Lemma state_257 : forall f, In f commandable -> bf_name f = "pan.state" -> ~ legal_value f (JInt 257).
Proof.
  assert (H : forallb (fun f => negb (String.eqb (bf_name f) "pan.state") ||
    match bf_decl f with Some (DInt _ _ mx _) => mx <? 257 | _ => true end) commandable = true) by (vm_compute; reflexivity).
  rewrite forallb_forall in H. intros f I E L. specialize (H f I). rewrite E in H. cbn [String.eqb negb orb] in H.
  destruct L as (t & mn & mx & c & D & R). rewrite D in H. apply Z.ltb_lt in H. destruct R as [_ R].
  exact (Z.lt_irrefl _ (Z.lt_le_trans _ _ _ H R)).
Qed.

Definition zeros_junk : nat -> list bool := fun n => repeat false ((8 - n mod 8) mod 8).
Lemma zeros_good : good_junk zeros_junk.
Proof. intros n. unfold zeros_junk. rewrite repeat_length. split; [|lia]. pose proof (Nat.mod_upper_bound n 8 ltac:(lia)). lia. Qed.

Lemma blank_widths (l : list bfield) : map (fun f : wfield sval => List.length (wf_bits f)) (map (fun f => mk_wf (repeat false (bf_width f)) (SZ 0)) l) = map bf_width l.
Proof. induction l as [|f l IH]; [reflexivity|]. cbn [map wf_bits]. rewrite IH, repeat_length. reflexivity. Qed.

Lemma size_of cmds want junk : delivered commandable cmds want -> good_junk junk ->
  exists msg, ground_message commandable junk cmds = Some (Some msg) /\ List.length msg = ((cost commandable cmds + 7) / 8)%nat.
Proof.
  intros D G. destruct (D junk _ [] G (blank_widths commandable)) as (msg & _ & A & B & _); [constructor|].
  exists msg. split; [exact A|exact B].
Qed.

Lemma too_long : exists cmds, cmds <> [] /\ NoDup (map fst cmds) /\ Forall (legal commandable) cmds /\
  delivered commandable cmds (fun _ j => asked j) /\
  forall junk, good_junk junk -> exists msg, ground_message commandable junk cmds = Some (Some msg) /\ (List.length msg = 401)%nat.
Proof.
  destruct (sample_legal commandable all_ok commandable_names) as (A & B & C).
  pose proof (legal_delivered commandable all_ok commandable_names lens_len lens_max _ sample_some C A B) as D.
  exists (sample commandable). split; [exact sample_some|]. split; [exact C|]. split; [exact A|]. split; [exact D|].
  intros junk G. destruct (size_of _ _ junk D G) as (msg & M & L). exists msg. split; [exact M|]. rewrite L, sample_cost. reflexivity.
Qed.

Lemma seventeen_fit : forall cmds, cmds <> [] -> NoDup (map fst cmds) -> Forall (legal commandable) cmds ->
  (List.length cmds <= 17)%nat -> forall junk, good_junk junk ->
  ground_message commandable junk cmds = Some None \/
  exists msg, ground_message commandable junk cmds = Some (Some msg) /\ (1 <= List.length msg <= 340)%nat.
Proof.
  intros cmds NE ND L N junk G.
  pose proof (every_delivered commandable all_ok commandable_names lens_len limits_checked lens_max cmds NE ND L) as H.
  destruct (existsb refused cmds); [left; apply H|right].
  destruct (size_of _ _ junk H G) as (msg & M & LM). exists msg. split; [exact M|]. rewrite LM. split.
  - destruct cmds as [|[n j] cmds]; [contradiction|]. cbn [cost]. generalize (width_of commandable n) (cost commandable cmds). intros a b.
    change 1%nat with (8 / 8)%nat. apply Nat.div_le_mono; clear; lia.
  - exact (small_files commandable all_ok lens_len lens_max cmds N).
Qed.
