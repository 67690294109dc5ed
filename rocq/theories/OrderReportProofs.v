From Coq Require Import String List.
From Verif Require Import Base BitArrayModel IntSerModel IntSerSpec IntSerProofs BitstreamModel BitstreamSpec UplinkModel UplinkSpec DownlinkModel
  FlownModel FlownSpec FlownProofs FlownGroundProofs FlownReportProofs FlownMoreProofs FlownFlightProofs BootModel BootProofs CommandModel CommandSpec CommandProofs OrderReport.
Open Scope string_scope.
Open Scope list_scope.
Open Scope Z_scope.
Opaque flown registry commandable.

Lemma int_reach_same s0 s : int_reach s0 s -> is_ty s = is_ty s0 /\ is_min s = is_min s0 /\ is_max s = is_max s0.
Proof.
  induction 1 as [|s v s' R IH E|s b R IH]; [auto| |].
  - unfold serialize in E. destruct (cpp_range _ _ _); [|discriminate]. destruct (resolution s); [|discriminate].
    destruct (set_ullong _ _) as [[? ?]|]; [|discriminate]. injection E as <-. exact IH.
  - exact IH.
Qed.

Lemma order_in cmds n j : order cmds n = Some j -> In (n, j) cmds.
Proof.
  induction cmds as [|[m k] t IH]; [discriminate|]. cbn [order]. destruct (String.eqb_spec m n) as [->|].
  - intros H. injection H as ->. left. reflexivity.
  - intros H. right. exact (IH H).
Qed.

Section Table.
Variable tbl : list bfield.
Hypothesis tbl_ok : forallb field_ok tbl = true.
Hypothesis tbl_names : NoDup (map bf_name tbl).
Hypothesis tbl_limits : forallb limit_ok tbl = true.

(** the ground reads back what a field sends *)
Lemma int_back i f t mn mx c s0 s s' z old :
  nth_error tbl i = Some f -> bf_decl f = Some (DInt t mn mx c) -> ser_of t mn mx c = Some s0 -> int_reach s0 s -> serialize s z = Some s' ->
  exists st d, sat_deser tbl i (is_bits s') old = SZ d /\ is_step (mx - mn) (Z.of_nat (bf_width f)) st /\ quantised mn mx st z d.
Proof.
  intros N D S R E. assert (I : In f tbl) by (eapply nth_error_In; exact N).
  destruct (ok_width tbl tbl_ok f I) as [[W1 _] _]. pose proof (ok_of tbl tbl_ok f I) as K. unfold field_ok in K.
  apply andb_true_iff in K. destruct K as [_ K]. rewrite D in K.
  destruct (int_ok_spec _ _ _ _ _ K W1) as (s1 & S1 & DS & AS & T1 & T2 & T3 & LB & _). clear K.
  rewrite S in S1. injection S1 as <-.
  destruct (int_reach_same s0 s R) as (Q1 & Q2 & Q3). pose proof (int_reach_keeps s0 s R) as Q4.
  assert (ES : s = mk_iser (is_ty s0) (is_min s0) (is_max s0) (is_bits s)) by (rewrite <- Q1, <- Q2, <- Q3; destruct s; reflexivity).
  assert (DS' : declared s) by (rewrite ES; apply declared_same; assumption).
  assert (AS' : arith_safe s) by (rewrite ES; apply arith_safe_same; assumption).
  destruct (roundtrip_quantised s z DS' AS') as (s2 & d & st & E1 & E2 & LL & ST & Q).
  rewrite E in E1. injection E1 as <-. pose proof (serialize_spec s z DS' AS') as E3. rewrite E in E3. injection E3 as E3.
  rewrite Q2, Q3, T2, T3 in Q. rewrite Q2, Q3, T2, T3, Q4, LB in ST.
  exists st, d. split; [|split; [exact ST|exact Q]].
  apply (sat_int tbl i f t mn mx c s0 s' d old N D S); [|rewrite LL; exact Q4|exact E2].
  rewrite <- Q1, <- Q2, <- Q3, E3. reflexivity.
Qed.

Lemma sent_back i f j b old : nth_error tbl i = Some f -> legal_value f j -> refused (bf_name f, j) = false -> (forall bits, j <> JOther bits) ->
  sends f (kept (bf_name f) j) b -> sat_deser tbl i b old = kept (bf_name f) j.
Proof.
  intros N LV RF NO SN. assert (I : In f tbl) by (eapply nth_error_In; exact N).
  destruct j as [z|x|bits]; [| |exfalso; exact (NO bits eq_refl)].
  - destruct LV as (t & mn & mx & c & D & B). unfold sends in SN. rewrite D in SN.
    assert (V : exists d, kept (bf_name f) (JInt z) = SZ d) by (unfold kept; destruct (limits (bf_name f)) as [[? ?]|]; eexists; reflexivity).
    destruct V as [d V]. rewrite V in SN. destruct SN as (s0 & s & s' & S & R & E & ->).
    destruct (int_back i f t mn mx c s0 s s' d old N D S R E) as (st & d' & X & ST & Q). rewrite X, V. f_equal. clear X E R S.
    destruct (flown_limited tbl tbl_limits f I) as [NC L|k st' D' W L|k D' W L|k D' W L].
    + destruct (not_coarse_exact tbl tbl_ok f I NC t mn mx c D) as (M1 & M2 & _). unfold kept in V. rewrite L in V. injection V as <-.
      destruct ST as [_ ST]. specialize (ST 1 ltac:(lia) ltac:(lia)). destruct Q as [Q _]. unfold clamp in Q. clear - Q ST B. lia.
    + unfold refused in RF. cbn [fst snd] in RF. rewrite L in RF. discriminate.
    + rewrite D in D'. injection D' as -> -> -> ->. unfold kept in V. rewrite L in V. injection V as <-. rewrite W in ST.
      assert (st = 17) by (apply (step_is _ _ _ _ ST); clear; cbn; lia). subst st.
      apply quantised_is in Q; [|lia|clear - B; pose proof (Z.div_mod z 17 ltac:(lia)); pose proof (Z.mod_pos_bound z 17 ltac:(lia)); lia].
      rewrite Z.div_mul in Q by lia. exact Q.
    + rewrite D in D'. injection D' as -> -> -> ->. unfold kept in V. rewrite L in V. injection V as <-. rewrite W in ST.
      assert (st = 16135) by (apply (step_is _ _ _ _ ST); clear; cbn; lia). subst st.
      apply quantised_is in Q; [|lia|clear - B; pose proof (Z.div_mod z 16135 ltac:(lia)); pose proof (Z.mod_pos_bound z 16135 ltac:(lia)); lia].
      rewrite Z.div_mul in Q by lia. exact Q.
  - cbn [legal_value] in LV. unfold sends in SN. rewrite LV in SN.
    assert (V : kept (bf_name f) (JBool x) = SB x) by (unfold kept; destruct (limits (bf_name f)) as [[? ?]|]; reflexivity).
    rewrite V in SN |- *. subst b. unfold sat_deser. rewrite N, LV. reflexivity.
Qed.
End Table.

(** the place of a field in a report *)
Lemma ids_distinct : NoDup (map (fun row => fst (fst row)) flown).
Proof.
  assert (H : (fix nd (l : list Z) : bool := match l with [] => true | x :: t => negb (existsb (Z.eqb x) t) && nd t end)
    (map (fun row => fst (fst row)) flown) = true) by (vm_compute; reflexivity).
  revert H. generalize (map (fun row => fst (fst row)) flown). induction l as [|x t IH]; intros H; [constructor|].
  apply andb_true_iff in H. destruct H as [H1 H2]. constructor; [|exact (IH H2)]. intros I. apply negb_true_iff in H1.
  assert (existsb (Z.eqb x) t = true) by (apply existsb_exists; exists x; split; [exact I|apply Z.eqb_refl]). congruence.
Qed.
Lemma row_unique : forall (l : list (Z * bool * list string)), NoDup (map (fun row => fst (fst row)) l) ->
  forall a b, In a l -> In b l -> fst (fst a) = fst (fst b) -> a = b.
Proof.
  induction l as [|r l IH]; intros ND a b IA IB E; [destruct IA|]. cbn [map] in ND. inversion ND as [|? ? NI ND']; subst.
  destruct IA as [<-|IA], IB as [<-|IB]; [reflexivity| | |exact (IH ND' a b IA IB E)].
  - exfalso. apply NI. rewrite E. apply (in_map (fun row => fst (fst row))). exact IB.
  - exfalso. apply NI. rewrite <- E. apply (in_map (fun row => fst (fst row))). exact IA.
Qed.
Lemma report_shows on v id act names n (read : list bool -> Prop) : In (id, act, names) flown -> on id = true -> read (v n) ->
  shown_in (should_report on v) id names n read.
Proof.
  intros I O R. unfold should_report. exists (map v names). split; [|split].
  - apply in_map_iff. exists (id, act, names). split; [reflexivity|]. apply filter_In. split; [exact I|exact O].
  - intros bs' J. apply in_map_iff in J. destruct J as (row & E & J). apply filter_In in J. destruct J as [J _].
    injection E as E1 <-. pose proof (row_unique flown ids_distinct row (id, act, names) J I E1) as ->. reflexivity.
  - intros k K. exists (v n). split; [|exact R]. rewrite nth_error_map, K. reflexivity.
Qed.
Lemma no_clock : existsb (fun f => String.eqb (bf_name f) "pan.cycle_no" || String.eqb (bf_name f) "time.gps") commandable = false.
Proof. vm_compute. reflexivity. Qed.

Lemma not_clock i f : nth_error commandable i = Some f -> bf_name f <> "pan.cycle_no" /\ bf_name f <> "time.gps".
Proof.
  intros N. pose proof no_clock as NCK. apply not_true_iff_false in NCK.
  split; intros E; apply NCK; apply existsb_exists; exists f; (split; [eapply nth_error_In; exact N|]); rewrite E; reflexivity.
Qed.
Lemma other_fields (b : bool) v n : n <> "pan.cycle_no" -> n <> "time.gps" ->
  (if b then with_cleared "time.gps" 25 (with_cleared "pan.cycle_no" 2 v) else with_cleared "pan.cycle_no" 2 v) n = v n.
Proof.
  intros A B. assert (X : String.eqb n "time.gps" = false) by (apply String.eqb_neq; exact B).
  assert (Y : String.eqb n "pan.cycle_no" = false) by (apply String.eqb_neq; exact A).
  destruct b; unfold with_cleared; rewrite ?X, ?Y; reflexivity.
Qed.
Lemma field_unique f f' i : nth_error commandable i = Some f -> In f' commandable -> bf_name f' = bf_name f -> f' = f.
Proof.
  intros N IF FN. apply In_nth_error in IF. destruct IF as [i' IF]. pose proof (field_map_at commandable 0 i f commandable_names N) as P.
  pose proof (field_map_at commandable 0 i' f' commandable_names IF) as P'. rewrite FN, P in P'. injection P' as _ <-. reflexivity.
Qed.
Lemma order_shown cmds : cmds <> [] -> NoDup (map fst cmds) -> Forall (legal commandable) cmds -> existsb refused cmds = false ->
  forall junk fields tail, good_junk junk -> map (fun f => List.length (wf_bits f)) fields = map bf_width commandable -> wf_bytes tail ->
  exists msg fields', ground_message commandable junk cmds = Some (Some msg) /\
    consumer_execute (sat_deser commandable) (mk_us fields (List.length msg) (Some (msg ++ tail))) = Some (mk_us fields' 0 (Some (msg ++ tail))) /\
    forall n j i f w, order cmds n = Some j -> (forall bits, j <> JOther bits) ->
      nth_error commandable i = Some f -> bf_name f = n -> nth_error fields' i = Some w ->
    forall val0 mem l v tog d0 d gval gmem g,
      fits val0 -> Forall (fun c => fits (fst c) /\ 0 <= snd c <= 43) l -> fits v /\ 0 <= tog <= 43 ->
      flown_boot val0 mem = Done d0 -> flown_run (l ++ [(v, tog)]) d0 = Done d ->
      fits gval -> flown_boot gval gmem = Done g -> on_after l 1 = true -> on_after l 2 = true ->
      559 < telemetry_bits (on_after l) < 1677 -> telemetry_bits (on_after l) <> 1118 ->
      sends f (wf_val w) (v n) ->
      exists r, parse_frame (fun bits => Some (removelast bits)) (ds_flows g) (firstn (8 * Z.to_nat (ds_size d)) (ds_buf d)) = Some r /\
        forall id act names, In (id, act, names) flown -> on_after l id = true ->
        shown_in (pr_flows r) id names n (fun b => forall old, sat_deser commandable i b old = kept n j).
Proof.
  intros NE ND L RF junk fields tail GJ FL WT.
  pose proof (every_delivered commandable all_ok commandable_names lens_len limits_checked lens_max cmds NE ND L) as DV. rewrite RF in DV.
  destruct (DV junk fields tail GJ FL WT) as (msg & fields' & M1 & _ & M2 & M3 & M4). exists msg, fields'. split; [exact M1|]. split; [exact M2|].
  intros n j i f w O NO N FN W val0 mem l v tog d0 d gval gmem g F LL LV E0 E1 FG EG O1 O2 T1 T2 SN.
  assert (WF : exists w0, nth_error fields i = Some w0).
  { destruct (nth_error fields i) as [w0|] eqn:X; [exists w0; reflexivity|]. exfalso. apply nth_error_None in X.
    apply (f_equal (@List.length nat)) in FL. rewrite !map_length in FL. assert (i < List.length commandable)%nat by (apply nth_error_Some; congruence). lia. }
  destruct WF as [w0 W0]. pose proof (M4 i f w0 N W0) as M5. rewrite FN, O in M5. destruct M5 as [b M5]. rewrite W in M5. injection M5 as ->. cbn [wf_val] in SN.
  pose proof (several_read val0 mem l v tog d0 d gval gmem g F LL LV E0 E1 FG EG O1 O2) as RD. cbv zeta in RD. destruct (RD T1 T2) as (err & PF & _).
  eexists. split; [exact PF|]. cbn [pr_flows]. intros id act names I ON.
  pose proof (not_clock i f N) as NC. rewrite FN in NC.
  apply (report_shows _ _ id act names n _ I ON). intros old.
  rewrite (other_fields _ v n (proj1 NC) (proj2 NC)).
  subst n. apply order_in in O. rewrite Forall_forall in L. destruct (L _ O) as (f' & IF & FN & LV'). cbn [fst snd] in *.
  pose proof (field_unique f f' i N IF FN) as ->.
  apply (sent_back commandable all_ok limits_checked i f j (v (bf_name f)) old N LV'); [|exact NO|exact SN].
  apply not_true_iff_false. intros X. apply not_true_iff_false in RF. apply RF. apply existsb_exists. eexists. split; [exact O|exact X].
Qed.

(** the two tables declare the same fields alike *)
Lemma tables_agree f d : In f commandable -> lookup registry (bf_name f) = Some d -> bf_decl f = Some d.
Proof.
  intros I E.
  assert (H : forallb (fun f => match lookup registry (bf_name f) with
     | None => true
     | Some d => match bf_decl f, d with
       | Some DBool, DBool | Some DQuat, DQuat | Some DGps, DGps => true
       | Some (DInt t mn mx c), DInt t' mn' mx' c' => (match t, t' with UInt, UInt | UChar, UChar | SInt, SInt | SChar, SChar => true | _, _ => false end) &&
            (mn =? mn') && (mx =? mx') && match c, c' with None, None => true | Some a, Some b => Nat.eqb a b | _, _ => false end
       | Some (DFlt a), DFlt b => Nat.eqb a b
       | Some (DVec a b c p), DVec a' b' c' p' => (a =? a') && (b =? b') && (c =? c') && Nat.eqb p p'
       | _, _ => false end end) commandable = true) by (vm_compute; reflexivity).
  rewrite forallb_forall in H. specialize (H f I). cbv beta in H. rewrite E in H. clear E I. destruct (bf_decl f) as [x|]; [|discriminate]. f_equal.
  destruct x as [|t mn mx c|n|a b c p| |], d as [|t' mn' mx' c'|n'|a' b' c' p'| |]; try discriminate; try reflexivity.
  - repeat (apply andb_true_iff in H; destruct H as [H ?]). apply Z.eqb_eq in H1, H2. subst.
    assert (t = t') by (destruct t, t'; try discriminate; reflexivity). assert (c = c').
    { destruct c, c'; try discriminate; [apply Nat.eqb_eq in H0; subst|]; reflexivity. } subst. reflexivity.
  - apply Nat.eqb_eq in H. subst. reflexivity.
  - repeat (apply andb_true_iff in H; destruct H as [H ?]). apply Z.eqb_eq in H, H1, H2. apply Nat.eqb_eq in H0. subst. reflexivity.
Qed.
