(** Specification and lemmas for what the radio must answer before the manager goes on, and for its recovery.  Answers as in
    the comments of src/fsw/FCCode/Drivers/QLocate.hpp:78-190 and in the SBD documentation cited there. *)
From Coq Require Import Ascii String.
From Verif Require Import Base QuakeModel.
Open Scope string_scope. Open Scope list_scope. Open Scope Z_scope.

(** ** Specification *)

Definition text (s : string) : list Z := map (fun a => Z.of_nat (nat_of_ascii a)) (list_ascii_of_string s).
Definition cr : list Z := [13].
Definition lf : list Z := [10].
(** the answers, "READY\r\n" and so on *)
Definition ready_answer : list Z := text "READY" ++ cr ++ lf.
Definition setup_answer : list Z := text "AT&K0;&D0;E0;V0;+SBDMTA=0" ++ cr ++ text "0" ++ cr.
Definition cleared_answer : list Z := text "0" ++ cr ++ lf ++ text "0" ++ cr.
Definition stored_answer : list Z := text "0" ++ cr ++ lf.
(** in this cycle the radio's answer was [l] *)
Definition answered (e : renv) (l : list Z) : Prop := Z.of_nat (length l) <= e_avail e /\ firstn (length l) (e_rx e) = l.
(** the radio had not answered [n] bytes yet *)
Definition too_early (e : renv) (n : Z) : Prop := e_avail e < n.
(** the radio is waiting, and will be configured from scratch *)
Definition recovering (q : rad) : Prop := q_state q = r_wait /\ q_flag q = true.
Definition active (q : rad) : Prop := In (q_state q) [r_config; r_write; r_transceive; r_read].

(** ** Proofs *)

Lemma bytes_eqb_spec a : forall b, bytes_eqb a b = true <-> a = b.
Proof.
  induction a as [|x a IH]; intros [|y b]; cbn; split; intros H; try discriminate; try reflexivity.
  - apply andb_prop in H. destruct H as (H1 & H2). apply Z.eqb_eq in H1. apply IH in H2. congruence.
  - injection H as -> ->. rewrite Z.eqb_refl. apply IH. reflexivity.
Qed.
Lemma consume_spec e l : (consume e l = rs_ok <-> answered e l) /\ (consume e l = rs_port_unavailable <-> too_early e (Z.of_nat (length l))) /\
  (consume e l = rs_ok \/ consume e l = rs_port_unavailable \/ consume e l = rs_consume_fail).
Proof.
  unfold consume, answered, too_early, rs_ok, rs_port_unavailable, rs_consume_fail.
  destruct (Z.ltb_spec (e_avail e) (Z.of_nat (length l))) as [H|H].
  - split; [split; [discriminate|lia]|]. split; [split; [intros _; exact H|reflexivity]|]. auto.
  - destruct (bytes_eqb _ l) eqn:E.
    + apply bytes_eqb_spec in E. split; [split; [auto|reflexivity]|]. split; [split; [discriminate|lia]|auto].
    + assert (N : firstn (length l) (e_rx e) <> l) by (intros X; apply bytes_eqb_spec in X; congruence).
      split; [split; [discriminate|intros (_ & X); contradiction]|]. split; [split; [discriminate|lia]|auto].
Qed.
Lemma texts : s_ready = ready_answer /\ s_setup = setup_answer /\ s_cleared = cleared_answer.
Proof. repeat split. Qed.

Lemma send_out e c s o : QuakeModel.send e c = (s, o) -> (o = [OCmd c] /\ s = rs_ok /\ e_w e = true) \/ (o = [] /\ s = rs_write_fail /\ e_w e = false).
Proof. unfold QuakeModel.send. destruct (e_w e); intros H; injection H as <- <-; auto. Qed.

Lemma wait_recovers cc err q : recovering (handle_err cc err q) /\ q_fn (handle_err cc err q) = 0 /\ q_entry (handle_err cc err q) = cc.
Proof. repeat split. Qed.

Ltac cases := repeat match goal with |- context [if ?b then _ else _] => let E := fresh "B" in destruct b eqn:E end.

(** what the four conversations do to state and flag *)
Lemma config_state e q q' s o : qct_config e q = (q', s, o) -> q_state q' = q_state q.
Proof. unfold qct_config. destruct (if q_fn q =? 0 then _ else _) as [err oo]. intros H. injection H as <- <- <-. destruct (err =? rs_ok); reflexivity. Qed.
Lemma sbdwb_state e q q' s o : qct_sbdwb e q = (q', s, o) -> q_state q' = q_state q.
Proof. unfold qct_sbdwb. destruct (if q_fn q =? 0 then _ else _) as [err oo]. intros H. injection H as <- <- <-. destruct (err =? rs_ok); reflexivity. Qed.
Lemma sbdix_state e q q' s o : qct_sbdix e q = (q', s, o) -> q_state q' = q_state q.
Proof.
  unfold qct_sbdix. intros H.
  assert (X : forall q1 err oo, (if q_fn q =? 0 then let '(s, o) := QuakeModel.send e CExchange in (q_set_sbdix q 0 0 0, s, o)
    else if q_fn q =? 1 then
      if e_avail e <? 26 then (q, rs_port_unavailable, [])
      else if 128 <=? e_avail e then (q, rs_unexpected, [])
      else match e_parse e with Some (a, b, c) => (q_set_sbdix q a b c, rs_ok, []) | None => (q, rs_unexpected, []) end
    else (q, rs_wrong_order, [])) = (q1, err, oo) -> q_state q1 = q_state q).
  { intros q1 err oo. cases; try (intros Y; injection Y as <- <- <-; reflexivity).
    - destruct (QuakeModel.send e CExchange). intros Y; injection Y as <- <- <-; reflexivity.
    - destruct (e_parse e) as [[[a b] c]|]; intros Y; injection Y as <- <- <-; reflexivity. }
  destruct (if q_fn q =? 0 then _ else _) as [[q1 err] oo]. specialize (X _ _ _ eq_refl). injection H as <- <- <-. destruct (err =? rs_ok); exact X.
Qed.
Lemma sbdrb_state e q q' s o : qct_sbdrb e q = (q', s, o) -> q_state q' = q_state q.
Proof.
  unfold qct_sbdrb. intros H.
  assert (X : forall q1 err oo, (if q_fn q =? 0 then let '(s, o) := QuakeModel.send e CRead in (q_set_msg q (repeat 0 (max_msg_size + 1)), s, o)
    else if q_fn q =? 1 then let '(q1, s) := get_sbdrb e q in (q1, s, []) else (q, rs_wrong_order, [])) = (q1, err, oo) -> q_state q1 = q_state q).
  { intros q1 err oo. cases; try (intros Y; injection Y as <- <- <-; reflexivity).
    - destruct (QuakeModel.send e CRead). intros Y; injection Y as <- <- <-; reflexivity.
    - destruct (get_sbdrb e q) as [q2 s2] eqn:G. intros Y; injection Y as <- <- <-. revert G. unfold get_sbdrb. cases; intros G; injection G as <- <-; reflexivity. }
  destruct (if q_fn q =? 0 then _ else _) as [[q1 err] oo]. specialize (X _ _ _ eq_refl). injection H as <- <- <-. destruct (err =? rs_ok); exact X.
Qed.

(** whoever falls back to waiting from a conversation is recovering *)
Theorem falls_back_recovering mx cc e q q' o : active q -> radio_exec mx cc e q = (q', o) -> q_state q' = r_wait -> recovering q' /\ q_fn q' = 0 /\ q_entry q' = cc.
Proof.
  intros A. unfold radio_exec. destruct A as [A|[A|[A|[A|[]]]]]; rewrite <- A; cbv [r_config r_write r_transceive r_read r_disabled r_wait Z.eqb Pos.eqb].
  - unfold m_config. destruct (no_more_cycles _ _ _); [intros H; injection H as <- <-; intros _; apply wait_recovers|].
    destruct (qct_config e q) as [[q1 err] o1] eqn:E. pose proof (config_state _ _ _ _ _ E) as S.
    destruct (actual_error err); [intros H; injection H as <- <-; intros _; apply wait_recovers|].
    destruct (has_finished cc q1); intros H; injection H as <- <-; intros X; [discriminate X|]. rewrite S, <- A in X. discriminate X.
  - unfold m_write. destruct (no_more_cycles _ _ _); [intros H; injection H as <- <-; intros _; apply wait_recovers|].
    assert (S0 : exists q0 o0, (if just_entered cc q then
      let '(q1, o1) := if Nat.eqb (q_idx q) 0 then (copy_snapshot mx e q, [OCopy (firstn mx (e_mem e))]) else (q, []) in (copy_packet mx q1, o1)
      else (q, [])) = (q0, o0) /\ q_state q0 = q_state q).
    { destruct (just_entered cc q); [|eauto]. destruct (Nat.eqb (q_idx q) 0); do 2 eexists; (split; [reflexivity|reflexivity]). }
    destruct S0 as (q0 & o0 & -> & S0).
    destruct (qct_sbdwb e q0) as [[q1 err] o1] eqn:E. pose proof (sbdwb_state _ _ _ _ _ E) as S.
    destruct (actual_error err); [intros H; injection H as <- <-; intros _; apply wait_recovers|].
    destruct (has_finished cc q1); intros H; injection H as <- <-; intros X; [discriminate X|]. rewrite S, S0, <- A in X. discriminate X.
  - unfold m_transceive. destruct (no_more_cycles _ _ _); [intros H; injection H as <- <-; intros _; apply wait_recovers|].
    destruct (qct_sbdix e q) as [[q1 err] o1] eqn:E. pose proof (sbdix_state _ _ _ _ _ E) as S.
    destruct (actual_error err); [intros H; injection H as <- <-; intros _; apply wait_recovers|].
    destruct (has_finished cc q1).
    + destruct (4 <? q_mo q1).
      * unfold no_comms. destruct (_ <? _); intros H; injection H as <- <-; intros X; [rewrite S, <- A in X; discriminate X|discriminate X].
      * intros H; injection H as <- <-. cbn. destruct (q_mt q1 =? 1); discriminate.
    + intros H; injection H as <- <-; intros X. rewrite S, <- A in X. discriminate X.
  - unfold m_read. destruct (no_more_cycles _ _ _); [intros H; injection H as <- <-; intros _; apply wait_recovers|].
    destruct (qct_sbdrb e q) as [[q1 err] o1] eqn:E. pose proof (sbdrb_state _ _ _ _ _ E) as S.
    destruct (actual_error err); [intros H; injection H as <- <-; intros _; apply wait_recovers|].
    destruct (has_finished cc q1); intros H; injection H as <- <-; intros X; [discriminate X|]. rewrite S, <- A in X. discriminate X.
Qed.

(** recovering: silent, then configuring from the first command *)
Theorem recovers mx cc e q q' o : recovering q -> radio_exec mx cc e q = (q', o) ->
  o = [] /\ (q' = q \/ q_state q' = r_config /\ q_fn q' = 0 /\ q_entry q' = cc).
Proof.
  intros (S & F). unfold radio_exec. rewrite S. cbv [r_config r_write r_transceive r_read r_disabled r_wait Z.eqb Pos.eqb].
  unfold m_wait. destruct (_ || _); [intros H; injection H as <- <-; auto|]. rewrite F. intros H; injection H as <- <-. split; [reflexivity|]. right. auto.
Qed.

(** configuration, command by command *)
Theorem config_steps mx cc e q q' o : q_state q = r_config -> age cc q <= max_phase_cycles -> radio_exec mx cc e q = (q', o) ->
  (q_fn q = 0 -> if e_w e then o = [OCmd CFactory] /\ (q_state q' = r_config /\ q_fn q' = 1) else o = [] /\ recovering q') /\
  (q_fn q = 1 -> (e_avail e = 0 -> o = [] /\ q' = q) /\
     (e_avail e <> 0 -> if e_w e then o = [OCmd CSetup] /\ q_state q' = r_config /\ q_fn q' = 2 else o = [] /\ recovering q')) /\
  (q_fn q = 2 -> (too_early e (Z.of_nat (length setup_answer)) -> o = [] /\ q' = q) /\
     (answered e setup_answer -> if e_w e then o = [OCmd CClear] /\ q_state q' = r_config /\ q_fn q' = 3 else o = [] /\ recovering q') /\
     (~ too_early e (Z.of_nat (length setup_answer)) -> ~ answered e setup_answer -> o = [] /\ recovering q')) /\
  (q_fn q = 3 -> o = [] /\ (too_early e (Z.of_nat (length cleared_answer)) -> q' = q) /\
     (answered e cleared_answer -> if 1 <? age cc q then q_state q' = r_write else q_fn q' = 0) /\
     (~ too_early e (Z.of_nat (length cleared_answer)) -> ~ answered e cleared_answer -> recovering q')).
Proof.
  intros S AG. unfold radio_exec. rewrite S. cbv [r_config r_write r_transceive r_read r_disabled r_wait Z.eqb Pos.eqb]. unfold m_config.
  assert (N : no_more_cycles cc max_phase_cycles q = false) by (unfold no_more_cycles; apply Z.ltb_ge; exact AG). rewrite N. clear N AG.
  destruct texts as (_ & T2 & T3). unfold qct_config. rewrite T2, T3.
  intros H. split; [|split; [|split]]; intros F; rewrite F in H;
    change (0 =? 0) with true in H; change (1 =? 0) with false in H; change (1 =? 1) with true in H; change (2 =? 0) with false in H;
    change (2 =? 1) with false in H; change (2 =? 2) with true in H; change (3 =? 0) with false in H; change (3 =? 1) with false in H;
    change (3 =? 2) with false in H; change (3 =? 3) with true in H; cbv iota in H.
  - destruct (e_w e) eqn:W; unfold QuakeModel.send in H; rewrite W in H; cbn in H.
    + unfold has_finished in H. cbn in H. rewrite ?F in H. cbn in H. injection H as <- <-. rewrite ?F. cbn. rewrite ?F. auto.
    + injection H as <- <-. split; [reflexivity|apply wait_recovers].
  - destruct (Z.eqb_spec (e_avail e) 0) as [Z0|Z0].
    + cbn in H. unfold has_finished in H. rewrite ?F in H. cbn in H. injection H as <- <-. split; [auto|contradiction].
    + split; [contradiction|]. intros _. destruct (e_w e) eqn:W; unfold QuakeModel.send in H; rewrite W in H; cbn in H.
      * unfold has_finished in H. cbn in H. rewrite ?F in H. cbn in H. injection H as <- <-. rewrite ?F. cbn. rewrite ?F. auto.
      * injection H as <- <-. split; [reflexivity|apply wait_recovers].
  - destruct (consume_spec e setup_answer) as (C1 & C2 & [C|[C|C]]); rewrite C in H.
    + apply C1 in C. split; [intros X; destruct C as (Y & _); unfold too_early in X; lia|]. split; [|intros _ X; contradiction]. intros _.
      cbn in H. destruct (e_w e) eqn:W; unfold QuakeModel.send in H; rewrite W in H; cbn in H.
      * unfold has_finished in H. cbn in H. rewrite ?F in H. cbn in H. injection H as <- <-. rewrite ?F. cbn. rewrite ?F. auto.
      * injection H as <- <-. split; [reflexivity|apply wait_recovers].
    + pose proof (proj1 C2 C) as X. cbn in H. unfold has_finished in H. rewrite ?F in H. cbn in H. injection H as <- <-.
      split; [auto|]. split; [intros (Y & _); unfold too_early in X; lia|]. intros Y. contradiction.
    + cbn in H. injection H as <- <-. split; [intros X; apply C2 in X; rewrite C in X; discriminate X|].
      split; [intros X; apply C1 in X; rewrite C in X; discriminate X|]. intros _ _. split; [reflexivity|apply wait_recovers].
  - destruct (consume_spec e cleared_answer) as (C1 & C2 & [C|[C|C]]); rewrite C in H.
    + apply C1 in C. cbn in H. unfold has_finished, age in H. cbn in H. rewrite ?F in H. cbn in H. fold (age cc q) in H.
      destruct (1 <? age cc q); injection H as <- <-; (split; [reflexivity|]); (split; [intros X; destruct C as (Y & _); unfold too_early in X; lia|]);
        (split; [|intros _ X; contradiction]); intros _; cbn; rewrite ?F; reflexivity.
    + pose proof (proj1 C2 C) as X. cbn in H. unfold has_finished in H. rewrite ?F in H. cbn in H. injection H as <- <-.
      split; [reflexivity|]. split; [auto|]. split; [intros (Y & _); unfold too_early in X; lia|]. intros Y. contradiction.
    + cbn in H. injection H as <- <-. split; [reflexivity|]. split; [intros X; apply C2 in X; rewrite C in X; discriminate X|].
      split; [intros X; apply C1 in X; rewrite C in X; discriminate X|]. intros _ _. apply wait_recovers.
Qed.

(** storing a packet, step by step *)
Lemma stored_spec e : (get_sbdwb e = rs_port_unavailable <-> e_avail e = 0) /\
  (get_sbdwb e = rs_ok <-> e_avail e <> 0 /\ firstn 3 (e_rx e) = stored_answer).
Proof.
  unfold get_sbdwb, rd_bytes, rs_port_unavailable, rs_ok, rs_unknown, rs_unexpected. destruct (Z.eqb_spec (e_avail e) 0) as [A|A].
  - split; [tauto|]. split; [discriminate|tauto].
  - cbn [skipn]. destruct (e_rx e) as [|a [|b [|c t]]]; cbn [firstn length Nat.ltb Nat.leb nth]; try (split; [split; [discriminate|contradiction]|split; [discriminate|intros (_ & X); discriminate X]]).
    change (Nat.ltb (S (S (S (length (firstn 2 t))))) 3) with false. cbv iota.
    destruct (Z.eqb_spec b 13) as [-> |B]; destruct (Z.eqb_spec c 10) as [-> |C]; cbn [negb orb];
      try (split; [split; [discriminate|contradiction]|split; [discriminate|intros (_ & X); injection X; intros; congruence]]).
    destruct (Z.ltb_spec 3 (a - 48)).
    + split; [split; [discriminate|contradiction]|]. split; [discriminate|]. intros (_ & X). injection X; intros. lia.
    + split; [split; [lia|contradiction]|]. split.
      * intros X. split; [exact A|]. replace a with 48 by lia. reflexivity.
      * intros (_ & X). injection X. lia.
Qed.

Theorem write_steps mx cc e q q' o : q_state q = r_write -> age cc q <= max_phase_cycles -> radio_exec mx cc e q = (q', o) ->
  (q_fn q = 0 -> filter (fun x => match x with OCopy _ => false | _ => true end) o = (if e_w e then [OCmd (CWrite 70)] else []) /\
     if e_w e then q_state q' = r_write /\ q_fn q' = 1 else recovering q') /\
  (q_fn q = 1 -> (too_early e (Z.of_nat (length ready_answer)) -> o = [] /\ q' = q) /\
     (answered e ready_answer -> if e_w e then o = [OData (message q) (checksum (message q))] /\ q_state q' = r_write /\ q_fn q' = 2 else o = [] /\ recovering q') /\
     (~ too_early e (Z.of_nat (length ready_answer)) -> ~ answered e ready_answer -> o = [] /\ recovering q')) /\
  (q_fn q = 2 -> o = [] /\ (e_avail e = 0 -> q' = q) /\
     (e_avail e <> 0 -> firstn 3 (e_rx e) = stored_answer -> if 1 <? age cc q then q_state q' = r_transceive else q_fn q' = 0) /\
     (e_avail e <> 0 -> firstn 3 (e_rx e) <> stored_answer -> recovering q')).
Proof.
  intros S AG. unfold radio_exec. rewrite S. cbv [r_config r_write r_transceive r_read r_disabled r_wait Z.eqb Pos.eqb]. unfold m_write.
  assert (N : no_more_cycles cc max_phase_cycles q = false) by (unfold no_more_cycles; apply Z.ltb_ge; exact AG). rewrite N. clear N AG.
  destruct texts as (T1 & _). intros H. split; [|split]; intros F.
  - assert (S0 : exists q0 o0, (if just_entered cc q then
      let '(q1, o1) := if Nat.eqb (q_idx q) 0 then (copy_snapshot mx e q, [OCopy (firstn mx (e_mem e))]) else (q, []) in (copy_packet mx q1, o1)
      else (q, [])) = (q0, o0) /\ q_state q0 = q_state q /\ q_fn q0 = q_fn q /\ filter (fun x => match x with OCopy _ => false | _ => true end) o0 = []).
    { destruct (just_entered cc q); [|exists q, []; auto]. destruct (Nat.eqb (q_idx q) 0); do 2 eexists; (split; [reflexivity|auto]). }
    destruct S0 as (q0 & o0 & E0 & S0 & F0 & O0). rewrite E0 in H. unfold qct_sbdwb in H. rewrite F0, F in H. change (0 =? 0) with true in H. cbv iota in H.
    unfold QuakeModel.send in H. destruct (e_w e) eqn:W; cbn in H.
    + unfold has_finished in H. cbn in H. rewrite ?F0, ?F in H. cbn in H. injection H as <- <-. rewrite filter_app, O0. cbn. rewrite S0. rewrite ?F0, ?F. auto.
    + injection H as <- <-. rewrite app_nil_r. split; [exact O0|apply wait_recovers].
  - assert (J : just_entered cc q = false) by (unfold just_entered; rewrite F; reflexivity). rewrite J in H. unfold qct_sbdwb in H. rewrite F, T1 in H.
    change (1 =? 0) with false in H; change (1 =? 1) with true in H; cbv iota in H.
    destruct (consume_spec e ready_answer) as (C1 & C2 & [C|[C|C]]); rewrite C in H.
    + apply C1 in C. split; [intros X; destruct C as (Y & _); unfold too_early in X; lia|]. split; [|intros _ X; contradiction]. intros _.
      cbn in H. destruct (e_w e) eqn:W; cbn in H.
      * unfold has_finished in H. cbn in H. rewrite ?F in H. cbn in H. injection H as <- <-. cbn. rewrite ?F. auto.
      * injection H as <- <-. split; [reflexivity|apply wait_recovers].
    + pose proof (proj1 C2 C) as X. cbn in H. unfold has_finished in H. rewrite ?F in H. cbn in H. injection H as <- <-.
      split; [auto|]. split; [intros (Y & _); unfold too_early in X; lia|]. intros Y. contradiction.
    + cbn in H. injection H as <- <-. split; [intros X; apply C2 in X; rewrite C in X; discriminate X|].
      split; [intros X; apply C1 in X; rewrite C in X; discriminate X|]. intros _ _. split; [reflexivity|apply wait_recovers].
  - assert (J : just_entered cc q = false) by (unfold just_entered; rewrite F; reflexivity). rewrite J in H. unfold qct_sbdwb in H. rewrite F in H.
    change (2 =? 0) with false in H; change (2 =? 1) with false in H; change (2 =? 2) with true in H; cbv iota in H.
    destruct (stored_spec e) as (C1 & C2). cbn [app] in H.
    destruct (Z.eqb_spec (get_sbdwb e) rs_ok) as [K|K].
    + rewrite K in H. apply C2 in K. cbn in H. unfold has_finished, age in H. cbn in H. rewrite ?F in H. cbn in H. fold (age cc q) in H.
      destruct (1 <? age cc q); injection H as <- <-; (split; [reflexivity|]); (split; [tauto|]); (split; [|tauto]); intros _ _; cbn; rewrite ?F; reflexivity.
    + destruct (Z.eq_dec (get_sbdwb e) rs_port_unavailable) as [P|P].
      * rewrite P in H. apply C1 in P. cbn in H. unfold has_finished in H. rewrite ?F in H. cbn in H. injection H as <- <-. split; [reflexivity|]. tauto.
      * assert (X : actual_error (get_sbdwb e) = true).
        { unfold actual_error. destruct (Z.eqb_spec (get_sbdwb e) rs_ok); [contradiction|]. destruct (Z.eqb_spec (get_sbdwb e) rs_port_unavailable); [contradiction|reflexivity]. }
        rewrite X in H. injection H as <- <-. split; [reflexivity|]. split; [tauto|]. split; [tauto|]. intros _ _. apply wait_recovers.
Qed.

(** a radio that answers as documented is ready to take data four cycles after the first command *)
Theorem configures mx e1 e2 e3 e4 c q : q_state q = r_config -> q_fn q = 0 -> 0 <= c -> c + 4 < 2 ^ 32 -> q_entry q = c ->
  e_w e1 = true -> e_avail e2 <> 0 -> e_w e2 = true -> answered e3 setup_answer -> e_w e3 = true -> answered e4 cleared_answer ->
  let r1 := radio_exec mx (c + 1) e1 q in let r2 := radio_exec mx (c + 2) e2 (fst r1) in
  let r3 := radio_exec mx (c + 3) e3 (fst r2) in let r4 := radio_exec mx (c + 4) e4 (fst r3) in
  snd r1 ++ snd r2 ++ snd r3 ++ snd r4 = [OCmd CFactory; OCmd CSetup; OCmd CClear] /\ q_state (fst r4) = r_write.
Proof.
  intros S F C0 C1 EN W1 A2 W2 A3 W3 A4. cbv zeta.
  assert (AG : forall k, 0 <= k <= 4 -> u32 (c + k - c) = k) by (intros k K; unfold u32, uwrap; rewrite Z.mod_small; lia).
  assert (KEEP : forall cc e p p' o, q_state p = r_config -> radio_exec mx cc e p = (p', o) -> q_state p' = r_config -> age cc p <= max_phase_cycles -> q_entry p' = q_entry p).
  { intros cc e p p' o SP. unfold radio_exec. rewrite SP. cbv [r_config r_write r_transceive r_read r_disabled r_wait Z.eqb Pos.eqb]. unfold m_config.
    intros H SP' AGE. unfold no_more_cycles in H. destruct (Z.ltb_spec max_phase_cycles (age cc p)); [lia|].
    destruct (qct_config e p) as [[p1 err] o1] eqn:E. destruct (actual_error err); [injection H as <- <-; discriminate SP'|].
    destruct (has_finished cc p1); [injection H as <- <-; discriminate SP'|]. injection H as <- <-.
    unfold qct_config in E. destruct (if q_fn p =? 0 then _ else _) as [err' oo]. injection E as <- <- <-. destruct (err' =? rs_ok); reflexivity. }
  destruct (radio_exec mx (c + 1) e1 q) as [q1 o1] eqn:E1.
  assert (G1 : age (c + 1) q <= max_phase_cycles) by (unfold age; rewrite EN, AG by lia; unfold max_phase_cycles; lia).
  destruct (config_steps _ _ _ _ _ _ S G1 E1) as (K & _). specialize (K F). rewrite W1 in K. destruct K as (-> & S1 & F1).
  pose proof (KEEP _ _ _ _ _ S E1 S1 G1) as N1. cbn [fst].
  destruct (radio_exec mx (c + 2) e2 q1) as [q2 o2] eqn:E2.
  assert (G2 : age (c + 2) q1 <= max_phase_cycles) by (unfold age; rewrite N1, EN, AG by lia; unfold max_phase_cycles; lia).
  destruct (config_steps _ _ _ _ _ _ S1 G2 E2) as (_ & K & _). destruct (K F1) as (_ & K2). specialize (K2 A2). rewrite W2 in K2. destruct K2 as (-> & S2 & F2).
  pose proof (KEEP _ _ _ _ _ S1 E2 S2 G2) as N2. cbn [fst].
  destruct (radio_exec mx (c + 3) e3 q2) as [q3 o3] eqn:E3.
  assert (G3 : age (c + 3) q2 <= max_phase_cycles) by (unfold age; rewrite N2, N1, EN, AG by lia; unfold max_phase_cycles; lia).
  destruct (config_steps _ _ _ _ _ _ S2 G3 E3) as (_ & _ & K3 & _). destruct (K3 F2) as (_ & K4 & _). specialize (K4 A3). rewrite W3 in K4. destruct K4 as (-> & S3 & F3).
  pose proof (KEEP _ _ _ _ _ S2 E3 S3 G3) as N3. cbn [fst].
  destruct (radio_exec mx (c + 4) e4 q3) as [q4 o4] eqn:E4.
  assert (AG4 : age (c + 4) q3 = 4) by (unfold age; rewrite N3, N2, N1, EN; apply AG; lia).
  assert (G4 : age (c + 4) q3 <= max_phase_cycles) by (rewrite AG4; unfold max_phase_cycles; lia).
  destruct (config_steps _ _ _ _ _ _ S3 G4 E4) as (_ & _ & _ & K5). destruct (K5 F3) as (-> & _ & K6 & _). specialize (K6 A4). rewrite AG4 in K6.
  split; [reflexivity|exact K6].
Qed.

Lemma firstn_own {A} k : forall l : list A, firstn (length (firstn k l)) l = firstn k l.
Proof. induction k as [|k IH]; intros [|a l]; cbn; try reflexivity. rewrite IH. reflexivity. Qed.

(** the buffer a message was received into holds the message and zeros *)
Theorem received_padded mx cc e q q' o n : q_state q = r_read -> radio_exec mx cc e q = (q', o) -> In (OPublish n) o ->
  exists m, firstn (length m) (skipn 2 (e_rx e)) = m /\ (length m <= 340)%nat /\ q_msg q' = m ++ repeat 0 (341 - length m).
Proof.
  intros S. unfold radio_exec. rewrite S. cbv [r_config r_write r_transceive r_read r_disabled r_wait Z.eqb Pos.eqb]. unfold m_read.
  destruct (no_more_cycles _ _ _); [intros H; injection H as <- <-; intros []|].
  destruct (qct_sbdrb e q) as [[q1 err] o1] eqn:E. destruct (actual_error err).
  { intros H; injection H as <- <-. unfold qct_sbdrb in E. revert E. destruct (q_fn q =? 0).
    - destruct (QuakeModel.send e CRead) as [s so] eqn:X. destruct (send_out _ _ _ _ X) as [(-> & _)|(-> & _)]; intros E; injection E as <- <- <-; cbn; intuition discriminate.
    - destruct (q_fn q =? 1).
      + destruct (get_sbdrb e q) as [x s]. intros E; injection E as <- <- <-. intros [].
      + intros E; injection E as <- <- <-. intros []. }
  assert (NO : ~ In (OPublish n) o1).
  { unfold qct_sbdrb in E. revert E. destruct (q_fn q =? 0).
    - destruct (QuakeModel.send e CRead) as [s so] eqn:X. destruct (send_out _ _ _ _ X) as [(-> & _)|(-> & _)]; intros E; injection E as <- <- <-; cbn; intuition discriminate.
    - destruct (q_fn q =? 1).
      + destruct (get_sbdrb e q) as [x s]. intros E; injection E as <- <- <-. intros [].
      + intros E; injection E as <- <- <-. intros []. }
  destruct (has_finished cc q1) eqn:HF; intros H; injection H as <- <-; intros I; [|contradiction]. cbn [q_msg q_set_mt_len transition q_set_state q_set_fn q_set_entry].
  unfold has_finished in HF. apply andb_prop in HF. destruct HF as (HF & _). apply Z.eqb_eq in HF.
  unfold qct_sbdrb in E. revert E. destruct (q_fn q =? 0) eqn:F0.
  - destruct (QuakeModel.send e CRead) as [s so] eqn:X. apply Z.eqb_eq in F0. destruct (send_out _ _ _ _ X) as [(-> & -> & _)|(-> & -> & _)]; intros E; injection E as <- <- <-.
    + cbn in HF. rewrite F0 in HF. discriminate HF.
    + exists []. cbn. repeat split; auto; lia.
  - destruct (q_fn q =? 1).
    + destruct (get_sbdrb e q) as [x s] eqn:G. intros E. injection E as <- <- <-.
      assert (MS : q_msg (if s =? rs_ok then q_set_fn x ((q_fn x + 1) mod 2) else x) = q_msg x) by (destruct (s =? rs_ok); reflexivity). rewrite MS. clear MS.
      destruct (s =? rs_ok) eqn:SO.
      2:{ apply Z.eqb_neq in F0. exfalso. apply F0. rewrite <- HF. revert G. unfold get_sbdrb. cases; intros G; injection G as <- <-; reflexivity. }
      apply Z.eqb_eq in SO. subst s. revert G. unfold get_sbdrb. destruct (_ <? q_len q); [intros G; injection G; discriminate|].
      set (size := 256 * rd e 0 + rd e 1). destruct ((size <? 0) || (340 <? size)) eqn:SZ; [intros G; injection G; discriminate|]. apply orb_false_iff in SZ. destruct SZ as (Z1 & Z2). apply Z.ltb_ge in Z1, Z2.
      cbv zeta. match goal with |- (if ?b then _ else _) = _ -> _ => destruct b end; [|intros G; apply (f_equal snd) in G; discriminate G]. intros G; injection G as <-. cbn [q_msg q_set_msg].
      exists (rd_bytes e 2 (Z.to_nat size)). unfold rd_bytes. split; [apply firstn_own|]. rewrite firstn_length. split.
      * lia.
      * unfold pad. rewrite firstn_length. reflexivity.
    + intros E; injection E as <- <- <-. cbn in HF. apply Z.eqb_neq in F0. contradiction.
Qed.
