(** What the radio must answer before the radio manager goes on, and recovery. *)
From Coq Require Import Ascii String.
From Verif Require Import Base QuakeModel RadioAnswers.
Open Scope string_scope. Open Scope list_scope. Open Scope Z_scope.

(** * C178 *)
(** C178.  Configuration: each command follows the complete documented answer to the one before; another answer, or a write
    that fails, sends the radio back to waiting, to be configured from scratch; too few bytes: nothing happens. *)
Theorem C178_configuration : forall mx cc e q q' o, q_state q = r_config -> age cc q <= max_phase_cycles -> radio_exec mx cc e q = (q', o) ->
  (q_fn q = 0 -> if e_w e then o = [OCmd CFactory] /\ (q_state q' = r_config /\ q_fn q' = 1) else o = [] /\ recovering q') /\
  (q_fn q = 1 -> (e_avail e = 0 -> o = [] /\ q' = q) /\
     (e_avail e <> 0 -> if e_w e then o = [OCmd CSetup] /\ q_state q' = r_config /\ q_fn q' = 2 else o = [] /\ recovering q')) /\
  (q_fn q = 2 -> (too_early e (Z.of_nat (length setup_answer)) -> o = [] /\ q' = q) /\
     (answered e setup_answer -> if e_w e then o = [OCmd CClear] /\ q_state q' = r_config /\ q_fn q' = 3 else o = [] /\ recovering q') /\
     (~ too_early e (Z.of_nat (length setup_answer)) -> ~ answered e setup_answer -> o = [] /\ recovering q')) /\
  (q_fn q = 3 -> o = [] /\ (too_early e (Z.of_nat (length cleared_answer)) -> q' = q) /\
     (answered e cleared_answer -> if 1 <? age cc q then q_state q' = r_write else q_fn q' = 0) /\
     (~ too_early e (Z.of_nat (length cleared_answer)) -> ~ answered e cleared_answer -> recovering q')).
Proof. exact config_steps. Qed.
Print Assumptions C178_configuration.

(** C178.  Storing a packet: the packet and its checksum are sent only after the radio said it is ready, and transmission is
    asked for only after it said the packet is stored. *)
Theorem C178_storing : forall mx cc e q q' o, q_state q = r_write -> age cc q <= max_phase_cycles -> radio_exec mx cc e q = (q', o) ->
  (q_fn q = 0 -> filter (fun x => match x with OCopy _ => false | _ => true end) o = (if e_w e then [OCmd (CWrite 70)] else []) /\
     if e_w e then q_state q' = r_write /\ q_fn q' = 1 else recovering q') /\
  (q_fn q = 1 -> (too_early e (Z.of_nat (length ready_answer)) -> o = [] /\ q' = q) /\
     (answered e ready_answer -> if e_w e then o = [OData (message q) (checksum (message q))] /\ q_state q' = r_write /\ q_fn q' = 2 else o = [] /\ recovering q') /\
     (~ too_early e (Z.of_nat (length ready_answer)) -> ~ answered e ready_answer -> o = [] /\ recovering q')) /\
  (q_fn q = 2 -> o = [] /\ (e_avail e = 0 -> q' = q) /\
     (e_avail e <> 0 -> firstn 3 (e_rx e) = stored_answer -> if 1 <? age cc q then q_state q' = r_transceive else q_fn q' = 0) /\
     (e_avail e <> 0 -> firstn 3 (e_rx e) <> stored_answer -> recovering q')).
Proof. exact write_steps. Qed.
Print Assumptions C178_storing.

(** C178.  A radio that answers as documented is configured in four cycles. *)
Theorem C178_configured : forall mx e1 e2 e3 e4 c q, q_state q = r_config -> q_fn q = 0 -> 0 <= c -> c + 4 < 2 ^ 32 -> q_entry q = c ->
  e_w e1 = true -> e_avail e2 <> 0 -> e_w e2 = true -> answered e3 setup_answer -> e_w e3 = true -> answered e4 cleared_answer ->
  let r1 := radio_exec mx (c + 1) e1 q in let r2 := radio_exec mx (c + 2) e2 (fst r1) in
  let r3 := radio_exec mx (c + 3) e3 (fst r2) in let r4 := radio_exec mx (c + 4) e4 (fst r3) in
  snd r1 ++ snd r2 ++ snd r3 ++ snd r4 = [OCmd CFactory; OCmd CSetup; OCmd CClear] /\ q_state (fst r4) = r_write.
Proof. exact configures. Qed.
Print Assumptions C178_configured.

(** C178.  Whatever ends a conversation early, the radio is configured from scratch before anything else is sent: it is
    recovering, stays silent while it is, and leaves that state only for the first step of the configuration. *)
Theorem C178_falls_back : forall mx cc e q q' o, active q -> radio_exec mx cc e q = (q', o) -> q_state q' = r_wait ->
  recovering q' /\ q_fn q' = 0 /\ q_entry q' = cc.
Proof. exact falls_back_recovering. Qed.
Print Assumptions C178_falls_back.
Theorem C178_recovers : forall mx cc e q q' o, recovering q -> radio_exec mx cc e q = (q', o) ->
  o = [] /\ (q' = q \/ q_state q' = r_config /\ q_fn q' = 0 /\ q_entry q' = cc).
Proof. exact recovers. Qed.
Print Assumptions C178_recovers.

(** a configuration from cycle 10 on, and one in which the radio answers "ERROR" to the setup *)
Example heard (l : list Z) : renv := mk_re true (Z.of_nat (length l)) l None false 1 1 [].
Example fresh : rad := mk_r r_config 10 0 0 false 0 0 0 [] 0 0 0 0 [].
Example C178_case : answered (heard setup_answer) setup_answer /\ answered (heard cleared_answer) cleared_answer /\
  (let run := fold_left (fun s e => (fst s + 1, let '(q, o) := radio_exec 70 (fst s + 1) e (fst (snd s)) in (q, snd (snd s) ++ o))) in
   (let '(_, (q, o)) := run [heard []; heard (text "OK"); heard setup_answer; heard cleared_answer] (10, (fresh, [])) in q_state q = r_write /\ length o = 3%nat) /\
   (let '(_, (q, o)) := run [heard []; heard (text "OK"); heard (text "ERROR                          ")] (10, (fresh, [])) in
      q_state q = r_wait /\ q_flag q = true /\ o = [OCmd CFactory; OCmd CSetup])).
Proof. vm_compute. repeat split; discriminate. Qed.

(** C58.  What follows the message in the uplink buffer is zero: nothing of an earlier message is left. *)
Theorem C58_nothing_left_over : forall mx cc e q q' o n, q_state q = r_read -> radio_exec mx cc e q = (q', o) -> In (OPublish n) o ->
  exists m, firstn (length m) (skipn 2 (e_rx e)) = m /\ (length m <= 340)%nat /\ q_msg q' = m ++ repeat 0 (341 - length m).
Proof. exact received_padded. Qed.
Print Assumptions C58_nothing_left_over.
Example C58_left_over_case : let q := mk_r r_read 10 1 0 false 0 0 0 [] 0 0 1 2 (repeat 7 341) in
  In (OPublish 2) (snd (radio_exec 70 12 (heard [0; 2; 5; 6; 0; 11]) q)) /\ firstn 4 (q_msg (fst (radio_exec 70 12 (heard [0; 2; 5; 6; 0; 11]) q))) = [5; 6; 0; 0].
Proof. vm_compute. auto. Qed.
