(** What the flight program keeps in EEPROM through reboots: the boot counter, the kill switch, the deployment wait. *)
From Coq Require Import String.
From Verif Require Import Base EEPROMModel EEPROMProofs FaultModel FaultHandlerModel MissionModel MissionWitness SavedModel SavedProofs KillProofs WaitModel WaitProofs DeployedModel DeployedProofs RadioBootModel RadioBootProofs.
Open Scope string_scope.
Open Scope list_scope.
Open Scope Z_scope.

Definition erased : list Z := repeat 255 (Z.to_nat 4096).
Definition zeros9 : list Z := repeat 0 9.

(** the fields saved, in order *)
Theorem C183_saved_fields : saved_names = ["pan.bootcount"; "cycle.start"; "cycle.auto"; "attitude_estimator.mag_flag";
  "attitude_estimator.ignore_sun_vectors"; "pan.state"; "pan.deployed"; "pan.deployment.elapsed"; "pan.kill_switch"].
Proof. exact names. Qed.
Print Assumptions C183_saved_fields.
(** C183.  From an erased device, if every boot lasts a hundred cycles, boot k counts k (in eight bits). *)
Theorem C183_counts_partial : forall defaults l e', List.length defaults = 9%nat -> nth_error defaults 0 = Some 0 ->
  boots flight_saved defaults erased l e' -> Forall (fun b => (100 <= snd b)%nat) l ->
  map fst l = map (fun k => Z.of_nat k mod 256) (seq 1 (List.length l)).
Proof. intros defaults l e' HD H0 H F. exact (proj1 (counts_from_erased flight_saved saved_ok saved_at defaults l e' HD H0 H F)). Qed.
Print Assumptions C183_counts_partial.
(** C183.  Shorter boots are not counted: the second boot after a short first one counts 0, and so does the third. *)
Definition count_row (c : Z) : list Z := [c; 0; 0; 0; 0; 0; 0; 0; 0].
Definition image_after (hist : list (list Z)) (vals : list Z) (j : nat) (e : list Z) : list Z :=
  match eeprom_crash flight_saved hist vals j e with Some e' => e' | None => [] end.
Definition short1 : list Z := image_after [count_row 1] (count_row 1) 0 erased.
Definition short2 : list Z := image_after [count_row 0] (count_row 0) 0 short1.
Definition short3 : list Z := image_after [count_row 0] (count_row 0) 0 short2.
Lemma row_ok c : 0 <= c <= 255 -> row_of_boot flight_saved c (count_row c).
Proof.
  intros C. split; [reflexivity|]. split; [reflexivity|]. intros i f v F V. rewrite saved_at in F.
  do 9 (destruct i as [|i]; [injection F as <-; injection V as <-; cbn; lia|]). destruct i; discriminate.
Qed.
Lemma short_boot e c r : 0 <= c <= 255 -> forall c0, c = u8 (c0 + 1) -> eeprom_init flight_saved zeros9 e = Some r -> nth_error r 0 = Some c0 ->
  eeprom_crash flight_saved [count_row c] (count_row c) 0 e = Some (image_after [count_row c] (count_row c) 0 e) ->
  one_boot flight_saved zeros9 e c 1 (image_after [count_row c] (count_row c) 0 e).
Proof.
  intros C c0 -> R N X. refine (one_boot_run flight_saved zeros9 e r c0 [count_row (u8 (c0 + 1))] (count_row (u8 (c0 + 1))) 0 _ R N _ X).
  constructor; [exact (row_ok _ C)|constructor; [exact (row_ok _ C)|constructor]].
Qed.
Theorem C183_short_boots_refuted : exists e', boots flight_saved zeros9 erased [(1, 1%nat); (0, 1%nat); (0, 1%nat)] e'.
Proof.
  exists short3.
  apply (boots_more flight_saved zeros9 erased [(1, 1%nat); (0, 1%nat)] short2 0 1 short3);
  [apply (boots_more flight_saved zeros9 erased [(1, 1%nat)] short1 0 1 short2);
   [apply (boots_more flight_saved zeros9 erased [] erased 1 1 short1); [constructor|]|]|].
  - apply (short_boot erased 1 zeros9 ltac:(lia) 0 eq_refl); vm_compute; reflexivity.
  - apply (short_boot short1 0 [255; 0; 0; 0; 0; 0; 0; 0; 255] ltac:(lia) 255 eq_refl); vm_compute; reflexivity.
  - apply (short_boot short2 0 [255; 0; 0; 0; 0; 0; 0; 0; 255] ltac:(lia) 255 eq_refl); vm_compute; reflexivity.
Qed.
Print Assumptions C183_short_boots_refuted.
Lemma long_one : exists e', one_boot flight_saved zeros9 erased 1 100 e'.
Proof.
  exists (image_after (repeat (count_row 1) 100) (count_row 1) 0 erased).
  refine (one_boot_run flight_saved zeros9 erased zeros9 0 (repeat (count_row 1) 100) (count_row 1) 0 _ _ _ _ _); [vm_compute; reflexivity|reflexivity| |vm_compute; reflexivity].
  apply Forall_app. split; [apply Forall_forall; intros x I; apply repeat_spec in I; subst|constructor; [|constructor]]; apply row_ok; lia.
Qed.
Example C183_counts_ex : exists e', boots flight_saved zeros9 erased [(1, 100%nat)] e' /\ Forall (fun b : Z * nat => (100 <= snd b)%nat) [(1, 100%nat)].
Proof.
  destruct long_one as [e' H]. exists e'. split; [exact (boots_more flight_saved zeros9 erased [] erased 1 100 e' (boots_none _ _ _) H)|].
  repeat constructor.
Qed.

(** C184.  If the order to end the mission has stood for the last hundred cycles of a boot of at least that length, and the mission
    state saved last is neither docking nor docked, then after the reboot the first execution of the mission manager never returns:
    no later task runs again. *)
Theorem C184_killed_partial : forall hist vals j e0, bytes e0 -> Z.of_nat (List.length e0) = 4096 -> (100 <= List.length hist)%nat ->
  Forall (fun row => List.length row = 9%nat) (hist ++ [vals]) ->
  Forall (fun row => nth_error row 8 = Some 127) (skipn (List.length hist - 100) (hist ++ [vals])) ->
  Forall (fun row => nth_error row 5 <> Some 8 /\ nth_error row 5 <> Some 9 /\ forall v, nth_error row 5 = Some v -> 0 <= v <= 255)
    (skipn (List.length hist - 1) (hist ++ [vals])) ->
  exists e, eeprom_crash flight_saved hist vals j e0 = Some e /\
    forall defaults, List.length defaults = 9%nat -> nth_error defaults 5 = Some 0 ->
    exists r, eeprom_init flight_saved defaults e = Some r /\ nth_error r 8 = Some 127 /\ nth_error r 5 = Some 0 /\
      forall i w, nth_error r 5 = Some (wmission w) -> nth_error r 8 = Some (mm_kill (wm w)) -> mission_execute i w = None.
Proof. exact (killed flight_saved saved_ok saved_at). Qed.
Print Assumptions C184_killed_partial.
(** the order acts in startup only, and only the value 127 *)
Theorem C184_exactly : forall i w, mission_execute i w = None <-> wmission w = m_startup /\ mm_kill (wm w) = 127.
Proof.
  intros i w. split; [|intros [A B]; exact (hangs i w A B)]. intros H. split.
  - destruct (Z.eq_dec (wmission w) m_startup) as [E|N]; [exact E|exfalso; exact (goes_on i w N H)].
  - destruct (Z.eq_dec (mm_kill (wm w)) 127) as [E|N]; [exact E|exfalso; exact (not_killed i w N H)].
Qed.
Print Assumptions C184_exactly.
Definition kill_row (state kill : Z) : list Z := [1; 0; 0; 0; 0; state; 0; 0; kill].
(** C184.  Ordered while docked, it is saved and restored, and the satellite starts again all the same. *)
Theorem C184_docked_refuted : exists hist vals e r, (List.length hist = 200)%nat /\ Forall (fun row => nth_error row 8 = Some 127) (hist ++ [vals]) /\
  eeprom_crash flight_saved hist vals 0 erased = Some e /\ eeprom_init flight_saved zeros9 e = Some r /\ nth_error r 8 = Some 127 /\
  forall i w, nth_error r 5 = Some (wmission w) -> mission_execute i w <> None.
Proof.
  exists (repeat (kill_row 9 127) 200), (kill_row 9 127), (image_after (repeat (kill_row 9 127) 200) (kill_row 9 127) 0 erased), [1; 0; 0; 0; 0; 9; 0; 0; 127].
  split; [apply repeat_length|]. split; [apply Forall_app; split; [apply Forall_forall; intros x I; apply repeat_spec in I; subst; reflexivity|repeat constructor]|].
  split; [vm_compute; reflexivity|]. split; [vm_compute; reflexivity|]. split; [reflexivity|].
  intros i w W. injection W as W. apply goes_on. rewrite <- W. discriminate.
Qed.
Print Assumptions C184_docked_refuted.
(** C184.  Ordered ninety-nine cycles before the power is lost, it is forgotten. *)
Theorem C184_recent_refuted : exists hist vals e r, (List.length hist = 199)%nat /\ Forall (fun row => nth_error row 8 = Some 127) (skipn 100 (hist ++ [vals])) /\
  eeprom_crash flight_saved hist vals 0 erased = Some e /\ eeprom_init flight_saved zeros9 e = Some r /\
  forall i w, nth_error r 8 = Some (mm_kill (wm w)) -> mission_execute i w <> None.
Proof.
  exists (repeat (kill_row 0 0) 100 ++ repeat (kill_row 0 127) 99), (kill_row 0 127),
    (image_after (repeat (kill_row 0 0) 100 ++ repeat (kill_row 0 127) 99) (kill_row 0 127) 0 erased), [1; 0; 0; 0; 0; 0; 0; 0; 0].
  split; [reflexivity|]. split; [change (skipn 100 _) with (repeat (kill_row 0 127) 100); apply Forall_forall; intros x I; apply repeat_spec in I; subst; reflexivity|].
  split; [vm_compute; reflexivity|]. split; [vm_compute; reflexivity|].
  intros i w W. injection W as W. apply not_killed. rewrite <- W. discriminate.
Qed.
Print Assumptions C184_recent_refuted.
Example C184_killed_ex : Forall (fun row => nth_error row 8 = Some 127) (skipn (150 - 100) (repeat (kill_row 2 0) 50 ++ repeat (kill_row 2 127) 100 ++ [kill_row 2 127])) /\
  Forall (fun row => nth_error row 5 <> Some 8 /\ nth_error row 5 <> Some 9 /\ forall v, nth_error row 5 = Some v -> 0 <= v <= 255)
    (skipn (150 - 1) (repeat (kill_row 2 0) 50 ++ repeat (kill_row 2 127) 100 ++ [kill_row 2 127])).
Proof.
  split; [change (skipn _ _) with (repeat (kill_row 2 127) 101)|change (skipn _ _) with (repeat (kill_row 2 127) 2)];
  apply Forall_forall; intros x I; apply repeat_spec in I; subst; [reflexivity|]. split; [discriminate|]. split; [discriminate|]. intros v V. injection V as <-. lia.
Qed.

(** C185.  From an erased device, whose first boot completed a cycle: however the power is cut, the satellite leaves startup only
    after more than 10600 cycles of waiting in all. *)
Theorem C185_wait_partial : forall defaults l e' r w0 l' w, List.length defaults = 9%nat -> nth_error defaults 7 = Some 0 ->
  wait_boots flight_saved defaults erased l e' -> nth_error l 0 <> Some 0%nat ->
  eeprom_init flight_saved defaults e' = Some r -> nth_error r 7 = Some (mm_elapsed (wm w0)) -> wmission w0 = m_startup -> wcc w0 = 0 ->
  history l' w0 w -> Forall (fun g => g = false) l' -> wmission w <> m_startup -> 10600 < cycles_begun l + Z.of_nat (List.length l').
Proof. exact (wait_total flight_saved saved_ok saved_at). Qed.
Print Assumptions C185_wait_partial.
(** what has been waited is kept: the count restored is that of the last cycle saved *)
Theorem C185_kept : forall hist vals j e0 defaults, bytes e0 -> Z.of_nat (List.length e0) = 4096 -> hist <> [] -> List.length defaults = 9%nat ->
  Forall (fun row => List.length row = 9%nat /\ (forall v, nth_error row 1 = Some v -> 0 <= v <= 1) /\ forall v, nth_error row 7 = Some v -> 0 <= v <= 255) (hist ++ [vals]) ->
  exists e r, eeprom_crash flight_saved hist vals j e0 = Some e /\ eeprom_init flight_saved defaults e = Some r /\
    nth_error r 7 = nth_error (if Nat.ltb 7 j then vals else last hist []) 7 /\ nth_error r 7 <> None.
Proof. exact (wait_kept flight_saved saved_ok saved_at). Qed.
Print Assumptions C185_kept.
(** C185.  The power is cut in the very first save, after the second field and before the eighth: on the next boot the wait is
    skipped, startup ends in the first cycle. *)
Definition first_world : world := mission_construct 1 fresh_docking.
Theorem C185_first_save_refuted : forall j, (2 <= j <= 7)%nat ->
  exists e r, eeprom_crash flight_saved [] (wait_row 0 0) j erased = Some e /\ wait_boots flight_saved zeros9 erased [0%nat] e /\
    eeprom_init flight_saved zeros9 e = Some r /\ nth_error r 5 = Some m_startup /\
    forall i w, nth_error r 5 = Some (wmission w) -> nth_error r 7 = Some (mm_elapsed (wm w)) -> nth_error r 8 = Some (mm_kill (wm w)) ->
      exists w', mission_execute i w = Some w' /\ wmission w' <> m_startup.
Proof.
  intros j J. exists (image_after [] (wait_row 0 0) j erased).
  assert (A : exists r, eeprom_crash flight_saved [] (wait_row 0 0) j erased = Some (image_after [] (wait_row 0 0) j erased) /\
    eeprom_init flight_saved zeros9 (image_after [] (wait_row 0 0) j erased) = Some r /\
    nth_error r 5 = Some m_startup /\ nth_error r 7 = Some 255 /\ nth_error r 8 = Some 255).
  { destruct j as [|[|j]]; [exfalso; lia|exfalso; lia|]. do 6 (destruct j as [|j]; [eexists; vm_compute; repeat split; reflexivity|]). exfalso; lia. }
  destruct A as (r & A1 & A2 & A3 & A4 & A5). exists r. split; [exact A1|]. split; [|split; [exact A2|split; [exact A3|]]].
  - refine (wb_more flight_saved zeros9 erased [] erased zeros9 first_world [] (wait_row 0 0) j _ (wb_none _ _ _) _ _ _ _ _ _ A1).
    + vm_compute. reflexivity.
    + reflexivity.
    + reflexivity.
    + reflexivity.
    + repeat constructor.
    + refine (rows_wait 1 first_world 0 eq_refl _ eq_refl eq_refl _); cbn; lia.
  - intros i w W5 W7 W8. rewrite A3 in W5. rewrite A4 in W7. rewrite A5 in W8. injection W5 as W5. injection W7 as W7. injection W8 as W8.
    destruct (mission_execute i w) as [w'|] eqn:E; [|exfalso; refine (not_killed i w _ E); rewrite <- W8; discriminate].
    exists w'. split; [reflexivity|]. refine (skips i w w' (eq_sym W5) _ E). rewrite <- W7. lia.
Qed.
Print Assumptions C185_first_save_refuted.
(** a first boot of 250 cycles leaves the count at 2 *)
Example C185_wait_ex : exists e r, wait_boots flight_saved zeros9 erased [250%nat] e /\ eeprom_init flight_saved zeros9 e = Some r /\ nth_error r 7 = Some 2.
Proof.
  exists (image_after (map (wait_row 0) (seq 0 250)) (wait_row 0 250) 0 erased), [1; 0; 0; 0; 0; 0; 0; 2; 0].
  split; [|split; [vm_compute; reflexivity|reflexivity]].
  change [250%nat] with ([] ++ [List.length (map (wait_row 0) (seq 0 250))]).
  refine (wb_more flight_saved zeros9 erased [] erased zeros9 first_world (map (wait_row 0) (seq 0 250)) (wait_row 0 250) 0 _ (wb_none _ _ _) _ _ _ _ _ _ _).
  - vm_compute. reflexivity.
  - reflexivity.
  - reflexivity.
  - reflexivity.
  - apply Forall_forall. intros x I. apply in_app_or in I. destruct I as [I|[<-|[]]]; [apply in_map_iff in I; destruct I as (k & <- & _)|]; reflexivity.
  - change (map (wait_row 0) (seq 0 250) ++ [wait_row 0 250]) with (map (wait_row 0) (seq 0 251)).
    refine (rows_wait 251 first_world 0 eq_refl _ eq_refl eq_refl _); lia.
  - vm_compute. reflexivity.
Qed.
Example C185_kept_ex : Forall (fun row => List.length row = 9%nat /\ (forall v, nth_error row 1 = Some v -> 0 <= v <= 1) /\ forall v, nth_error row 7 = Some v -> 0 <= v <= 255)
  ([wait_row 0 0] ++ [wait_row 0 1]).
Proof.
  assert (H : forall k, (k < 2)%nat -> List.length (wait_row 0 k) = 9%nat /\ (forall v, nth_error (wait_row 0 k) 1 = Some v -> 0 <= v <= 1) /\
    forall v, nth_error (wait_row 0 k) 7 = Some v -> 0 <= v <= 255).
  { intros k K. split; [reflexivity|]. split; intros v V; injection V as <-; [lia|]. destruct k as [|[|k]]; [cbn; lia|cbn; lia|exfalso; lia]. }
  constructor; [apply H; lia|constructor; [apply H; lia|constructor]].
Qed.

(** C186.  If pan.deployed was set when some complete cycle of a boot ended, it is set after every cycle of every later boot. *)
Theorem C186_deployed_for_ever : forall defaults e ws hist e1 k w l e2, List.length defaults = 9%nat -> bytes e -> Z.of_nat (List.length e) = 4096 ->
  dboot flight_saved defaults e ws hist e1 -> (k < List.length hist)%nat -> nth_error ws k = Some w -> mm_deployed (wm w) = true ->
  dboots flight_saved defaults e1 l e2 -> Forall (fun x => mm_deployed (wm x) = true) l.
Proof. exact (deployed_for_ever flight_saved saved_ok saved_at). Qed.
Print Assumptions C186_deployed_for_ever.
(** and after every later cycle of the same boot *)
Theorem C186_same_boot : forall ws w k x k' y, dtrace w ws -> nth_error ws k = Some x -> mm_deployed (wm x) = true -> (k <= k')%nat ->
  nth_error ws k' = Some y -> mm_deployed (wm y) = true.
Proof. intros ws w k x k' y T N D L N'. exact (trace_from ws w k x T N D k' y L N'). Qed.
Print Assumptions C186_same_boot.
(** it is set exactly on the way from startup to detumbling *)
Theorem C186_set_when : forall i w w', mission_execute i w = Some w' -> mm_deployed (wm w) = false ->
  (mm_deployed (wm w') = true <-> wmission w = m_startup /\ wmission w' = m_detumble).
Proof. exact set_when. Qed.
Print Assumptions C186_set_when.
Definition ready_world : world := upd_m first_world (fun m => m_set_elapsed m 106).
Definition after (w : world) : world :=
  match mission_execute no_inputs (quiet d_undecided p_idle one_day w) with Some w' => w' | None => w end.
Lemma after_cycle w : dcycle w (after w).
Proof.
  exists false, no_inputs, (quiet d_undecided p_idle one_day w). split; [apply quiet_env|]. split; [reflexivity|]. unfold after.
  destruct (mission_execute no_inputs (quiet d_undecided p_idle one_day w)) as [w'|] eqn:E; [reflexivity|].
  exfalso. refine (not_killed _ _ _ E). discriminate.
Qed.
Definition deployed_row : list Z := [1; 0; 0; 0; 0; 1; 1; 106; 0].
Example C186_ex : exists e1, dboot flight_saved zeros9 erased [after ready_world; after (after ready_world)] [deployed_row] e1 /\
  mm_deployed (wm ready_world) = false /\ mm_deployed (wm (after ready_world)) = true /\ wmission ready_world = m_startup /\ wmission (after ready_world) = m_detumble.
Proof.
  exists (image_after [deployed_row] deployed_row 0 erased). split.
  - refine (dboot_run flight_saved zeros9 erased zeros9 ready_world _ [deployed_row] deployed_row 0 _ _ _ _ _ _).
    + vm_compute. reflexivity.
    + reflexivity.
    + split; [apply after_cycle|]. split; [apply after_cycle|exact I].
    + constructor; [split; [reflexivity|vm_compute; reflexivity]|]. constructor; [split; [reflexivity|vm_compute; reflexivity]|constructor].
    + vm_compute. reflexivity.
  - vm_compute. repeat split; reflexivity.
Qed.

(** C187.  A boot that begins in startup has the radio on by the end of the cycle in which the deployment wait is over. *)
Theorem C187_after_startup_partial : forall l w0 w e0, history l w0 w -> Forall (fun g => g = false) l -> wmission w0 = m_startup -> wcc w0 = 0 ->
  mm_elapsed (wm w0) = e0 -> 0 <= e0 <= 106 -> Z.of_nat (List.length l) = 100 * (106 - e0) + 1 -> wradio w <> r_disabled.
Proof. exact startup_ends. Qed.
Print Assumptions C187_after_startup_partial.
(** C187.  A boot from a memory that says docking or docked never has it on, however long it lasts and whatever faults occur, as long as
    the ground, which cannot be heard, orders nothing. *)
Theorem C187_docked_refuted : forall e b defaults, bytes e -> Z.of_nat (List.length e) = 4096 -> nth_error e 25 = Some b -> b = m_docking \/ b = m_docked ->
  List.length defaults = 9%nat ->
  exists r, eeprom_init flight_saved defaults e = Some r /\ nth_error r 5 = Some b /\
    forall n w w', nth_error r 5 = Some (wmission w) -> radio_at_boot w -> silent n w w' -> wradio w' = r_disabled.
Proof. exact (docked_deaf flight_saved saved_ok saved_at). Qed.
Print Assumptions C187_docked_refuted.
(** a memory left by a docked satellite, a world that boots from it, and silent runs of every length *)
Example C187_docked_ex : nth_error (image_after [kill_row 9 0] (kill_row 9 0) 0 erased) 25 = Some m_docked /\
  List.length (image_after [kill_row 9 0] (kill_row 9 0) 0 erased) = Z.to_nat 4096.
Proof. split; vm_compute; reflexivity. Qed.
Definition docked_world : world := upd_bus (upd_bus fresh_docking (fun b => set_radio b r_disabled)) (fun b => set_mission b m_docked).
Example C187_silent_ex : wmission docked_world = m_docked /\ radio_at_boot docked_world /\ forall n, exists w', silent n docked_world w'.
Proof. split; [reflexivity|]. split; [split; reflexivity|]. intros n. exact (silent_exist n docked_world). Qed.
Example C187_startup_ex : exists l w, Z.of_nat (List.length l) = 100 * (106 - 105) + 1 /\ Forall (fun g => g = false) l /\
  history l (upd_m first_world (fun m => m_set_elapsed m 105)) w.
Proof.
  destruct (cycles_exist 101 (upd_m first_world (fun m => m_set_elapsed m 105))) as (l & w & L & F & H). exists l, w.
  split; [rewrite L; reflexivity|]. split; [exact F|exact H].
Qed.
