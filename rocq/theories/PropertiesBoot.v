(** C170-C174: the fields the flight program registers and looks up at start-up; commanding them from the ground. *)
From Coq Require Import String.
From Verif Require Import Base BitArrayModel IntSerModel BitstreamModel BitstreamSpec UplinkModel UplinkSpec FlownModel RegistryModel
  BootModel BootSpec BootProofs CommandModel CommandSpec CommandProofs.
Open Scope string_scope.
Open Scope list_scope.
Open Scope Z_scope.

(** ** C170: everything a task looks up at start-up is there, under that name, of that type, registered before *)
Theorem C170_lookups : forall pre k n t post, boot = pre ++ Find k n t :: post ->
  exists p k' f,
    option_map fd_ptr (find_in (area k (fst (boot_flight 0 pre empty_registry []))) n) = Some p /\
    obj_at (heap 0 pre) p = Some (k', f) /\ In (k', f) (registered pre) /\
    bf_name f = n /\ bf_type f = t /\ serves k' k.
Proof. exact lookup_ok. Qed.
Print Assumptions C170_lookups.
Theorem C170_fault_lookups : forall pre n post, boot = pre ++ FindFlt n :: post ->
  exists p f,
    option_map fd_ptr (find_in (rg_faults (fst (boot_flight 0 pre empty_registry []))) n) = Some p /\
    obj_at (heap 0 pre) p = Some (KWritable, f) /\ In (KWritable, f) (registered pre) /\
    bf_name f = n /\ bf_type f = CBool.
Proof. exact fault_lookup_ok. Qed.
Print Assumptions C170_fault_lookups.
(** the build with assertions completes start-up, and the build without them ends with the same registry and pointers *)
Theorem C170_builds_agree : exists ps, boot_checked (heap 0 boot) 0 boot empty_registry [] = Some (boot_registry, ps) /\
  boot_flight 0 boot empty_registry [] = (boot_registry, map Some ps) /\ List.length ps = 180%nat.
Proof. exact boot_passes. Qed.
Print Assumptions C170_builds_agree.
Theorem C170_names : NoDup (map (fun x => bf_name (snd x)) (registered boot)).
Proof. exact names_distinct. Qed.
Print Assumptions C170_names.
Theorem C170_numbering : commandable = map snd (filter is_writable (registered boot)).
Proof. exact commandable_is. Qed.
Print Assumptions C170_numbering.

(** whatever a program registers and looks up: if the build with assertions completes its start-up, each lookup of the flight
    build gives an object of the type and kind asked for *)
Theorem C170_checked_start : forall l x pre k n t post,
  boot_checked (heap 0 l) 0 l empty_registry [] = Some x -> l = pre ++ Find k n t :: post ->
  exists p k' f, option_map fd_ptr (find_in (area k (fst (boot_flight 0 pre empty_registry []))) n) = Some p /\
    obj_at (heap 0 l) p = Some (k', f) /\ bf_type f = t /\ serves k' k.
Proof. exact checked_lookup. Qed.
Print Assumptions C170_checked_start.

Definition split_at (k : nat) : option (list bop * bop * list bop) :=
  match skipn k boot with o :: post => Some (firstn k boot, o, post) | [] => None end.
Definition is_find (o : bop) : bool := match o with Find _ _ _ => true | _ => false end.
Definition is_fault_find (o : bop) : bool := match o with FindFlt _ => true | _ => false end.
Example C170_lookups_ex : exists pre k n t post, boot = pre ++ Find k n t :: post /\ n = "pan.state".
Proof.
  assert (H : exists k, match split_at k with Some (_, Find _ n _, _) => n = "pan.state" | _ => False end).
  { assert (G : existsb (fun k => match split_at k with Some (_, Find _ n _, _) => String.eqb n "pan.state" | _ => false end)
      (seq 0 600) = true) by (vm_compute; reflexivity).
    apply existsb_exists in G. destruct G as (k & _ & G). exists k. destruct (split_at k) as [[[a o] b]|]; [|discriminate].
    destruct o; try discriminate. apply String.eqb_eq. exact G. }
  destruct H as [k H]. unfold split_at in H. destruct (skipn k boot) as [|o post] eqn:E; [contradiction|].
  destruct o as [| |kd n t|]; try contradiction. exists (firstn k boot), kd, n, t, post. split; [|exact H].
  rewrite <- E. symmetry. apply firstn_skipn.
Qed.
Example C170_counts : List.length boot = 544%nat /\ List.length (filter is_find boot) = 163%nat /\
  List.length (filter is_fault_find boot) = 17%nat /\ List.length commandable = 196%nat.
Proof. vm_compute. auto. Qed.
(** the flight build does not notice a field that is not there; the other builds stop *)
Example C170_missing_ex :
  boot_flight 0 [Find KReadable "pan.state" CUChar] empty_registry [] = (empty_registry, [None]) /\
  boot_checked [] 0 [Find KReadable "pan.state" CUChar] empty_registry [] = None.
Proof. vm_compute. auto. Qed.

(** ** C171: what an operator orders, within the declared range, is what the satellite then holds *)
Theorem C171_orders_arrive : forall cmds, cmds <> [] -> NoDup (map fst cmds) -> Forall (legal commandable) cmds ->
  Forall (fun c => ~ names_coarse commandable c) cmds -> delivered commandable cmds (fun _ j => asked j).
Proof. exact (legal_delivered commandable all_ok commandable_names lens_len lens_max). Qed.
Print Assumptions C171_orders_arrive.
Theorem C171_unknown_names_refused : forall junk n j cmds, In (n, j) cmds -> ~ In n (map bf_name commandable) ->
  ground_message commandable junk cmds = Some None.
Proof. exact (unknown_refused commandable). Qed.
Print Assumptions C171_unknown_names_refused.

Definition zeros : nat -> list bool := zeros_junk.
Definition blank : list (wfield sval) := map (fun f => mk_wf (repeat false (bf_width f)) (SZ 0)) commandable.
Definition named_in (tbl : list bfield) (n : string) (fs : list (wfield sval)) : option sval :=
  match field_map 0 tbl n with Some (i, _) => option_map wf_val (nth_error fs i) | None => None end.
Definition field_named := named_in commandable.
(** ground and satellite together, on a satellite whose fields are all zero *)
Definition fly (cmds : list (string * jval)) : option (list (wfield sval)) :=
  match ground_message commandable zeros cmds with
  | Some (Some msg) => option_map us_fields (consumer_execute (sat_deser commandable) (mk_us blank (List.length msg) (Some msg)))
  | _ => None
  end.
Definition after (cmds : list (string * jval)) (n : string) : option sval :=
  match fly cmds with Some fs => field_named n fs | None => None end.
Definition order_ex : list (string * jval) := [("pan.state", JInt 11); ("gomspace.powercycle_period", JInt 4000000000);
  ("cycle.auto", JBool true)].
Example C171_orders_arrive_ex : Forall (legal commandable) order_ex /\ NoDup (map fst order_ex) /\
  Forall (fun c => ~ names_coarse commandable c) order_ex /\
  after order_ex "pan.state" = Some (SZ 11) /\ after order_ex "gomspace.powercycle_period" = Some (SZ 4000000000) /\
  after order_ex "cycle.auto" = Some (SB true) /\ after order_ex "gomspace.pv1_cmd" = Some (SZ 0).
Proof.
  split; [|split; [|split]].
  - constructor; [|constructor; [|constructor; [|constructor]]].
    + apply (legal_by (index_of "pan.state")). vm_compute. reflexivity.
    + apply (legal_by (index_of "gomspace.powercycle_period")). vm_compute. reflexivity.
    + apply (legal_by_bool (index_of "cycle.auto")). vm_compute. reflexivity.
  - repeat constructor; cbn; intuition congruence.
  - apply Forall_forall. intros c I (f & IF & FN & (t & mn & mx & k & D)).
    destruct (flown_limited commandable limits_checked f IF) as [NC _|? ? _ _ L|? _ _ L|? _ _ L]; [apply NC; exists t, mn, mx, k; exact D| | |];
      rewrite FN in L; cbn in I; destruct I as [<- | [<- | [<- | []]]]; discriminate L.
  - vm_compute. auto.
Qed.

(** ** C172: five fields do not hold all the values their declaration allows *)
Theorem C172_range_commandable_refuted : exists c, legal commandable c /\
  forall junk cmds, In c cmds -> Forall (legal commandable) cmds -> NoDup (map fst cmds) -> ground_message commandable junk cmds = Some None.
Proof. exact batt_never. Qed.
Print Assumptions C172_range_commandable_refuted.
Theorem C172_value_kept_refuted : exists cmds, Forall (legal commandable) cmds /\ NoDup (map fst cmds) /\
  exists fs, fly cmds = Some fs /\ field_named "docking_timeout_limit" fs = Some (SZ 0) /\
    order cmds "docking_timeout_limit" = Some (JInt 100).
Proof.
  exists [("docking_timeout_limit", JInt 100)]. split; [|split; [repeat constructor; cbn; tauto|]].
  - constructor; [|constructor]. exact dock_legal.
  - eexists. split; [vm_compute; reflexivity|]. split; reflexivity.
Qed.
Print Assumptions C172_value_kept_refuted.
(** every legal file: refused as a whole, or delivered, with the value each field keeps *)
Theorem C172_every_legal_file_partial : forall cmds, cmds <> [] -> NoDup (map fst cmds) -> Forall (legal commandable) cmds ->
  if existsb refused cmds then forall junk, ground_message commandable junk cmds = Some None
  else delivered commandable cmds (fun f j => kept (bf_name f) j).
Proof. exact (every_delivered commandable all_ok commandable_names lens_len limits_checked lens_max). Qed.
Print Assumptions C172_every_legal_file_partial.
Example C172_every_legal_file_ex :
  refused ("gomspace.pv1_cmd", JInt 1000) = false /\ after [("gomspace.pv1_cmd", JInt 1000)] "gomspace.pv1_cmd" = Some (SZ 986) /\
  kept "gomspace.pv1_cmd" (JInt 1000) = SZ 986 /\ refused ("gomspace.pv1_cmd", JInt 4000) = true /\
  fly [("gomspace.pv1_cmd", JInt 4000)] = None.
Proof. vm_compute. auto. Qed.

(** ** C173: numbers outside the declared range are refused *)
Theorem C173_outside_refused_refuted : exists n z fs, (forall f, In f commandable -> bf_name f = n -> ~ legal_value f (JInt z)) /\
  fly [(n, JInt z)] = Some fs /\ field_named n fs = Some (SZ 1).
Proof. exists "pan.state", 257. eexists. split; [exact state_257|]. split; [vm_compute; reflexivity|reflexivity]. Qed.
Print Assumptions C173_outside_refused_refuted.
Theorem C173_outside_refused_partial : forall junk n z cmds, In (n, JInt z) cmds ->
  (forall f, In f commandable -> bf_name f = n -> exists t mn mx c, bf_decl f = Some (DInt t mn mx c) /\
     ity_min t <= z <= ity_max t /\ ~ mn <= z <= mx) ->
  ground_message commandable junk cmds = Some None.
Proof. exact (outside_refused commandable). Qed.
Print Assumptions C173_outside_refused_partial.
Example C173_outside_refused_ex : fly [("pan.state", JInt 200)] = None /\ fly [("pan.state", JInt 3)] <> None.
Proof. vm_compute. split; [reflexivity|discriminate]. Qed.

(** ** C174: the size of the message *)
Theorem C174_fits_the_radio_refuted : exists cmds, cmds <> [] /\ NoDup (map fst cmds) /\ Forall (legal commandable) cmds /\
  delivered commandable cmds (fun _ j => asked j) /\
  forall junk, good_junk junk -> exists msg, ground_message commandable junk cmds = Some (Some msg) /\ (List.length msg = 401)%nat.
Proof. exact too_long. Qed.
Print Assumptions C174_fits_the_radio_refuted.
Theorem C174_seventeen_orders_fit_partial : forall cmds, cmds <> [] -> NoDup (map fst cmds) -> Forall (legal commandable) cmds ->
  (List.length cmds <= 17)%nat -> forall junk, good_junk junk ->
  ground_message commandable junk cmds = Some None \/
  exists msg, ground_message commandable junk cmds = Some (Some msg) /\ (1 <= List.length msg <= 340)%nat.
Proof. exact seventeen_fit. Qed.
Print Assumptions C174_seventeen_orders_fit_partial.
Example C174_ex : good_junk zeros /\ (exists msg, ground_message commandable zeros order_ex = Some (Some msg) /\ List.length msg = 8%nat).
Proof. split; [exact zeros_good|]. eexists. split; [vm_compute; reflexivity|reflexivity]. Qed.
