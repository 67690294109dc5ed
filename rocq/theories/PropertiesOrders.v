(** C182: an order from the ground is seen again in the telemetry. *)
From Coq Require Import String List.
From Verif Require Import Base BitArrayModel IntSerModel BitstreamModel BitstreamSpec UplinkModel UplinkSpec DownlinkModel
  FlownModel FlownSpec FlownProofs DownlinkGroundProofs FlownGroundProofs FlownMoreProofs FlownFlightProofs PropertiesFlown BootModel CommandModel CommandSpec CommandProofs OrderReport OrderReportProofs PropertiesBoot.
Open Scope string_scope.
Open Scope list_scope.
Open Scope Z_scope.

(** Any file of legal commands that the ground does not refuse, any state of the satellite's fields: the ground makes a message, the
    satellite takes it in; from then on, as long as a commanded integer or boolean field holds what it was given, every frame that
    sends it (flows 1 and 2 on, two or three packets) is read by the ground as the ordered value, or for the coarse fields as the
    multiple of their step that C172 gives, in every flow that is on and names the field.  Missing for the full statement: frames of
    one packet or more than three, and a parser given one packet at a time (C167_first_packet_refuted). *)
Theorem C182_order_reported_partial : forall cmds, cmds <> [] -> NoDup (map fst cmds) -> Forall (legal commandable) cmds -> existsb refused cmds = false ->
  forall junk fields tail, good_junk junk -> map (fun f => List.length (wf_bits f)) fields = map bf_width commandable -> wf_bytes tail ->
  exists msg fields', ground_message commandable junk cmds = Some (Some msg) /\
    consumer_execute (sat_deser commandable) (mk_us fields (List.length msg) (Some (msg ++ tail))) = Some (mk_us fields' 0 (Some (msg ++ tail))) /\
    forall n j i f w, order cmds n = Some j -> (forall bits, j <> JOther bits) ->
      nth_error commandable i = Some f -> bf_name f = n -> nth_error fields' i = Some w ->
    forall val0 mem l v tog d0 d gval gmem g,
      fits val0 -> Forall (fun c => fits (fst c) /\ 0 <= snd c <= 43) l -> fits v /\ 0 <= tog <= 43 ->
      flown_boot val0 mem = Done d0 -> flown_run (l ++ [(v, tog)]) d0 = Done d ->
      fits gval -> flown_boot gval gmem = Done g -> on_after l 1 = true -> on_after l 2 = true ->
      559 < telemetry_bits (on_after l) < 1677 -> telemetry_bits (on_after l) <> 1118 ->
      sends f (wf_val w) (v n) ->
      exists r, parse_frame (fun bits => Some (removelast bits)) (ds_flows g) (firstn (8 * Z.to_nat (ds_size d)) (ds_buf d)) = Some r /\
        forall id act names, In (id, act, names) flown -> on_after l id = true ->
        shown_in (pr_flows r) id names n (fun b => forall old, sat_deser commandable i b old = kept n j).
Proof. exact order_shown. Qed.
Print Assumptions C182_order_reported_partial.

(** the ground's table of commands and the table of telemetry declare the fields they share alike *)
Theorem C182_same_declarations : forall f d, In f commandable -> lookup registry (bf_name f) = Some d -> bf_decl f = Some d.
Proof. exact tables_agree. Qed.
Print Assumptions C182_same_declarations.

(** an order for the mission state and one for a coarse field, and the frame that reports them *)
Definition two_orders : list (string * jval) := [("pan.state", JInt 7); ("docking_timeout_limit", JInt 120); ("piksi_fh.enabled", JBool true)].
Definition held (n : string) : list bool :=
  if String.eqb n "pan.state" then val_bits 4 7 else if String.eqb n "piksi_fh.enabled" then [true] else contents 40 n.
Definition place (id : Z) (n : string) : option nat :=
  match find (fun row => fst (fst row) =? id) flown with
  | Some (_, _, names) => (fix at_ (k : nat) (l : list string) : option nat :=
      match l with [] => None | m :: t => if String.eqb m n then Some k else at_ (S k) t end) 0%nat names
  | None => None end.
Definition where_is (n : string) : list Z := map (fun row => fst (fst row)) (filter (fun row => existsb (String.eqb n) (snd row)) flown).
Definition seen (l : list ((string -> list bool) * Z)) (id : Z) (n : string) : option (list bool) :=
  match flown_boot (contents 0) [] with
  | Done d0 => match flown_run l d0 with
    | Done d => match parse_frame lenient (ds_flows d0) (firstn (8 * Z.to_nat (ds_size d)) (ds_buf d)) with
      | Some r => match find (fun p => fst p =? id) (pr_flows r), place id n with
        | Some (_, bs), Some k => nth_error bs k
        | _, _ => None end
      | None => None end
    | _ => None end
  | _ => None end.
Definition after_two (n : string) : option (option sval) := option_map (field_named n) (fly two_orders).
Example C182_orders_land : after_two "pan.state" = Some (Some (SZ 7)) /\ after_two "piksi_fh.enabled" = Some (Some (SB true)) /\
  after_two "docking_timeout_limit" = Some (Some (SZ 0)).
Proof. vm_compute. auto. Qed.
Example C182_orders_seen : where_is "pan.state" = [1] /\ where_is "piksi_fh.enabled" = [41] /\ where_is "docking_timeout_limit" = [33] /\
  seen [(contents 1, 41); (held, 0)] 1 "pan.state" = Some (val_bits 4 7) /\
  seen [(contents 1, 41); (held, 0)] 41 "piksi_fh.enabled" = Some [true] /\
  telemetry_bits (on_after [(contents 1, 41)]) = 1159 /\ on_after [(contents 1, 41)] 1 = true /\ on_after [(contents 1, 41)] 2 = true.
Proof. vm_compute. repeat split; reflexivity. Qed.
Example C182_held_fits : fits held.
Proof.
  intros n d w E W. unfold held. destruct (String.eqb_spec n "pan.state") as [->|].
  - apply (f_equal (fun o => match o with Some d => width d | None => None end)) in E. rewrite W in E. vm_compute in E. injection E as <-. reflexivity.
  - destruct (String.eqb_spec n "piksi_fh.enabled") as [->|].
    + apply (f_equal (fun o => match o with Some d => width d | None => None end)) in E. rewrite W in E. vm_compute in E. injection E as <-. reflexivity.
    + exact (contents_fit 40 n d w E W).
Qed.
Example C182_sends_ex : exists i f, nth_error commandable i = Some f /\ bf_name f = "pan.state" /\ sends f (SZ 7) (held "pan.state").
Proof.
  assert (H : exists i, match nth_error commandable i with Some f => (bf_name f, bf_decl f) | None => ("", None) end = ("pan.state", Some (DInt UChar 0 12 None))).
  { destruct (field_map 0 commandable "pan.state") as [[i f]|] eqn:E.
    - exists i. apply (f_equal (option_map fst)) in E. cbn [option_map fst] in E. vm_compute in E. injection E as <-. vm_compute. reflexivity.
    - apply (f_equal (option_map fst)) in E. vm_compute in E. discriminate E. }
  destruct H as [i H]. destruct (nth_error commandable i) as [f|] eqn:N; [|discriminate H]. exists i, f. injection H as H1 H2.
  split; [exact N|]. split; [exact H1|]. unfold sends. rewrite H2.
  destruct (ser_of UChar 0 12 None) as [s0|] eqn:S; [|vm_compute in S; discriminate S]. exists s0, s0.
  vm_compute in S. injection S as <-. eexists. split; [reflexivity|]. split; [constructor|]. split; [vm_compute; reflexivity|]. vm_compute. reflexivity.
Qed.
Example C182_orders_ok : existsb refused two_orders = false /\ NoDup (map fst two_orders) /\ (forall bits, JInt 7 <> JOther bits) /\
  order two_orders "pan.state" = Some (JInt 7) /\ kept "pan.state" (JInt 7) = SZ 7.
Proof.
  split; [vm_compute; reflexivity|]. split; [repeat constructor; cbn; intuition discriminate|]. split; [discriminate|]. split; vm_compute; reflexivity.
Qed.
