(** Orders to the power supply, and errors of its bus. *)
From Verif Require Import Base DevModel EpsModel EpsSpec EpsProofs EpsOrders EpsWitness.

(** * C177 *)
(** C177.  Each order is sent as documented, once, and counts as given exactly if the supply acknowledged that order.  What is
    missing: supplies that do not answer, or not completely. *)
Theorem C177_orders_partial : forall o jk (g : drv scripted) r rs, order_legal o -> t_msg (g_bus g) = [] -> t_replies (g_bus g) = r :: rs -> bytes r -> length r = 2%nat ->
  t_sent (g_bus (fst (give o jk g))) = t_sent (g_bus g) ++ [order_message o] /\ (snd (give o jk g) = true <-> r = acknowledged o).
Proof. exact order_given. Qed.
Print Assumptions C177_orders_partial.
(** a tracker mode that does not exist is refused and nothing is sent *)
Theorem C177_no_such_mode : forall m jk (g : drv scripted), 2 < m -> give (Tracker m) jk g = (g, false).
Proof. exact tracker_refused. Qed.
Print Assumptions C177_no_such_mode.
(** a ping counts as answered exactly if the reply reports no error and repeats the value *)
Theorem C177_ping_partial : forall v jk (g : drv scripted) r rs, t_msg (g_bus g) = [] -> t_replies (g_bus g) = r :: rs -> bytes r -> length r = 3%nat ->
  t_sent (g_bus (fst (ping scripted v jk g))) = t_sent (g_bus g) ++ [[1; v]] /\ (snd (ping scripted v jk g) = true <-> at_ r 1 = 0 /\ at_ r 2 = v).
Proof. exact pinged_given. Qed.
Print Assumptions C177_ping_partial.
(** C177 is false of a supply that says nothing: what the stack held counts as its answer. *)
Theorem C177_silent_refuted : forall o, exists jk (g : drv scripted), t_replies (g_bus g) = [] /\ (order_legal o -> snd (give o jk g) = true).
Proof.
  intros o. exists (fun i => match i with O => hd 0 (order_message o) | _ => 0 end), (g_of []). split; [reflexivity|]. intros L.
  destruct o; cbn [give]; try reflexivity. unfold set_ppt_mode. cbn in L. destruct (Z.ltb_spec 2 m); [lia|reflexivity].
Qed.
Print Assumptions C177_silent_refuted.
Example C177_case : order_legal (Tracker 2) /\ snd (give (Tracker 2) stack0 (g_of [[12; 0]])) = true /\ snd (give (Tracker 2) stack0 (g_of [[12; 3]])) = false /\
  t_sent (g_bus (fst (give (Outputs 5) stack0 (g_of [[9; 0]])))) = [[9; 5]] /\ snd (ping scripted 255 stack0 (g_of [[1; 0; 255]])) = true.
Proof. cbn. repeat split; lia. Qed.

(** C161: what is asked for is the configuration named; the only defined outcome is a refusal by the supply *)
Theorem C161_asks_partial : forall jk (g : drv scripted) g' ok, t_msg (g_bus g) = [] ->
  (config_get scripted jk g = Done g' ok -> t_sent (g_bus g') = t_sent (g_bus g) ++ [[18]] /\ ok = false) /\
  (config2_get scripted jk g = Done g' ok -> t_sent (g_bus g') = t_sent (g_bus g) ++ [[22]] /\ ok = false).
Proof. intros jk g g' ok I. split; apply config_asks; try exact I; unfold pointer_size, config_size, config2_size; lia. Qed.
Print Assumptions C161_asks_partial.

(** * C179 *)
(** C179.  Once the errors were looked at, or after a reset, the next look tells exactly whether some communication failed since. *)
Theorem C179_errors_reported : forall (B : bus) ping l (s : bst B * fdev) o, (o = OPop \/ o = OReset) -> Forall use l ->
  let s1 := fd_op B ping s o in
  fd_recent (snd (fold_left (fd_op B ping) l s1)) = some_use_fails B ping s1 l.
Proof. intros B ping l s o [-> | ->] F; cbv zeta; rewrite (errors_kept B ping l _ F); reflexivity. Qed.
Print Assumptions C179_errors_reported.
(** an earlier error is not forgotten by later successes *)
Theorem C179_errors_kept : forall (B : bus) ping l (s : bst B * fdev), Forall use l ->
  fd_recent (snd (fold_left (fd_op B ping) l s)) = fd_recent (snd s) || some_use_fails B ping s l.
Proof. exact errors_kept. Qed.
Print Assumptions C179_errors_kept.
(** a request answered with two bytes where three are read: an error, also after the next message went out *)
Example C179_case : let s := (conversation [[1; 2]] [], fd_new 10) in let p := pinged scripted stack0 hk0 in
  Forall use [OCall (Request 3); ORead 2; ORead 1; OCall EndTx] /\
  fd_recent (snd (fold_left (fd_op scripted p) [OCall (Request 3); ORead 2] s)) = false /\
  fd_recent (snd (fold_left (fd_op scripted p) [OCall (Request 3); ORead 2; ORead 1; OCall EndTx] s)) = true.
Proof. cbv zeta. split; [repeat constructor|]. vm_compute. auto. Qed.
