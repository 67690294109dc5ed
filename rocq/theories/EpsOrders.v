(** Specification and lemmas for orders to the power supply and for its bus errors.  Messages as documented in
    src/fsw/FCCode/Drivers/Gomspace.hpp:133-262 and in the comments of Gomspace.cpp. *)
From Verif Require Import Base DevModel EpsModel EpsSpec EpsProofs.

(** ** Specification *)

(** the orders that consist of one message answered by a two-byte acknowledgement *)
Inductive order := Outputs (v : Z) | Tracker (m : Z) | Counters | Watchdog | HardReset.
Definition order_message (o : order) : list Z :=
  match o with Outputs v => [9; v] | Tracker m => [12; m] | Counters => [15; 0x42] | Watchdog => [16; 0x78] | HardReset => [20] end.
(** the acknowledgement repeats the order's first byte, with error code zero *)
Definition acknowledged (o : order) : list Z := [hd 0 (order_message o); 0].
Definition order_legal (o : order) : Prop := match o with Outputs v => 0 <= v < 256 | Tracker m => 0 <= m <= 2 | _ => True end.
(** the call that gives the order *)
Definition give (o : order) : stack -> drv scripted -> drv scripted * bool :=
  match o with
  | Outputs v => set_output scripted v | Tracker m => set_ppt_mode scripted m | Counters => reset_counters scripted
  | Watchdog => reset_wdt scripted | HardReset => hard_reset scripted
  end.

(** did some call of the bus library fail in this sequence of uses of a device? *)
Definition use_fails (B : bus) (b : bst B) (o : fop) : bool :=
  match o with
  | OCall c => negb (w_ok (snd (bcall B c b)))
  | ORead n => Nat.ltb (length (w_data (snd (bcall B (Take n) b)))) n
  | _ => false
  end.
Fixpoint some_use_fails (B : bus) (ping : bst B * fdev -> (bst B * fdev) * bool) (s : bst B * fdev) (l : list fop) : bool :=
  match l with [] => false | o :: t => use_fails B (fst s) o || some_use_fails B ping (fd_op B ping s o) t end.
(** nothing but use of the bus *)
Definition use (o : fop) : Prop := match o with OCall _ | ORead _ => True | _ => False end.

(** ** Proofs *)

Lemma command_answer parts port jk (g : drv scripted) r rs : t_msg (g_bus g) = [] -> t_replies (g_bus g) = r :: rs -> bytes r -> length r = 2%nat ->
  snd (command scripted parts port jk g) = (at_ r 0 =? port) && (at_ r 1 =? 0).
Proof.
  intros I R Br L. unfold command, check_error. destruct (send_scripted parts (g_bus g) (g_dev g) (g_hk g) I) as (d' & E & _).
  rewrite drv_eta in E. rewrite E.
  match goal with |- context [recv scripted ?b (drv_of ?t ?d ?h)] => destruct (recv_scripted b t d h) as (d2 & E2 & _) end.
  rewrite E2. cbn [t_replies t_wait snd]. rewrite R. cbn [hd]. rewrite filled_all; [reflexivity|exact Br|]. rewrite L. reflexivity.
Qed.

Lemma pair_eqb (r : list Z) p : length r = 2%nat -> ((at_ r 0 =? p) && (at_ r 1 =? 0) = true <-> r = [p; 0]).
Proof.
  intros L. destruct r as [|a [|b [|]]]; try discriminate L. unfold at_. cbn [nth]. split.
  - intros H. apply andb_prop in H. destruct H as (H1 & H2). apply Z.eqb_eq in H1, H2. congruence.
  - intros H. injection H as -> ->. rewrite !Z.eqb_refl. reflexivity.
Qed.

Theorem order_given : forall o jk (g : drv scripted) r rs, order_legal o -> t_msg (g_bus g) = [] -> t_replies (g_bus g) = r :: rs -> bytes r -> length r = 2%nat ->
  t_sent (g_bus (fst (give o jk g))) = t_sent (g_bus g) ++ [order_message o] /\ (snd (give o jk g) = true <-> r = acknowledged o).
Proof.
  intros o jk g r rs LG I R Br L.
  assert (K : forall m p, t_sent (g_bus (fst (command scripted [m] p jk g))) = t_sent (g_bus g) ++ [m] /\ (snd (command scripted [m] p jk g) = true <-> r = [p; 0])).
  { intros m p. split; [|rewrite (command_answer [m] p jk g r rs I R Br L); apply pair_eqb, L].
    destruct (command_says [m] p jk g I) as (_ & S & _). cbn [concat] in S. rewrite app_nil_r in S. exact S. }
  destruct o; cbn [give order_message acknowledged hd]; try apply K.
  unfold set_ppt_mode. cbn in LG. destruct (Z.ltb_spec 2 m); [lia|]. apply K.
Qed.

Theorem tracker_refused : forall m jk (g : drv scripted), 2 < m -> give (Tracker m) jk g = (g, false).
Proof. intros m jk g H. cbn. unfold set_ppt_mode. destruct (Z.ltb_spec 2 m); [reflexivity|lia]. Qed.

Theorem pinged_given : forall v jk (g : drv scripted) r rs, t_msg (g_bus g) = [] -> t_replies (g_bus g) = r :: rs -> bytes r -> length r = 3%nat ->
  t_sent (g_bus (fst (ping scripted v jk g))) = t_sent (g_bus g) ++ [[1; v]] /\ (snd (ping scripted v jk g) = true <-> at_ r 1 = 0 /\ at_ r 2 = v).
Proof.
  intros v jk g r rs I R Br L. split.
  - unfold ping. rewrite fst_let. destruct (recv_send_says [[1; v]] (junk jk 3) g I) as (_ & S & _). exact S.
  - unfold ping. destruct (send_scripted [[1; v]] (g_bus g) (g_dev g) (g_hk g) I) as (d' & E & _). rewrite drv_eta in E. rewrite E.
    match goal with |- context [recv scripted ?b (drv_of ?t ?d ?h)] => destruct (recv_scripted b t d h) as (d2 & E2 & _) end.
    rewrite E2. cbn [t_replies snd]. rewrite R. cbn [hd]. rewrite filled_all; [|exact Br|rewrite L; reflexivity].
    destruct (Z.eqb_spec (at_ r 1) 0); destruct (Z.eqb_spec v (at_ r 2)); cbn; split; intros; try discriminate; intuition congruence.
Qed.

Lemma config_asks port size jk (g : drv scripted) g' ok : (pointer_size < size)%nat -> t_msg (g_bus g) = [] -> config_read scripted port size jk g = Done g' ok ->
  t_sent (g_bus g') = t_sent (g_bus g) ++ [[port]] /\ ok = false.
Proof.
  intros SZ I H. unfold config_read in H. destruct (recv_send_says [[port]] (junk jk (size + 2)) g I) as (_ & S & _).
  destruct (recv scripted (junk jk (size + 2)) (send scripted [[port]] g)) as [g1 l]. cbn [fst] in S.
  destruct (negb (at_ l 1 =? 0)).
  - injection H as <- <-. split; [exact S|reflexivity].
  - destruct (Nat.leb_spec size pointer_size); [lia|discriminate].
Qed.

Theorem errors_kept : forall (B : bus) ping l (s : bst B * fdev), Forall use l ->
  fd_recent (snd (fold_left (fd_op B ping) l s)) = fd_recent (snd s) || some_use_fails B ping s l.
Proof.
  intros B ping. induction l as [|o l IH]; intros s F; [cbn; rewrite orb_false_r; reflexivity|].
  inversion F as [|? ? U F']; subst. cbn [fold_left some_use_fails]. rewrite (IH _ F').
  enough (fd_recent (snd (fd_op B ping s o)) = fd_recent (snd s) || use_fails B (fst s) o) as -> by (rewrite orb_assoc; reflexivity).
  destruct s as [b d]. destruct o; try contradiction; cbn [fd_op use_fails fst snd].
  - unfold fcall. cbn [fst snd]. destruct (bcall B o b) as [b' r]. reflexivity.
  - unfold fread. cbn [fst snd]. rewrite repeat_length. destruct (bcall B (Take n) b) as [b' r]. cbn [fst snd fd_recent fd_err]. f_equal.
    rewrite map_length, firstn_length. destruct (Nat.ltb_spec (length (w_data r)) n).
    + destruct (Nat.eqb_spec (Nat.min n (length (w_data r))) n); [lia|reflexivity].
    + destruct (Nat.eqb_spec (Nat.min n (length (w_data r))) n); [reflexivity|lia].
Qed.
