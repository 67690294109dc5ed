(** The serial port of the GPS receiver: no buffer is overrun, reading ends, and the delay of the data. *)
From Verif Require Import Base SbpModel SbpSpec SbpCrcProofs SbpParseProofs SbpStreamProofs SbpProofs SbpTaskProofs.

Ltac Zify.zify_post_hook ::= Z.div_mod_to_equations.

Definition port_ok (p : port) : Prop :=
  0 <= i_last_bytes p <= len (i_queue p) /\ len (i_queue p) <= 1023 /\ Forall is_byte (i_queue p).

Definition byte_step (a : gps_step) : Prop := match a with Byte b => is_byte b | _ => True end.

Lemma arrive_ok p b : port_ok p -> is_byte b -> port_ok (arrive p b).
Proof.
  intros (H1 & H2 & H3) Hb. unfold arrive, serial_size, port_ok, len in *. destruct (Nat.ltb_spec (length (i_queue p)) (1024 - 1)); cbn [i_queue i_last_bytes]; [|repeat split; assumption || lia].
  rewrite app_length. cbn [length]. repeat split; try lia. apply Forall_app. split; [assumption|]. repeat constructor; apply Hb.
Qed.
Lemma check_ok p : port_ok p -> port_ok (check_bytes p).
Proof.
  intros (H1 & H2 & H3). unfold check_bytes, port_ok. destruct (i_last_bytes p <? len (i_queue p)); cbn [i_queue i_last_bytes]; repeat split; assumption || (unfold len in *; lia).
Qed.
Lemma take_ok p : port_ok p -> exists p', take_bytes p = Some (firstn (Z.to_nat (i_last_bytes p)) (i_queue p), p') /\ port_ok p' /\
  Forall is_byte (firstn (Z.to_nat (i_last_bytes p)) (i_queue p)).
Proof.
  intros (H1 & H2 & H3). unfold take_bytes, serial_size. unfold len in *.
  destruct (Nat.leb_spec (Z.to_nat (i_last_bytes p)) 1024); [|lia]. destruct (Nat.leb_spec (Z.to_nat (i_last_bytes p)) (length (i_queue p))); [|lia].
  cbn [andb]. eexists. split; [reflexivity|]. rewrite <- (firstn_skipn (Z.to_nat (i_last_bytes p)) (i_queue p)) in H3. apply Forall_app in H3 as [H3 H4].
  split; [|assumption]. unfold port_ok, len. cbn [i_queue i_last_bytes]. rewrite skipn_length. repeat split; try assumption; lia.
Qed.

Lemma gps_run_safe steps : forall p k q, port_ok p -> wf (k_sbp k) -> Forall byte_step steps ->
  exists p' k' q', gps_run (p, (k, q)) steps = Some (p', (k', q')) /\ port_ok p' /\ wf (k_sbp k').
Proof.
  induction steps as [|a t IH]; intros p k q P W H.
  - exists p, k, q. split; [reflexivity|]. split; assumption.
  - inversion H as [|? ? Ha Ht]; subst. destruct a as [b| |]; cbn [gps_run gps_next fst snd].
    + apply IH; try assumption. apply arrive_ok; assumption.
    + apply IH; try assumption. apply check_ok; assumption.
    + destruct (take_ok p P) as (p' & E & P' & B). rewrite E.
      destruct (gps_cycle_total k q (i_delta p') _ W B) as (k' & q' & E' & _ & W'). rewrite E'. apply IH; assumption.
Qed.

Theorem gps_never_overruns k q steps : piksi_boot k -> Forall byte_step steps -> gps_run (port_boot, (k, q)) steps <> None.
Proof.
  intros Bt H. destruct (gps_run_safe steps port_boot k q) as (p' & k' & q' & E & _); [|apply boot_wf; exact Bt|assumption|congruence].
  unfold port_ok, port_boot, len. cbn. repeat split; try lia. constructor.
Qed.

(** *** delay *)

(** the bytes arriving before each interrupt *)
Definition tick (p : port) (bs : list Z) : port := check_bytes (fold_left arrive bs p).
Definition ticks (p : port) (l : list (list Z)) : port := fold_left tick l p.

(** at most 99 interrupts without new bytes between two with new bytes; [e] of them have passed *)
Fixpoint small_gaps (e : nat) (l : list (list Z)) : Prop :=
  match l with
  | [] => True
  | [] :: t => small_gaps (S e) t
  | _ :: t => (e <= 99)%nat /\ small_gaps 0 t
  end.

Lemma arrive_all bs : forall p, (length (i_queue p) + length bs <= 1023)%nat ->
  fold_left arrive bs p = mk_port (i_queue p ++ bs) (i_last_bytes p) (i_count p) (i_last_count p) (i_delta p).
Proof.
  induction bs as [|b bs IH]; intros p H; cbn [fold_left length] in *.
  - rewrite app_nil_r. destruct p; reflexivity.
  - unfold arrive at 2. unfold serial_size. destruct (Nat.ltb_spec (length (i_queue p)) (1024 - 1)); [|lia].
    rewrite IH; cbn [i_queue i_last_bytes i_count i_last_count i_delta]; [|rewrite app_length; cbn [length]; lia].
    rewrite <- app_assoc. reflexivity.
Qed.

Lemma ticks_count l : forall p e n, small_gaps e l ->
  (length (i_queue p) + length (concat l) <= 1023)%nat ->
  i_last_bytes p = len (i_queue p) -> i_count p = Z.of_nat n -> i_last_count p = Z.of_nat n - Z.of_nat e -> (e <= n)%nat ->
  Z.of_nat (n + length l) < 4294967296 ->
  i_count (ticks p l) = Z.of_nat (n + length l) /\ i_queue (ticks p l) = i_queue p ++ concat l /\
  i_last_bytes (ticks p l) = len (i_queue p ++ concat l).
Proof.
  induction l as [|bs l IH]; intros p e n G Q LB C LC EN NN.
  - cbn. rewrite !app_nil_r. rewrite Nat.add_0_r. auto.
  - cbn [ticks fold_left concat length] in *. rewrite app_length in Q.
    unfold tick at 2 4 6. rewrite arrive_all by lia. unfold check_bytes at 1 2 3. cbn [i_queue i_last_bytes i_count i_last_count i_delta].
    rewrite C. rewrite (u32_id (Z.of_nat n + 1)) by lia.
    destruct bs as [|b bs].
    + rewrite app_nil_r. rewrite LB. destruct (Z.ltb_spec (len (i_queue p)) (len (i_queue p))); [lia|].
      destruct (IH (mk_port (i_queue p) (len (i_queue p)) (Z.of_nat n + 1) (i_last_count p) (i_delta p)) (S e) (S n)) as (I1 & I2 & I3);
        cbn [i_queue i_last_bytes i_count i_last_count i_delta]; try assumption; try lia.
      unfold ticks in *. cbn [i_queue] in *. cbn [app]. rewrite I1, I2, I3. repeat split. lia.
    + destruct G as [G1 G2]. destruct (Z.ltb_spec (i_last_bytes p) (len (i_queue p ++ b :: bs))) as [H|H].
      2:{ unfold len in *. rewrite app_length in H. cbn [length] in H. lia. }
      rewrite u32_id by lia. destruct (Z.ltb_spec 100 (Z.of_nat n + 1 - i_last_count p)); [lia|].
      destruct (IH (mk_port (i_queue p ++ b :: bs) (len (i_queue p ++ b :: bs)) (Z.of_nat n + 1) (Z.of_nat n + 1) (i_delta p)) 0%nat (S n)) as (I1 & I2 & I3);
        cbn [i_queue i_last_bytes i_count i_last_count i_delta]; try assumption; try lia.
      { rewrite app_length. lia. }
      unfold ticks in *. cbn [i_queue] in *. rewrite I1, I2, I3. rewrite <- app_assoc. repeat split. lia.
Qed.

(** a burst that begins after more than 100 interrupts of silence, with gaps of less than 100 interrupts *)
Theorem delay_of_burst p bs l : i_queue p = [] -> i_last_bytes p = 0 -> bs <> [] ->
  100 < u32 (u32 (i_count p + 1) - i_last_count p) -> small_gaps 0 l ->
  (length (bs ++ concat l) <= 1023)%nat -> Z.of_nat (length l) * 100 < 4294967296 ->
  exists p', take_bytes (ticks p (bs :: l)) = Some (bs ++ concat l, p') /\ i_delta p' = 100 * Z.of_nat (length l) /\
    i_queue p' = [] /\ i_last_bytes p' = 0.
Proof.
  intros Q LB NE Old G L N. cbn [ticks fold_left]. rewrite app_length in L. 
  assert (T : tick p bs = mk_port bs (len bs) 0 0 (i_delta p)).
  { unfold tick. rewrite arrive_all by (rewrite Q; cbn [length]; lia). rewrite Q, LB. cbn [app]. unfold check_bytes. cbn [i_queue i_last_bytes i_count i_last_count i_delta].
    destruct (Z.ltb_spec 0 (len bs)) as [H|H]; [|destruct bs; [congruence|unfold len in H; cbn [length] in H; lia]].
    destruct (Z.ltb_spec 100 (u32 (u32 (i_count p + 1) - i_last_count p))); [reflexivity|lia]. }
  rewrite T. fold (ticks (mk_port bs (len bs) 0 0 (i_delta p)) l).
  destruct (ticks_count l (mk_port bs (len bs) 0 0 (i_delta p)) 0%nat 0%nat) as (I1 & I2 & I3); cbn [i_queue i_last_bytes i_count i_last_count i_delta]; try assumption; try lia; try reflexivity.
  cbn [i_queue] in *. unfold take_bytes. rewrite I1, I2, I3. unfold len. rewrite Nat2Z.id. unfold serial_size. rewrite app_length in *.
  destruct (Nat.leb_spec (length bs + length (concat l)) 1024); [|lia]. rewrite Nat.leb_refl. cbn [andb].
  rewrite <- app_length. rewrite firstn_all, skipn_all. eexists. split; [reflexivity|]. cbn [i_delta i_queue i_last_bytes]. repeat split. rewrite u32_id; lia.
Qed.

(** *** between the interrupts and the control cycles, bytes are kept in order *)
Theorem port_keeps_order p bs : (length (i_queue p) + length bs <= 1023)%nat ->
  i_queue (fold_left arrive bs p) = i_queue p ++ bs.
Proof. intros H. rewrite arrive_all by assumption. reflexivity. Qed.
