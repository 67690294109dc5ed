From Coq Require Import String List FinFun.
From Verif Require Import Base BitArrayModel BitArrayProofs IntSerModel IntSerSpec IntSerProofs
  DownlinkModel DownlinkSpec DownlinkProofs DownlinkGroundProofs DownlinkTableProofs FlownModel FlownSpec.
Open Scope string_scope.
Open Scope list_scope.
Open Scope Z_scope.

(** ** widths *)
Opaque flown registry.
Definition wid (n : string) : nat :=
  match lookup registry n with Some d => match width d with Some w => w | None => O end | None => O end.
Definition known (n : string) : bool :=
  match lookup registry n with Some d => match width d with Some _ => true | None => false end | None => false end.

Lemma fits_wid val n : fits val -> known n = true -> length (val n) = wid n.
Proof.
  intros H. unfold known, wid. destruct (lookup registry n) as [d|] eqn:E; [|discriminate].
  destruct (width d) as [w|] eqn:W; [|discriminate]. intros _. exact (H n d w E W).
Qed.

Lemma all_known : forallb (fun row => forallb known (snd row)) flown = true.
Proof. vm_compute. reflexivity. Qed.

Lemma known_in row n : In row flown -> In n (snd row) -> known n = true.
Proof.
  intros H1 H2. pose proof all_known as A. rewrite forallb_forall in A. specialize (A row H1).
  rewrite forallb_forall in A. exact (A n H2).
Qed.

Definition bits_of (names : list string) : nat := fold_right (fun n acc => (wid n + acc)%nat) O names.

Lemma concat_length val names : fits val -> forallb known names = true ->
  length (concat (map val names)) = bits_of names.
Proof.
  intros H. induction names as [|n l IH]; intros K; [reflexivity|]. cbn [forallb] in K. apply andb_true_iff in K.
  destruct K as [K1 K2]. cbn [map concat]. unfold bits_of; cbn [fold_right]; fold (bits_of l).
  rewrite app_length, IH, fits_wid by assumption. reflexivity.
Qed.

(** ** the table in flight *)
Definition sr_of (id : Z) : iser :=
  match bind (id_serializer 43) (fun s => serialize s id) with Some s => s | None => mk_iser UChar 0 0 [] end.
Definition mkrow (on : Z -> bool) (val : string -> list bool) (row : Z * bool * list string) : flow :=
  mk_flow (sr_of (fst (fst row))) (on (fst (fst row))) (map val (snd row)).
Definition flows_of (on : Z -> bool) (val : string -> list bool) : list flow := map (mkrow on val) flown.

Definition ids : list Z := map (fun row => fst (fst row)) flown.
Lemma ids_eq : ids = map (fun i => Z.of_nat i + 1) (seq 0 43).
Proof. vm_compute. reflexivity. Qed.
Lemma ids_nodup : NoDup ids.
Proof.
  rewrite ids_eq. apply Injective_map_NoDup; [intros a b; lia|apply seq_NoDup].
Qed.
Lemma ids_range id : In id ids <-> 1 <= id <= 43.
Proof.
  rewrite ids_eq, in_map_iff. split.
  - intros (i & <- & H). apply in_seq in H. lia.
  - intros H. exists (Z.to_nat (id - 1)). split; [lia|]. apply in_seq. lia.
Qed.
Lemma flown_length : length flown = 43%nat.
Proof. vm_compute. reflexivity. Qed.
Lemma flows_length on val : length (flows_of on val) = 43%nat.
Proof. unfold flows_of. rewrite map_length. exact flown_length. Qed.

Lemma sr_ok id : In id ids -> bind (id_serializer 43) (fun s => serialize s id) = Some (sr_of id) /\ length (is_bits (sr_of id)) = 6%nat.
Proof.
  intros H.
  assert (F : forallb (fun i => match bind (id_serializer 43) (fun s => serialize s i) with
     Some s => Nat.eqb (length (is_bits s)) 6 | None => false end) ids = true) by (vm_compute; reflexivity).
  rewrite forallb_forall in F. specialize (F id H). unfold sr_of. destruct (bind _ _); [|discriminate].
  split; [reflexivity|]. apply Nat.eqb_eq. exact F.
Qed.

Lemma row_has_id on val row : In row flown -> has_id 43 (mkrow on val row) (fst (fst row)).
Proof.
  intros H. assert (I : In (fst (fst row)) ids) by (unfold ids; apply (in_map (fun r => fst (fst r))); exact H).
  split; [lia|]. split; [apply ids_range; exact I|].
  destruct (sr_ok _ I) as [E _]. destruct (id_serializer 43) as [s0|]; [|discriminate]. exists s0. split; [reflexivity|]. exact E.
Qed.

Lemma Forall2_map_l {A B C} (R : B -> C -> Prop) (f : A -> B) (g : A -> C) l :
  (forall x, In x l -> R (f x) (g x)) -> Forall2 R (map f l) (map g l).
Proof. induction l as [|x l IH]; intros H; constructor; [apply H; left; reflexivity|apply IH; intros y Hy; apply H; right; exact Hy]. Qed.

Lemma flows_ids on val : Forall2 (has_id 43) (flows_of on val) ids.
Proof. unfold flows_of, ids. apply Forall2_map_l. intros row H. apply row_has_id. exact H. Qed.

Definition row_bits (row : Z * bool * list string) : Z := 6 + Z.of_nat (bits_of (snd row)).
Lemma row_bits_eq : map row_bits flown = flow_bits.
Proof. vm_compute. reflexivity. Qed.

Lemma row_packet_size on val row : fits val -> In row flown -> packet_size (mkrow on val row) = row_bits row.
Proof.
  intros F H. rewrite packet_size_length, app_length. unfold mkrow. cbn [fl_idbits fl_sr fl_fields]. unfold fl_idbits. cbn [fl_sr].
  assert (I : In (fst (fst row)) ids) by (unfold ids; apply (in_map (fun r => fst (fst r))); exact H).
  destruct (sr_ok _ I) as [_ E]. rewrite E, concat_length.
  - unfold row_bits. lia.
  - exact F.
  - pose proof all_known as A. rewrite forallb_forall in A. exact (A row H).
Qed.

Lemma rows_small : forallb (fun b => (1 <=? b) && (b <=? 527)) flow_bits = true.
Proof. vm_compute. reflexivity. Qed.

Lemma row_bits_small row : In row flown -> 1 <= row_bits row <= 527.
Proof.
  intros H. pose proof rows_small as A. rewrite <- row_bits_eq, forallb_forall in A. specialize (A _ (in_map row_bits _ _ H)). lia.
Qed.

Lemma flows_ok on val : fits val -> Forall flow_ok (flows_of on val).
Proof.
  intros F. apply Forall_forall. intros f H. apply in_map_iff in H. destruct H as (row & <- & H).
  unfold flow_ok. rewrite row_packet_size by assumption. apply row_bits_small. exact H.
Qed.

(** ** sizes *)
Definition sum_on (on : Z -> bool) (tbl : list (Z * bool * list string)) : Z :=
  fold_right (fun row acc => if on (fst (fst row)) then row_bits row + acc else acc) 0 tbl.

Lemma telemetry_bits_eq on : telemetry_bits on = 32 + sum_on on flown.
Proof.
  unfold telemetry_bits. rewrite <- ids_eq, <- row_bits_eq. unfold ids, sum_on. apply (f_equal (Z.add 32)).
  generalize flown. intros tbl. induction tbl as [|row l IH]; [reflexivity|]. cbn [map combine fold_right fst snd]. rewrite IH. reflexivity.
Qed.

Lemma flows_payload_length on val cc : fits val -> length cc = 32%nat ->
  Z.of_nat (length (payload cc (flows_of on val))) = telemetry_bits on.
Proof.
  intros F HC. rewrite payload_length, HC, telemetry_bits_eq. apply (f_equal (Z.add 32)). unfold flows_of, sum_on.
  assert (G : forall l, incl l flown -> fold_right (fun f acc => if fl_active f then packet_size f + acc else acc) 0 (map (mkrow on val) l) =
    fold_right (fun row acc => if on (fst (fst row)) then row_bits row + acc else acc) 0 l).
  { induction l as [|row l IH]; intros HI; [reflexivity|]. cbn [map fold_right].
    rewrite IH by (intros x Hx; apply HI; right; exact Hx).
    rewrite row_packet_size by (try assumption; apply HI; left; reflexivity). reflexivity. }
  apply G. intros x Hx. exact Hx.
Qed.

Lemma all_bits : fold_right (fun row acc => row_bits row + acc) 0 flown = 4385.
Proof. vm_compute. reflexivity. Qed.

Lemma sum_on_le on : 0 <= sum_on on flown <= 4385.
Proof.
  rewrite <- all_bits. unfold sum_on.
  assert (G : forall l, incl l flown -> 0 <= fold_right (fun row acc => if on (fst (fst row)) then row_bits row + acc else acc) 0 l
     <= fold_right (fun row acc => row_bits row + acc) 0 l).
  { induction l as [|row l IH]; intros HI; [cbn; lia|]. cbn [fold_right].
    pose proof (row_bits_small row ltac:(apply HI; left; reflexivity)).
    specialize (IH ltac:(intros x Hx; apply HI; right; exact Hx)). destruct (on _); lia. }
  apply G. intros x Hx. exact Hx.
Qed.

Lemma flows_total on val : fits val -> total (flows_of on val) = 4385.
Proof.
  intros F. rewrite <- all_bits. unfold total, flows_of.
  assert (G : forall l, incl l flown -> fold_right (fun f acc => packet_size f + acc) 0 (map (mkrow on val) l) =
     fold_right (fun row acc => row_bits row + acc) 0 l).
  { induction l as [|row l IH]; intros HI; [reflexivity|]. cbn [map fold_right].
    rewrite IH by (intros x Hx; apply HI; right; exact Hx).
    rewrite row_packet_size by (try assumption; apply HI; left; reflexivity). reflexivity. }
  apply G. intros x Hx. exact Hx.
Qed.

Lemma flows_buffer on val : fits val -> compute_downlink_size true (flows_of on val) = 554.
Proof. intros F. rewrite max_size_spec, flows_total by exact F. reflexivity. Qed.

Lemma flows_safe on val cc buf : fits val -> length cc = 32%nat -> length buf = (8 * 554)%nat ->
  exists st, build_frame cc (flows_of on val) buf = Some st /\ length (fs_buf st) = length buf.
Proof.
  intros F HC HB. destruct (proj2 (build_frame_safe_iff cc (flows_of on val) buf HC (flows_ok on val F)
    ltac:(rewrite HB, Nat.mul_comm; apply Nat.mod_mul; lia))) as (st & E).
  - rewrite (flows_payload_length on val cc F HC), telemetry_bits_eq, HB. pose proof (sum_on_le on) as S.
    set (n := 32 + sum_on on flown). assert (N : 32 <= n <= 4417) by (unfold n; lia). clearbody n.
    unfold frame_length, continuations. destruct (Z.leb_spec n 0); [lia|]. lia.
  - exists st. split; [exact E|]. exact (proj1 (build_frame_ok cc (flows_of on val) buf st HC (flows_ok on val F) E)).
Qed.

(** ** boot *)
Lemma find_fields_ok val names : forallb known names = true -> find_fields val names = Done (map val names).
Proof.
  induction names as [|n l IH]; intros K; [reflexivity|]. cbn [forallb] in K. apply andb_true_iff in K. destruct K as [K1 K2].
  cbn [find_fields map]. unfold known in K1. destruct (lookup registry n); [|discriminate]. rewrite IH by exact K2. reflexivity.
Qed.

Definition loaded val (row : Z * bool * list string) : Z * bool * list (list bool) := (fst (fst row), snd (fst row), map val (snd row)).
Lemma find_all_ok val tbl : forallb (fun row => forallb known (snd row)) tbl = true -> find_all val tbl = Done (map (loaded val) tbl).
Proof.
  induction tbl as [|[[id act] names] l IH]; intros K; [reflexivity|]. cbn [forallb] in K. apply andb_true_iff in K. destruct K as [K1 K2].
  cbn [find_all]. cbn [snd] in K1. rewrite (find_fields_ok _ _ K1). cbn [obind]. rewrite IH by exact K2. reflexivity.
Qed.

Lemma default_on_row row : In row flown -> default_on flown (fst (fst row)) = snd (fst row).
Proof.
  intros H. pose proof ids_nodup as ND. unfold ids in ND. revert H ND. generalize flown. intros tbl H ND. induction tbl as [|[[i b] ns] l IH]; [contradiction|].
  cbn [map fst snd] in ND. apply NoDup_cons_iff in ND. destruct ND as [NI ND]. cbn [default_on]. destruct H as [<-|H].
  - cbn [fst snd]. rewrite Z.eqb_refl. reflexivity.
  - destruct (Z.eqb_spec i (fst (fst row))) as [E|E]; [|apply IH; assumption].
    exfalso. apply NI. rewrite E. apply (in_map (fun r => fst (fst r))). exact H.
Qed.

Lemma make_flows_flown val : fits val -> forall l, incl l flown ->
  make_flows 43 (map (loaded val) l) = Done (map (mkrow (default_on flown) val) l).
Proof.
  intros F. induction l as [|row l IH]; intros HI; [reflexivity|].
  assert (H : In row flown) by (apply HI; left; reflexivity).
  pose proof (row_packet_size (default_on flown) val row F H) as P. pose proof (row_bits_small row H).
  assert (I : In (fst (fst row)) ids) by (unfold ids; apply (in_map (fun r => fst (fst r))); exact H).
  destruct (sr_ok _ I) as [E _]. apply ids_range in I.
  unfold mkrow in P. rewrite (default_on_row row H) in P.
  cbn [map make_flows]. unfold make_flow, loaded at 1.
  destruct (Z.ltb_spec (Z.of_nat 43) (fst (fst row))); [lia|]. destruct (Z.eqb_spec (fst (fst row)) 0); [lia|]. cbn [orb].
  rewrite E, P. destruct (Z.ltb_spec (num_bits_in_packet - 1 - 32) (row_bits row)) as [X|X]; [unfold num_bits_in_packet in X; lia|].
  cbn [obind]. rewrite IH by (intros x Hx; apply HI; right; exact Hx). cbn [obind]. unfold mkrow at 2.
  rewrite (default_on_row row H). reflexivity.
Qed.

Lemma boot_ok val junk : fits val ->
  exists d, flown_boot val junk = Done d /\ ds_flows d = flows_of (default_on flown) val /\ length (ds_buf d) = (8 * 554)%nat.
Proof.
  intros F. unfold flown_boot. rewrite (find_all_ok val flown all_known). cbn [obind]. unfold init_flows.
  rewrite map_length, flown_length. rewrite (make_flows_flown val F flown) by (intros x Hx; exact Hx). cbn [obind].
  fold (flows_of (default_on flown) val). rewrite (flows_buffer _ _ F).
  eexists. split; [reflexivity|]. split; [reflexivity|]. cbn [ds_buf].
  rewrite firstn_length, app_length, repeat_length. lia.
Qed.

(** ** flight *)
Lemma combine_map {A B C D} (f : A -> B) (g : A -> C) (h : B * C -> D) l :
  map h (combine (map f l) (map g l)) = map (fun x => h (f x, g x)) l.
Proof. induction l as [|x l IH]; [reflexivity|]. cbn [map combine]. rewrite IH. reflexivity. Qed.

Lemma reload_flows on val val' : reload val' (flows_of on val) = flows_of on val'.
Proof. unfold reload, flows_of. rewrite combine_map. reflexivity. Qed.

Definition flip (on : Z -> bool) (t : Z) : Z -> bool := fun id => if id =? t then negb (on id) else on id.

Lemma toggle_flows on val t : 1 <= t <= 43 -> toggle_flow (flows_of on val) t = Done (flows_of (flip on t) val).
Proof.
  intros H. unfold toggle_flow. rewrite flows_length. destruct (Z.ltb_spec (Z.of_nat 43) t); [lia|].
  apply ids_range in H. unfold ids in H. apply in_map_iff in H. destruct H as (row & <- & H).
  apply in_split in H. destruct H as (l1 & l2 & E).
  assert (SPL : forall o, flows_of o val = map (mkrow o val) l1 ++ mkrow o val row :: map (mkrow o val) l2).
  { intros o. unfold flows_of. rewrite E, map_app. reflexivity. }
  pose proof ids_nodup as ND. unfold ids in ND. rewrite E, map_app in ND. cbn [map] in ND.
  rewrite !SPL. rewrite (toggle_spec 43 _ (map (fun r => fst (fst r)) l1)).
  - f_equal. apply NoDup_remove_2 in ND. f_equal; [|f_equal].
    + apply map_ext_in. intros r Hr. unfold mkrow, flip. destruct (Z.eqb_spec (fst (fst r)) (fst (fst row))) as [X|X]; [|reflexivity].
      exfalso. apply ND. apply in_or_app. left. rewrite <- X. apply (in_map (fun r => fst (fst r))). exact Hr.
    + unfold mkrow, flip. rewrite Z.eqb_refl. reflexivity.
    + apply map_ext_in. intros r Hr. unfold mkrow, flip. destruct (Z.eqb_spec (fst (fst r)) (fst (fst row))) as [X|X]; [|reflexivity].
      exfalso. apply ND. apply in_or_app. right. rewrite <- X. apply (in_map (fun r => fst (fst r))). exact Hr.
  - apply Forall2_map_l. intros r Hr. apply row_has_id. rewrite E. apply in_or_app. left. exact Hr.
  - apply row_has_id. rewrite E. apply in_or_app. right. left. reflexivity.
  - intros X. apply NoDup_remove_2 in ND. apply ND. apply in_or_app. left. exact X.
Qed.

Lemma known_cc : known "pan.cycle_no" = true. Proof. vm_compute. reflexivity. Qed.
Lemma wid_cc : wid "pan.cycle_no" = 32%nat. Proof. vm_compute. reflexivity. Qed.
Lemma fits_cc val : fits val -> length (val "pan.cycle_no") = 32%nat.
Proof. intros F. rewrite (fits_wid val _ F known_cc). exact wid_cc. Qed.

Lemma flip_0 on val : flows_of (flip on 0) val = flows_of on val.
Proof.
  unfold flows_of. apply map_ext_in. intros row H. unfold mkrow, flip.
  assert (I : In (fst (fst row)) ids) by (unfold ids; apply (in_map (fun r => fst (fst r))); exact H).
  apply ids_range in I. destruct (Z.eqb_spec (fst (fst row)) 0); [lia|reflexivity].
Qed.

Lemma cycle_ok on val0 d val tog :
  ds_flows d = flows_of on val0 -> length (ds_buf d) = (8 * 554)%nat -> fits val -> 0 <= tog <= 43 ->
  exists st, build_frame (val "pan.cycle_no") (flows_of on val) (ds_buf d) = Some st /\
    exists d', flown_cycle val tog d = Done d' /\ ds_flows d' = flows_of (flip on tog) val /\ ds_buf d' = fs_buf st /\
      length (ds_buf d') = (8 * 554)%nat /\ ds_size d' = (telemetry_bits on + (telemetry_bits on + 559) / 560 + 7) / 8.
Proof.
  intros HD HB F HT. destruct (flows_safe on val (val "pan.cycle_no") (ds_buf d) F (fits_cc val F) HB) as (st & E & L).
  exists st. split; [exact E|]. unfold flown_cycle. rewrite HD, reload_flows. unfold dl_execute. cbn [ds_flows ds_buf ds_shift1 ds_shift2 ds_toggle].
  rewrite E. change ((0 <? 0) && (0 <? 0)) with false. cbn [obind ds_toggle ds_flows ds_buf ds_size].
  pose proof (size_spec (val "pan.cycle_no") (flows_of on val) (fits_cc val F)) as SZ. cbv zeta in SZ.
  rewrite (flows_payload_length on val _ F (fits_cc val F)) in SZ.
  destruct (Z.ltb_spec 0 tog) as [T|T].
  - rewrite toggle_flows by lia. cbn [obind]. eexists. split; [reflexivity|]. cbn [ds_flows ds_buf ds_size].
    split; [reflexivity|]. split; [reflexivity|]. split; [congruence|exact SZ].
  - replace tog with 0 by lia. eexists. split; [reflexivity|]. cbn [ds_flows ds_buf ds_size].
    split; [symmetry; apply flip_0|]. split; [reflexivity|]. split; [congruence|exact SZ].
Qed.

Definition legal (c : (string -> list bool) * Z) : Prop := fits (fst c) /\ 0 <= snd c <= 43.

Lemma switched_ext on on' l : (forall id, on id = on' id) -> forall id, switched on l id = switched on' l id.
Proof.
  revert on on'. induction l as [|t l IH]; intros on on' H id; [apply H|]. cbn [switched]. apply IH. intros i. rewrite H. reflexivity.
Qed.

Lemma run_ok l : forall on val0 d, Forall legal l -> ds_flows d = flows_of on val0 -> length (ds_buf d) = (8 * 554)%nat ->
  exists d' val1, flown_run l d = Done d' /\ ds_flows d' = flows_of (switched on (map snd l)) val1 /\ length (ds_buf d') = (8 * 554)%nat.
Proof.
  induction l as [|[val tog] l IH]; intros on val0 d HL HD HB.
  - exists d, val0. split; [reflexivity|]. split; [exact HD|exact HB].
  - inversion HL as [|? ? [F T] HL']; subst. cbn [fst snd] in F, T.
    destruct (cycle_ok on val0 d val tog HD HB F T) as (st & _ & d1 & E1 & D1 & _ & B1 & _).
    destruct (IH (flip on tog) val d1 HL' D1 B1) as (d2 & v2 & E2 & D2 & B2).
    exists d2, v2. cbn [flown_run]. rewrite E1. cbn [obind]. split; [exact E2|]. split; [exact D2|exact B2].
Qed.

(** a flight: boot, then cycles *)
Lemma flight val0 junk l d0 d : fits val0 -> Forall legal l -> flown_boot val0 junk = Done d0 -> flown_run l d0 = Done d ->
  (exists val1, ds_flows d = flows_of (on_after l) val1) /\ length (ds_buf d) = (8 * 554)%nat.
Proof.
  intros F L E0 E1. destruct (boot_ok val0 junk F) as (d0' & E0' & D0 & B0). rewrite E0 in E0'. injection E0' as <-.
  destruct (run_ok l _ _ d0 L D0 B0) as (d' & v & E1' & D & B). rewrite E1 in E1'. injection E1' as <-. split; [exists v; exact D|exact B].
Qed.
