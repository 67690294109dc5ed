From Coq Require Import String.
From Verif Require Import Base FlownModel RegistryModel BootModel BootSpec.
Open Scope string_scope.
Open Scope list_scope.
Open Scope Z_scope.

(** If the checks pass, the build without checks does the same. *)
Lemma checked_flight h : forall l i r ps r' ps',
  boot_checked h i l r ps = Some (r', ps') -> boot_flight i l r (map Some ps) = (r', map Some ps').
Proof.
  induction l as [|o l IH]; intros i r ps r' ps' H; cbn [boot_checked boot_flight] in *.
  - injection H as <- <-. reflexivity.
  - destruct o as [k f|n|k n c|n].
    + destruct (add_k k r (fld_of (5 * i) f)) as [r1 ok]. destruct ok; [|discriminate]. exact (IH _ _ _ _ _ H).
    + destruct (add_fault r (flt_of (5 * i) n)) as [r1 ok]. destruct ok; [|discriminate]. exact (IH _ _ _ _ _ H).
    + destruct (find_in (area k r) n) as [x|]; [|discriminate].
      destruct (cast_ok (obj_at h (fd_ptr x)) k c); [|discriminate].
      apply IH in H. rewrite map_app in H. exact H.
    + destruct (find_in (rg_faults r) n) as [x|]; [|discriminate].
      apply IH in H. rewrite map_app in H. exact H.
Qed.

Lemma boot_passes : exists ps, boot_checked (heap 0 boot) 0 boot empty_registry [] = Some (boot_registry, ps) /\
  boot_flight 0 boot empty_registry [] = (boot_registry, map Some ps) /\ List.length ps = 180%nat.
Proof.
  assert (H : match boot_checked (heap 0 boot) 0 boot empty_registry [] with Some (_, ps) => List.length ps = 180%nat | None => False end)
    by (vm_compute; reflexivity).
  destruct (boot_checked (heap 0 boot) 0 boot empty_registry []) as [[r ps]|] eqn:E; [|contradiction].
  pose proof (checked_flight _ _ _ _ _ _ _ E) as F. cbn [map] in F.
  exists ps. unfold boot_registry. rewrite F. cbn [fst]. repeat split; assumption.
Qed.

(** every registration of the program is accepted, at every prefix *)
Lemma checked_prefix h : forall l1 l2 i r ps x,
  boot_checked h i (l1 ++ l2) r ps = Some x ->
  exists r1 ps1, boot_checked h i l1 r ps = Some (r1, ps1) /\ boot_checked h (i + Z.of_nat (List.length l1)) l2 r1 ps1 = Some x.
Proof.
  induction l1 as [|o l1 IH]; intros l2 i r ps x H.
  - exists r, ps. cbn [app List.length boot_checked] in *. rewrite Z.add_0_r. split; [reflexivity|exact H].
  - cbn [app boot_checked List.length] in *. rewrite Nat2Z.inj_succ.
    replace (i + Z.succ (Z.of_nat (List.length l1))) with (i + 1 + Z.of_nat (List.length l1)) by lia.
    destruct o as [k f|n|k n c|n].
    + destruct (add_k k r (fld_of (5 * i) f)) as [r1 ok]. destruct ok; [|discriminate]. exact (IH _ _ _ _ _ H).
    + destruct (add_fault r (flt_of (5 * i) n)) as [r1 ok]. destruct ok; [|discriminate]. exact (IH _ _ _ _ _ H).
    + destruct (find_in (area k r) n) as [y|]; [|discriminate].
      destruct (cast_ok (obj_at h (fd_ptr y)) k c); [|discriminate]. exact (IH _ _ _ _ _ H).
    + destruct (find_in (rg_faults r) n) as [y|]; [|discriminate]. exact (IH _ _ _ _ _ H).
Qed.

(** a check of every lookup against the calls before it *)
Definition kind_beq (a b : kind) : bool :=
  match a, b with KInternal, KInternal | KReadable, KReadable | KWritable, KWritable => true | _, _ => false end.
Definition serves_b (have want : kind) : bool :=
  kind_beq have want || (kind_beq have KWritable && kind_beq want KReadable).
Fixpoint wired (i : Z) (h : list (Z * (kind * bfield))) (r : registry) (l : list bop) : bool :=
  match l with
  | [] => true
  | Find k n t :: l' =>
    match find_in (area k r) n with
    | Some x => match obj_at h (fd_ptr x) with
                | Some (k', f) => String.eqb (bf_name f) n && ctype_beq (bf_type f) t && serves_b k' k
                | None => false
                end
    | None => false
    end && wired (i + 1) h r l'
  | FindFlt n :: l' =>
    match find_in (rg_faults r) n with
    | Some x => match obj_at h (fd_ptr x) with
                | Some (KWritable, f) => String.eqb (bf_name f) n && ctype_beq (bf_type f) CBool
                | _ => false
                end
    | None => false
    end && wired (i + 1) h r l'
  | o :: l' => wired (i + 1) (h ++ heap i [o]) (fst (boot_flight i [o] r [])) l'
  end.

Lemma heap_app : forall l1 l2 i, heap i (l1 ++ l2) = heap i l1 ++ heap (i + Z.of_nat (List.length l1)) l2.
Proof.
  induction l1 as [|o l1 IH]; intros l2 i; cbn [app heap List.length].
  - rewrite Z.add_0_r. reflexivity.
  - rewrite Nat2Z.inj_succ. replace (i + Z.succ (Z.of_nat (List.length l1))) with (i + 1 + Z.of_nat (List.length l1)) by lia.
    destruct o; rewrite IH; reflexivity.
Qed.
Lemma flight_ptrs : forall l i r ps, fst (boot_flight i l r ps) = fst (boot_flight i l r []).
Proof.
  induction l as [|o l IH]; intros i r ps; [reflexivity|]. cbn [boot_flight].
  destruct o as [k f|n|k n c|n]; [apply IH|apply IH|rewrite IH; symmetry; rewrite IH; reflexivity
    |rewrite IH; symmetry; rewrite IH; reflexivity].
Qed.
Lemma flight_app : forall l1 l2 i r,
  fst (boot_flight i (l1 ++ l2) r []) = fst (boot_flight (i + Z.of_nat (List.length l1)) l2 (fst (boot_flight i l1 r [])) []).
Proof.
  induction l1 as [|o l1 IH]; intros l2 i r; cbn [app List.length].
  - rewrite Z.add_0_r. reflexivity.
  - rewrite Nat2Z.inj_succ. replace (i + Z.succ (Z.of_nat (List.length l1))) with (i + 1 + Z.of_nat (List.length l1)) by lia.
    cbn [boot_flight]. destruct o as [k f|n|k n c|n]; rewrite ?(flight_ptrs _ _ _ [_]), ?(flight_ptrs _ _ _ ([] ++ [_])); apply IH.
Qed.

Lemma wired_split : forall l1 l2 i h r,
  wired i h r (l1 ++ l2) = true ->
  wired (i + Z.of_nat (List.length l1)) (h ++ heap i l1) (fst (boot_flight i l1 r [])) l2 = true.
Proof.
  induction l1 as [|o l1 IH]; intros l2 i h r H; cbn [app List.length] in *.
  - rewrite Z.add_0_r. cbn [heap boot_flight fst]. rewrite app_nil_r. exact H.
  - rewrite Nat2Z.inj_succ. replace (i + Z.succ (Z.of_nat (List.length l1))) with (i + 1 + Z.of_nat (List.length l1)) by lia.
    change (o :: l1) with ([o] ++ l1)%list.
    rewrite flight_app, heap_app. cbn [List.length Z.of_nat]. change (Z.pos (Pos.of_succ_nat 0)) with 1.
    rewrite app_assoc. destruct o as [k f|n|k n c|n]; cbn [wired] in H.
    + apply IH. exact H.
    + apply IH. exact H.
    + apply andb_true_iff in H. destruct H as [_ H]. cbn [heap boot_flight fst]. rewrite app_nil_r. apply IH. exact H.
    + apply andb_true_iff in H. destruct H as [_ H]. cbn [heap boot_flight fst]. rewrite app_nil_r. apply IH. exact H.
Qed.

Lemma boot_wired : wired 0 [] empty_registry boot = true.
Proof. vm_compute. reflexivity. Qed.

Lemma serves_ok a b : serves_b a b = true -> serves a b.
Proof. destruct a, b; cbn; intros H; try discriminate; unfold serves; auto. Qed.
Lemma ctype_ok a b : ctype_beq a b = true -> a = b.
Proof. destruct a, b; cbn; intros H; try discriminate; reflexivity. Qed.

Lemma heap_registered : forall l i p o, obj_at (heap i l) p = Some o -> In o (registered l).
Proof.
  assert (A : forall h p o, obj_at h p = Some o -> In (p, o) h).
  { induction h as [|[q o'] h IH]; intros p o H; [discriminate|]. cbn in H.
    destruct (Z.eqb_spec q p); [injection H as <-; subst; left; reflexivity|right; apply IH; exact H]. }
  assert (B : forall l i p o, In (p, o) (heap i l) -> In o (registered l)).
  { induction l as [|b l IH]; intros i p o H; [destruct H|]. unfold registered. cbn [flat_map]. apply in_app_iff.
    destruct b as [k f|n|k n c|n]; cbn [heap] in H.
    - destruct H as [H|H]; [injection H as <- <-; left; left; reflexivity|right; exact (IH _ _ _ H)].
    - apply in_app_iff in H. destruct H as [H|H]; [left; apply in_combine_r in H; exact H|right; exact (IH _ _ _ H)].
    - right; exact (IH _ _ _ H).
    - right; exact (IH _ _ _ H). }
  intros l i p o H. apply (B l i p). apply A. exact H.
Qed.

Lemma lookup_ok : forall pre k n t post, boot = pre ++ Find k n t :: post ->
  exists p k' f,
    option_map fd_ptr (find_in (area k (fst (boot_flight 0 pre empty_registry []))) n) = Some p /\
    obj_at (heap 0 pre) p = Some (k', f) /\ In (k', f) (registered pre) /\
    bf_name f = n /\ bf_type f = t /\ serves k' k.
Proof.
  intros pre k n t post E. pose proof boot_wired as W. rewrite E in W. apply wired_split in W.
  cbn [app wired] in W. apply andb_true_iff in W. destruct W as [W _].
  destruct (find_in (area k (fst (boot_flight 0 pre empty_registry []))) n) as [x|] eqn:F; [|discriminate].
  destruct (obj_at (heap 0 pre) (fd_ptr x)) as [[k' f]|] eqn:G; [|discriminate].
  apply andb_true_iff in W. destruct W as [W S]. apply andb_true_iff in W. destruct W as [N T].
  exists (fd_ptr x), k', f. cbn [option_map]. split; [reflexivity|]. split; [exact G|].
  split; [exact (heap_registered _ _ _ _ G)|].
  split; [apply String.eqb_eq; exact N|]. split; [apply ctype_ok; exact T|apply serves_ok; exact S].
Qed.

Lemma fault_lookup_ok : forall pre n post, boot = pre ++ FindFlt n :: post ->
  exists p f,
    option_map fd_ptr (find_in (rg_faults (fst (boot_flight 0 pre empty_registry []))) n) = Some p /\
    obj_at (heap 0 pre) p = Some (KWritable, f) /\ In (KWritable, f) (registered pre) /\
    bf_name f = n /\ bf_type f = CBool.
Proof.
  intros pre n post E. pose proof boot_wired as W. rewrite E in W. apply wired_split in W.
  cbn [app wired] in W. apply andb_true_iff in W. destruct W as [W _].
  destruct (find_in (rg_faults (fst (boot_flight 0 pre empty_registry []))) n) as [x|] eqn:F; [|discriminate].
  destruct (obj_at (heap 0 pre) (fd_ptr x)) as [[k' f]|] eqn:G; [|discriminate].
  destruct k'; try discriminate. apply andb_true_iff in W. destruct W as [N T].
  exists (fd_ptr x), f. cbn [option_map]. split; [reflexivity|]. split; [exact G|].
  split; [exact (heap_registered _ _ _ _ G)|].
  split; [apply String.eqb_eq; exact N|apply ctype_ok; exact T].
Qed.

(** no two fields share a name *)
Fixpoint nodup_b (l : list string) : bool :=
  match l with [] => true | x :: t => negb (existsb (String.eqb x) t) && nodup_b t end.
Lemma nodup_ok l : nodup_b l = true -> NoDup l.
Proof.
  induction l as [|x l IH]; intros H; constructor; cbn in H; apply andb_true_iff in H; destruct H as [A B].
  - intros I. apply negb_true_iff in A. assert (existsb (String.eqb x) l = true); [|congruence].
    apply existsb_exists. exists x. split; [exact I|apply String.eqb_refl].
  - apply IH. exact B.
Qed.
Lemma names_distinct : NoDup (map (fun x => bf_name (snd x)) (registered boot)).
Proof. apply nodup_ok. vm_compute. reflexivity. Qed.

Lemma commandable_names : NoDup (map bf_name commandable).
Proof. apply nodup_ok. vm_compute. reflexivity. Qed.

(** the commandable fields, in the order in which they are numbered, are the writable registrations in order *)
Definition is_writable (x : kind * bfield) : bool := match fst x with KWritable => true | _ => false end.
Lemma commandable_is : commandable = map snd (filter is_writable (registered boot)).
Proof. vm_compute. reflexivity. Qed.
Lemma saved_is : saved = map snd (filter (fun x => negb (kind_beq (fst x) KInternal) && (0 <? bf_period (snd x))) (registered boot)).
Proof. vm_compute. reflexivity. Qed.

(** any start-up that the checked build completes *)
Lemma checked_lookup l x pre k n t post : boot_checked (heap 0 l) 0 l empty_registry [] = Some x -> l = pre ++ Find k n t :: post ->
  exists p k' f, option_map fd_ptr (find_in (area k (fst (boot_flight 0 pre empty_registry []))) n) = Some p /\
    obj_at (heap 0 l) p = Some (k', f) /\ bf_type f = t /\ serves k' k.
Proof.
  intros H E. generalize dependent (heap 0 l). intros h H. subst l. destruct (checked_prefix h _ _ _ _ _ _ H) as (r1 & ps1 & A & B).
  pose proof (checked_flight _ _ _ _ _ _ _ A) as F. cbn [map] in F. rewrite F. cbn [fst]. cbn [boot_checked] in B.
  destruct (find_in (area k r1) n) as [y|]; [|discriminate]. destruct (cast_ok (obj_at h (fd_ptr y)) k t) eqn:C; [|discriminate].
  unfold cast_ok in C. destruct (obj_at h (fd_ptr y)) as [[k' f]|] eqn:O; [|discriminate]. apply andb_true_iff in C. destruct C as [C1 C2].
  exists (fd_ptr y), k', f. split; [reflexivity|]. split; [exact O|]. split; [exact (ctype_ok _ _ C2)|].
  unfold serves. destruct k', k; try discriminate C1; auto.
Qed.
