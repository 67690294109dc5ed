From Verif Require Import Base RegistryModel.
From Coq Require Import String.

Lemma find_in_app l1 : forall l2 n, find_in (l1 ++ l2) n = match find_in l1 n with Some f => Some f | None => find_in l2 n end.
Proof.
  induction l1 as [|f l1 IH]; intros l2 n; cbn [app find_in]; [reflexivity|].
  destruct (String.eqb n (fd_name f)); [reflexivity|apply IH].
Qed.

Lemma find_in_name l n f : find_in l n = Some f -> fd_name f = n /\ In f l.
Proof.
  induction l as [|g l IH]; cbn [find_in]; [discriminate|]. destruct (String.eqb_spec n (fd_name g)).
  - intros H. injection H as <-. split; [congruence|left; reflexivity].
  - intros H. destruct (IH H). split; [assumption|right; assumption].
Qed.

Lemma find_in_none l n : find_in l n = None <-> ~ In n (map fd_name l).
Proof.
  induction l as [|g l IH]; cbn [find_in map In]; [tauto|]. destruct (String.eqb_spec n (fd_name g)).
  - split; [discriminate|]. intros H. exfalso. apply H. left. congruence.
  - rewrite IH. split; intros H; [intros [X|X]; [congruence|tauto]|tauto].
Qed.

Lemma present_false l n : present l n = false <-> find_in l n = None.
Proof. unfold present. destruct (find_in l n); split; congruence. Qed.
Lemma present_true l n : present l n = true <-> exists f, find_in l n = Some f.
Proof. unfold present. destruct (find_in l n); split; try congruence; [eauto|]. intros [f H]; discriminate. Qed.

Definition names_unique (l : list fld) : Prop := NoDup (map fd_name l).

Lemma names_unique_snoc l f : names_unique l -> present l (fd_name f) = false -> names_unique (l ++ [f]).
Proof.
  intros U H. apply present_false in H. apply find_in_none in H. unfold names_unique in *. rewrite map_app. cbn [map].
  apply NoDup_Add with (a := fd_name f) (l := map fd_name l); [|split; assumption].
  rewrite <- (app_nil_r (map fd_name l)) at 1. apply Add_app.
Qed.

(** new lookup after appending an absent name *)
Lemma find_in_snoc l f n : find_in l (fd_name f) = None ->
  find_in (l ++ [f]) n = if String.eqb n (fd_name f) then Some f else find_in l n.
Proof.
  intros H. rewrite find_in_app. cbn [find_in]. destruct (String.eqb_spec n (fd_name f)) as [->|N].
  - rewrite H. reflexivity.
  - destruct (find_in l n); reflexivity.
Qed.

Record reg_inv (r : registry) : Prop := {
  ri_i : names_unique (rg_internal r); ri_r : names_unique (rg_readable r); ri_w : names_unique (rg_writable r);
  ri_e : names_unique (rg_eeprom r); ri_v : names_unique (rg_events r); ri_f : names_unique (rg_faults r);
  ri_wr : forall n f, find_in (rg_writable r) n = Some f -> find_in (rg_readable r) n = Some f;
  ri_er : forall n f, find_in (rg_eeprom r) n = Some f -> find_in (rg_readable r) n = Some f;
  ri_fw : forall n f, find_in (rg_faults r) n = Some f -> find_in (rg_writable r) n = Some f }.

Definition lookups (r : registry) : list (string -> option fld) :=
  map find_in [rg_internal r; rg_readable r; rg_writable r; rg_eeprom r; rg_events r; rg_faults r].

Ltac ri := repeat match goal with H : reg_inv _ |- _ => destruct H end; split; cbn [rg_internal rg_readable rg_writable rg_eeprom rg_events rg_faults] in *; try assumption.

Lemma snoc_keeps l f n g : find_in l n = Some g -> find_in (l ++ [f]) n = Some g.
Proof. intros H. rewrite find_in_app, H. reflexivity. Qed.

Lemma absent_sub (A B : list fld) n : (forall n f, find_in A n = Some f -> find_in B n = Some f) ->
  find_in B n = None -> find_in A n = None.
Proof. intros S H. destruct (find_in A n) eqn:E; [|reflexivity]. apply S in E. congruence. Qed.

Lemma sub_snoc A B f : (forall n g, find_in A n = Some g -> find_in B n = Some g) -> find_in B (fd_name f) = None ->
  forall n g, find_in (A ++ [f]) n = Some g -> find_in (B ++ [f]) n = Some g.
Proof.
  intros S HB n g. rewrite find_in_snoc by (apply (absent_sub A B); assumption). rewrite find_in_snoc by assumption.
  destruct (String.eqb n (fd_name f)); [tauto|apply S].
Qed.

(** exact effect of add_readable *)
Lemma add_readable_spec r f : reg_inv r ->
  (find_in (rg_readable r) (fd_name f) = None /\
   add_readable r f = (mk_reg (rg_internal r) (rg_readable r ++ [f]) (rg_writable r)
     (if 0 <? fd_period f then rg_eeprom r ++ [f] else rg_eeprom r) (rg_events r) (rg_faults r), true)) \/
  ((exists g, find_in (rg_readable r) (fd_name f) = Some g) /\ add_readable r f = (r, false)).
Proof.
  intros I. unfold add_readable. destruct (present (rg_readable r) (fd_name f)) eqn:E.
  - right. apply present_true in E. split; [assumption|reflexivity].
  - left. apply present_false in E. split; [assumption|]. destruct (0 <? fd_period f); [|reflexivity].
    assert (H : present (rg_eeprom r) (fd_name f) = false) by (apply present_false; apply (absent_sub _ _ _ (ri_er r I)); assumption).
    rewrite H. reflexivity.
Qed.

Lemma add_readable_inv r f : reg_inv r -> reg_inv (fst (add_readable r f)).
Proof.
  intros I. destruct (add_readable_spec r f I) as [[H E]|[_ E]]; rewrite E; [|assumption]. cbn [fst].
  pose proof (proj2 (present_false (rg_readable r) (fd_name f)) H) as PR.
  ri.
  - apply names_unique_snoc; assumption.
  - destruct (0 <? fd_period f); [|assumption]. apply names_unique_snoc; [assumption|]. apply present_false.
    apply (absent_sub _ _ _ ri_er0); assumption.
  - intros n g HW. apply snoc_keeps. apply ri_wr0. assumption.
  - destruct (0 <? fd_period f); [apply sub_snoc; assumption|].
    intros n g HE. apply snoc_keeps. apply ri_er0. assumption.
Qed.

Lemma add_writable_spec r f : reg_inv r ->
  (find_in (rg_readable r) (fd_name f) = None /\
   add_writable r f = (mk_reg (rg_internal r) (rg_readable r ++ [f]) (rg_writable r ++ [f])
     (if 0 <? fd_period f then rg_eeprom r ++ [f] else rg_eeprom r) (rg_events r) (rg_faults r), true)) \/
  ((exists g, find_in (rg_readable r) (fd_name f) = Some g) /\ add_writable r f = (r, false)).
Proof.
  intros I. unfold add_writable. destruct (add_readable_spec r f I) as [[H E]|[H E]]; rewrite E; [left|right; split; [assumption|reflexivity]].
  split; [assumption|]. cbn [rg_internal rg_readable rg_writable rg_eeprom rg_events rg_faults].
  assert (PW : present (rg_writable r) (fd_name f) = false) by (apply present_false; apply (absent_sub _ _ _ (ri_wr r I)); assumption).
  rewrite PW. reflexivity.
Qed.

Lemma add_writable_inv r f : reg_inv r -> reg_inv (fst (add_writable r f)).
Proof.
  intros I. destruct (add_writable_spec r f I) as [[H E]|[_ E]]; rewrite E; [|assumption]. cbn [fst].
  pose proof (add_readable_inv r f I) as I1. destruct (add_readable_spec r f I) as [[_ E1]|[[g Hg] _]]; [|congruence].
  rewrite E1 in I1. cbn [fst] in I1.
  pose proof (absent_sub _ _ _ (ri_wr r I) H) as HW. pose proof (ri_wr r I) as WR. ri.
  - apply names_unique_snoc; [assumption|]. apply present_false. assumption.
  - apply sub_snoc; assumption.
  - intros n g HF. apply snoc_keeps. apply ri_fw0. assumption.
Qed.

(** a registration never disturbs a name already taken *)
Definition extends (r r' : registry) : Prop :=
  forall n f, (find_in (rg_internal r) n = Some f -> find_in (rg_internal r') n = Some f) /\
    (find_in (rg_readable r) n = Some f -> find_in (rg_readable r') n = Some f) /\
    (find_in (rg_writable r) n = Some f -> find_in (rg_writable r') n = Some f) /\
    (find_in (rg_eeprom r) n = Some f -> find_in (rg_eeprom r') n = Some f) /\
    (find_in (rg_events r) n = Some f -> find_in (rg_events r') n = Some f) /\
    (find_in (rg_faults r) n = Some f -> find_in (rg_faults r') n = Some f).
Lemma extends_refl r : extends r r.
Proof. intros n f. tauto. Qed.
Lemma extends_trans a b c : extends a b -> extends b c -> extends a c.
Proof. intros H1 H2 n f. specialize (H1 n f). specialize (H2 n f). tauto. Qed.

Lemma add_readable_extends r f : reg_inv r -> extends r (fst (add_readable r f)).
Proof.
  intros I. destruct (add_readable_spec r f I) as [[_ E]|[_ E]]; rewrite E; [|apply extends_refl]. intros n g.
  cbn [fst rg_internal rg_readable rg_writable rg_eeprom rg_events rg_faults]. destruct (0 <? fd_period f); intuition auto using snoc_keeps.
Qed.
Lemma add_writable_extends r f : reg_inv r -> extends r (fst (add_writable r f)).
Proof.
  intros I. destruct (add_writable_spec r f I) as [[_ E]|[_ E]]; rewrite E; [|apply extends_refl]. intros n g.
  cbn [fst rg_internal rg_readable rg_writable rg_eeprom rg_events rg_faults]. destruct (0 <? fd_period f); intuition auto using snoc_keeps.
Qed.

Lemma add_writables_inv l : forall r, reg_inv r ->
  reg_inv (fst (add_writables r l)) /\ extends r (fst (add_writables r l)) /\
  rg_faults (fst (add_writables r l)) = rg_faults r /\ rg_events (fst (add_writables r l)) = rg_events r /\
  rg_internal (fst (add_writables r l)) = rg_internal r /\
  (snd (add_writables r l) = true -> forall f, In f l -> find_in (rg_writable (fst (add_writables r l))) (fd_name f) = Some f) /\
  (forall n, ~ In n (map fd_name l) -> find_in (rg_readable (fst (add_writables r l))) n = find_in (rg_readable r) n /\
     find_in (rg_writable (fst (add_writables r l))) n = find_in (rg_writable r) n /\
     find_in (rg_eeprom (fst (add_writables r l))) n = find_in (rg_eeprom r) n).
Proof.
  induction l as [|f l IH]; intros r I; cbn [add_writables].
  - cbn [fst snd]. split; [assumption|]. split; [apply extends_refl|]. do 3 (split; [reflexivity|]). split; [intros _ g []|]. intros n _. repeat split; reflexivity.
  - pose proof (add_writable_inv r f I) as I1. pose proof (add_writable_extends r f I) as X1.
    destruct (add_writable_spec r f I) as [[H E]|[H E]]; rewrite E in *; cbn [fst] in *.
    + set (r1 := mk_reg _ _ _ _ _ _) in *. destruct (IH r1 I1) as (A & B & C & D & G & K & M).
      split; [assumption|]. split; [apply (extends_trans r r1); assumption|]. split; [exact C|]. split; [exact D|]. split; [exact G|]. split.
      * intros OK g [<-|HI]; [|apply K; assumption].
        apply B. cbn [r1 rg_writable]. rewrite find_in_snoc, String.eqb_refl by (apply (absent_sub _ _ _ (ri_wr r I)); assumption). reflexivity.
      * intros n HN. cbn [map In] in HN. destruct (M n ltac:(tauto)) as (M1 & M2 & M3). rewrite M1, M2, M3.
        assert (NE : String.eqb n (fd_name f) = false) by (apply String.eqb_neq; intros ->; apply HN; left; reflexivity).
        unfold r1. cbn [rg_readable rg_writable rg_eeprom].
        rewrite find_in_snoc by assumption. rewrite find_in_snoc by (apply (absent_sub _ _ _ (ri_wr r I)); assumption). rewrite NE.
        split; [reflexivity|]. split; [reflexivity|]. destruct (0 <? fd_period f); [|reflexivity].
        rewrite find_in_snoc by (apply (absent_sub _ _ _ (ri_er r I)); assumption). rewrite NE. reflexivity.
    + cbn [fst snd]. split; [assumption|]. split; [apply extends_refl|]. do 3 (split; [reflexivity|]). split; [discriminate|]. intros n _. repeat split; reflexivity.
Qed.

Lemma reg_op_inv r o : reg_inv r -> reg_inv (fst (reg_op r o)) /\ extends r (fst (reg_op r o)).
Proof.
  intros I. destruct o as [f|f|f|f|x]; cbn [reg_op].
  - unfold add_internal. destruct (present (rg_internal r) (fd_name f)) eqn:E; [split; [assumption|apply extends_refl]|]. cbn [fst].
    split; [ri; apply names_unique_snoc; assumption|]. intros n g. cbn [rg_internal rg_readable rg_writable rg_eeprom rg_events rg_faults]. intuition auto using snoc_keeps.
  - split; [apply add_readable_inv|apply add_readable_extends]; assumption.
  - split; [apply add_writable_inv|apply add_writable_extends]; assumption.
  - unfold add_event. destruct (present (rg_events r) (fd_name f)) eqn:E; [split; [assumption|apply extends_refl]|]. cbn [fst].
    split; [ri; apply names_unique_snoc; assumption|]. intros n g. cbn [rg_internal rg_readable rg_writable rg_eeprom rg_events rg_faults]. intuition auto using snoc_keeps.
  - unfold add_fault. destruct (present (rg_faults r) (fd_name (fp_base x))) eqn:E; [split; [assumption|apply extends_refl]|].
    set (l := [_; _; _; _; _]). pose proof (add_writables_inv l r I) as (A & B & C & D & G & K & M).
    destruct (add_writables r l) as [r1 ok]. cbn [fst snd] in *. destruct ok; [|split; assumption]. cbn [fst]. split.
    + assert (KB : find_in (rg_writable r1) (fd_name (fp_base x)) = Some (fp_base x)) by (apply K; [reflexivity|left; reflexivity]).
      rewrite <- C in E. ri.
      * apply names_unique_snoc; assumption.
      * intros n g. rewrite find_in_snoc by (apply present_false; assumption).
        destruct (String.eqb_spec n (fd_name (fp_base x))) as [->|N]; [congruence|apply ri_fw0].
    + intros n g. specialize (B n g). cbn [rg_internal rg_readable rg_writable rg_eeprom rg_events rg_faults]. intuition auto using snoc_keeps.
Qed.

Lemma empty_inv : reg_inv empty_registry.
Proof. split; try constructor; intros n f H; discriminate. Qed.

Lemma run_from_inv l : forall r, reg_inv r ->
  reg_inv (fold_left (fun r o => fst (reg_op r o)) l r) /\ extends r (fold_left (fun r o => fst (reg_op r o)) l r).
Proof.
  induction l as [|o l IH]; intros r I; cbn [fold_left]; [split; [assumption|apply extends_refl]|].
  destruct (reg_op_inv r o I) as [A B]. destruct (IH _ A) as [C D]. split; [assumption|apply (extends_trans r (fst (reg_op r o))); assumption].
Qed.

Lemma reg_run_inv l : reg_inv (reg_run l).
Proof. apply run_from_inv. apply empty_inv. Qed.
