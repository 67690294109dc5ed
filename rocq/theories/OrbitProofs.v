From Verif Require Import Base OrbitModel OrbitSpec.
From Coq Require Import QArith Qabs Qminmax Lqa.
Local Open Scope Z_scope.

Lemma qlt_true a b : qlt a b = true -> (a < b)%Q.
Proof. unfold qlt. intros H. apply negb_true_iff in H. apply Qnot_le_lt. intros L. apply Qle_bool_iff in L. congruence. Qed.
Lemma qlt_false a b : qlt a b = false -> (b <= a)%Q.
Proof. unfold qlt. intros H. apply negb_false_iff in H. apply Qle_bool_iff. exact H. Qed.

(** the integer division makes the starting point zero *)
Lemma factor_zero : min_norm_factor = 0. Proof. reflexivity. Qed.

Definition particular (J : vec3) : Q * Q * Q :=
  (x1_of (v3x J) (v3y J) (v3z J) 0, x2_of (v3x J) (v3y J) (v3z J) 0, x3_of (v3x J) (v3y J) (v3z J) 0)%Q.

Lemma impulses_cases J : let '(p1, p2, p3) := particular J in
  exists t, impulses J = (x1_of (v3x J) (v3y J) (v3z J) t, x2_of (v3x J) (v3y J) (v3z J) t, x3_of (v3x J) (v3y J) (v3z J) t, t) /\
  ((0 <= p1 /\ 0 <= p2 /\ 0 <= p3 /\ t == 0) \/
   ((p1 < 0 \/ p2 < 0 \/ p3 < 0) /\ - t <= p1 /\ - t <= p2 /\ - t <= p3 /\ (t == - p1 \/ t == - p2 \/ t == - p3)))%Q.
Proof.
  destruct J as [a b c]. unfold particular, impulses. cbn [v3x v3y v3z]. rewrite factor_zero.
  set (x4 := (if qlt (inject_Z 0 * (70618085000 * c - 87226380000 * b + 70618085000 * a)) 0 then 0
              else inject_Z 0 * (70618085000 * c - 87226380000 * b + 70618085000 * a))%Q).
  assert (H4 : (x4 == 0)%Q). { unfold x4. destruct (qlt _ 0); [reflexivity|]. change (inject_Z 0) with 0%Q. ring. }
  clearbody x4.
  assert (E1 : (x1_of a b c x4 == x1_of a b c 0)%Q) by (unfold x1_of; lra).
  assert (E2 : (x2_of a b c x4 == x2_of a b c 0)%Q) by (unfold x2_of; lra).
  assert (E3 : (x3_of a b c x4 == x3_of a b c 0)%Q) by (unfold x3_of; lra).
  set (p1 := x1_of a b c 0) in *. set (p2 := x2_of a b c 0) in *. set (p3 := x3_of a b c 0) in *.
  destruct (qlt (x1_of a b c x4) 0 || qlt (x2_of a b c x4) 0 || qlt (x3_of a b c x4) 0) eqn:EB.
  - eexists. split; [reflexivity|]. right.
    assert (HN : (p1 < 0 \/ p2 < 0 \/ p3 < 0)%Q).
    { apply orb_true_iff in EB. destruct EB as [EB|EB]; [apply orb_true_iff in EB; destruct EB as [EB|EB]|]; apply qlt_true in EB; lra. }
    split; [exact HN|]. clearbody p1 p2 p3.
    destruct (Q.min_spec p2 p3) as [[? M2]|[? M2]], (Q.min_spec p1 (Qmin p2 p3)) as [[? M1]|[? M1]]; repeat split; try lra;
      first [left; lra|right; left; lra|right; right; lra].
  - eexists. split; [reflexivity|]. left. apply orb_false_iff in EB. destruct EB as [EB C]. apply orb_false_iff in EB. destruct EB as [A B].
    apply qlt_false in A. apply qlt_false in B. apply qlt_false in C. repeat split; lra.
Qed.

Theorem impulses_nonneg J : nonneg4 (impulses J).
Proof.
  pose proof (impulses_cases J) as H. destruct J as [a b c]. unfold particular in H. cbn [v3x v3y v3z] in H. destruct H as [t [-> H]].
  unfold nonneg4. unfold x1_of, x2_of, x3_of in *. destruct H as [H|([N|[N|N]] & ? & ? & ? & ?)]; repeat split; lra.
Qed.

Theorem impulses_net m J : within m J -> close (m * (1 # 10000000000)) (net (impulses J)) J.
Proof.
  intros W. pose proof (impulses_cases J) as H. destruct J as [a b c]. unfold particular in H. cbn [v3x v3y v3z] in H. destruct H as [t [-> H]].
  assert (T : (- (4 * m) <= t <= 4 * m)%Q). { unfold within in W. cbn [v3x v3y v3z] in W. unfold x1_of, x2_of, x3_of in H. destruct H as [H|(_ & _ & _ & _ & [H|[H|H]])]; lra. }
  clear H. unfold within, close, net, x1_of, x2_of, x3_of in *. cbn [v3x v3y v3z] in *. lra.
Qed.

(** when the particular solution needs no correction, no allocation spends less *)
Theorem impulses_least m J y : within m J -> nonneg4 y -> close 0 (net y) J ->
  (let '(p1, p2, p3) := particular J in (0 <= p1 /\ 0 <= p2 /\ 0 <= p3) \/ (p2 <= p1 /\ p2 <= p3))%Q ->
  (total4 (impulses J) <= total4 y + m * (1 # 1000000000))%Q.
Proof.
  intros W Y E P. pose proof (impulses_cases J) as H. destruct J as [a b c]. destruct y as [[[y1 y2] y3] y4].
  unfold particular in *. cbn [v3x v3y v3z] in *. destruct H as [t [-> H]].
  unfold within, close, nonneg4, net, total4, x1_of, x2_of, x3_of in *. cbn [v3x v3y v3z] in *.
  destruct H as [H|(? & ? & ? & ? & [H|[H|H]])]; lra.
Qed.

(** otherwise up to five times as much *)
Theorem impulses_bound m J y : within m J -> nonneg4 y -> close 0 (net y) J ->
  (total4 (impulses J) <= 5 * total4 y + m * (1 # 1000000000))%Q.
Proof.
  intros W Y E. pose proof (impulses_cases J) as H. destruct J as [a b c]. destruct y as [[[y1 y2] y3] y4].
  unfold particular in *. cbn [v3x v3y v3z] in *. destruct H as [t [-> H]].
  unfold within, close, nonneg4, net, total4, x1_of, x2_of, x3_of in *. cbn [v3x v3y v3z] in *.
  destruct H as [H|(? & ? & ? & ? & [H|[H|H]])]; lra.
Qed.

Theorem impulses_not_least : exists J y, nonneg4 y /\ close 0 (net y) J /\ (4 * total4 y < total4 (impulses J))%Q.
Proof. exists (V3 (-(5391 # 10000)) (6472 # 10000) (-(5391 # 10000))), (0, 0, 0, 1)%Q. vm_compute. repeat split; discriminate. Qed.

(** ** The solution of least norm *)
Definition null : Q * Q * Q * Q := (6472 # 3822, 1, 6472 # 3822, 1)%Q.
Definition shift (t : Q) (y : Q * Q * Q * Q) : Q * Q * Q * Q :=
  let '(y1, y2, y3, y4) := y in (y1 + t * (6472 # 3822), y2 + t, y3 + t * (6472 # 3822), y4 + t)%Q.

Lemma shift_net t y : close 0 (net (shift t y)) (net y).
Proof. destruct y as [[[y1 y2] y3] y4]. unfold close, net, shift. cbn [v3x v3y v3z]. lra. Qed.

Lemma shift_norm y : nonneg4 y -> (0 < total4 y)%Q -> exists t, (norm4 (shift t y) < norm4 y)%Q.
Proof.
  destruct y as [[[y1 y2] y3] y4]. unfold nonneg4, total4. intros Y T.
  exists (- ((y1 + y3) * (6472 # 3822) + (y2 + y4)) / (2 * (6472 # 3822) * (6472 # 3822) + 2))%Q.
  set (k := (2 * (6472 # 3822) * (6472 # 3822) + 2)%Q). set (d := ((y1 + y3) * (6472 # 3822) + (y2 + y4))%Q).
  assert (K : (0 < k)%Q) by (unfold k; vm_compute; reflexivity).
  assert (D : (0 < d)%Q) by (unfold d; lra).
  set (t := (- d / k)%Q). assert (E : (t * k == - d)%Q) by (unfold t; field; lra).
  assert (TN : (t < 0)%Q). { destruct (Qlt_le_dec t 0); [assumption|]. exfalso. assert (0 <= t * k)%Q by nra. lra. }
  unfold norm4, shift.
  assert (X : ((y1 + t * (6472 # 3822)) * (y1 + t * (6472 # 3822)) + (y2 + t) * (y2 + t) + (y3 + t * (6472 # 3822)) * (y3 + t * (6472 # 3822)) + (y4 + t) * (y4 + t) ==
    y1 * y1 + y2 * y2 + y3 * y3 + y4 * y4 + 2 * t * d + t * (t * k))%Q) by (unfold d, k; ring).
  rewrite X, E. assert (0 < - t * d)%Q by nra. lra.
Qed.

Theorem least_norm_zero J y : nonneg4 y -> close 0 (net y) J -> (forall y', close 0 (net y') J -> norm4 y <= norm4 y')%Q ->
  (total4 y == 0)%Q /\ (total4 (impulses J) == 0)%Q.
Proof.
  intros Y E M. assert (T : (total4 y == 0)%Q).
  { destruct (Qlt_le_dec 0 (total4 y)) as [T|T].
    - exfalso. destruct (shift_norm y Y T) as [t L]. pose proof (shift_net t y) as S.
      assert (close 0 (net (shift t y)) J) as C by (unfold close in *; lra). specialize (M _ C). lra.
    - destruct y as [[[y1 y2] y3] y4]. unfold nonneg4, total4 in *. lra. }
  split; [exact T|].
  pose proof (impulses_nonneg J) as N. assert (W : within 0 J).
  { destruct y as [[[y1 y2] y3] y4]. unfold nonneg4, total4, close, net, within in *. cbn [v3x v3y v3z] in *. lra. }
  pose proof (impulses_bound 0 J y W Y E) as B. destruct (impulses J) as [[[x1 x2] x3] x4]. unfold nonneg4 in N. cbn [total4] in *. lra.
Qed.

(** ** Valve times *)
Lemma Qtrunc_nonneg q : (0 <= q)%Q -> (inject_Z (Qtrunc q) <= q < inject_Z (Qtrunc q + 1))%Q /\ 0 <= Qtrunc q.
Proof.
  destruct q as [n d]. unfold Qtrunc, Qle, Qlt, inject_Z. cbn [Qnum Qden]. intros H.
  rewrite Z.mul_1_r in H. pose proof (Z.quot_rem n (Zpos d) ltac:(lia)) as E. pose proof (Z.rem_bound_pos n (Zpos d) ltac:(lia) ltac:(lia)) as R.
  pose proof (Z.quot_pos n (Zpos d) ltac:(lia) ltac:(lia)). nia.
Qed.
Lemma Qtrunc_neg q : (q < 0)%Q -> Qtrunc q <= 0.
Proof.
  destruct q as [n d]. unfold Qtrunc, Qlt. cbn [Qnum Qden]. intros H.
  assert (E : n = - (- n)) by lia. rewrite E, Z.quot_opp_l by lia. pose proof (Z.quot_pos (-n) (Zpos d) ltac:(lia) ltac:(lia)). lia.
Qed.

Lemma impulse_of_eq t : (impulse_of t == (24119 # 1000000000) * inject_Z t + (70092 # 1000000000))%Q.
Proof. unfold impulse_of. field. Qed.

Theorem time_exact x t : (0 <= x)%Q -> impulse_to_time x = Some t ->
  0 <= t /\ (x < impulse_of (t + 1))%Q /\ (t = 0 \/ (impulse_of t <= x)%Q).
Proof.
  intros X H. unfold impulse_to_time in H. set (q := ((x - intercept) / slope * 1000)%Q) in *.
  assert (EQ : (x == intercept + q * (24119 # 1000000000))%Q) by (unfold q, slope; field).
  destruct (_ && _); [|discriminate]. destruct (Qlt_le_dec q 0) as [N|N].
  - pose proof (Qtrunc_neg q N). assert (t = 0) by (destruct (Z.ltb_spec (Qtrunc q) 0); [congruence|assert (Qtrunc q = 0) by lia; congruence]). subst t.
    split; [lia|]. split; [|left; reflexivity]. rewrite impulse_of_eq. clearbody q. change (inject_Z (0 + 1)) with 1%Q. unfold intercept in EQ. lra.
  - destruct (Qtrunc_nonneg q N) as [B P]. destruct (Z.ltb_spec (Qtrunc q) 0); [lia|]. injection H as <-.
    split; [exact P|]. clearbody q. rewrite !impulse_of_eq. unfold intercept in *. rewrite inject_Z_plus in *. change (inject_Z 1) with 1%Q in *.
    split; [lra|]. right. lra.
Qed.

Theorem time_defined x : (0 <= x <= 50000)%Q -> exists t, impulse_to_time x = Some t.
Proof.
  intros X. unfold impulse_to_time. set (q := ((x - intercept) / slope * 1000)%Q).
  assert (EQ : (x == intercept + q * (24119 # 1000000000))%Q) by (unfold q, slope; field).
  assert (L : (-1000 <= q <= 2100000000)%Q) by (unfold intercept in EQ; lra).
  assert (R : - 2 ^ 31 <= Qtrunc q < 2 ^ 31).
  { destruct (Qlt_le_dec q 0) as [N|N].
    - pose proof (Qtrunc_neg q N). split; [|lia]. destruct q as [n d]. unfold Qtrunc, Qle, Qlt in *. cbn [Qnum Qden] in *.
      assert (E : n = - (- n)) by lia. rewrite E, Z.quot_opp_l by lia. pose proof (Z.quot_le_upper_bound (- n) (Zpos d) 1000 ltac:(lia) ltac:(lia)). lia.
    - destruct (Qtrunc_nonneg q N) as [[B _] P]. split; [lia|]. assert (inject_Z (Qtrunc q) <= inject_Z 2100000000)%Q as I by (change (inject_Z 2100000000) with 2100000000%Q; lra).
      rewrite <- Zle_Qle in I. lia. }
  destruct (Z.leb_spec (- 2 ^ 31) (Qtrunc q)), (Z.ltb_spec (Qtrunc q) (2 ^ 31)); try lia. eexists. reflexivity.
Qed.

Lemma time_limit x t : (0 <= x)%Q -> (x < 2419 # 100000)%Q -> impulse_to_time x = Some t -> t <= 1000.
Proof.
  intros X L H. destruct (time_exact x t X H) as (_ & _ & [->|I]); [lia|]. rewrite impulse_of_eq in I.
  assert (inject_Z t < inject_Z 1001)%Q as J by (change (inject_Z 1001) with 1001%Q; lra). rewrite <- Zlt_Qlt in J. lia.
Qed.

Theorem schedule_defined J : within 10000 J -> exists l, schedule_valves J = Some l.
Proof.
  intros W. pose proof (impulses_nonneg J) as N. assert (U : let '(x1, x2, x3, x4) := impulses J in (x1 <= 50000 /\ x2 <= 50000 /\ x3 <= 50000 /\ x4 <= 50000)%Q).
  { pose proof (impulses_cases J) as H. destruct J as [a b c]. unfold particular in H. cbn [v3x v3y v3z] in H. destruct H as [t [-> H]].
    unfold within, x1_of, x2_of, x3_of in *. cbn [v3x v3y v3z] in *. destruct H as [H|(_ & ? & ? & ? & [H|[H|H]])]; lra. }
  unfold schedule_valves. destruct (impulses J) as [[[x1 x2] x3] x4]. unfold nonneg4 in N.
  destruct (time_defined x1) as [t1 ->]; [lra|]. destruct (time_defined x2) as [t2 ->]; [lra|]. destruct (time_defined x3) as [t3 ->]; [lra|].
  destruct (time_defined x4) as [t4 ->]; [lra|]. eexists. reflexivity.
Qed.

Theorem schedule_accepted J l : within (75 # 10000) J -> schedule_valves J = Some l -> length l = 4%nat /\ Forall (fun t => 0 <= t <= 1000) l.
Proof.
  intros W H. pose proof (impulses_nonneg J) as N.
  assert (U : let '(x1, x2, x3, x4) := impulses J in (x1 < 2419 # 100000 /\ x2 < 2419 # 100000 /\ x3 < 2419 # 100000 /\ x4 < 2419 # 100000)%Q).
  { pose proof (impulses_cases J) as C. destruct J as [a b c]. unfold particular in C. cbn [v3x v3y v3z] in C. destruct C as [t [-> C]].
    unfold within, x1_of, x2_of, x3_of in *. cbn [v3x v3y v3z] in *. destruct C as [C|(_ & ? & ? & ? & [C|[C|C]])]; lra. }
  unfold schedule_valves in H. destruct (impulses J) as [[[x1 x2] x3] x4]. unfold nonneg4 in N.
  destruct (impulse_to_time x1) as [t1|] eqn:E1; [|discriminate]. destruct (impulse_to_time x2) as [t2|] eqn:E2; [|discriminate].
  destruct (impulse_to_time x3) as [t3|] eqn:E3; [|discriminate]. destruct (impulse_to_time x4) as [t4|] eqn:E4; [|discriminate].
  injection H as <-. split; [reflexivity|].
  pose proof (time_exact _ _ (proj1 N) E1). pose proof (time_limit x1 t1 ltac:(lra) ltac:(lra) E1).
  pose proof (time_exact x2 _ ltac:(lra) E2). pose proof (time_limit x2 t2 ltac:(lra) ltac:(lra) E2).
  pose proof (time_exact x3 _ ltac:(lra) E3). pose proof (time_limit x3 t3 ltac:(lra) ltac:(lra) E3).
  pose proof (time_exact x4 _ ltac:(lra) E4). pose proof (time_limit x4 t4 ltac:(lra) ltac:(lra) E4).
  repeat constructor; lia.
Qed.

Theorem schedule_too_long : exists l, schedule_valves (V3 0 (2 # 100) 0) = Some l /\ Exists (fun t => 1000 < t) l.
Proof. eexists. split; [vm_compute; reflexivity|]. right. left. lia. Qed.

(** ** Firing nodes *)
Lemma next_node_spec theta w nodes : (0 < w)%Q ->
  match next_node theta w nodes with
  | Some t => (exists n, In n nodes /\ ahead theta w n t) /\ (forall n t', In n nodes -> ahead theta w n t' -> t <= t')%Q
  | None => forall n t', In n nodes -> ~ ahead theta w n t'
  end.
Proof.
  intros W. unfold next_node. rewrite <- (rev_involutive nodes), <- fold_left_rev_right, rev_involutive.
  set (f := fun y x => _). assert (IN : forall n, In n (rev (rev nodes)) <-> In n (rev nodes)) by (intros; rewrite <- in_rev; reflexivity).
  assert (G : forall l, match fold_right f None l with
    | Some t => (exists n, In n l /\ ahead theta w n t) /\ (forall n t', In n l -> ahead theta w n t' -> t <= t')%Q
    | None => forall n t', In n l -> ~ ahead theta w n t' end).
  { induction l as [|x l IH]; cbn [fold_right]; [intros n t' []|].
    assert (T : forall t', ahead theta w x t' -> ((x - theta) / w == t')%Q) by (intros t' [_ E]; rewrite <- E; field; lra).
    assert (A : (0 < (x - theta) / w)%Q -> ahead theta w x ((x - theta) / w)) by (intros P; split; [exact P|field; lra]).
    unfold f at 1. set (q := ((x - theta) / w)%Q) in *. destruct (qlt 0 q) eqn:E0.
    - apply qlt_true in E0. cbn [andb]. destruct (fold_right f None l) as [b|].
      + destruct IH as [[n [I AH]] MIN]. destruct (qlt q b) eqn:EB.
        * apply qlt_true in EB. split; [exists x; split; [left; reflexivity|apply A, E0]|]. intros n' t' [<-|I'] H'.
          -- apply T in H'. lra.
          -- specialize (MIN n' t' I' H'). lra.
        * apply qlt_false in EB. split; [exists n; split; [right; exact I|exact AH]|]. intros n' t' [<-|I'] H'.
          -- apply T in H'. lra.
          -- exact (MIN n' t' I' H').
      + split; [exists x; split; [left; reflexivity|apply A, E0]|]. intros n' t' [<-|I'] H'.
        * apply T in H'. lra.
        * exfalso. exact (IH n' t' I' H').
    - apply qlt_false in E0. cbn [andb]. destruct (fold_right f None l) as [b|].
      + destruct IH as [[n [I AH]] MIN]. split; [exists n; split; [right; exact I|exact AH]|]. intros n' t' [<-|I'] H'.
        * pose proof (T t' H'). destruct H' as [P _]. lra.
        * exact (MIN n' t' I' H').
      + intros n' t' [<-|I'] H'.
        * pose proof (T t' H'). destruct H' as [P _]. lra.
        * exact (IH n' t' I' H'). }
  specialize (G (rev nodes)). destruct (fold_right f None (rev nodes)).
  - destruct G as [[n [I A]] M]. split; [exists n; split; [apply IN, I|exact A]|]. intros n' t' I'. apply M. apply IN, I'.
  - intros n' t' I'. apply G, IN, I'.
Qed.

(** of the three far nodes the one behind the satellite is never the next *)
Theorem third_node_unused theta w t : (0 <= theta)%Q -> (0 < w)%Q -> next_node theta w far_nodes = Some t ->
  ahead theta w (1 # 3) t \/ ahead theta w 1 t.
Proof.
  intros T W H. pose proof (next_node_spec theta w far_nodes W) as S. rewrite H in S. destruct S as [[n [I A]] _].
  cbn in I. destruct I as [<-|[<-|[<-|[]]]]; [left; exact A|right; exact A|]. exfalso. destruct A as [P E].
  assert (0 < w * t)%Q by nra. lra.
Qed.

Lemma near_nodes_in n x : In x (near_nodes n) <-> exists i, 0 <= i < 360 /\ x = near_node n i.
Proof.
  unfold near_nodes. rewrite in_map_iff. split.
  - intros [i [E I]]. apply in_seq in I. exists (Z.of_nat i). split; [lia|congruence].
  - intros [i [R E]]. exists (Z.to_nat i). rewrite Z2Nat.id by lia. split; [congruence|apply in_seq; lia].
Qed.

