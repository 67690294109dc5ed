(** Vector telemetry in terms of the declared precision. *)
From Verif Require Import Base BitArrayModel VecSerModel VecSerSpec VecSerProofs VecSerMoreProofs.
From Coq Require Import Reals Lra.
From Flocq Require Import Core.
Local Open Scope R_scope.

Lemma vnorm_len v : vnorm v = len3 (pt v).
Proof. unfold vnorm, norm3, len3, dist3, pt. f_equal. ring. Qed.
Lemma shell_limits mn mx v : onto_shell mn mx v = within_limits mn mx (pt v).
Proof. unfold onto_shell. cbv zeta. unfold clampR. rewrite vnorm_len. reflexivity. Qed.

Lemma len_pos v : sv_x v <> 0 \/ sv_y v <> 0 -> len3 (pt v) <> 0.
Proof.
  intros H E. assert (Q : len3 (pt v) * len3 (pt v) = sv_x v * sv_x v + sv_y v * sv_y v + sv_z v * sv_z v).
  { unfold len3, dist3, pt. rewrite sqrt_def; [ring|]. pose proof (Rle_0_sqr (sv_x v)). pose proof (Rle_0_sqr (sv_y v)). pose proof (Rle_0_sqr (sv_z v)). unfold Rsqr in *. lra. }
  rewrite E in Q. pose proof (Rle_0_sqr (sv_x v)). pose proof (Rle_0_sqr (sv_y v)). pose proof (Rle_0_sqr (sv_z v)). unfold Rsqr in *.
  destruct H as [H|H]; pose proof (Rsqr_pos_lt _ H) as P; unfold Rsqr in P; lra.
Qed.

Lemma limits_id mn mx v : len3 (pt v) <> 0 -> mn <= len3 (pt v) <= mx -> within_limits mn mx (pt v) = pt v.
Proof.
  intros N H. unfold within_limits, pt in *. rewrite Rmin_right by lra. rewrite Rmax_right by lra.
  replace (len3 (sv_x v, sv_y v, sv_z v) / len3 (sv_x v, sv_y v, sv_z v)) with 1 by (field; exact N). rewrite !Rmult_1_l. reflexivity.
Qed.

Theorem vec_twice mn mx p v : 0 <= mn < mx -> (1 <= p)%nat -> sv_x v <> 0 \/ sv_y v <> 0 /\ sv_x_neg0 v = true ->
  exists b, vserialize mn mx p v = Some b /\ length b = (1 + vb1 p + 2 * vb2 mn mx p)%nat /\
    dist3 (vdeserialize mn mx p b) (within_limits mn mx (pt v)) <= 2 * declared_precision mn mx p.
Proof.
  intros H P X. destruct (ratio_pow mn mx p H) as [_ B].
  assert (N : vnorm v <> 0) by (rewrite vnorm_len; apply len_pos; tauto).
  destruct (roundtrip_vec mn mx p v) as (b & E1 & E2 & E3); [lra|lra|lia|exact N|exact X|].
  exists b. split; [exact E1|]. split; [exact E2|]. rewrite <- shell_limits. eapply Rle_trans; [exact E3|].
  apply within_twice; [exact H| |lia]. pose proof (clampR_in mn mx (vnorm v)). lra.
Qed.

Theorem vec_position v : 6771000 <= len3 (pt v) <= 6921000 -> sv_x v <> 0 \/ sv_y v <> 0 /\ sv_x_neg0 v = true ->
  exists b, vserialize 6771000 6921000 28 v = Some b /\
    dist3 (vdeserialize 6771000 6921000 28 b) (pt v) <= declared_precision 6771000 6921000 28.
Proof.
  intros H X. assert (W : 0 <= 6771000 < 6921000) by lra. destruct (ratio_pow 6771000 6921000 28 W) as [_ B].
  assert (N : vnorm v <> 0) by (rewrite vnorm_len; apply len_pos; tauto).
  destruct (roundtrip_vec 6771000 6921000 28 v) as (b & E1 & E2 & E3); [lra|lra|lia|exact N|exact X|].
  exists b. split; [exact E1|]. rewrite shell_limits, limits_id in E3 by (auto using len_pos || (rewrite <- vnorm_len; exact N) || exact H).
  eapply Rle_trans; [exact E3|]. apply position_precise. rewrite vnorm_len, clampR_id by exact H. lra.
Qed.

Theorem vec_zero_field mx p : 0 < mx -> (1 <= p)%nat -> exists v b, sv_x v <> 0 /\ len3 (pt v) = mx /\ vserialize 0 mx p v = Some b /\
  declared_precision 0 mx p < dist3 (vdeserialize 0 mx p b) (pt v).
Proof.
  intros H P. destruct (zero_field_imprecise mx p H P) as (v & b & E & N & X & D). exists v, b. rewrite <- vnorm_len. repeat split; auto; lra.
Qed.

Lemma comp_dist a b : Rabs (first3 a - first3 b) <= dist3 a b /\ Rabs (second3 a - second3 b) <= dist3 a b /\ Rabs (third3 a - third3 b) <= dist3 a b.
Proof.
  destruct a as [[a1 a2] a3], b as [[b1 b2] b3]. cbn [first3 second3 third3]. unfold dist3.
  pose proof (Rle_0_sqr (a1 - b1)). pose proof (Rle_0_sqr (a2 - b2)). pose proof (Rle_0_sqr (a3 - b3)).
  rewrite <- !sqrt_Rsqr_abs. unfold Rsqr in *. repeat split; apply sqrt_le_1_alt; lra.
Qed.

Lemma near_sign e x x' : Rabs (x' - x) <= e -> sign_kept e x x'.
Proof. intros H. unfold sign_kept. apply Rabs_def2b in H || (apply Rabs_le_inv in H). lra. Qed.

Theorem vec_signs mn mx p v : 0 <= mn < mx -> (1 <= p)%nat -> sv_x v <> 0 \/ sv_y v <> 0 /\ sv_x_neg0 v = true -> mn <= len3 (pt v) <= mx ->
  exists b, vserialize mn mx p v = Some b /\ let w := vdeserialize mn mx p b in let e := 2 * declared_precision mn mx p in
    sign_kept e (sv_x v) (first3 w) /\ sign_kept e (sv_y v) (second3 w) /\ sign_kept e (sv_z v) (third3 w).
Proof.
  intros H P X R. destruct (vec_twice mn mx p v H P X) as (b & E & _ & D). exists b. split; [exact E|]. cbv zeta.
  rewrite limits_id in D by (try exact R; apply len_pos; tauto).
  destruct (comp_dist (vdeserialize mn mx p b) (pt v)) as (A & B & C). unfold pt in A, B, C, D. cbn [first3 second3 third3] in A, B, C.
  repeat split; apply (near_sign (2 * declared_precision mn mx p)); lra.
Qed.

Theorem vec_reversed mn mx p v : 0 <= mn < mx -> (1 <= p)%nat -> sv_x v = 0 -> sv_x_neg0 v = false -> 2 * declared_precision mn mx p < sv_y v -> mn <= len3 (pt v) <= mx ->
  exists b, vserialize mn mx p v = Some b /\ second3 (vdeserialize mn mx p b) < 0.
Proof.
  intros H P X Z Y R. destruct (ratio_pow mn mx p H) as [_ B].
  assert (D0 : 0 < declared_precision mn mx p) by (unfold declared_precision; apply Rdiv_lt_0_compat; [lra|apply pow_lt; lra]).
  destruct (reversed_vec mn mx p v) as (b & E1 & E2); [lra|lra|lia|rewrite vnorm_len; exact R|exact X|exact Z|lra|].
  exists b. split; [exact E1|]. destruct (comp_dist (vdeserialize mn mx p b) (0, - sv_y v, sv_z v)) as (_ & C & _). cbn [second3] in C.
  assert (W : VecSerMoreProofs.bound mn mx p (vnorm v) <= 2 * declared_precision mn mx p) by (apply within_twice; [exact H|rewrite vnorm_len; lra|lia]).
  assert (S1 : Rabs (second3 (vdeserialize mn mx p b) - - sv_y v) <= 2 * declared_precision mn mx p) by lra.
  apply (near_sign _ _ _ S1). lra.
Qed.

Theorem vec_defined mn mx p v : 0 <= mn < mx -> sv_x v <> 0 \/ sv_y v <> 0 -> exists b, vserialize mn mx p v = Some b.
Proof.
  intros H X. destruct (ratio_pow mn mx p H) as [_ B]. assert (N : vnorm v <> 0) by (rewrite vnorm_len; apply len_pos; exact X).
  assert (P : exists phi, vphi v = Some phi).
  { unfold vphi. destruct (Req_EM_T (sv_x v) 0) as [X0|X0]; [|eauto]. destruct (Req_EM_T (sv_y v) 0) as [Y0|Y0]; [tauto|]. cbv zeta. eauto. }
  destruct P as (phi & P). destruct (general mn mx p v phi) as (b & E & _); try assumption; try lra; try lia. eauto.
Qed.

Theorem vec_length mn mx p b : 0 <= mn < mx -> length b = (1 + vb1 p + 2 * vb2 mn mx p)%nat -> mn <= len3 (vdeserialize mn mx p b) <= mx.
Proof. intros H L. destruct (ratio_pow mn mx p H) as [_ B]. apply decoded_length; [exact H|lia|exact L]. Qed.
