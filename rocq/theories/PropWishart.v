(* C42: Wishart variates are symmetric and positive semi-definite. C67: the covariance that was asked for *)
From Coq Require Import Arith ZArith Reals Lra Lia List ZifyNat ZifyBool.
From Verif Require Import Wishart.
Import ListNotations.
Open Scope R_scope.

(* C42: random_wishart_large_df never leaves its buffers, never reads what was not written,
   and leaves T'T for the upper triangle T of the draws *)
Theorem C42_wishart_is_a_gram_matrix chi nrm dim num : (forall k i, 0 <= chi k i) ->
  exists w n, wishart_large chi nrm dim num = Some (w, n) /\
    forall k i j, (k < num)%nat -> (i < dim)%nat -> (j < dim)%nat ->
      get w (k * (dim * dim) + i * dim + j) = Some (gram dim (tri chi nrm k) i j).
Proof.
  intros C. destruct (wishart_large_ok chi nrm dim num C) as ([w n] & E & (_ & W & _) & _). exists w, n. split; [exact E|].
  intros k i j K I J. exact (W k i j K I J).
Qed.
Theorem C42_triangle chi nrm k r c :
  ((c < r)%nat -> tri chi nrm k r c = 0) /\ tri chi nrm k r r = sqrt (chi k r) /\ ((r < c)%nat -> tri chi nrm k r c = nrm k r c).
Proof.
  unfold tri. rewrite Nat.eqb_refl. split; [|split; [reflexivity|]]; intros H; replace (r =? c)%nat with false by lia;
    [replace (r <? c)%nat with false by lia|replace (r <? c)%nat with true by lia]; reflexivity.
Qed.
(* so each variate, read back from the buffer, is symmetric and x'Wx >= 0 for every x *)
Theorem C42_wishart_psd chi nrm dim num w n k m : (forall k i, 0 <= chi k i) -> wishart_large chi nrm dim num = Some (w, n) -> (k < num)%nat ->
  (forall i j, (i < dim)%nat -> (j < dim)%nat -> get w (k * (dim * dim) + i * dim + j) = Some (m i j)) ->
  (forall i j, (i < dim)%nat -> (j < dim)%nat -> m i j = m j i) /\ forall x, 0 <= qform dim m x.
Proof.
  intros C E K M. destruct (C42_wishart_is_a_gram_matrix chi nrm dim num C) as (w' & n' & E' & G). rewrite E in E'. injection E' as <- <-.
  assert (Q : forall i j, (i < dim)%nat -> (j < dim)%nat -> m i j = gram dim (tri chi nrm k) i j).
  { intros i j I J. specialize (G k i j K I J). rewrite M in G by assumption. now injection G. }
  split; [intros i j I J; rewrite !Q by assumption; apply gram_sym|].
  intros x. rewrite (qform_ext dim m _ x Q). apply gram_psd.
Qed.
(* the chi-square draws have positive degrees of freedom *)
Theorem C42_wishart_degrees df dim i : (dim <= df)%Z -> (0 <= i < dim)%Z -> (0 < chi_df df i)%Z.
Proof. unfold chi_df. lia. Qed.
(* the method for df < dim, the division by df, and wishart() with any factor *)
Theorem C42_small_df_psd df dim n x : (forall i j, small_df df n i j = small_df df n j i) /\ 0 <= qform dim (small_df df n) x.
Proof. split; [intros; apply gram_sym|apply gram_psd]. Qed.
Theorem C42_rescaled_psd df dim w x : 0 < df -> 0 <= qform dim w x -> 0 <= qform dim (rescaled df w) x.
Proof.
  intros D H. replace (qform dim (rescaled df w) x) with (/ df * qform dim w x).
  - apply Rmult_le_pos; [left; now apply Rinv_0_lt_compat|exact H].
  - unfold qform, rescaled. rewrite <- sum_mul. apply sum_ext; intros i _. rewrite <- sum_mul. apply sum_ext; intros j _. field. lra.
Qed.
Theorem C42_scaled_psd dim rows f t x : (forall i j, sandwich dim f (gram rows t) i j = sandwich dim f (gram rows t) j i) /\ 0 <= qform dim (sandwich dim f (gram rows t)) x.
Proof.
  split; [intros i j; rewrite !sandwich_gram; apply gram_sym|]. rewrite (qform_ext dim _ (gram rows (fun r c => sum dim (fun b => t r b * f c b)))).
  - apply gram_psd.
  - intros. apply sandwich_gram.
Qed.
Example C42_case : exists w n, wishart_large (fun _ _ => 4) (fun _ i j => INR (i + j)) 2 1 = Some (w, n)
  /\ get w 0 = Some 4 /\ get w 1 = Some 2 /\ get w 2 = Some 2 /\ get w 3 = Some 5.
Proof.
  destruct (C42_wishart_is_a_gram_matrix (fun _ _ => 4) (fun _ i j => INR (i + j)) 2 1 ltac:(intros; lra)) as (w & n & E & G).
  exists w, n. split; [exact E|]. assert (Q : sqrt 4 = 2) by (replace 4 with (2 * 2) by lra; apply sqrt_square; lra).
  pose proof (G 0 0 0 ltac:(lia) ltac:(lia) ltac:(lia))%nat as G0. pose proof (G 0 0 1 ltac:(lia) ltac:(lia) ltac:(lia))%nat as G1.
  pose proof (G 0 1 0 ltac:(lia) ltac:(lia) ltac:(lia))%nat as G2. pose proof (G 0 1 1 ltac:(lia) ltac:(lia) ltac:(lia))%nat as G3.
  cbn [Nat.mul Nat.add] in G0, G1, G2, G3. rewrite G0, G1, G2, G3. unfold gram, tri. cbn [sum Nat.eqb Nat.ltb Nat.leb]. rewrite Q. cbn [INR Nat.add].
  repeat split; f_equal; lra.
Qed.

(* C67: multivariate_normal multiplies a row of independent standard normals by the factor F,
   so that F'F is the covariance of the result. With exact factors this is cov *)
Theorem C67_mvn_factor_svd dim u s i j : (forall r, 0 <= s r) ->
  gram dim (factor_us u s) i j = sum dim (fun r => u i r * s r * u j r).
Proof.
  intros S. unfold gram, factor_us. apply sum_ext; intros r _. transitivity (u i r * (sqrt (s r) * sqrt (s r)) * u j r); [ring|]. now rewrite sqrt_sqrt by apply S.
Qed.
Theorem C67_mvn_factor_cholesky dim l i j : gram dim (factor_chol l) i j = outer dim l i j.
Proof. reflexivity. Qed.
(* wishart multiplies as F W F', so that F F' takes the place of scale. With u orthogonal F F' is
   diagonal: every variate has the scale matrix of the eigenvalues, whatever the eigenvectors *)
Theorem C67_wishart_scale_is_diagonal_refuted dim u s i j : (forall r, 0 <= s r) ->
  (forall a b, gram dim u a b = if (a =? b)%nat then 1 else 0) ->
  outer dim (factor_us u s) i j = if (i =? j)%nat then s i else 0.
Proof. intros S O. now apply outer_us_diag. Qed.
(* and with Cholesky it is L'L where L L' was asked for *)
Theorem C67_wishart_cholesky_refuted : exists l, (forall i j, (i < j)%nat -> l i j = 0)
  /\ outer 2 (factor_chol l) 0 0 <> outer 2 l 0 0.
Proof.
  exists (mat [[2; 0]; [1; 2]]). split.
  - intros i j H. unfold mat. destruct i as [|[|i]]; destruct j as [|[|j]]; try lia; cbn [nth]; try reflexivity; destruct j; try reflexivity; destruct i; reflexivity.
  - unfold outer, factor_chol, mat. cbn [sum nth]. lra.
Qed.
(* a variate with scale A A' must vanish on every x with A'x = 0; the method "factor" does that *)
Theorem C67_wishart_factor_kernel dim rows a t x : (forall c, (c < dim)%nat -> sum dim (fun i => x i * a i c) = 0) -> qform dim (sandwich dim a (gram rows t)) x = 0.
Proof.
  intros Z. rewrite (qform_ext dim _ (gram rows (fun r c => sum dim (fun b => t r b * a c b)))) by (intros; apply sandwich_gram).
  rewrite qform_gram. apply sum_0. intros r _.
  assert (E : sum dim (fun i => x i * sum dim (fun b => t r b * a i b)) = 0); [|rewrite E; unfold Rsqr; ring].
  transitivity (sum dim (fun b => t r b * sum dim (fun i => x i * a i b))).
  - transitivity (sum dim (fun i => sum dim (fun b => t r b * (x i * a i b)))).
    + apply sum_ext; intros i _. rewrite <- sum_mul. apply sum_ext; intros; ring.
    + rewrite sum_swap. apply sum_ext; intros b _. apply sum_mul.
  - apply sum_0. intros b B. rewrite Z by exact B. ring.
Qed.
(* but not the methods that factorize: scale [[1,1],[1,1]], x = (1,-1), and any draw with a positive
   first diagonal element *)
Theorem C67_wishart_kernel_refuted : exists u s x, (forall r, 0 <= s r) /\ (forall a b, (a < 2)%nat -> (b < 2)%nat -> gram 2 u a b = if (a =? b)%nat then 1 else 0)
  /\ (forall i j, (i < 2)%nat -> (j < 2)%nat -> sum 2 (fun r => u i r * s r * u j r) = 1)
  /\ (forall i, (i < 2)%nat -> sum 2 (fun j => 1 * x j) = 0)
  /\ forall w, qform 2 (sandwich 2 (factor_us u s) w) x = w 0%nat 0%nat + w 0%nat 1%nat + w 1%nat 0%nat + w 1%nat 1%nat.
Proof.
  assert (H : sqrt 2 * sqrt 2 = 2) by (apply sqrt_sqrt; lra). assert (P : 0 < sqrt 2) by (apply sqrt_lt_R0; lra).
  assert (I : / sqrt 2 * / sqrt 2 = / 2) by (rewrite <- Rinv_mult; now rewrite H).
  assert (J : / sqrt 2 * sqrt 2 = 1) by (field; lra).
  exists (mat [[/ sqrt 2; / sqrt 2]; [/ sqrt 2; - / sqrt 2]]), (fun r => match r with O => 2 | _ => 0 end), (fun i => match i with O => 1 | _ => -1 end).
  repeat split.
  - intros [|r]; lra.
  - intros a b A B. destruct a as [|[|a]]; [| |lia]; (destruct b as [|[|b]]; [| |lia]); unfold gram, mat; cbn [sum nth Nat.eqb]; lra.
  - intros i j A B. destruct i as [|[|i]]; [| |lia]; (destruct j as [|[|j]]; [| |lia]); unfold mat; cbn [sum nth]; nra.
  - intros i _. cbn [sum]. lra.
  - intros w. unfold qform, sandwich, factor_us, mat. cbn [sum nth]. rewrite sqrt_0. rewrite !Rmult_0_r, !Rmult_0_l, ?Rplus_0_l, ?Rplus_0_r, J. ring.
Qed.
(* the pivots of the reduced-rank Cholesky factor are dropped *)
Theorem C67_pivots_dropped_refuted : exists a u p, pstrf 3 a u p /\ gram 3 u 0 0 <> a 0%nat 0%nat /\ outer 3 u 0 0 <> a 0%nat 0%nat.
Proof.
  exists (mat [[1; 0; 0]; [0; 4; 0]; [0; 0; 0]]), (mat [[2; 0; 0]; [0; 1; 0]; [0; 0; 0]]), (fun i => match i with O => 1 | 1 => 0 | _ => i end)%nat.
  split; [|unfold gram, outer, mat; cbn [sum nth]; split; lra]. repeat split.
  - intros i j I J. destruct i as [|[|[|i]]]; [| | |lia]; (destruct j as [|[|[|j]]]; [| | |lia]); unfold gram, mat; cbn [sum nth]; lra.
  - intros [|[|i]]; lia.
  - intros [|[|i]] [|[|j]]; lia.
  - intros i j H. unfold mat. destruct i as [|[|[|i]]]; [lia| | |]; destruct j as [|[|j]]; try lia; cbn [nth]; try reflexivity; destruct i; try reflexivity; destruct j; reflexivity.
  - intros i I. destruct i as [|[|[|i]]]; [| | |lia]; unfold mat; cbn [nth]; lra.
Qed.
(* an integer scale, with an array of df: the factor is truncated; scale 2 acts as 1 *)
Theorem C67_wishart_integer_scale_refuted : let f := factor_us (fun _ _ => 1) (fun _ => 2) in
  (forall w, sandwich 1 f w 0 0 = 2 * w 0%nat 0%nat) /\ (forall w, sandwich 1 (fun i j => trunc (f i j)) w 0 0 = w 0%nat 0%nat).
Proof.
  cbv zeta. assert (H : sqrt 2 * sqrt 2 = 2) by (apply sqrt_sqrt; lra). assert (P : 0 < sqrt 2) by (apply sqrt_lt_R0; lra).
  assert (U : sqrt 2 < 2) by (apply Rnot_le_lt; intros N; assert (2 * sqrt 2 <= sqrt 2 * sqrt 2) by (apply Rmult_le_compat_r; lra); lra).
  assert (V : 1 <= sqrt 2) by (apply Rnot_lt_le; intros N; assert (sqrt 2 * sqrt 2 <= 1 * sqrt 2) by (apply Rmult_le_compat_r; lra); lra).
  assert (T : trunc (1 * sqrt 2) = 1).
  { unfold trunc. destruct (Rle_dec 0 (1 * sqrt 2)) as [_|N]; [|lra]. unfold Int_part. rewrite <- (tech_up (1 * sqrt 2) 2); [reflexivity|lra|lra]. }
  split; intros w; unfold sandwich, factor_us; cbn [sum]; [transitivity (sqrt 2 * sqrt 2 * w 0%nat 0%nat); [ring|now rewrite H]|]. rewrite T. ring.
Qed.
Example C67_case : gram 2 (factor_us (mat [[1; 0]; [0; 1]]) (fun r => match r with O => 4 | _ => 9 end)) 0 0 = 4.
Proof.
  rewrite C67_mvn_factor_svd; [unfold mat; cbn [sum nth]; lra|intros [|r]; lra].
Qed.

Print Assumptions C42_wishart_is_a_gram_matrix.
Print Assumptions C42_triangle.
Print Assumptions C42_wishart_psd.
Print Assumptions C42_wishart_degrees.
Print Assumptions C42_small_df_psd.
Print Assumptions C42_rescaled_psd.
Print Assumptions C42_scaled_psd.
Print Assumptions C67_mvn_factor_svd.
Print Assumptions C67_mvn_factor_cholesky.
Print Assumptions C67_wishart_scale_is_diagonal_refuted.
Print Assumptions C67_wishart_cholesky_refuted.
Print Assumptions C67_wishart_factor_kernel.
Print Assumptions C67_wishart_kernel_refuted.
Print Assumptions C67_pivots_dropped_refuted.
Print Assumptions C67_wishart_integer_scale_refuted.
