(* C93: samplers by inversion follow their distribution functions. *)
From Verif Require Import Word HyperLem InvDist.
From Coq Require Import Reals Lra Lia.
Open Scope R_scope.

Lemma exp_le_iff a b : exp a <= exp b <-> a <= b.
Proof.
  split; intros H.
  - destruct (Rle_lt_dec a b) as [L|L]; [exact L|]. apply exp_increasing in L. lra.
  - destruct H as [H|<-]; [left; now apply exp_increasing | apply Rle_refl].
Qed.
Lemma exp_lt_iff a b : exp a < exp b <-> a < b.
Proof. split; [apply exp_lt_inv | apply exp_increasing]. Qed.
Lemma ln_le_exp a y : 0 < a -> ln a <= y <-> a <= exp y.
Proof. intros H. rewrite <- exp_le_iff, exp_ln by exact H. reflexivity. Qed.
Lemma le_ln_exp a y : 0 < a -> y <= ln a <-> exp y <= a.
Proof. intros H. rewrite <- exp_le_iff, exp_ln by exact H. reflexivity. Qed.
Lemma div_le_iff s a b : 0 < s -> a / s <= b <-> a <= b * s.
Proof.
  intros H. split; intros L.
  - apply (Rmult_le_compat_r s) in L; [|lra]. unfold Rdiv in L. rewrite Rmult_assoc, Rinv_l, Rmult_1_r in L by lra. exact L.
  - apply (Rmult_le_reg_r s); [exact H|]. unfold Rdiv. rewrite Rmult_assoc, Rinv_l, Rmult_1_r by lra. exact L.
Qed.
Lemma le_div_iff s a b : 0 < s -> a <= b / s <-> a * s <= b.
Proof.
  intros H. split; intros L.
  - apply (Rmult_le_compat_r s) in L; [|lra]. unfold Rdiv in L. rewrite Rmult_assoc, Rinv_l, Rmult_1_r in L by lra. exact L.
  - apply (Rmult_le_reg_r s); [exact H|]. unfold Rdiv. rewrite Rmult_assoc, Rinv_l, Rmult_1_r by lra. exact L.
Qed.

(* -- continuous distributions: X <= x exactly when U <= F(x) -- *)
Theorem C93_exponential : forall U x, 0 <= U < 1 -> std_exponential U <= x <-> U <= 1 - exp (- x).
Proof. intros U x H. unfold std_exponential. pose proof (le_ln_exp (1 - U) (- x) ltac:(lra)). split; intros; [cut (exp (- x) <= 1 - U); [lra|]; apply H0; lra | cut (- x <= ln (1 - U)); [lra|]; apply H0; lra]. Qed.
Theorem C93_uniform : forall lower range U x, 0 < range -> uniform lower range U <= x <-> U <= (x - lower) / range.
Proof. intros lower range U x H. unfold uniform. rewrite le_div_iff by exact H. split; intros; lra. Qed.
Theorem C93_pareto : forall a E x, 0 < a -> 0 <= x -> pareto a E <= x <-> 1 - exp (- E) <= 1 - Rpower (1 + x) (- a).
Proof.
  intros a E x Ha Hx. unfold pareto, Rpower.
  assert (A : exp (E / a) - 1 <= x <-> E <= a * ln (1 + x)).
  { rewrite (Rmult_comm a), <- div_le_iff, le_ln_exp by lra. split; intros; lra. }
  rewrite A.
  pose proof (exp_le_iff (- a * ln (1 + x)) (- E)) as B. split; intros H; [cut (exp (- a * ln (1 + x)) <= exp (- E)); [lra|]; apply B; lra | cut (- a * ln (1 + x) <= - E); [lra|]; apply B; lra].
Qed.
Lemma powr_le E a x : 0 < a -> 0 <= E -> 0 < x -> powr E (1 / a) <= x <-> E <= Rpower x a.
Proof.
  intros Ha HE Hx. unfold powr. pose proof (exp_pos (a * ln x)) as P. destruct (Req_EM_T E 0) as [->|N].
  - unfold Rpower. split; intros; lra.
  - assert (0 < E) by lra. unfold Rpower. rewrite <- (exp_ln x) at 1 by exact Hx. rewrite exp_le_iff, <- ln_le_exp by assumption.
    replace (1 / a * ln E) with (ln E / a) by (field; lra). rewrite div_le_iff by exact Ha. rewrite (Rmult_comm (ln x)). reflexivity.
Qed.
Theorem C93_weibull : forall a E x, 0 < a -> 0 <= E -> 0 < x -> weibull a E <= x <-> 1 - exp (- E) <= 1 - exp (- Rpower x a).
Proof.
  intros a E x Ha HE Hx. unfold weibull. destruct (Req_EM_T a 0) as [?|_]; [lra|]. rewrite powr_le by assumption.
  pose proof (exp_le_iff (- Rpower x a) (- E)) as B. split; intros H; [cut (exp (- Rpower x a) <= exp (- E)); [lra|]; apply B; lra | cut (- Rpower x a <= - E); [lra|]; apply B; lra].
Qed.
Theorem C93_power : forall a E x, 0 < a -> 0 <= E -> 0 < x -> power a E <= x <-> 1 - exp (- E) <= Rpower x a.
Proof.
  intros a E x Ha HE Hx. unfold power. apply powr_le; [exact Ha| |exact Hx]. pose proof (proj2 (exp_le_iff (- E) 0) ltac:(lra)) as Q. rewrite exp_0 in Q. lra.
Qed.
(* the distribution function of the Laplace distribution *)
Definition laplace_cdf (loc scale x : R) : R :=
  if Rlt_dec x loc then exp ((x - loc) / scale) / 2 else 1 - exp (- ((x - loc) / scale)) / 2.
Theorem C93_laplace : forall loc scale U x, 0 < scale -> 0 < U < 1 ->
  exists X, laplace loc scale U = Some X /\ (X <= x <-> U <= laplace_cdf loc scale x).
Proof.
  intros loc scale U x Hs HU. unfold laplace, laplace_cdf.
  set (y := (x - loc) / scale). assert (Y : x = loc + scale * y) by (unfold y; field; lra). clearbody y. subst x.
  assert (HY : forall z, 0 < z -> (0 <= scale * z)) by (intros; nra).
  destruct (Rle_dec (1 / 2) U) as [C|C].
  - exists (loc - scale * ln (2 - U - U)). split; [reflexivity|].
    assert (A : loc - scale * ln (2 - U - U) <= loc + scale * y <-> exp (- y) <= 2 - U - U).
    { rewrite <- le_ln_exp by lra. split; intros; nra. }
    rewrite A. destruct (Rlt_dec (loc + scale * y) loc) as [L|L].
    + assert (y < 0) by nra. assert (exp y < 1) by (rewrite <- exp_0; now apply exp_increasing). assert (1 < exp (- y)) by (rewrite <- exp_0; apply exp_increasing; lra).
      split; intros; lra.
    + split; intros; lra.
  - destruct (Rlt_dec 0 U) as [_|?]; [|lra]. exists (loc + scale * ln (U + U)). split; [reflexivity|].
    assert (A : loc + scale * ln (U + U) <= loc + scale * y <-> U + U <= exp y).
    { rewrite <- ln_le_exp by lra. split; intros; nra. }
    rewrite A. destruct (Rlt_dec (loc + scale * y) loc) as [L|L].
    + split; intros; lra.
    + assert (0 <= y) by nra. pose proof (proj2 (exp_le_iff 0 y) H) as Q. pose proof (proj2 (exp_le_iff (- y) 0) ltac:(lra)) as Q'. rewrite exp_0 in Q, Q'. split; intros; lra.
Qed.
(* 1 - U is as uniform as U *)
Theorem C93_gumbel : forall loc scale U x, 0 < scale -> 0 < U < 1 ->
  exists X, gumbel loc scale U = Some X /\ (X <= x <-> 1 - U <= exp (- exp (- ((x - loc) / scale)))).
Proof.
  intros loc scale U x Hs HU. unfold gumbel. destruct (Rlt_dec (1 - U) 1) as [_|?]; [|lra]. eexists. split; [reflexivity|].
  set (y := (x - loc) / scale). assert (Y : x = loc + scale * y) by (unfold y; field; lra). clearbody y. subst x.
  assert (N : ln (1 - U) < 0) by (rewrite <- ln_1; apply ln_increasing; lra).
  rewrite <- ln_le_exp by lra.
  assert (A : loc - scale * ln (- ln (1 - U)) <= loc + scale * y <-> - y <= ln (- ln (1 - U))) by (split; intros; nra).
  rewrite A, le_ln_exp by lra. split; intros; lra.
Qed.
Theorem C93_logistic : forall loc scale U x, 0 < scale -> 0 < U < 1 ->
  exists X, logistic loc scale U = Some X /\ (X <= x <-> U <= 1 / (1 + exp (- ((x - loc) / scale)))).
Proof.
  intros loc scale U x Hs HU. unfold logistic. destruct (Rlt_dec 0 U) as [_|?]; [|lra]. eexists. split; [reflexivity|].
  set (y := (x - loc) / scale). assert (Y : x = loc + scale * y) by (unfold y; field; lra). clearbody y. subst x.
  assert (P : 0 < U / (1 - U)) by (apply Rdiv_lt_0_compat; lra).
  assert (A : loc + scale * ln (U / (1 - U)) <= loc + scale * y <-> ln (U / (1 - U)) <= y) by (split; intros; nra).
  rewrite A, ln_le_exp by exact P. rewrite div_le_iff by lra. pose proof (exp_pos y) as E. pose proof (exp_pos (- y)) as F.
  assert (I : exp y * exp (- y) = 1) by (rewrite <- exp_plus; replace (y + - y) with 0 by lra; apply exp_0).
  rewrite le_div_iff by lra. split; intros H; nra.
Qed.
Theorem C93_rayleigh : forall mode U x, 0 < mode -> 0 <= U < 1 -> 0 <= x ->
  rayleigh mode U <= x <-> U <= 1 - exp (- (x ^ 2 / (2 * mode ^ 2))).
Proof.
  intros mode U x Hm HU Hx. unfold rayleigh.
  set (y := x / mode). assert (Y : x = mode * y) by (unfold y; field; lra). assert (Y0 : 0 <= y) by (unfold y; apply Rmult_le_pos; [exact Hx | left; apply Rinv_0_lt_compat; exact Hm]). clearbody y. subst x.
  replace ((mode * y) ^ 2 / (2 * mode ^ 2)) with (y ^ 2 / 2) by (field; lra).
  assert (N : ln (1 - U) <= 0) by (rewrite ln_le_exp, exp_0; lra).
  assert (A : mode * sqrt (-2 * ln (1 - U)) <= mode * y <-> sqrt (-2 * ln (1 - U)) <= y) by (split; intros; nra).
  assert (B : sqrt (-2 * ln (1 - U)) <= y <-> -2 * ln (1 - U) <= y ^ 2).
  { pose proof (sqrt_pos (-2 * ln (1 - U))) as S. pose proof (sqrt_sqrt (-2 * ln (1 - U)) ltac:(lra)) as Q. split; intros H; nra. }
  rewrite A, B. pose proof (le_ln_exp (1 - U) (- (y ^ 2 / 2)) ltac:(lra)) as C. split; intros H; [cut (exp (- (y ^ 2 / 2)) <= 1 - U); [lra|]; apply C; lra | cut (- (y ^ 2 / 2) <= ln (1 - U)); [lra|]; apply C; lra].
Qed.
Definition triangular_cdf (l m r x : R) : R :=
  if Rle_dec x m then (x - l) ^ 2 / ((m - l) * (r - l)) else 1 - (r - x) ^ 2 / ((r - m) * (r - l)).
Lemma sqrt_le_iff a y : 0 <= a -> 0 <= y -> sqrt a <= y <-> a <= y ^ 2.
Proof. intros Ha Hy. pose proof (sqrt_pos a) as S. pose proof (sqrt_sqrt a Ha) as Q. split; intros H; nra. Qed.
Lemma le_sqrt_iff a y : 0 <= a -> 0 <= y -> y <= sqrt a <-> y ^ 2 <= a.
Proof. intros Ha Hy. pose proof (sqrt_pos a) as S. pose proof (sqrt_sqrt a Ha) as Q. split; intros H; nra. Qed.
Theorem C93_triangular : forall l m r U x, l < m < r -> 0 <= U < 1 -> l <= x <= r ->
  triangular l m r U <= x <-> U <= triangular_cdf l m r x.
Proof.
  intros l m r U x H HU Hx. unfold triangular, triangular_cdf.
  assert (RA : forall V, V <= (m - l) / (r - l) <-> V * (r - l) <= m - l) by (intros V; apply le_div_iff; lra).
  assert (P1 : 0 < (m - l) * (r - l)) by nra. assert (P2 : 0 < (r - m) * (r - l)) by nra.
  destruct (Rle_dec U ((m - l) / (r - l))) as [C|C].
  - apply RA in C.
    assert (A : l + sqrt (U * ((m - l) * (r - l))) <= x <-> U * ((m - l) * (r - l)) <= (x - l) ^ 2).
    { rewrite <- sqrt_le_iff by (try apply Rmult_le_pos; lra). split; intros; lra. }
    rewrite A. destruct (Rle_dec x m) as [D|D].
    + rewrite le_div_iff by exact P1. reflexivity.
    + split; intros G.
      * assert (Q : (r - x) ^ 2 / ((r - m) * (r - l)) <= 1 - U); [|lra]. rewrite div_le_iff by exact P2. nra.
      * nra.
  - assert (C' : m - l < U * (r - l)) by (apply Rnot_le_lt; intros G; apply C, RA, G).
    assert (A : r - sqrt ((1 - U) * ((r - m) * (r - l))) <= x <-> (r - x) ^ 2 <= (1 - U) * ((r - m) * (r - l))).
    { rewrite <- le_sqrt_iff by (try apply Rmult_le_pos; lra). split; intros; lra. }
    rewrite A. destruct (Rle_dec x m) as [D|D].
    + rewrite le_div_iff by exact P1. split; intros G; exfalso.
      * nra.
      * assert ((x - l) ^ 2 <= (m - l) ^ 2) by nra. nra.
    + rewrite <- div_le_iff by exact P2. split; intros; lra.
Qed.

(* -- the geometric distribution: k is the first value whose distribution function reaches U -- *)
Definition first_reaching (F : nat -> R) (U : R) (k : nat) : Prop := (forall j, (j < k)%nat -> F j < U) /\ U <= F k.
Lemma first_reaching_unique F U k k' : first_reaching F U k -> first_reaching F U k' -> k = k'.
Proof.
  intros [A B] [A' B']. destruct (Nat.lt_trichotomy k k') as [L|[L|L]]; [apply A' in L; lra | exact L | apply A in L; lra].
Qed.
(* the distribution function at j + 1 *)
Definition geometric_cdf (p : R) (j : nat) : R := 1 - (1 - p) ^ S j.
Lemma geometric_cdf_mono p i j : 0 < p <= 1 -> (i <= j)%nat -> geometric_cdf p i <= geometric_cdf p j.
Proof.
  intros H L. unfold geometric_cdf. induction L as [|j L IH]; [lra|].
  pose proof (pow_le (1 - p) (S j) ltac:(lra)) as Q. change ((1 - p) ^ S (S j)) with ((1 - p) * (1 - p) ^ S j). nra.
Qed.
Lemma geo_loop_spec p U fuel : forall m z, (forall j, (j < m)%nat -> geometric_cdf p j < U) ->
  geo_loop fuel U (1 - p) (geometric_cdf p m) (p * (1 - p) ^ m) (Z.of_nat (S m)) = Some z ->
  exists k, z = Z.of_nat (S k) /\ first_reaching (geometric_cdf p) U k.
Proof.
  induction fuel as [|fuel IH]; intros m z H E; cbn [geo_loop] in E; destruct (Rlt_dec _ _) as [L|L]; try discriminate.
  1, 3: exists m; split; [congruence | split; [exact H | lra]].
  replace (geometric_cdf p m + p * (1 - p) ^ m * (1 - p)) with (geometric_cdf p (S m)) in E by (unfold geometric_cdf; cbn [pow]; ring).
  replace (p * (1 - p) ^ m * (1 - p)) with (p * (1 - p) ^ S m) in E by (cbn [pow]; ring).
  replace (Z.of_nat (S m) + 1)%Z with (Z.of_nat (S (S m))) in E by lia.
  apply IH in E; [exact E|]. intros j Hj. destruct (Nat.eq_dec j m) as [->|N]; [exact L | apply H; lia].
Qed.
Lemma geo_loop_ends p U fuel : forall m, U <= geometric_cdf p (m + fuel) ->
  exists z, geo_loop fuel U (1 - p) (geometric_cdf p m) (p * (1 - p) ^ m) (Z.of_nat (S m)) = Some z.
Proof.
  induction fuel as [|fuel IH]; intros m H; cbn [geo_loop]; destruct (Rlt_dec _ _) as [L|L]; try (eexists; reflexivity).
  - rewrite Nat.add_0_r in H. lra.
  - replace (geometric_cdf p m + p * (1 - p) ^ m * (1 - p)) with (geometric_cdf p (S m)) by (unfold geometric_cdf; cbn [pow]; ring).
    replace (p * (1 - p) ^ m * (1 - p)) with (p * (1 - p) ^ S m) by (cbn [pow]; ring).
    replace (Z.of_nat (S m) + 1)%Z with (Z.of_nat (S (S m))) by lia. apply IH. now replace (S m + fuel)%nat with (m + S fuel)%nat by lia.
Qed.
Lemma geometric_search_start fuel p U : geometric_search fuel p U = geo_loop fuel U (1 - p) (geometric_cdf p 0) (p * (1 - p) ^ 0) (Z.of_nat 1).
Proof. unfold geometric_search. f_equal; unfold geometric_cdf; cbn [pow]; ring. Qed.
Theorem C93_geometric_search : forall p U, 0 < p <= 1 -> 0 <= U < 1 ->
  (exists fuel z, geometric_search fuel p U = Some z) /\
  forall fuel z, geometric_search fuel p U = Some z -> exists k, z = Z.of_nat (S k) /\ first_reaching (geometric_cdf p) U k.
Proof.
  intros p U Hp HU. split.
  - destruct (pow_lt_1_zero (1 - p) ltac:(rewrite Rabs_pos_eq; lra) (1 - U) ltac:(lra)) as [n Hn].
    exists n. rewrite geometric_search_start. apply geo_loop_ends. cbn [Nat.add]. unfold geometric_cdf.
    specialize (Hn (S n) ltac:(lia)). rewrite Rabs_pos_eq in Hn by (apply pow_le; lra). lra.
  - intros fuel z E. rewrite geometric_search_start in E. apply geo_loop_spec in E; [exact E | intros; lia].
Qed.
Lemma ln_neg x : 0 < x < 1 -> ln x < 0.
Proof. intros H. rewrite <- ln_1. apply ln_increasing; lra. Qed.
Lemma ln_le_iff x y : 0 < x -> 0 < y -> ln x <= ln y <-> x <= y.
Proof. intros Hx Hy. rewrite ln_le_exp, exp_ln by assumption. reflexivity. Qed.
Lemma ln_pow x n : 0 < x -> ln (x ^ n) = INR n * ln x.
Proof. intros H. rewrite <- (Rpower_pow n x H). unfold Rpower. apply ln_exp. Qed.
(* r <= n exactly when q^n <= x, for r the logarithm of x to the base q *)
Lemma log_le q x n : 0 < q < 1 -> 0 < x -> ln x / ln q <= INR n <-> q ^ n <= x.
Proof.
  intros Hq Hx. pose proof (ln_neg q Hq) as L. rewrite <- (ln_le_iff (q ^ n) x), ln_pow by (try apply pow_lt; lra).
  replace (ln x / ln q) with ((- ln x) / (- ln q)) by (field; lra). rewrite div_le_iff by lra. split; intros; lra.
Qed.
Theorem C93_geometric_inversion : forall p U, 0 < p < 1 -> 0 < U < 1 ->
  exists k, geometric_inversion p U = Z.of_nat (S k) /\ first_reaching (geometric_cdf p) U k.
Proof.
  intros p U Hp HU. unfold geometric_inversion. set (r := ln (1 - U) / ln (1 - p)).
  assert (P : 0 < r).
  { unfold r. pose proof (ln_neg (1 - p) ltac:(lra)). pose proof (ln_neg (1 - U) ltac:(lra)).
    replace (ln (1 - U) / ln (1 - p)) with ((- ln (1 - U)) / (- ln (1 - p))) by (field; lra). apply Rdiv_lt_0_compat; lra. }
  destruct (base_Int_part (- r)) as [A B]. set (z := Int_part (- r)) in *.
  assert (Z0 : (z < 0)%Z) by (apply lt_IZR; lra).
  exists (Z.to_nat (- z - 1)). split; [lia|].
  assert (K : INR (S (Z.to_nat (- z - 1))) = - IZR z).
  { rewrite INR_IZR_INZ, <- opp_IZR. f_equal. lia. }
  unfold first_reaching, geometric_cdf. split.
  - intros j Hj. apply Rnot_le_lt. intros C.
    assert (D : (1 - p) ^ S j <= 1 - U) by lra. apply log_le in D; [|lra|lra]. fold r in D.
    apply le_INR in Hj. rewrite S_INR in K. lra.
  - assert ((1 - p) ^ S (Z.to_nat (- z - 1)) <= 1 - U); [|lra]. apply log_le; [lra|lra|]. fold r. rewrite K. lra.
Qed.
(* the two methods return the same number for the same U *)
Theorem C93_geometric_methods : forall p U fuel z, 0 < p < 1 -> 0 < U < 1 ->
  geometric_search fuel p U = Some z -> geometric_inversion p U = z.
Proof.
  intros p U fuel z Hp HU E. destruct (proj2 (C93_geometric_search p U ltac:(lra) ltac:(lra)) _ _ E) as [k [-> K]].
  destruct (C93_geometric_inversion p U Hp HU) as [k' [-> K']]. now rewrite (first_reaching_unique _ _ _ _ K K').
Qed.
Theorem C93_geometric : forall p U, 0 < p < 1 -> 0 < U < 1 ->
  exists fuel k, geometric fuel p U = Some (Z.of_nat (S k)) /\ first_reaching (geometric_cdf p) U k.
Proof.
  intros p U Hp HU. unfold geometric. destruct (C93_geometric_search p U ltac:(lra) ltac:(lra)) as [[fuel [z E]] S]. exists fuel.
  destruct (Rle_dec _ _).
  - destruct (S _ _ E) as [k [-> K]]. exists k. now rewrite E.
  - destruct (C93_geometric_inversion p U Hp HU) as [k [-> K]]. now exists k.
Qed.
(* next_double can return 0: the inversion then returns 0, not a number of trials *)
Lemma geometric_zero p fuel : 0 < p < 1 -> geometric_search fuel p 0 = Some 1%Z /\ geometric_inversion p 0 = 0%Z.
Proof.
  intros H. split.
  - unfold geometric_search. destruct fuel; cbn [geo_loop]; (destruct (Rlt_dec _ _); [lra | reflexivity]).
  - unfold geometric_inversion. rewrite Rminus_0_r, ln_1. unfold Rdiv. rewrite Rmult_0_l, Ropp_0. assert (E : Int_part 0 = 0%Z); [|now rewrite E].
    destruct (base_Int_part 0) as [A B]. assert (Int_part 0 <= 0)%Z by (apply le_IZR; lra). assert (-1 < Int_part 0)%Z by (apply lt_IZR; lra). lia.
Qed.
Theorem C93_geometric_zero_refuted : forall p fuel, 0 < p < 1 ->
  (p < 333333333333333333333333 / 10 ^ 24 -> geometric fuel p 0 = Some 0%Z) /\ (333333333333333333333333 / 10 ^ 24 <= p -> geometric fuel p 0 = Some 1%Z).
Proof.
  intros p fuel H. destruct (geometric_zero p fuel H) as [S I]. unfold geometric. rewrite S, I. destruct (Rle_dec _ _); split; intros; (reflexivity || exfalso; lra).
Qed.

(* -- the Poisson distribution: the number of uniforms whose product stays above exp(-lam) -- *)
Fixpoint product (us : list R) : R := match us with [] => 1 | u :: us => u * product us end.
Lemma poisson_loop_spec enlam us : forall prod X z,
  poisson_loop enlam prod X us = Some z <->
  exists n, z = (X + Z.of_nat n)%Z /\ (n < length us)%nat /\ (forall m, (1 <= m <= n)%nat -> enlam < prod * product (firstn m us)) /\
    prod * product (firstn (S n) us) <= enlam.
Proof.
  induction us as [|u us IH]; intros prod X z; cbn [poisson_loop].
  - split; [discriminate | intros [n [_ [H _]]]; cbn in H; lia].
  - destruct (Rlt_dec enlam (prod * u)) as [L|L].
    + rewrite IH. split; intros [n [E [H [A B]]]].
      * exists (S n). split; [lia|]. split; [cbn [length]; lia|]. split.
        -- intros [|m] Hm; [lia|]. cbn [firstn product]. destruct m as [|m]; [cbn [firstn product]; lra|]. specialize (A (S m) ltac:(lia)). lra.
        -- change (firstn (S (S n)) (u :: us)) with (u :: firstn (S n) us). cbn [product]. lra.
      * destruct n as [|n]; [cbn [firstn product] in B; lra|]. exists n. split; [lia|]. split; [cbn [length] in H; lia|]. split.
        -- intros m Hm. specialize (A (S m) ltac:(lia)). cbn [firstn product] in A. lra.
        -- change (firstn (S (S n)) (u :: us)) with (u :: firstn (S n) us) in B. cbn [product] in B. lra.
    + split.
      * intros [= <-]. exists O. split; [lia|]. split; [cbn [length]; lia|]. split; [intros; lia|]. cbn [firstn product]. lra.
      * intros [n [E [H [A B]]]]. destruct n as [|n]; [f_equal; lia|]. specialize (A 1%nat ltac:(lia)). cbn [firstn product] in A. lra.
Qed.
Theorem C93_poisson : forall lam us z, poisson_mult lam us = Some z <->
  exists n, z = Z.of_nat n /\ (n < length us)%nat /\ (forall m, (1 <= m <= n)%nat -> exp (- lam) < product (firstn m us)) /\
    product (firstn (S n) us) <= exp (- lam).
Proof.
  intros lam us z. unfold poisson_mult. rewrite poisson_loop_spec. split; intros [n [E [H [A B]]]]; exists n; (split; [lia|]); (split; [exact H|]); split.
  2, 4: lra. all: intros m Hm; specialize (A m Hm); lra.
Qed.

(* -- the binomial distribution -- *)
Definition binomial_pmf (n : nat) (p : R) (i : nat) : R := IZR (choose n i) * p ^ i * (1 - p) ^ (n - i).
Definition binomial_cdf (n : nat) (p : R) (k : nat) : R := sum_f_R0 (binomial_pmf n p) k.
Lemma choose_next n k : (k <= n)%nat -> ((Z.of_nat n - Z.of_nat k) * choose n k = Z.of_nat (S k) * choose n (S k))%Z.
Proof.
  intros H. pose proof (choose_absorb n k) as A. cbn [choose] in A.
  set (a := choose n k) in *. set (b := choose n (S k)) in *. clearbody a b. rewrite !Nat2Z.inj_succ in *. nia.
Qed.
Lemma binomial_pmf_next n p k : 0 < p < 1 -> (S k <= n)%nat ->
  ((INR n - INR (S k) + 1) * p * binomial_pmf n p k) / (INR (S k) * (1 - p)) = binomial_pmf n p (S k).
Proof.
  intros Hp H. unfold binomial_pmf. pose proof (choose_next n k ltac:(lia)) as C. apply (f_equal IZR) in C. rewrite !mult_IZR, minus_IZR, <- !INR_IZR_INZ in C.
  replace (n - k)%nat with (S (n - S k)) by lia. cbn [pow]. assert (P : 0 < INR (S k)) by (apply lt_0_INR; lia). rewrite S_INR in *.
  apply (Rmult_eq_reg_r ((INR k + 1) * (1 - p))); [|nra]. field_simplify; [|lra..].
  set (a := IZR (choose n k)) in *. set (b := IZR (choose n (S k))) in *. set (x := p ^ k). set (y := (1 - p) ^ (n - S k)). clearbody a b x y.
  replace (INR n * a) with ((INR n - INR k) * a + INR k * a) by ring.
  transitivity (p * x * y * (1 - p) * ((INR n - INR k) * a)); [ring|]. rewrite C. ring.
Qed.
Definition below (n : nat) (p : R) (k : nat) : R := match k with O => 0 | S j => binomial_cdf n p j end.
Lemma binomial_cdf_below n p k : binomial_cdf n p k = below n p k + binomial_pmf n p k.
Proof. unfold binomial_cdf. destruct k; cbn [below sum_f_R0]; [ring | reflexivity]. Qed.
Lemma binom_loop_spec n p U todo : 0 < p < 1 -> forall X, (X + todo <= n)%nat -> (forall j, (j < X)%nat -> binomial_cdf n p j < U) ->
  match binom_loop n p todo X (binomial_pmf n p X) (U - below n p X) with
  | BVal k => (k <= X + todo)%nat /\ first_reaching (binomial_cdf n p) U k
  | BMore => forall j, (j <= X + todo)%nat -> binomial_cdf n p j < U
  end.
Proof.
  intros Hp. induction todo as [|todo IH]; intros X L H; cbn [binom_loop]; pose proof (binomial_cdf_below n p X) as C; destruct (Rlt_dec _ _) as [D|D].
  - intros j Hj. destruct (Nat.eq_dec j X) as [->|N]; [lra | apply H; lia].
  - split; [lia|]. split; [exact H | lra].
  - rewrite binomial_pmf_next by (try exact Hp; lia). replace (U - below n p X - binomial_pmf n p X) with (U - below n p (S X)) by (cbn [below]; lra).
    specialize (IH (S X) ltac:(lia)). replace (S X + todo)%nat with (X + S todo)%nat in IH by lia. apply IH.
    intros j Hj. destruct (Nat.eq_dec j X) as [->|N]; [lra | apply H; lia].
  - split; [lia|]. split; [exact H | lra].
Qed.
Lemma binomial_bound_le n p : 0 < p < 1 -> (0 <= binomial_bound n p <= Z.of_nat n)%Z.
Proof.
  intros Hp. unfold binomial_bound. set (r := Rmin _ _). destruct (base_Int_part r) as [A B].
  assert (U : r <= INR n) by apply Rmin_l.
  assert (P : 0 <= r). { pose proof (pos_INR n). apply Rmin_glb; [assumption|]. pose proof (sqrt_pos (INR n * p * (1 - p) + 1)). nra. }
  split.
  - assert (-1 < Int_part r)%Z; [|lia]. apply lt_IZR. lra.
  - apply le_IZR. rewrite <- INR_IZR_INZ. lra.
Qed.
Theorem C93_binomial : forall n p U, 0 < p < 1 -> 0 <= U < 1 ->
  match binomial_inversion n p U with
  | BVal k => (Z.of_nat k <= binomial_bound n p)%Z /\ first_reaching (binomial_cdf n p) U k
  | BMore => binomial_cdf n p (Z.to_nat (binomial_bound n p)) < U
  end.
Proof.
  intros n p U Hp HU. pose proof (binomial_bound_le n p Hp) as B. unfold binomial_inversion.
  pose proof (binom_loop_spec n p U (Z.to_nat (binomial_bound n p)) Hp 0 ltac:(lia) ltac:(lia)) as S.
  cbn [below] in S. rewrite Rminus_0_r in S. replace (binomial_pmf n p 0) with ((1 - p) ^ n) in S by (unfold binomial_pmf; rewrite choose_0, Nat.sub_0_r; cbn [pow]; ring).
  destruct (binom_loop _ _ _ _ _ _) as [|k]; [apply S; lia | split; [lia | apply S]].
Qed.
(* the values above the bound, which are possible, are never returned: a larger U is thrown away *)
Theorem C93_binomial_tail_refuted : 0 < binomial_pmf 100 (1 / 100) 100 /\ forall U k, 0 <= U < 1 -> binomial_inversion 100 (1 / 100) U = BVal k -> (k <= 21)%nat.
Proof.
  split.
  - unfold binomial_pmf. rewrite choose_n, Nat.sub_diag. cbn [pow]. pose proof (pow_lt (1 / 100) 100 ltac:(lra)). lra.
  - intros U k HU E. pose proof (C93_binomial 100 (1 / 100) U ltac:(lra) HU) as B. rewrite E in B. destruct B as [B _].
    assert (L : (binomial_bound 100 (1 / 100) <= 21)%Z); [|lia]. unfold binomial_bound. set (r := Rmin _ _). destruct (base_Int_part r) as [I _].
    apply le_IZR. apply (Rle_trans _ r); [exact I|]. unfold r. replace (INR 100) with 100 by (rewrite INR_IZR_INZ; reflexivity). eapply Rle_trans; [apply Rmin_r|].
    assert (sqrt (100 * (1 / 100) * (1 - 1 / 100) + 1) <= 2); [|lra]. apply sqrt_le_iff; lra.
Qed.

(* -- the logarithmic series distribution: V picks k with q^k < V <= q^(k-1), q = 1 - (1-p)^U -- *)
Theorem C93_logseries : forall p U V, 0 < p < 1 -> 0 < U < 1 -> 0 < V < 1 -> V <> 1 - Rpower (1 - p) U ->
  exists k, logseries_try p V U = LVal (Z.of_nat (S k)) /\ (1 - Rpower (1 - p) U) ^ S k < V <= (1 - Rpower (1 - p) U) ^ k.
Proof.
  intros p U V Hp HU HV. unfold logseries_try, Rpower. rewrite (Rmult_comm (ln (1 - p))). set (q := 1 - exp (U * ln (1 - p))).
  assert (Q : 0 < q < p).
  { unfold q. pose proof (ln_neg (1 - p) ltac:(lra)) as L. assert (A : exp (U * ln (1 - p)) < exp 0) by (apply exp_increasing; nra). rewrite exp_0 in A.
    assert (B : exp (ln (1 - p)) < exp (U * ln (1 - p))) by (apply exp_increasing; nra). rewrite exp_ln in B by lra. lra. }
  clearbody q. intros N. destruct (Rle_dec p V) as [C|C].
  - exists O. split; [reflexivity|]. cbn [pow]. lra.
  - destruct (Rle_dec V (q * q)) as [D|D].
    + destruct (Req_EM_T V 0) as [?|_]; [lra|]. set (r := ln V / ln q).
      assert (R2 : 2 <= r).
      { unfold r. pose proof (ln_neg q ltac:(lra)) as L. assert (W : ln V <= ln (q * q)) by (apply ln_le_iff; nra). rewrite ln_mult in W by lra.
        replace (ln V / ln q) with ((- ln V) / (- ln q)) by (field; lra). apply le_div_iff; lra. }
      destruct (base_Int_part (1 + r)) as [A B]. set (z := Int_part (1 + r)) in *. assert (Z1 : (1 < z)%Z) by (apply lt_IZR; lra).
      destruct (Z.ltb_spec z 1) as [?|_]; [lia|]. exists (Z.to_nat (z - 1)). split; [f_equal; lia|].
      assert (K : INR (Z.to_nat (z - 1)) = IZR z - 1) by (rewrite INR_IZR_INZ, Z2Nat.id by lia; apply minus_IZR).
      split.
      * apply Rnot_le_lt. intros G. 
        assert (F : INR (S (Z.to_nat (z - 1))) <= r); [|rewrite S_INR, K in F; lra].
        pose proof (ln_neg q ltac:(lra)) as L. apply ln_le_iff in G; [|lra|apply pow_lt; lra]. rewrite ln_pow in G by lra.
        unfold r. replace (ln V / ln q) with ((- ln V) / (- ln q)) by (field; lra). apply le_div_iff; lra.
      * pose proof (ln_neg q ltac:(lra)) as L. apply ln_le_iff; [lra|apply pow_lt; lra|]. rewrite ln_pow, K by lra.
        assert (F : IZR z - 1 <= r) by lra. unfold r in F. replace (ln V / ln q) with ((- ln V) / (- ln q)) in F by (field; lra). apply le_div_iff in F; lra.
    + destruct (Rle_dec q V) as [E|E].
      * exists O. split; [reflexivity|]. cbn [pow]. lra.
      * exists 1%nat. split; [reflexivity|]. cbn [pow]. lra.
Qed.
(* V = 0 is tested only after the infinite quotient has been converted to an integer *)
Theorem C93_logseries_zero_refuted : forall p U, 0 < p < 1 -> logseries_try p 0 U = LUndef.
Proof.
  intros p U Hp. unfold logseries_try. destruct (Rle_dec p 0); [lra|]. destruct (Rle_dec 0 _) as [_|N]; [|elim N; apply Rle_0_sqr]. destruct (Req_EM_T 0 0); [reflexivity | congruence].
Qed.

(* -- a case -- *)
Example C93_case : triangular 0 1 3 (1 / 3) = 1 /\ geometric_search 5 (1 / 2) (4 / 5) = Some 3%Z /\ poisson_mult 0 [1 / 2] = Some 0%Z /\ binomial_inversion 2 (1 / 2) (1 / 2) = BVal 1 /\
  first_reaching (geometric_cdf (1 / 2)) (4 / 5) 2.
Proof.
  split; [|split; [|split; [|split]]].
  - unfold triangular. destruct (Rle_dec _ _); [|lra]. replace (1 / 3 * ((1 - 0) * (3 - 0))) with 1 by lra. rewrite sqrt_1. lra.
  - unfold geometric_search. cbn [geo_loop]. do 2 (destruct (Rlt_dec _ _); [|lra]). destruct (Rlt_dec _ _); [lra | reflexivity].
  - unfold poisson_mult. cbn [poisson_loop]. rewrite Ropp_0, exp_0. destruct (Rlt_dec _ _); [lra | reflexivity].
  - pose proof (C93_binomial 2 (1 / 2) (1 / 2) ltac:(lra) ltac:(lra)) as B.
    assert (F : first_reaching (binomial_cdf 2 (1 / 2)) (1 / 2) 1).
    { unfold first_reaching, binomial_cdf, binomial_pmf. split; [intros [|j] Hj; [|lia]|]; cbn; lra. }
    assert (W : (1 < binomial_bound 2 (1 / 2))%Z).
    { unfold binomial_bound. assert (E : Rmin (INR 2) (INR 2 * (1 / 2) + 10 * sqrt (INR 2 * (1 / 2) * (1 - 1 / 2) + 1)) = 2).
      { replace (INR 2) with 2 by (cbn; lra). apply Rmin_left. assert (1 <= sqrt (2 * (1 / 2) * (1 - 1 / 2) + 1)); [|lra]. apply le_sqrt_iff; lra. }
      rewrite E. destruct (base_Int_part 2) as [_ I]. apply lt_IZR. lra. }
    pose proof (binomial_bound_le 2 (1 / 2) ltac:(lra)) as Z2.
    destruct (binomial_inversion 2 (1 / 2) (1 / 2)) as [|k].
    + replace (Z.to_nat (binomial_bound 2 (1 / 2))) with 2%nat in B by lia. unfold binomial_cdf, binomial_pmf in B. cbn in B. lra.
    + f_equal. destruct B as [_ B]. now apply (first_reaching_unique _ _ _ _ B).
  - unfold first_reaching, geometric_cdf. split; [intros [|[|j]] Hj; [| |lia]|]; cbn [pow]; lra.
Qed.

Print Assumptions C93_exponential.
Print Assumptions C93_uniform.
Print Assumptions C93_pareto.
Print Assumptions C93_weibull.
Print Assumptions C93_power.
Print Assumptions C93_laplace.
Print Assumptions C93_gumbel.
Print Assumptions C93_logistic.
Print Assumptions C93_rayleigh.
Print Assumptions C93_triangular.
Print Assumptions C93_geometric_search.
Print Assumptions C93_geometric_inversion.
Print Assumptions C93_geometric_methods.
Print Assumptions C93_geometric.
Print Assumptions C93_geometric_zero_refuted.
Print Assumptions C93_poisson.
Print Assumptions C93_binomial.
Print Assumptions C93_binomial_tail_refuted.
Print Assumptions C93_logseries.
Print Assumptions C93_logseries_zero_refuted.
