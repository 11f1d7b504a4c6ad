(* C99: random_poisson_ptrs and random_poisson. *)
From Verif Require Import Word InvDist PropInvDist PropGamma Ptrs.
From Coq Require Import Reals Lra Lia Psatz.
Open Scope R_scope.

Definition poisson_pmf (lam : R) (k : nat) : R := exp (- lam) * lam ^ k / INR (fact k).
(* what the density of the proposal is divided by *)
Definition slope (lam U : R) : R := pa lam / (us U * us U) + pb lam.

Lemma sqrt_10 lam : 10 <= lam -> 316 / 100 <= sqrt lam /\ sqrt lam * sqrt lam = lam.
Proof.
  intros H. split; [|apply sqrt_sqrt; lra]. rewrite <- (sqrt_square (316 / 100)) by lra. apply sqrt_le_1; lra.
Qed.
Lemma setup_pos lam : 10 <= lam -> 8 < pb lam /\ 0 < pa lam /\ 0 < invalpha lam.
Proof.
  intros H. destruct (sqrt_10 lam H) as [S _]. assert (B : 8 < pb lam) by (unfold pb; lra). split; [exact B|]. split; [unfold pa; lra|].
  unfold invalpha. assert (0 < 11328 / 10000 / (pb lam - 34 / 10)) by (apply Rdiv_lt_0_compat; lra). lra.
Qed.
Lemma us_pos U : - (1 / 2) < U < 1 / 2 -> 0 < us U.
Proof. intros H. unfold us. unfold Rabs. destruct (Rcase_abs U); lra. Qed.
Lemma slope_pos lam U : 10 <= lam -> - (1 / 2) < U < 1 / 2 -> 0 < slope lam U.
Proof.
  intros H HU. destruct (setup_pos lam H) as [B [A _]]. pose proof (us_pos U HU) as P. unfold slope.
  assert (0 < pa lam / (us U * us U)) by (apply Rdiv_lt_0_compat; nra). lra.
Qed.

(* the proposed number grows with U, at the rate slope *)
Theorem C99_monotone : forall lam U W, 10 <= lam -> - (1 / 2) < U -> U < W -> W < 1 / 2 -> px lam U < px lam W.
Proof.
  intros lam U W H A L B. destruct (setup_pos lam H) as [PB [PA _]]. pose proof (us_pos U ltac:(lra)) as P. pose proof (us_pos W ltac:(lra)) as Q.
  assert (E : U / us U < W / us W).
  { apply (Rmult_lt_reg_r (us U * us W)); [nra|]. replace (U / us U * (us U * us W)) with (U * us W) by (field; lra). replace (W / us W * (us U * us W)) with (W * us U) by (field; lra).
    unfold us, Rabs. destruct (Rcase_abs U), (Rcase_abs W); nra. }
  unfold px. replace ((2 * pa lam / us U + pb lam) * U) with (2 * pa lam * (U / us U) + pb lam * U) by (field; lra).
  replace ((2 * pa lam / us W + pb lam) * W) with (2 * pa lam * (W / us W) + pb lam * W) by (field; lra).
  apply (Rmult_lt_compat_l (2 * pa lam)) in E; [|lra]. nra.
Qed.
Theorem C99_density : forall lam U, - (1 / 2) < U < 1 / 2 -> U <> 0 -> derivable_pt_lim (px lam) U (slope lam U).
Proof.
  intros lam U H N. set (a := pa lam). set (b := pb lam).
  assert (D : forall s, s * U < 1 / 2 -> derivable_pt_lim (fun x => (2 * a * x) / (1 / 2 - s * x) + (b * x + (lam + 43 / 100))) U ((2 * a * 1 * (1 / 2 - s * U) - (0 - s * 1) * (2 * a * U)) / Rsqr (1 / 2 - s * U) + (b * 1 + 0))).
  { intros s Hs. apply (derivable_pt_lim_plus (fun x => (2 * a * x) / (1 / 2 - s * x)) (fun x => b * x + (lam + 43 / 100))).
    - apply (derivable_pt_lim_div (fun x => 2 * a * x) (fun x => 1 / 2 - s * x)).
      + apply (derivable_pt_lim_scal (fun x => x)). apply derivable_pt_lim_id.
      + apply (derivable_pt_lim_minus (fun _ => 1 / 2) (fun x => s * x)); [apply derivable_pt_lim_const|]. apply (derivable_pt_lim_scal (fun x => x)). apply derivable_pt_lim_id.
      + lra.
    - apply (derivable_pt_lim_plus (fun x => b * x) (fun _ => lam + 43 / 100)); [|apply derivable_pt_lim_const]. apply (derivable_pt_lim_scal (fun x => x)). apply derivable_pt_lim_id. }
  destruct (Rlt_le_dec U 0) as [L|L].
  - specialize (D (-1) ltac:(lra)). match type of D with derivable_pt_lim _ _ ?l => replace (slope lam U) with l end.
    + eapply (derivable_pt_lim_locally_ext _ _ U (- (1 / 2)) 0); [lra| |exact D]. intros z Hz. unfold px, us. rewrite Rabs_left by lra. fold a b. field. lra.
    + unfold slope, us, Rsqr. rewrite Rabs_left by lra. fold a b. field. lra.
  - specialize (D 1 ltac:(lra)). match type of D with derivable_pt_lim _ _ ?l => replace (slope lam U) with l end.
    + eapply (derivable_pt_lim_locally_ext _ _ U 0 (1 / 2)); [lra| |exact D]. intros z Hz. unfold px, us. rewrite Rabs_right by lra. fold a b. field. lra.
    + unfold slope, us, Rsqr. rewrite Rabs_right by lra. fold a b. field. lra.
Qed.

(* the last test accepts with the probability that makes the law that of Poisson *)
Lemma pmf_ln lam k : 0 < lam -> 0 < poisson_pmf lam k /\ ln (poisson_pmf lam k) = - lam + INR k * ln lam - ln (INR (fact k)).
Proof.
  intros H. pose proof (INR_fact_lt_0 k) as F. pose proof (pow_lt lam k H) as P. pose proof (exp_pos (- lam)) as E. unfold poisson_pmf. split.
  - apply Rdiv_lt_0_compat; [apply Rmult_lt_0_compat|]; assumption.
  - unfold Rdiv. rewrite ln_mult by (try apply Rmult_lt_0_compat; try apply Rinv_0_lt_compat; assumption). rewrite ln_mult by assumption. rewrite ln_Rinv by assumption. rewrite ln_exp, <- Rpower_pow by exact H. unfold Rpower. rewrite ln_exp. ring.
Qed.
Theorem C99_accept : forall lam k U V, 10 <= lam -> - (1 / 2) < U < 1 / 2 -> 0 <= V ->
  last_test lam k U V = true <-> V <= poisson_pmf lam k * slope lam U / invalpha lam.
Proof.
  intros lam k U V H HU HV. destruct (setup_pos lam H) as [_ [_ I]]. pose proof (slope_pos lam U H HU) as S. destruct (pmf_ln lam k ltac:(lra)) as [P E].
  assert (Q : 0 < poisson_pmf lam k * slope lam U / invalpha lam) by (apply Rdiv_lt_0_compat; [apply Rmult_lt_0_compat|]; assumption).
  unfold last_test. destruct (Req_EM_T V 0) as [Z|Z]; [subst; split; intros; [lra | reflexivity]|]. rewrite <- E. fold (slope lam U).
  assert (LE : ln (poisson_pmf lam k * slope lam U / invalpha lam) = ln (poisson_pmf lam k) + ln (slope lam U) - ln (invalpha lam)).
  { unfold Rdiv. rewrite ln_mult by (try apply Rmult_lt_0_compat; try apply Rinv_0_lt_compat; assumption). rewrite ln_mult by assumption. rewrite ln_Rinv by assumption. ring. }
  destruct (Rle_dec _ _) as [L|L]; split; intros X; try reflexivity; try discriminate.
  - destruct (Rle_lt_dec V (poisson_pmf lam k * slope lam U / invalpha lam)) as [Y|Y]; [exact Y|]. apply ln_increasing in Y; [|exact Q]. lra.
  - exfalso. apply L. destruct X as [X|X]; [apply ln_increasing in X; lra | rewrite X, LE; lra].
Qed.
Theorem C99_law : forall lam k U, 10 <= lam -> - (1 / 2) < U < 1 / 2 ->
  / slope lam U * (poisson_pmf lam k * slope lam U / invalpha lam) = poisson_pmf lam k / invalpha lam.
Proof. intros lam k U H HU. pose proof (slope_pos lam U H HU). destruct (setup_pos lam H) as [_ [_ I]]. field. lra. Qed.

(* no negative number is returned, though the first test does not look at the sign of k *)
Theorem C99_nonneg : forall lam u V k, 10 <= lam -> 0 <= u < 1 -> ptrs lam u V = PVal k -> (0 <= k)%Z.
Proof.
  intros lam u V k H Hu. unfold ptrs. cbv zeta. set (U := u - 1 / 2). destruct (Req_EM_T (us U) 0); [discriminate|].
  set (z := Int_part (px lam U)). destruct (Rle_dec (7 / 100) (us U)) as [L|L].
  - assert (Z : (0 <= z)%Z).
    { assert (B : - (43 / 100) <= U) by (unfold us, Rabs in L; destruct (Rcase_abs U); lra). destruct (sqrt_10 lam H) as [S SS]. destruct (setup_pos lam H) as [PB [PA _]].
      assert (D : 0 <= 2 * pa lam / us U <= 2 * pa lam / (7 / 100)).
      { split; [left; apply Rdiv_lt_0_compat; lra|]. unfold Rdiv. apply Rmult_le_compat_l; [lra|]. apply Rinv_le_contravar; lra. }
      assert (G : 0 <= px lam U).
      { unfold px. set (t := 2 * pa lam / us U) in *. assert (- (43 / 100) * (2 * pa lam / (7 / 100) + pb lam) <= (t + pb lam) * U) by nra.
        assert (0 <= - (43 / 100) * (2 * pa lam / (7 / 100) + pb lam) + lam + 43 / 100); [|lra]. unfold pa, pb. nra. }
      destruct (base_Int_part (px lam U)) as [_ Q]. assert (-1 < z)%Z; [|lia]. apply lt_IZR. unfold z. lra. }
    destruct (Rle_dec V (pvr lam)); [congruence|]. destruct (z <? 0)%Z; [discriminate|]. destruct (last_test _ _ _ _); congruence.
  - destruct (Z.ltb_spec z 0); [discriminate|]. destruct (Rlt_dec _ _); [destruct (Rlt_dec _ _); [discriminate|]|]; (destruct (last_test _ _ _ _); [congruence | discriminate]).
Qed.
(* a round whose first number is 0 converts minus infinity to an integer, and no other does *)
Theorem C99_undefined_refuted : forall lam u V, 0 <= u < 1 -> ptrs lam u V = PUndef <-> u = 0.
Proof.
  intros lam u V Hu. unfold ptrs. cbv zeta. destruct (Req_EM_T (us (u - 1 / 2)) 0) as [E|E].
  - split; [intros _|reflexivity]. unfold us, Rabs in E. destruct (Rcase_abs (u - 1 / 2)); lra.
  - split; [|intros ->; exfalso; apply E; unfold us; rewrite Rabs_left; lra].
    repeat match goal with |- context [if ?c then _ else _] => destruct c end; discriminate.
Qed.
(* When a call returns k, stated with the constants of the algorithm written out again: k is the floor of x, and either the first
   test holds, or k is not negative, the second test fails and V is at most the Poisson probability of k times slope / alpha *)
Definition returns (lam u V : R) (k : Z) : Prop :=
  let b := 0.931 + 2.53 * sqrt lam in
  let a := -0.059 + 0.02483 * b in
  let U := u - 0.5 in
  let d := 0.5 - Rabs U in
  let x := (2 * a / d + b) * U + lam + 0.43 in
  IZR k <= x < IZR k + 1 /\
  (0.07 <= d /\ V <= 0.9277 - 3.6224 / (b - 2) \/
   (0 <= k)%Z /\ ~ (d < 0.013 /\ d < V) /\ V <= poisson_pmf lam (Z.to_nat k) * (a / (d * d) + b) / (1.1239 + 1.1328 / (b - 3.4))).
Lemma Int_part_iff x k : Int_part x = k <-> IZR k <= x < IZR k + 1.
Proof.
  destruct (base_Int_part x) as [A B]. split; [intros <-; lra|]. intros [C D].
  assert (Int_part x < k + 1)%Z by (apply lt_IZR; rewrite plus_IZR; lra). assert (k < Int_part x + 1)%Z by (apply lt_IZR; rewrite plus_IZR; lra). lia.
Qed.
Theorem C99_round : forall lam u V vs k, 10 <= lam -> 0 < u < 1 -> 0 <= V ->
  random_poisson lam u V vs = QPtrs (PVal k) <-> returns lam u V k.
Proof.
  intros lam u V vs k H Hu HV. unfold random_poisson. destruct (Rle_dec 10 lam) as [_|]; [|lra].
  unfold returns. cbv zeta. replace (0.931 + 2.53 * sqrt lam) with (pb lam) by (unfold pb; lra). replace (-0.059 + 0.02483 * pb lam) with (pa lam) by (unfold pa; lra).
  replace (u - 0.5) with (u - 1 / 2) by lra. set (U := u - 1 / 2). assert (HU : - (1 / 2) < U < 1 / 2) by (unfold U; lra). pose proof (us_pos U HU) as P.
  replace (0.5 - Rabs U) with (us U) by (unfold us; lra). replace ((2 * pa lam / us U + pb lam) * U + lam + 0.43) with (px lam U) by (unfold px; lra).
  replace (0.9277 - 3.6224 / (pb lam - 2)) with (pvr lam) by (unfold pvr; lra). replace (1.1239 + 1.1328 / (pb lam - 3.4)) with (invalpha lam) by (unfold invalpha; replace (pb lam - 3.4) with (pb lam - 34 / 10) by lra; lra).
  fold (slope lam U). rewrite <- Int_part_iff, <- (C99_accept lam (Z.to_nat k) U V H HU HV).
  unfold ptrs. cbv zeta. fold U. destruct (Req_EM_T (us U) 0); [lra|]. set (z := Int_part (px lam U)).
  assert (T : forall b : bool, QPtrs (if b then PVal z else PMore) = QPtrs (PVal k) <-> b = true /\ z = k) by (intros []; split; [intros E | intros [_ E] | intros E | intros [E _]]; try congruence; split; congruence).
  assert (M : QPtrs PMore = QPtrs (PVal k) <-> False) by (split; [discriminate | contradiction]).
  assert (W : QPtrs (PVal z) = QPtrs (PVal k) <-> z = k) by (split; congruence).
  destruct (Rle_dec (7 / 100) (us U)) as [L|L].
  - destruct (Rle_dec V (pvr lam)) as [Y|Y].
    + rewrite W. split; [intros E; split; [exact E|left; lra] | tauto].
    + destruct (Z.ltb_spec z 0).
      * rewrite M. split; [contradiction|]. intros [E [[_ Q]|[Q _]]]; [lra | lia].
      * rewrite T. split; [intros [B <-]; split; [reflexivity|right; split; [assumption|split; [lra | exact B]]] | intros [<- [[_ Q]|[_ [_ Q]]]]; [lra | tauto]].
  - destruct (Z.ltb_spec z 0).
    + rewrite M. split; [contradiction|]. intros [E [[Q _]|[Q _]]]; [lra | lia].
    + destruct (Rlt_dec (us U) (13 / 1000)) as [S|S]; [destruct (Rlt_dec (us U) V) as [X|X]|].
      * rewrite M. split; [contradiction|]. intros [E [[Q _]|[_ [Q _]]]]; [lra|]. apply Q. split; lra.
      * rewrite T. split; [intros [B <-]; split; [reflexivity|right; split; [assumption|split; [lra | exact B]]] | intros [<- [[Q _]|[_ [_ Q]]]]; [lra | tauto]].
      * rewrite T. split; [intros [B <-]; split; [reflexivity|right; split; [assumption|split; [lra | exact B]]] | intros [<- [[Q _]|[_ [_ Q]]]]; [lra | tauto]].
Qed.
(* below 10 the product of uniform numbers is used *)
Theorem C99_small : forall lam u V vs z, lam < 10 -> lam <> 0 -> random_poisson lam u V vs = QMult (Some z) <-> poisson_mult lam vs = Some z.
Proof.
  intros lam u V vs z H N. unfold random_poisson. destruct (Rle_dec 10 lam); [lra|]. destruct (Req_EM_T lam 0); [contradiction|]. split; congruence.
Qed.

Example C99_case : random_poisson 16 (1 / 2) (1 / 4) [] = QPtrs (PVal 16) /\ random_poisson 16 0 (1 / 4) [] = QPtrs PUndef /\ random_poisson 0 0 0 [] = QMult (Some 0%Z) /\
  ptrs 16 (1 / 1000) (1 / 2) = PMore.
Proof.
  assert (S : sqrt 16 = 4) by (replace 16 with (4 * 4) by lra; apply sqrt_square; lra).
  split; [|split; [|split]].
  - unfold random_poisson. destruct (Rle_dec 10 16); [|lra]. f_equal. unfold ptrs. cbv zeta. replace (1 / 2 - 1 / 2) with 0 by lra. assert (E : us 0 = 1 / 2) by (unfold us; rewrite Rabs_R0; lra). rewrite E.
    destruct (Req_EM_T (1 / 2) 0); [lra|]. destruct (Rle_dec (7 / 100) (1 / 2)); [|lra].
    destruct (Rle_dec (1 / 4) (pvr 16)) as [_|NV].
    + f_equal. unfold px. rewrite Rmult_0_r. symmetry. assert (Q : (16 + 1)%Z = up (0 + 16 + 43 / 100)) by (apply tech_up; simpl; lra). unfold Int_part. lia.
    + exfalso. apply NV. unfold pvr, pb. rewrite S. lra.
  - unfold random_poisson. destruct (Rle_dec 10 16); [|lra]. f_equal. apply C99_undefined_refuted; lra.
  - unfold random_poisson. destruct (Rle_dec 10 0); [lra|]. destruct (Req_EM_T 0 0); [reflexivity | lra].
  - unfold ptrs. cbv zeta. assert (E : us (1 / 1000 - 1 / 2) = 1 / 1000) by (unfold us; rewrite Rabs_left; lra). rewrite E.
    destruct (Req_EM_T _ 0); [lra|]. destruct (Rle_dec _ _); [lra|]. destruct (Z.ltb _ _); [reflexivity|]. destruct (Rlt_dec _ _); [|lra]. destruct (Rlt_dec _ _); [reflexivity | lra].
Qed.
Example C99_round_case : returns 16 (1 / 2) (1 / 4) 16 /\ ~ returns 16 (1 / 1000) (1 / 2) 0.
Proof.
  destruct C99_case as [A [_ [_ B]]]. split.
  - apply (C99_round 16 (1 / 2) (1 / 4) []); [lra | lra | lra | exact A].
  - intros X. apply (C99_round 16 (1 / 1000) (1 / 2) []) in X; [|lra|lra|lra]. unfold random_poisson in X. destruct (Rle_dec 10 16); [|lra]. rewrite B in X. discriminate.
Qed.

Print Assumptions C99_monotone.
Print Assumptions C99_density.
Print Assumptions C99_accept.
Print Assumptions C99_law.
Print Assumptions C99_nonneg.
Print Assumptions C99_undefined_refuted.
Print Assumptions C99_round.
Print Assumptions C99_small.
