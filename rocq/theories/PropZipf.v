(* C95: random_zipf and random_wald draw from the distributions they are named after. *)
From Verif Require Import Word InvDist PropInvDist Zipf.
From Coq Require Import Reals Lra Lia.
Open Scope R_scope.

Lemma Int_part_iff x k : Int_part x = k <-> IZR k <= x < IZR k + 1.
Proof.
  destruct (base_Int_part x) as [A B]. split; [intros <-; lra|]. intros [C D].
  assert (k < Int_part x + 1)%Z by (apply lt_IZR; rewrite plus_IZR; lra). assert (Int_part x < k + 1)%Z by (apply lt_IZR; rewrite plus_IZR; lra). lia.
Qed.
Lemma Int_part_IZR k : Int_part (IZR k) = k.
Proof. apply Int_part_iff. lra. Qed.
(* exp lies below its chord from 0 *)
Lemma exp_chord u l : 0 <= l <= 1 -> exp (l * u) <= 1 - l + l * exp u.
Proof.
  intros H. set (z := l * u). assert (T : forall x, exp z * (1 + (x - z)) <= exp x).
  { intros x. replace x with (z + (x - z)) at 2 by ring. rewrite exp_plus. pose proof (exp_pos z). pose proof (exp_ineq1_le (x - z)). nra. }
  pose proof (T u) as A. pose proof (T 0) as B. rewrite exp_0 in B. pose proof (exp_pos z) as P.
  assert (E : exp z * 1 = l * (exp z * (1 + (u - z))) + (1 - l) * (exp z * (1 + (0 - z)))) by (unfold z; ring). nra.
Qed.
Lemma Rpower_le_iff x y s : 0 < x -> 0 < y -> 0 < s -> Rpower x s <= y <-> x <= Rpower y (/ s).
Proof.
  intros Hx Hy Hs. unfold Rpower. rewrite <- ln_le_exp by exact Hx. rewrite <- le_ln_exp by exact Hy.
  split; intros H; [apply (Rmult_le_reg_l s) | apply (Rmult_le_compat_l s) in H]; try lra.
  - rewrite <- Rmult_assoc, Rinv_r by lra. lra.
  - rewrite <- Rmult_assoc, Rinv_r in H by lra. lra.
Qed.

(* the probability with which the proposed k is accepted *)
Definition zipf_p (s k : R) : R := Rpower (1 + 1 / k) s * (Rpower 2 s - 1) / (Rpower 2 s * (k * (Rpower (1 + 1 / k) s - 1))).
Lemma Rpower_gt_1 x s : 1 < x -> 0 < s -> 1 < Rpower x s.
Proof. intros H S. rewrite <- (Rpower_O x) by lra. now apply Rpower_lt. Qed.
Lemma zipf_p_range s k : 0 < s -> 1 <= k -> 0 < zipf_p s k <= 1.
Proof.
  intros S K. unfold zipf_p. assert (K' : 0 < 1 / k <= 1).
  { split; [apply Rdiv_lt_0_compat; lra|]. apply div_le_iff; lra. }
  pose proof (Rpower_gt_1 2 s ltac:(lra) S) as B. pose proof (Rpower_gt_1 (1 + 1 / k) s ltac:(lra) S) as T.
  set (l := 1 / k) in *. assert (Kl : k * l = 1) by (unfold l; field; lra).
  assert (C : / Rpower (1 + l) s <= 1 - l + l * / Rpower 2 s).
  { rewrite <- !Rpower_Ropp. unfold Rpower at 1.
    assert (L : l * ln 2 <= ln (1 + l)).
    { apply le_ln_exp; [lra|]. pose proof (exp_chord (ln 2) l ltac:(lra)) as Q. rewrite exp_ln in Q by lra. lra. }
    pose proof (exp_chord (- s * ln 2) l ltac:(lra)) as Q. unfold Rpower. eapply Rle_trans; [|exact Q]. apply exp_le_iff. nra. }
  clearbody l. set (b := Rpower 2 s) in *. set (t := Rpower (1 + l) s) in *. clearbody b t.
  assert (D : 0 < b * (k * (t - 1))) by (repeat apply Rmult_lt_0_compat; lra).
  split.
  - apply Rdiv_lt_0_compat; [apply Rmult_lt_0_compat; lra | exact D].
  - apply div_le_iff; [exact D|]. rewrite Rmult_1_l.
    assert (E : b * k <= t * (b * k - b + 1)).
    { apply (Rmult_le_compat_l (t * (b * k))) in C; [|repeat apply Rmult_le_pos; lra].
      replace (t * (b * k) * / t) with (b * k) in C by (field; lra).
      replace (t * (b * k) * (1 - l + l * / b)) with (t * (b * k - b * (k * l) + (k * l))) in C by (field; lra). rewrite Kl in C. lra. }
    nra.
Qed.

(* a value k is proposed exactly when 1 - u lies between (k+1)^(1-a) and k^(1-a) *)
Theorem C95_zipf_proposal : forall a u k, 1 < a -> 0 <= u < 1 -> (1 <= k)%Z ->
  Int_part (Rpower (1 - u) (-1 / (a - 1))) = k <-> Rpower (IZR k + 1) (- (a - 1)) < 1 - u <= Rpower (IZR k) (- (a - 1)).
Proof.
  intros a u k Ha Hu Hk. set (s := a - 1). assert (S : 0 < s) by (unfold s; lra). clearbody s. apply IZR_le in Hk.
  rewrite Int_part_iff. rewrite !Rpower_Ropp.
  assert (Q : forall x, 0 < x -> x <= Rpower (1 - u) (-1 / s) <-> 1 - u <= / Rpower x s).
  { intros x Hx. replace (-1 / s) with (- / s) by (field; lra). rewrite Rpower_Ropp.
    assert (P : 0 < Rpower (1 - u) (/ s)) by apply exp_pos. assert (P' : 0 < Rpower x s) by apply exp_pos.
    transitivity (Rpower x s <= / (1 - u)).
    - rewrite Rpower_le_iff by (try exact Hx; try exact S; apply Rinv_0_lt_compat; lra).
      replace (Rpower (/ (1 - u)) (/ s)) with (/ Rpower (1 - u) (/ s)); [reflexivity|]. unfold Rpower. rewrite ln_Rinv by lra. rewrite Ropp_mult_distr_r_reverse, exp_Ropp. reflexivity.
    - replace (/ Rpower x s) with (1 / Rpower x s) by (field; lra). replace (/ (1 - u)) with (1 / (1 - u)) by (field; lra). rewrite !le_div_iff by lra. split; intros; lra. }
  pose proof (Q (IZR k) ltac:(lra)) as Q1. pose proof (Q (IZR k + 1) ltac:(lra)) as Q2. split; intros [A B]; split.
  - apply Rnot_le_lt. intros C. apply Q2 in C. lra.
  - now apply Q1.
  - now apply Q1.
  - apply Rnot_le_lt. intros C. apply Q2 in C. lra.
Qed.
(* every number proposed is at least 1 *)
Theorem C95_zipf_positive : forall a u, 1 < a -> 0 <= u < 1 -> (1 <= Int_part (Rpower (1 - u) (-1 / (a - 1))))%Z.
Proof.
  intros a u Ha Hu. set (x := Rpower _ _). assert (1 <= x).
  { unfold x, Rpower. apply (Rle_trans _ (exp 0)); [rewrite exp_0; lra|]. apply exp_le_iff. assert (L : ln (1 - u) <= 0) by (apply ln_le_exp; rewrite ?exp_0; lra).
    replace (-1 / (a - 1) * ln (1 - u)) with ((- ln (1 - u)) / (a - 1)) by (field; lra). apply le_div_iff; lra. }
  destruct (base_Int_part x) as [A B]. assert (0 < Int_part x)%Z; [apply lt_IZR; lra | lia].
Qed.
(* it is accepted exactly when V is at most zipf_p *)
Theorem C95_zipf_accept : forall a u V k, 1 < a -> 0 <= u < 1 -> 0 <= V < 1 -> (1 <= k < 2 ^ 63)%Z -> Int_part (Rpower (1 - u) (-1 / (a - 1))) = k ->
  0 < zipf_p (a - 1) (IZR k) <= 1 /\ zipf_try a u V = if Rle_dec V (zipf_p (a - 1) (IZR k)) then ZVal k else ZMore.
Proof.
  intros a u V k Ha Hu HV Hk E. assert (K : 1 <= IZR k < IZR (2 ^ 63)) by (split; [apply IZR_le | apply IZR_lt]; lia).
  split; [apply zipf_p_range; lra|]. unfold zipf_try. rewrite E. destruct (Rlt_dec (IZR (2 ^ 63)) (IZR k)) as [?|_]; [lra|]. destruct (Rlt_dec (IZR k) 1) as [?|_]; [lra|].
  rewrite Int_part_IZR. destruct (Z.ltb_spec k (2 ^ 63)) as [_|?]; [|lia]. set (x := IZR k) in *. set (s := a - 1). assert (S : 0 < s) by (unfold s; lra). clearbody s.
  assert (K' : 0 < 1 / x) by (apply Rdiv_lt_0_compat; lra).
  pose proof (Rpower_gt_1 2 s ltac:(lra) S) as B. pose proof (Rpower_gt_1 (1 + 1 / x) s ltac:(lra) S) as T. unfold zipf_p.
  set (b := Rpower 2 s) in *. set (t := Rpower (1 + 1 / x) s) in *. clearbody b t.
  assert (Q : V * x * (t - 1) / (b - 1) <= t / b <-> V <= t * (b - 1) / (b * (x * (t - 1)))).
  { assert (D : 0 < b * (x * (t - 1))) by (repeat apply Rmult_lt_0_compat; lra). rewrite (le_div_iff (b * (x * (t - 1)))) by exact D. rewrite div_le_iff by lra.
    replace (t / b * (b - 1)) with (t * (b - 1) / b) by (field; lra). rewrite le_div_iff by lra. split; intros; lra. }
  destruct (Rle_dec (V * x * (t - 1) / (b - 1)) (t / b)) as [L|L], (Rle_dec V (t * (b - 1) / (b * (x * (t - 1))))) as [L'|L']; try reflexivity; [elim L'; now apply Q | elim L; now apply Q].
Qed.
(* the probability of proposing k times that of accepting it is proportional to k^(-a) *)
Theorem C95_zipf_law : forall a k, 1 < a -> 1 <= k ->
  (Rpower k (- (a - 1)) - Rpower (k + 1) (- (a - 1))) * zipf_p (a - 1) k = (1 - Rpower 2 (- (a - 1))) * Rpower k (- a).
Proof.
  intros a k Ha Hk. set (s := a - 1). assert (S : 0 < s) by (unfold s; lra). replace (- a) with (- s + - (1)) by (unfold s; ring). clearbody s.
  rewrite Rpower_plus. rewrite (Rpower_Ropp k 1), Rpower_1 by lra. unfold zipf_p. replace (k + 1) with (k * (1 + 1 / k)) by (field; lra).
  assert (K' : 0 < 1 / k) by (apply Rdiv_lt_0_compat; lra). rewrite !Rpower_Ropp. rewrite <- Rpower_mult_distr by lra.
  pose proof (Rpower_gt_1 2 s ltac:(lra) S) as B. pose proof (Rpower_gt_1 (1 + 1 / k) s ltac:(lra) S) as T. assert (P : 0 < Rpower k s) by apply exp_pos.
  set (b := Rpower 2 s) in *. set (t := Rpower (1 + 1 / k) s) in *. set (x := Rpower k s) in *. clearbody b t x. field. repeat split; lra.
Qed.
(* (double)INT64_MAX is 2^63, which is not an int64_t and not rejected *)
Theorem C95_zipf_undefined_refuted : exists a u, 1 < a /\ 0 <= u < 1 /\ 1 - u = / 2 ^ 21 /\ zipf_try a u 0 = ZUndef.
Proof.
  exists (4 / 3), (1 - / 2 ^ 21). split; [lra|]. split; [lra|]. split; [lra|]. unfold zipf_try.
  replace (1 - (1 - / 2 ^ 21)) with (/ 2 ^ 21) by lra. replace (4 / 3 - 1) with (/ 3) by lra.
  assert (E : Rpower (/ 2 ^ 21) (-1 / / 3) = IZR (2 ^ 63)).
  { unfold Rpower. replace (-1 / / 3) with (- INR 3) by (cbn; lra). rewrite ln_Rinv by lra. rewrite ln_pow by lra.
    replace (- INR 3 * - (INR 21 * ln 2)) with (INR 63 * ln 2) by (rewrite !INR_IZR_INZ; cbn [Z.of_nat Pos.of_succ_nat Pos.succ]; ring).
    replace (exp (INR 63 * ln 2)) with (Rpower 2 (INR 63)) by reflexivity. rewrite Rpower_pow by lra. rewrite pow_IZR. f_equal. }
  rewrite E, !Int_part_IZR. destruct (Rlt_dec _ _) as [?|_]; [lra|]. destruct (Rlt_dec _ _) as [?|_]; [lra|]. rewrite Z.ltb_irrefl.
  destruct (Rle_dec _ _) as [_|N]; [reflexivity|]. elim N.
  pose proof (exp_pos (/ 3 * ln (1 + 1 / IZR (2 ^ 63)))) as P. pose proof (exp_pos (/ 3 * ln 2)) as P'. unfold Rdiv at 1. rewrite !Rmult_0_l. left. apply Rdiv_lt_0_compat; assumption.
Qed.

(* random_wald: both candidates are positive solutions x of scale (x - mean)^2 = n^2 mean^2 x, so that
   scale (X - mean)^2 / (mean^2 X) is the square of a normal number, as for the inverse Gaussian distribution *)
Lemma wald_X_spec mean scale n : 0 < mean -> 0 < scale -> 0 < wald_X mean scale n <= mean /\ scale * (wald_X mean scale n - mean) ^ 2 = n ^ 2 * mean ^ 2 * wald_X mean scale n.
Proof.
  intros Hm Hs. unfold wald_X. set (Y := mean * n * n). assert (P : 0 <= Y) by (unfold Y; nra). set (D := 4 * scale * Y + Y * Y). assert (PD : 0 <= D) by (unfold D; nra).
  pose proof (sqrt_pos D) as S. pose proof (sqrt_sqrt D PD) as Q. set (r := sqrt D) in *. clearbody r.
  set (m := mean / (2 * scale)). assert (M : m * (2 * scale) = mean) by (unfold m; field; lra). assert (Pm : 0 < m) by (unfold m; apply Rdiv_lt_0_compat; lra). clearbody m.
  assert (R1 : Y <= r) by (unfold D in Q; nra). assert (R2 : r < Y + 2 * scale) by (unfold D in Q; nra).
  split; [split|].
  - assert (m * (r - Y) < m * (2 * scale)) by (apply Rmult_lt_compat_l; lra). lra.
  - nra.
  - replace (n ^ 2 * mean ^ 2) with (Y * mean) by (unfold Y; ring). rewrite <- M. clear R1 R2 S PD. unfold D in Q. clearbody Y.
    replace (scale * (m * (2 * scale) + m * (Y - r) - m * (2 * scale)) ^ 2) with (scale * m * m * (Y * Y - 2 * Y * r + r * r)) by ring. rewrite Q. ring.
Qed.
Theorem C95_wald : forall mean scale n U, 0 < mean -> 0 < scale -> 0 <= U < 1 ->
  0 < wald mean scale n U /\ scale * (wald mean scale n U - mean) ^ 2 = n ^ 2 * mean ^ 2 * wald mean scale n U.
Proof.
  intros mean scale n U Hm Hs HU. destruct (wald_X_spec mean scale n Hm Hs) as [P E]. unfold wald. cbv zeta. set (X := wald_X mean scale n) in *. clearbody X.
  destruct (Rle_dec _ _); [split; [lra | exact E]|]. split; [apply Rdiv_lt_0_compat; nra|].
  apply (Rmult_eq_reg_r (X ^ 2)); [|nra]. replace (scale * (mean * mean / X - mean) ^ 2 * X ^ 2) with (mean ^ 2 * (scale * (X - mean) ^ 2)) by (field; lra).
  rewrite E. field. lra.
Qed.
(* the smaller one is taken with probability mean / (mean + X), the larger one otherwise *)
Theorem C95_wald_choice : forall mean scale n U, 0 < mean -> 0 < scale -> 0 <= U < 1 ->
  let X := wald_X mean scale n in 0 < X <= mean /\ 1 / 2 <= mean / (mean + X) < 1 /\
  (U <= mean / (mean + X) -> wald mean scale n U <= mean) /\ (mean / (mean + X) < U -> mean <= wald mean scale n U).
Proof.
  intros mean scale n U Hm Hs HU. destruct (wald_X_spec mean scale n Hm Hs) as [P E]. unfold wald. cbv zeta. set (X := wald_X mean scale n) in *. clearbody X.
  split; [exact P|]. split; [split|].
  - apply le_div_iff; lra.
  - apply (Rmult_lt_reg_r (mean + X)); [lra|]. unfold Rdiv. rewrite Rmult_assoc, Rinv_l by lra. lra.
  - split; intros H; destruct (Rle_dec _ _); try lra. apply le_div_iff; nra.
Qed.

Example C95_case : Int_part (Rpower (1 - 3 / 4) (-1 / (2 - 1))) = 4%Z /\ zipf_try 2 (3 / 4) (1 / 2) = ZVal 4 /\ wald_X 1 1 0 = 1.
Proof.
  assert (E : Int_part (Rpower (1 - 3 / 4) (-1 / (2 - 1))) = 4%Z).
  { replace (1 - 3 / 4) with (/ 4) by lra. replace (-1 / (2 - 1)) with (- (1)) by lra. rewrite Rpower_Ropp, Rpower_1 by lra. rewrite Rinv_inv. apply (Int_part_IZR 4). }
  split; [exact E|]. split.
  - pose proof (proj2 (C95_zipf_accept 2 (3 / 4) (1 / 2) 4 ltac:(lra) ltac:(lra) ltac:(lra) ltac:(lia) E)) as A. rewrite A. destruct (Rle_dec _ _) as [_|N]; [reflexivity|]. elim N.
    unfold zipf_p. replace (2 - 1) with 1 by lra. rewrite !Rpower_1 by lra. lra.
  - unfold wald_X. replace (1 * 0 * 0) with 0 by ring. replace (4 * 1 * 0 + 0 * 0) with 0 by ring. rewrite sqrt_0. lra.
Qed.

Print Assumptions C95_zipf_proposal.
Print Assumptions C95_zipf_positive.
Print Assumptions C95_zipf_accept.
Print Assumptions C95_zipf_law.
Print Assumptions C95_zipf_undefined_refuted.
Print Assumptions C95_wald.
Print Assumptions C95_wald_choice.
