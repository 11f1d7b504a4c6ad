(* C96: random_vonmises and random_beta; C93: random_binomial. *)
From Verif Require Import Word HyperLem InvDist PropInvDist Reject.
From Coq Require Import Reals Lra Lia.
Open Scope R_scope.

(* -- von Mises: s -- *)
Lemma vm_r kappa : 0 < kappa -> 2 < 1 + sqrt (1 + 4 * kappa * kappa).
Proof. intros H. assert (sqrt 1 < sqrt (1 + 4 * kappa * kappa)) by (apply sqrt_lt_1; nra). rewrite sqrt_1 in *. lra. Qed.
Lemma vm_s_large kappa : 1 / 100000 <= kappa -> vm_s kappa = (1 + sqrt (1 + 4 * kappa * kappa)) / (2 * kappa).
Proof.
  intros H. unfold vm_s. destruct (Rlt_dec _ _); [lra|]. pose proof (vm_r kappa ltac:(lra)) as R.
  pose proof (sqrt_sqrt (1 + 4 * kappa * kappa) ltac:(nra)) as Q. set (r := 1 + sqrt _) in *.
  assert (E : 4 * kappa * kappa = r * r - 2 * r) by (unfold r; nra). clearbody r. clear Q.
  pose proof (sqrt_sqrt (2 * r) ltac:(lra)) as T. pose proof (sqrt_lt_R0 (2 * r) ltac:(lra)) as P. set (t := sqrt (2 * r)) in *. clearbody t.
  assert (L : t < r) by nra. cbv zeta. set (d := r - t) in *. assert (D : 0 < d) by (unfold d; lra).
  replace ((1 + d / (2 * kappa) * (d / (2 * kappa))) / (2 * (d / (2 * kappa)))) with ((4 * kappa * kappa + d * d) / (4 * kappa * d)) by (field; lra).
  rewrite E. replace (r * r - 2 * r + d * d) with (2 * r * d) by (unfold d; nra). field. lra.
Qed.
Lemma vm_s_gt kappa : 0 < kappa -> 1 < vm_s kappa.
Proof.
  intros H. destruct (Rlt_dec kappa (1 / 100000)) as [L|L].
  - unfold vm_s. destruct (Rlt_dec _ _); [|lra]. assert (1 / kappa * kappa = 1) by (field; lra). assert (0 < 1 / kappa) by (apply Rdiv_lt_0_compat; lra). nra.
  - rewrite vm_s_large by lra. apply (Rmult_lt_reg_r (2 * kappa)); [lra|]. unfold Rdiv. rewrite Rmult_assoc, Rinv_l, Rmult_1_r, Rmult_1_l by lra.
    assert (sqrt ((2 * kappa) * (2 * kappa)) < sqrt (1 + 4 * kappa * kappa)) by (apply sqrt_lt_1; nra). rewrite sqrt_square in * by lra. lra.
Qed.
Theorem C96_scale : forall kappa, 1 / 100000 <= kappa ->
  vm_s kappa = (1 + sqrt (1 + 4 * kappa * kappa)) / (2 * kappa) /\ kappa * vm_s kappa ^ 2 = vm_s kappa + kappa.
Proof.
  intros kappa H. rewrite (vm_s_large kappa H). split; [reflexivity|]. pose proof (sqrt_sqrt (1 + 4 * kappa * kappa) ltac:(nra)) as Q. set (q := sqrt _) in *. clearbody q.
  apply (Rmult_eq_reg_r (4 * kappa)); [|lra]. field_simplify; [|lra..]. nra.
Qed.
Theorem C96_scale_small : forall kappa, 0 < kappa < 1 / 100000 ->
  vm_s kappa - kappa ^ 3 <= (1 + sqrt (1 + 4 * kappa * kappa)) / (2 * kappa) <= vm_s kappa.
Proof.
  intros kappa H. unfold vm_s. destruct (Rlt_dec _ _); [|lra]. pose proof (sqrt_sqrt (1 + 4 * kappa * kappa) ltac:(nra)) as Q. pose proof (sqrt_pos (1 + 4 * kappa * kappa)) as P.
  set (q := sqrt _) in *. clearbody q.
  assert (U : q <= 1 + 2 * kappa ^ 2) by nra. assert (L : 1 + 2 * kappa ^ 2 - 2 * kappa ^ 4 <= q).
  { destruct (Rle_lt_dec (1 + 2 * kappa ^ 2 - 2 * kappa ^ 4) q) as [?|C]; [assumption|]. exfalso. set (k2 := kappa ^ 2) in *. replace (kappa ^ 4) with (k2 * k2) in * by (unfold k2; ring).
    replace (4 * kappa * kappa) with (4 * k2) in * by (unfold k2; ring). assert (0 < k2 < 1 / 100000) by (unfold k2; nra). clearbody k2.
    assert (q * q < (1 + 2 * k2 - 2 * (k2 * k2)) * (1 + 2 * k2 - 2 * (k2 * k2))) by nra. nra. }
  split.
  - apply (Rmult_le_reg_r (2 * kappa)); [lra|]. replace ((1 + q) / (2 * kappa) * (2 * kappa)) with (1 + q) by (field; lra).
    replace ((1 / kappa + kappa - kappa ^ 3) * (2 * kappa)) with (2 + 2 * kappa ^ 2 - 2 * kappa ^ 4) by (field; lra). lra.
  - apply (Rmult_le_reg_r (2 * kappa)); [lra|]. replace ((1 + q) / (2 * kappa) * (2 * kappa)) with (1 + q) by (field; lra).
    replace ((1 / kappa + kappa) * (2 * kappa)) with (2 + 2 * kappa ^ 2) by (field; lra). lra.
Qed.

(* -- one round -- *)
Lemma vm_W_bound s U : 1 < s -> -1 <= vm_W s U <= 1.
Proof.
  intros H. unfold vm_W. cbv zeta. pose proof (COS_bound (PI * U)) as C. set (Z := cos _) in *. clearbody Z. split.
  - apply (Rmult_le_reg_r (s + Z)); [lra|]. unfold Rdiv. rewrite Rmult_assoc, Rinv_l, Rmult_1_r by lra. nra.
  - apply (Rmult_le_reg_r (s + Z)); [lra|]. unfold Rdiv. rewrite Rmult_assoc, Rinv_l, Rmult_1_r by lra. nra.
Qed.
Lemma vm_accepts_iff Y V : 0 < Y -> 0 <= V -> vm_accepts Y V = true <-> V <= Y * exp (1 - Y).
Proof.
  intros HY HV. unfold vm_accepts. pose proof (exp_pos (1 - Y)) as E. destruct (Rle_dec _ _) as [A|A].
  - split; [|reflexivity]. intros _. assert (2 - Y <= exp (1 - Y)). { destruct (Req_dec (1 - Y) 0) as [Z|Z]; [rewrite Z, exp_0; lra | pose proof (exp_ineq1 (1 - Y) Z); lra]. } nra.
  - destruct (Req_EM_T V 0) as [->|N].
    + split; [|reflexivity]. intros _. nra.
    + assert (P : 0 < V) by lra. assert (Q : 0 <= ln (Y / V) + 1 - Y <-> V <= Y * exp (1 - Y)).
      { transitivity (Y - 1 <= ln (Y / V)); [lra|]. rewrite le_ln_exp by (apply Rdiv_lt_0_compat; lra). rewrite le_div_iff by lra.
        replace (1 - Y) with (- (Y - 1)) by ring. rewrite exp_Ropp. pose proof (exp_pos (Y - 1)) as F. set (e := exp (Y - 1)) in *. clearbody e. fold (Y / e). rewrite le_div_iff by lra. lra. }
      destruct (Rle_dec _ _) as [B|B]; split; intros; try reflexivity; try discriminate; tauto.
Qed.
Theorem C96_round : forall kappa U V, 0 < kappa -> 0 <= V ->
  -1 <= vm_W (vm_s kappa) U <= 1 /\ 0 < vm_Y kappa (vm_s kappa) U /\
  (vm_accepts (vm_Y kappa (vm_s kappa) U) V = true <-> V <= vm_Y kappa (vm_s kappa) U * exp (1 - vm_Y kappa (vm_s kappa) U)).
Proof.
  intros kappa U V K HV. pose proof (vm_s_gt kappa K) as S. pose proof (vm_W_bound (vm_s kappa) U S) as W. split; [exact W|].
  assert (Y : 0 < vm_Y kappa (vm_s kappa) U) by (unfold vm_Y; nra). split; [exact Y|]. now apply vm_accepts_iff.
Qed.
(* the distribution function of the angle proposed, and its density *)
Definition vm_F (s t : R) : R := acos ((s * cos t - 1) / (s - cos t)) / PI.
Definition vm_f (s t : R) : R := sqrt (s * s - 1) / (PI * (s - cos t)).
Lemma acos_le_iff x y : -1 <= x <= 1 -> -1 <= y <= 1 -> acos x <= acos y <-> y <= x.
Proof.
  intros Hx Hy. pose proof (acos_bound x) as A. pose proof (acos_bound y) as B. rewrite <- (cos_acos x Hx) at 2. rewrite <- (cos_acos y Hy) at 2.
  split; intros H.
  - destruct (Req_dec (acos x) (acos y)) as [->|N]; [apply Rle_refl|]. left. apply cos_decreasing_1; lra.
  - destruct (Rle_lt_dec (acos x) (acos y)) as [L|L]; [exact L|]. apply cos_decreasing_1 in L; lra.
Qed.
Theorem C96_proposal : forall s U t, 1 < s -> 0 <= U <= 1 -> 0 <= t <= PI ->
  acos (vm_W s U) <= t <-> U <= vm_F s t.
Proof.
  intros s U t S HU Ht. pose proof PI_RGT_0 as P. pose proof (COS_bound t) as C.
  rewrite <- (acos_cos t Ht) at 1. rewrite acos_le_iff by (try apply vm_W_bound; assumption).
  unfold vm_F. rewrite le_div_iff by exact P. rewrite (Rmult_comm U PI). rewrite <- (acos_cos (PI * U)) by nra.
  assert (D : 0 < s - cos t) by lra.
  assert (B : -1 <= (s * cos t - 1) / (s - cos t) <= 1).
  { split; apply (Rmult_le_reg_r (s - cos t)); try lra; unfold Rdiv; rewrite Rmult_assoc, Rinv_l, Rmult_1_r by lra; nra. }
  rewrite acos_le_iff by (try apply COS_bound; assumption). unfold vm_W. cbv zeta. pose proof (COS_bound (PI * U)) as Z.
  rewrite le_div_iff by lra. rewrite div_le_iff by lra. lra.
Qed.
Theorem C96_density : forall s t, 1 < s -> 0 < t < PI -> derivable_pt_lim (vm_F s) t (vm_f s t).
Proof.
  intros s t S Ht. pose proof PI_RGT_0 as P. pose proof (COS_bound t) as C. pose proof (sin_gt_0 t ltac:(lra) ltac:(lra)) as N.
  pose proof (sin2_cos2 t) as SC. unfold Rsqr in SC.
  assert (C1 : -1 < cos t < 1) by nra. assert (D : 0 < s - cos t) by lra.
  set (g := fun t => (s * cos t - 1) / (s - cos t)).
  assert (B : -1 < g t < 1).
  { unfold g. split; apply (Rmult_lt_reg_r (s - cos t)); try lra; unfold Rdiv; rewrite Rmult_assoc, Rinv_l, Rmult_1_r by lra; nra. }
  assert (G : derivable_pt_lim g t (- sin t * (s * s - 1) / ((s - cos t) * (s - cos t)))).
  { replace (- sin t * (s * s - 1) / ((s - cos t) * (s - cos t))) with (((s * - sin t - 0) * (s - cos t) - (0 - - sin t) * (s * cos t - 1)) / Rsqr (s - cos t)) by (unfold Rsqr; field; lra).
    apply (derivable_pt_lim_div (fun t => s * cos t - 1) (fun t => s - cos t)); [| |lra].
    - apply (derivable_pt_lim_minus (fun t => s * cos t) (fun _ => 1)); [|apply derivable_pt_lim_const]. apply derivable_pt_lim_scal. apply derivable_pt_lim_cos.
    - apply (derivable_pt_lim_minus (fun _ => s) cos); [apply derivable_pt_lim_const | apply derivable_pt_lim_cos]. }
  assert (A : derivable_pt_lim acos (g t) (-1 / sqrt (1 - Rsqr (g t)))).
  { rewrite <- (derive_pt_acos (g t) B). unfold derive_pt. destruct (derivable_pt_acos (g t) B) as [l L]. exact L. }
  assert (Q : sqrt (1 - Rsqr (g t)) = sqrt (s * s - 1) * sin t / (s - cos t)).
  { replace (1 - Rsqr (g t)) with (Rsqr (sqrt (s * s - 1) * sin t / (s - cos t))).
    - apply sqrt_Rsqr. apply Rmult_le_pos; [|left; now apply Rinv_0_lt_compat]. pose proof (sqrt_pos (s * s - 1)). nra.
    - unfold Rsqr, g. pose proof (sqrt_sqrt (s * s - 1) ltac:(nra)) as T. set (q := sqrt (s * s - 1)) in *. clearbody q.
      replace (q * sin t / (s - cos t) * (q * sin t / (s - cos t))) with ((q * q) * (sin t * sin t) / ((s - cos t) * (s - cos t))) by (field; lra).
      rewrite T. replace (sin t * sin t) with (1 - cos t * cos t) by lra. field. lra. }
  assert (T : 0 < sqrt (s * s - 1)) by (apply sqrt_lt_R0; nra).
  replace (vm_f s t) with (-1 / sqrt (1 - Rsqr (g t)) * (- sin t * (s * s - 1) / ((s - cos t) * (s - cos t))) * / PI).
  - assert (E : derivable_pt_lim (fun t => / PI * acos (g t)) t (/ PI * (-1 / sqrt (1 - Rsqr (g t)) * (- sin t * (s * s - 1) / ((s - cos t) * (s - cos t)))))).
    { apply derivable_pt_lim_scal. exact (derivable_pt_lim_comp g acos t _ _ G A). }
    rewrite Rmult_comm. intros eps He. destruct (E eps He) as [d Hd]. exists d. intros h Hh Hl. specialize (Hd h Hh Hl). change (vm_F s (t + h)) with (acos (g (t + h)) / PI). change (vm_F s t) with (acos (g t) / PI).
    replace (acos (g (t + h)) / PI - acos (g t) / PI) with (/ PI * acos (g (t + h)) - / PI * acos (g t)) by (field; lra). exact Hd.
  - rewrite Q. unfold vm_f. pose proof (sqrt_sqrt (s * s - 1) ltac:(nra)) as TT. set (q := sqrt (s * s - 1)) in *. clearbody q. rewrite <- TT. field. repeat split; lra.
Qed.
(* density of the proposal times probability of acceptance: proportional to exp (kappa cos t) *)
Theorem C96_law : forall kappa, 0 < kappa -> exists c, 0 < c /\ forall t,
  let Y := kappa * (vm_s kappa - cos t) in
  0 < Y * exp (1 - Y) <= 1 /\ vm_f (vm_s kappa) t * (Y * exp (1 - Y)) = c * exp (kappa * cos t).
Proof.
  intros kappa K. pose proof (vm_s_gt kappa K) as S. set (s := vm_s kappa) in *. clearbody s. pose proof PI_RGT_0 as P.
  exists (sqrt (s * s - 1) / PI * kappa * exp (1 - kappa * s)). assert (0 < sqrt (s * s - 1)) by (apply sqrt_lt_R0; nra). pose proof (exp_pos (1 - kappa * s)) as E0.
  split. { apply Rmult_lt_0_compat; [|exact E0]. apply Rmult_lt_0_compat; [|exact K]. now apply Rdiv_lt_0_compat. }
  intros t Y. pose proof (COS_bound t) as C. assert (HY : 0 < Y) by (unfold Y; nra). split.
  - pose proof (exp_pos (1 - Y)) as E. split; [nra|]. assert (Y <= exp (Y - 1)). { destruct (Req_dec (Y - 1) 0) as [Z|Z]; [rewrite Z, exp_0; lra | pose proof (exp_ineq1 (Y - 1) Z); lra]. }
    assert (X : exp (Y - 1) * exp (1 - Y) = 1) by (rewrite <- exp_plus; replace (Y - 1 + (1 - Y)) with 0 by ring; apply exp_0). nra.
  - replace (1 - Y) with ((1 - kappa * s) + kappa * cos t) by (unfold Y; ring). rewrite exp_plus. unfold vm_f, Y. field. lra.
Qed.

(* -- the number returned -- *)
Lemma fmod_range x m : 0 < m -> 0 <= fmod x m < m.
Proof.
  intros H. unfold fmod. destruct (base_Int_part (x / m)) as [A B]. set (k := IZR (Int_part (x / m))) in *. clearbody k. apply (proj1 (le_div_iff m k x H)) in A.
  assert (x < (k + 1) * m); [|lra]. assert (x / m < k + 1) by lra. apply (Rmult_lt_compat_r m) in H0; [|exact H]. unfold Rdiv in H0. rewrite Rmult_assoc, Rinv_l, Rmult_1_r in H0 by lra. exact H0.
Qed.
Lemma vm_result_spec mu W T : -PI <= vm_result mu W T <= PI /\
  exists k : Z, vm_result mu W T = mu + (if Rlt_dec T (1 / 2) then - acos W else acos W) + IZR k * (2 * PI).
Proof.
  pose proof PI_RGT_0 as P. unfold vm_result. cbv zeta. set (a := if Rlt_dec T (1 / 2) then _ else _). clearbody a.
  pose proof (fmod_range (Rabs (a + mu) + PI) (2 * PI) ltac:(lra)) as F. split.
  - destruct (Rlt_dec _ _); lra.
  - unfold fmod. set (z := Int_part _). clearbody z. destruct (Rlt_dec _ _) as [L|L].
    + exists z. rewrite Rabs_left by lra. ring.
    + exists (- z)%Z. rewrite Rabs_right by lra. rewrite opp_IZR. ring.
Qed.
Theorem C96_result : forall mu kappa us x, 1 / 100000000 <= kappa -> vonmises mu kappa us = Some x ->
  -PI <= x <= PI /\
  exists before U V T after (k : Z), us = before ++ U :: V :: T :: after /\
    vm_accepts (vm_Y kappa (vm_s kappa) U) V = true /\
    x = mu + (if Rlt_dec T (1 / 2) then - acos (vm_W (vm_s kappa) U) else acos (vm_W (vm_s kappa) U)) + IZR k * (2 * PI).
Proof.
  intros mu kappa us x K. unfold vonmises. destruct (Rlt_dec _ _); [lra|]. set (s := vm_s kappa). clearbody s.
  assert (G : forall n us, (length us <= n)%nat -> vm_loop mu kappa s us = Some x -> -PI <= x <= PI /\
    exists before U V T after (k : Z), us = before ++ U :: V :: T :: after /\ vm_accepts (vm_Y kappa s U) V = true /\
    x = mu + (if Rlt_dec T (1 / 2) then - acos (vm_W s U) else acos (vm_W s U)) + IZR k * (2 * PI)); [|now apply (G (length us))].
  clear us. induction n0 as [|m IH]; intros [|U [|V us]] L H; try discriminate; cbn [length] in L; try lia.
  cbn [vm_loop] in H. destruct (vm_accepts _ _) eqn:A.
  - destruct us as [|T after]; [discriminate|]. injection H as <-. destruct (vm_result_spec mu (vm_W s U) T) as [B [k E]]. split; [exact B|].
    exists [], U, V, T, after, k. split; [reflexivity|]. split; assumption.
  - destruct (IH us ltac:(lia) H) as (B & bf & U' & V' & T & af & k & E1 & E2 & E3). split; [exact B|].
    exists (U :: V :: bf), U', V', T, af, k. rewrite E1. split; [reflexivity|]. split; assumption.
Qed.
Theorem C96_flat : forall mu kappa U us, kappa < 1 / 100000000 -> 0 <= U < 1 ->
  exists x, vonmises mu kappa (U :: us) = Some x /\ -PI <= x < PI /\ forall t, x <= t <-> U <= (t + PI) / (2 * PI).
Proof.
  intros mu kappa U us K HU. unfold vonmises. destruct (Rlt_dec _ _); [|lra]. pose proof PI_RGT_0 as P. eexists. split; [reflexivity|]. split; [nra|].
  intros t. rewrite le_div_iff by lra. lra.
Qed.

(* -- beta -- *)
Theorem C96_beta_dead : forall pw a b U V,
  johnk pw a b U V = (let X := pw U (1 / a) in let Y := pw V (1 / b) in
    if Rlt_dec 0 (X + Y) then if Rle_dec (X + Y) 1 then Some (X / (X + Y)) else None else None).
Proof. intros pw a b U V. unfold johnk. cbv zeta. destruct (Rle_dec _ _); destruct (Rlt_dec _ _); reflexivity. Qed.
Lemma powr_nonneg x y : 0 <= powr x y.
Proof. unfold powr. destruct (Req_EM_T _ _); [lra|]. left. apply exp_pos. Qed.
Theorem C96_beta : forall a b us x, johnk_loop powr a b us = Some x ->
  0 <= x <= 1 /\ exists before U V after, us = before ++ (U, V) :: after /\
    0 < powr U (1 / a) + powr V (1 / b) <= 1 /\ x = powr U (1 / a) / (powr U (1 / a) + powr V (1 / b)) /\
    Forall (fun uv => ~ 0 < powr (fst uv) (1 / a) + powr (snd uv) (1 / b) <= 1) before.
Proof.
  intros a b us x. induction us as [|[U V] us IH]; intros H; [discriminate|]. cbn [johnk_loop] in H. rewrite C96_beta_dead in H. cbv zeta in H.
  pose proof (powr_nonneg U (1 / a)) as PX. pose proof (powr_nonneg V (1 / b)) as PY.
  assert (N : ~ 0 < powr U (1 / a) + powr V (1 / b) <= 1 -> johnk_loop powr a b us = Some x -> 0 <= x <= 1 /\ exists before U' V' after, (U, V) :: us = before ++ (U', V') :: after /\
    0 < powr U' (1 / a) + powr V' (1 / b) <= 1 /\ x = powr U' (1 / a) / (powr U' (1 / a) + powr V' (1 / b)) /\
    Forall (fun uv => ~ 0 < powr (fst uv) (1 / a) + powr (snd uv) (1 / b) <= 1) before).
  { intros M J. destruct (IH J) as (B & bf & U' & V' & af & -> & E & E' & F). split; [exact B|]. exists ((U, V) :: bf), U', V', af. split; [reflexivity|]. split; [exact E|]. split; [exact E'|]. constructor; assumption. }
  set (X := powr U (1 / a)) in *. set (Y := powr V (1 / b)) in *.
  destruct (Rlt_dec _ _) as [L|L]; [|apply N; [lra | exact H]]. destruct (Rle_dec _ _) as [M|M]; [|apply N; [lra | exact H]].
  injection H as <-. split.
  - split; [apply le_div_iff | apply div_le_iff]; lra.
  - exists [], U, V, us. split; [reflexivity|]. split; [unfold X, Y in *; lra|]. split; [reflexivity | constructor].
Qed.
(* with numbers below 2^-1075 rounded to 0, as doubles are, the loop does not end for tiny a and b, whatever the numbers drawn *)
Definition flush (pw : R -> R -> R) (x y : R) : R := if Rlt_dec (pw x y) (Rpower 2 (-1075)) then 0 else pw x y.
Lemma flush_tiny a U : 0 < a <= / 10 ^ 20 -> 0 <= U <= 1 - / 2 ^ 53 -> flush powr U (1 / a) = 0.
Proof.
  intros Ha HU. unfold flush. destruct (Rlt_dec _ _) as [L|L]; [reflexivity|]. exfalso. apply L. clear L. unfold powr. pose proof (exp_pos (-1075 * ln 2)) as E. destruct (Req_EM_T U 0) as [Z|Z]; [exact E|].
  unfold Rpower. apply exp_increasing. assert (L2 : ln 2 < 1). { rewrite <- (ln_exp 1). apply ln_increasing; [lra|]. pose proof (exp_ineq1 1 ltac:(lra)). lra. }
  assert (LU : ln U <= - / 2 ^ 53). { apply ln_le_exp; [lra|]. pose proof (exp_ineq1 (- / 2 ^ 53)). assert (- / 2 ^ 53 <> 0) by (pose proof (Rinv_0_lt_compat (2 ^ 53) ltac:(apply pow_lt; lra)); lra). specialize (H H0). lra. }
  assert (I : 10 ^ 20 <= 1 / a). { apply le_div_iff; [lra|]. pose proof (Rmult_le_compat_l (10 ^ 20) a (/ 10 ^ 20) ltac:(lra) ltac:(lra)) as Hb. rewrite Rinv_r in Hb by lra. exact Hb. }
  assert (/ 2 ^ 53 * 10 ^ 20 > 1100) by lra. nra.
Qed.
Theorem C96_beta_hangs_refuted : forall a b us, 0 < a <= / 10 ^ 20 -> 0 < b <= / 10 ^ 20 ->
  Forall (fun uv => 0 <= fst uv <= 1 - / 2 ^ 53 /\ 0 <= snd uv <= 1 - / 2 ^ 53) us -> johnk_loop (flush powr) a b us = None.
Proof.
  intros a b us Ha Hb F. induction F as [|[U V] us [HU HV] F IH]; [reflexivity|]. cbn [johnk_loop]. rewrite C96_beta_dead. cbv zeta. cbn [fst snd] in *. rewrite !flush_tiny by assumption.
  destruct (Rlt_dec _ _); [lra | exact IH].
Qed.
Theorem C96_beta_gamma : forall Ga Gb, 0 < Ga -> 0 < Gb -> 0 < beta_gamma Ga Gb < 1 /\ beta_gamma Gb Ga = 1 - beta_gamma Ga Gb.
Proof.
  intros Ga Gb A B. unfold beta_gamma. split; [|field; lra]. split; [apply Rdiv_lt_0_compat; lra|].
  apply (Rmult_lt_reg_r (Ga + Gb)); [lra|]. unfold Rdiv. rewrite Rmult_assoc, Rinv_l, Rmult_1_r by lra. lra.
Qed.

(* -- random_binomial -- *)
Lemma choose_swap n k : (k <= n)%nat -> choose n (n - k) = choose n k.
Proof. intros H. pose proof (choose_sym (n - k) k) as S. replace (n - k + k)%nat with n in S by lia. exact S. Qed.
Lemma binomial_pmf_swap n p k : (k <= n)%nat -> binomial_pmf n (1 - p) k = binomial_pmf n p (n - k).
Proof. intros H. unfold binomial_pmf. rewrite choose_swap by exact H. replace (n - (n - k))%nat with k by lia. replace (1 - (1 - p)) with p by ring. ring. Qed.
(* P (more than or equal to n - k) *)
Definition binomial_tail (n : nat) (p : R) (k : nat) : R := sum_f_R0 (fun i => binomial_pmf n p (n - i)) k.
Theorem C93_random_binomial : forall p n U, 0 < p < 1 -> 0 <= U < 1 ->
  match random_binomial p n U with
  | NVal z => exists k, (k <= n)%nat /\
      ((p <= 1 / 2 \/ n = O) /\ z = Z.of_nat k /\ first_reaching (binomial_cdf n p) U k \/
       1 / 2 < p /\ z = Z.of_nat (n - k) /\ first_reaching (binomial_tail n p) U k)
  | NMore => True
  | NBtpe => 30 < Rmin p (1 - p) * INR n
  end.
Proof.
  intros p n U Hp HU. unfold random_binomial. destruct (Nat.eqb_spec n 0) as [->|N].
  - exists O. split; [lia|]. left. split; [now right|]. split; [reflexivity|]. split; [intros j Hj; lia|]. unfold binomial_cdf, binomial_pmf. cbn. lra.
  - destruct (Req_EM_T p 0); [lra|]. destruct (Rle_dec p (1 / 2)) as [L|L].
    + rewrite Rmin_left by lra. destruct (Rle_dec _ _); [|lra]. pose proof (C93_binomial n p U Hp HU) as B. destruct (binomial_inversion n p U) as [|k]; [exact I|].
      destruct B as [B F]. pose proof (binomial_bound_le n p Hp). exists k. split; [lia|]. left. split; [now left|]. split; [reflexivity | exact F].
    + cbv zeta. rewrite Rmin_right by lra. destruct (Rle_dec _ _); [|lra]. assert (Hq : 0 < 1 - p < 1) by lra. pose proof (C93_binomial n (1 - p) U Hq HU) as B.
      destruct (binomial_inversion n (1 - p) U) as [|k]; [exact I|]. destruct B as [B F]. pose proof (binomial_bound_le n (1 - p) Hq). exists k. split; [lia|]. right. split; [lra|]. split; [lia|].
      assert (T : forall j, (j <= n)%nat -> binomial_cdf n (1 - p) j = binomial_tail n p j).
      { intros j Hj. unfold binomial_cdf, binomial_tail. apply sum_eq. intros i Hi. apply binomial_pmf_swap. lia. }
      destruct F as [F1 F2]. split; [intros j Hj; rewrite <- T by lia; now apply F1 | rewrite <- T by lia; exact F2].
Qed.
Theorem C93_random_binomial_ends : forall n U, 0 <= U < 1 -> random_binomial 0 n U = NVal 0 /\ random_binomial 1 n U = NVal (Z.of_nat n).
Proof.
  intros n U HU. unfold random_binomial. destruct (Nat.eqb_spec n 0) as [->|N]; [split; reflexivity|]. split.
  - destruct (Req_EM_T 0 0); [reflexivity | lra].
  - destruct (Req_EM_T 1 0); [lra|]. destruct (Rle_dec 1 (1 / 2)); [lra|]. cbv zeta. replace (1 - 1) with 0 by ring. rewrite Rmult_0_l. destruct (Rle_dec 0 30); [|lra].
    assert (B : binomial_inversion n 0 U = BVal 0). { unfold binomial_inversion. rewrite Rminus_0_r, pow1. destruct (Z.to_nat _); cbn [binom_loop]; (destruct (Rlt_dec _ _); [lra | reflexivity]). }
    rewrite B. f_equal. lia.
Qed.

Example C96_case : vm_W 2 (1 / 2) = 1 / 2 /\ johnk powr 1 1 (1 / 4) (1 / 2) = Some (1 / 3) /\ johnk_loop powr 1 1 [(3 / 4, 1 / 2); (1 / 4, 1 / 2)] = Some (1 / 3) /\
  vonmises 0 0 [3 / 4] = Some (PI / 2) /\ vm_accepts 1 (1 / 2) = true /\ vm_accepts 1 2 = false.
Proof.
  assert (J : johnk powr 1 1 (1 / 4) (1 / 2) = Some (1 / 3)).
  { rewrite C96_beta_dead. unfold powr. do 2 (destruct (Req_EM_T _ _); [lra|]). replace (1 / 1) with 1 by lra. rewrite !Rpower_1 by lra. cbv zeta. destruct (Rlt_dec _ _); [|lra]. destruct (Rle_dec _ _); [|lra]. f_equal. lra. }
  split; [|split; [exact J|split; [|split; [|split]]]].
  - unfold vm_W. cbv zeta. replace (PI * (1 / 2)) with (PI / 2) by lra. rewrite cos_PI2. lra.
  - cbn [johnk_loop]. rewrite J. rewrite C96_beta_dead. unfold powr. do 2 (destruct (Req_EM_T _ _); [lra|]). replace (1 / 1) with 1 by lra. rewrite !Rpower_1 by lra. cbv zeta. destruct (Rlt_dec _ _); [|lra]. destruct (Rle_dec _ _); [lra|]. reflexivity.
  - unfold vonmises. destruct (Rlt_dec _ _); [|lra]. f_equal. lra.
  - unfold vm_accepts. destruct (Rle_dec _ _); [reflexivity|lra].
  - unfold vm_accepts. destruct (Rle_dec _ _); [lra|]. destruct (Req_EM_T _ _); [lra|]. destruct (Rle_dec _ _) as [L|L]; [|reflexivity]. pose proof (ln_neg (1 / 2) ltac:(lra)). lra.
Qed.
Example C96_result_case : vm_Y 1 (vm_s 1) (1 / 2) = 1 /\ vonmises 0 1 [1 / 2; 1 / 2; 3 / 4] = Some (vm_result 0 (vm_W (vm_s 1) (1 / 2)) (3 / 4)).
Proof.
  assert (Y : vm_Y 1 (vm_s 1) (1 / 2) = 1).
  { destruct (C96_scale 1 ltac:(lra)) as [_ E]. pose proof (vm_s_gt 1 ltac:(lra)) as G. set (s := vm_s 1) in *. clearbody s. unfold vm_Y, vm_W. cbv zeta.
    replace (PI * (1 / 2)) with (PI / 2) by lra. rewrite cos_PI2. apply (Rmult_eq_reg_r s); [|lra]. field_simplify; lra. }
  split; [exact Y|]. unfold vonmises. destruct (Rlt_dec _ _); [lra|]. cbn [vm_loop]. rewrite Y. unfold vm_accepts at 1. destruct (Rle_dec _ _); [reflexivity | lra].
Qed.
Example C93_random_binomial_case : random_binomial (3 / 4) 1 (1 / 2) = NVal 1 /\ random_binomial (1 / 4) 1 (1 / 2) = NVal 0 /\ random_binomial (1 / 2) 100 (1 / 2) = NBtpe.
Proof.
  assert (B : binomial_inversion 1 (1 / 4) (1 / 2) = BVal 0).
  { unfold binomial_inversion. destruct (Z.to_nat _); cbn [binom_loop]; cbn [pow]; (destruct (Rlt_dec _ _); [lra | reflexivity]). }
  unfold random_binomial. split; [|split].
  - destruct (Nat.eqb_spec 1 0); [lia|]. destruct (Req_EM_T _ _); [lra|]. destruct (Rle_dec _ _); [lra|]. cbv zeta. replace (1 - 3 / 4) with (1 / 4) by lra. cbn [INR]. destruct (Rle_dec _ _); [|lra]. now rewrite B.
  - destruct (Nat.eqb_spec 1 0); [lia|]. destruct (Req_EM_T _ _); [lra|]. destruct (Rle_dec _ _); [|lra]. cbn [INR]. destruct (Rle_dec _ _); [|lra]. now rewrite B.
  - destruct (Nat.eqb_spec 100 0); [lia|]. destruct (Req_EM_T _ _); [lra|]. destruct (Rle_dec _ _); [|lra]. destruct (Rle_dec _ _) as [L|L]; [|reflexivity]. exfalso.
    replace (INR 100) with 100 in L by (rewrite INR_IZR_INZ; reflexivity). lra.
Qed.

Print Assumptions C96_scale.
Print Assumptions C96_scale_small.
Print Assumptions C96_round.
Print Assumptions C96_proposal.
Print Assumptions C96_density.
Print Assumptions C96_law.
Print Assumptions C96_result.
Print Assumptions C96_flat.
Print Assumptions C96_beta_dead.
Print Assumptions C96_beta.
Print Assumptions C96_beta_hangs_refuted.
Print Assumptions C96_beta_gamma.
Print Assumptions C93_random_binomial.
Print Assumptions C93_random_binomial_ends.
