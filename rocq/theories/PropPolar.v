(* C100: legacy_gauss and random_gauss. *)
From Verif Require Import Word InvDist PropInvDist PropGamma Polar.
From Coq Require Import Reals Lra Lia Psatz.
Open Scope R_scope.

(* one attempt is rejected: the point is not inside the circle, or is its centre *)
Definition outside (p : R * R) : Prop := let x := 2 * fst p - 1 in let y := 2 * snd p - 1 in 1 <= x ^ 2 + y ^ 2 \/ x = 0 /\ y = 0.
Fixpoint flat (ps : list (R * R)) : list R := match ps with [] => [] | p :: ps => fst p :: snd p :: flat ps end.
Definition rad (x y : R) : R := x ^ 2 + y ^ 2.
(* the map from the point to the two numbers *)
Definition mapf (x y : R) : R := sqrt (-2 * ln (rad x y) / rad x y) * x.

Lemma sq_zero x y : x * x + y * y = 0 <-> x = 0 /\ y = 0.
Proof. split; [intros H; split; nra | intros [-> ->]; ring]. Qed.
(* the first point inside the circle is used, a second call returns the other number and takes nothing from the generator *)
Theorem C100_calls : forall ps u1 u2 rest, Forall outside ps -> ~ outside (u1, u2) ->
  let x := 2 * u1 - 1 in let y := 2 * u2 - 1 in
  gauss None (flat ps ++ u1 :: u2 :: rest) = Some (mapf y x, Some (mapf x y), rest) /\
  forall g us, gauss (Some g) us = Some (g, None, us).
Proof.
  intros ps u1 u2 rest F N x y. split; [|reflexivity]. unfold gauss.
  assert (L : polar_loop (flat ps ++ u1 :: u2 :: rest) = Some (x, y, x * x + y * y, rest)).
  { induction F as [|[a b] ps O _ IH]; cbn [flat app polar_loop fst snd].
    - fold x y. unfold outside in N. cbn [fst snd] in N. fold x y in N. destruct (Rle_dec _ _) as [A|A]; [exfalso; apply N; left; lra|]. destruct (Req_EM_T _ _) as [B|B]; [|reflexivity]. exfalso. apply N. right. now apply sq_zero.
    - destruct (Rle_dec _ _) as [A|A]; [exact IH|]. destruct (Req_EM_T _ _) as [B|B]; [exact IH|]. exfalso. unfold outside in O. cbn [fst snd] in O. destruct O as [O|O]; [lra|]. apply B. now apply sq_zero. }
  rewrite L. unfold mapf, polar_f, rad. replace (y ^ 2 + x ^ 2) with (x * x + y * y) by ring. replace (x ^ 2 + y ^ 2) with (x * x + y * y) by ring. reflexivity.
Qed.
Theorem C100_more : forall ps, Forall outside ps -> gauss None (flat ps) = None.
Proof.
  intros ps F. unfold gauss. assert (L : polar_loop (flat ps) = None); [|now rewrite L].
  induction F as [|[a b] ps O _ IH]; [reflexivity|]. cbn [flat polar_loop fst snd]. destruct (Rle_dec _ _) as [A|A]; [exact IH|]. destruct (Req_EM_T _ _) as [B|B]; [exact IH|].
  exfalso. unfold outside in O. cbn [fst snd] in O. destruct O as [O|O]; [lra|]. apply B. now apply sq_zero.
Qed.

Lemma ratio_pos s : 0 < s < 1 -> 0 < -2 * ln s / s.
Proof. intros H. apply Rdiv_lt_0_compat; [|lra]. pose proof (ln_increasing s 1 ltac:(lra) ltac:(lra)) as L. rewrite ln_1 in L. lra. Qed.
Lemma rad_sym x y : rad y x = rad x y.
Proof. unfold rad. ring. Qed.
Theorem C100_radius : forall x y, 0 < rad x y < 1 -> exp (- (mapf x y ^ 2 + mapf y x ^ 2) / 2) = rad x y.
Proof.
  intros x y H. pose proof (ratio_pos _ H) as P. unfold mapf. rewrite (rad_sym x y). set (s := rad x y) in *.
  pose proof (sqrt_sqrt _ (Rlt_le _ _ P)) as E. set (f := sqrt (-2 * ln s / s)) in *. clearbody f.
  assert (X : x ^ 2 + y ^ 2 = s) by reflexivity. clearbody s.
  assert (Y : - ((f * x) ^ 2 + (f * y) ^ 2) / 2 = - (f * f) * (x ^ 2 + y ^ 2) / 2) by field.
  rewrite Y, E, X. replace (- (-2 * ln s / s) * s / 2) with (ln s) by (field; lra). apply exp_ln. lra.
Qed.
(* different points give different pairs, and every pair but (0, 0) is given *)
Theorem C100_injective : forall x y x' y', 0 < rad x y < 1 -> 0 < rad x' y' < 1 -> mapf x y = mapf x' y' -> mapf y x = mapf y' x' -> x = x' /\ y = y'.
Proof.
  intros x y x' y' H H' A B. pose proof (C100_radius x y H) as E. rewrite A, B, (C100_radius x' y' H') in E. unfold mapf in A, B. rewrite (rad_sym x y), (rad_sym x' y') in B.
  pose proof (sqrt_lt_R0 _ (ratio_pos _ H')) as P; rewrite E in P. rewrite E in A, B.
  split; [apply (Rmult_eq_reg_l _ _ _ A) | apply (Rmult_eq_reg_l _ _ _ B)]; apply Rgt_not_eq; exact P.
Qed.
Theorem C100_onto : forall g h, 0 < rad g h -> exists x y, 0 < rad x y < 1 /\ mapf x y = g /\ mapf y x = h.
Proof.
  intros g h H. set (q := rad g h) in *. set (s := exp (- q / 2)). assert (S : 0 < s < 1). { split; [apply exp_pos|]. unfold s. rewrite <- exp_0. apply exp_increasing. lra. }
  pose proof (ratio_pos s S) as P. pose proof (sqrt_lt_R0 _ P) as Q. set (f := sqrt (-2 * ln s / s)) in *.
  assert (LS : ln s = - q / 2) by apply ln_exp. assert (FF : f * f = q / s) by (unfold f; rewrite sqrt_sqrt by lra; rewrite LS; field; lra).
  assert (R : rad (g / f) (h / f) = s). { unfold rad. replace ((g / f) ^ 2 + (h / f) ^ 2) with (rad g h / (f * f)) by (unfold rad; field; lra). fold q. rewrite FF. field. lra. }
  exists (g / f), (h / f). rewrite R. split; [exact S|]. unfold mapf. rewrite (rad_sym (g / f)), R. fold f. split; field; lra.
Qed.

(* the partial derivatives, and that their determinant is -2 / r2: the area element is multiplied by 2 / r2, so a point with
   density 1 / pi in the circle gives a pair with density exp (- (g^2 + h^2) / 2) / (2 pi) *)
Lemma f_deriv s : 0 < s < 1 -> derivable_pt_lim (fun s => sqrt (-2 * ln s / s)) s ((ln s - 1) / (s * s * sqrt (-2 * ln s / s))).
Proof.
  intros H. pose proof (ratio_pos s H) as P. pose proof (sqrt_lt_R0 _ P) as Q.
  replace ((ln s - 1) / (s * s * sqrt (-2 * ln s / s))) with (/ (2 * sqrt (-2 * ln s / s)) * ((-2 * / s * s - 1 * (-2 * ln s)) / Rsqr s)) by (unfold Rsqr; field; lra).
  apply (derivable_pt_lim_comp (fun s => -2 * ln s / s) sqrt); [|now apply derivable_pt_lim_sqrt].
  apply (derivable_pt_lim_div (fun s => -2 * ln s) (fun s => s)); [|apply derivable_pt_lim_id|lra]. apply (derivable_pt_lim_scal ln). apply derivable_pt_lim_ln. lra.
Qed.
Lemma sq_deriv a x : derivable_pt_lim (fun t => t ^ 2 + a) x (2 * x).
Proof.
  replace (2 * x) with (INR 2 * x ^ 1 + 0) by (simpl; ring). apply (derivable_pt_lim_plus (fun t => t ^ 2) (fun _ => a)); [apply (derivable_pt_lim_pow x 2) | apply derivable_pt_lim_const].
Qed.
Definition f' (s : R) : R := (ln s - 1) / (s * s * sqrt (-2 * ln s / s)).
Definition d_same (x y : R) : R := f' (rad x y) * (2 * x) * x + sqrt (-2 * ln (rad x y) / rad x y).
Definition d_cross (x y : R) : R := f' (rad x y) * (2 * y) * x.
Theorem C100_partials : forall x y, 0 < rad x y < 1 -> derivable_pt_lim (fun t => mapf t y) x (d_same x y) /\ derivable_pt_lim (fun t => mapf x t) y (d_cross x y).
Proof.
  intros x y H. pose proof (f_deriv _ H) as D. split.
  - unfold d_same. replace (sqrt (-2 * ln (rad x y) / rad x y)) with (sqrt (-2 * ln (rad x y) / rad x y) * 1) by ring.
    apply (derivable_pt_lim_mult (fun t => sqrt (-2 * ln (rad t y) / rad t y)) (fun t => t)); [|apply derivable_pt_lim_id].
    apply (derivable_pt_lim_comp (fun t => rad t y) (fun s => sqrt (-2 * ln s / s))); [apply sq_deriv | exact D].
  - unfold d_cross. replace (f' (rad x y) * (2 * y) * x) with (f' (rad x y) * (2 * y) * x + sqrt (-2 * ln (rad x y) / rad x y) * 0) by ring.
    apply (derivable_pt_lim_mult (fun t => sqrt (-2 * ln (rad x t) / rad x t)) (fun _ => x)); [|apply derivable_pt_lim_const].
    apply (derivable_pt_lim_comp (fun t => rad x t) (fun s => sqrt (-2 * ln s / s))); [|exact D].
    eapply (derivable_pt_lim_locally_ext (fun t => t ^ 2 + x ^ 2) _ y (y - 1) (y + 1)); [lra| |apply sq_deriv]. intros z _. unfold rad. ring.
Qed.
Theorem C100_law : forall x y, 0 < rad x y < 1 ->
  d_same x y * d_same y x - d_cross x y * d_cross y x = - (2 / rad x y) /\
  exp (- (mapf x y ^ 2 + mapf y x ^ 2) / 2) / (2 * PI) * (2 / rad x y) = / PI.
Proof.
  intros x y H. split.
  - unfold d_same, d_cross, f'. rewrite (rad_sym x y). pose proof (ratio_pos _ H) as P. pose proof (sqrt_lt_R0 _ P) as Q. pose proof (sqrt_sqrt _ (Rlt_le _ _ P)) as E.
    set (s := rad x y) in *. assert (X : x ^ 2 + y ^ 2 = s) by reflexivity. clearbody s. set (f := sqrt (-2 * ln s / s)) in *. clearbody f.
    set (d := (ln s - 1) / (s * s * f)). replace ((d * (2 * x) * x + f) * (d * (2 * y) * y + f) - d * (2 * y) * x * (d * (2 * x) * y)) with (f * f + 2 * (d * f) * (x ^ 2 + y ^ 2)) by ring.
    rewrite X, E. replace (d * f) with ((ln s - 1) / (s * s)) by (unfold d; field; lra). field. lra.
  - rewrite C100_radius by exact H. pose proof PI_RGT_0. field. lra.
Qed.

Example C100_case : outside (0, 0) /\ outside (1 / 2, 1 / 2) /\ ~ outside (1 / 2, 3 / 4) /\ 0 < rad 0 (1 / 2) < 1 /\
  gauss None [0; 0; 1 / 2; 1 / 2; 1 / 2; 3 / 4; 1 / 8] = Some (sqrt (2 * ln 4), Some 0, [1 / 8]).
Proof.
  assert (O1 : outside (0, 0)) by (left; simpl; lra). assert (O2 : outside (1 / 2, 1 / 2)) by (right; simpl; lra). assert (O3 : ~ outside (1 / 2, 3 / 4)) by (unfold outside; simpl; lra).
  split; [exact O1|]. split; [exact O2|]. split; [exact O3|]. split; [unfold rad; lra|].
  destruct (C100_calls [(0, 0); (1 / 2, 1 / 2)] (1 / 2) (3 / 4) [1 / 8] (Forall_cons _ O1 (Forall_cons _ O2 (Forall_nil _))) O3) as [E _]. cbn [flat app fst snd] in E. rewrite E.
  replace (2 * (1 / 2) - 1) with 0 by lra. replace (2 * (3 / 4) - 1) with (1 / 2) by lra. unfold mapf. rewrite Rmult_0_r. do 3 f_equal. unfold rad. replace ((1 / 2) ^ 2 + 0 ^ 2) with (/ 4) by lra. rewrite ln_Rinv by lra.
  replace (-2 * - ln 4 / / 4) with (2 * 2 * (2 * ln 4)) by field. assert (0 < ln 4) by (rewrite <- ln_1; apply ln_increasing; lra). rewrite sqrt_mult, sqrt_square by lra. field.
Qed.

Print Assumptions C100_calls.
Print Assumptions C100_more.
Print Assumptions C100_radius.
Print Assumptions C100_injective.
Print Assumptions C100_onto.
Print Assumptions C100_partials.
Print Assumptions C100_law.
