(* C97: the gamma sampler. *)
From Verif Require Import Word InvDist PropInvDist Gamma.
From Coq Require Import Reals Lra Lia.
Open Scope R_scope.

(* -- analysis -- *)
Lemma mono f f' a b : a <= b -> (forall c, a <= c <= b -> derivable_pt_lim f c (f' c)) -> (forall c, a <= c <= b -> 0 <= f' c) -> f a <= f b.
Proof.
  intros [L|<-] D P; [|lra]. destruct (MVT_cor2 f f' a b L D) as (c & E & C). specialize (P c ltac:(lra)). nra.
Qed.
Lemma mono_below f f' a b m : a <= b -> (forall c, a <= c <= b -> derivable_pt_lim f c (f' c)) -> (forall c, a <= c <= b -> - m <= f' c) -> f a - m * (b - a) <= f b.
Proof.
  intros [L|<-] D P; [|lra]. destruct (MVT_cor2 f f' a b L D) as (c & E & C). specialize (P c ltac:(lra)). nra.
Qed.
Lemma mono_down f f' a b : a <= b -> (forall c, a <= c <= b -> derivable_pt_lim f c (f' c)) -> (forall c, a <= c <= b -> f' c <= 0) -> f b <= f a.
Proof.
  intros [L|<-] D P; [|lra]. destruct (MVT_cor2 f f' a b L D) as (c & E & C). specialize (P c ltac:(lra)). nra.
Qed.
Lemma ln_le_sub x : 0 < x -> ln x <= x - 1.
Proof. intros H. apply ln_le_exp; [exact H|]. destruct (Req_dec (x - 1) 0) as [Z|Z]; [rewrite Z, exp_0; lra | pose proof (exp_ineq1 (x - 1) Z); lra]. Qed.
Lemma ln_concave w z : 0 <= w <= 1 -> 0 < z -> w * ln z <= ln (1 - w + w * z).
Proof.
  intros Hw Hz. assert (M : 0 < 1 - w + w * z) by nra. set (m := 1 - w + w * z) in *.
  pose proof (ln_le_sub (z / m) ltac:(apply Rdiv_lt_0_compat; lra)) as A. pose proof (ln_le_sub (1 / m) ltac:(apply Rdiv_lt_0_compat; lra)) as B.
  unfold Rdiv in A, B. rewrite ln_mult in A by (try apply Rinv_0_lt_compat; lra). rewrite Rmult_1_l in B. rewrite ln_Rinv in A, B by exact M.
  assert (E : w * (z * / m - 1) + (1 - w) * (/ m - 1) = 0) by (unfold m in *; field; lra).
  clearbody m. set (p := z * / m) in *. set (q := / m) in *. clearbody p q. nra.
Qed.
Lemma D_ln1 y : -1 < y -> derivable_pt_lim (fun y => ln (1 + y)) y (/ (1 + y)).
Proof.
  intros H. replace (/ (1 + y)) with (/ (1 + y) * (0 + 1)) by ring.
  apply (derivable_pt_lim_comp (fun y => 1 + y) ln); [|apply derivable_pt_lim_ln; lra].
  apply (derivable_pt_lim_plus (fun _ => 1) id); [apply derivable_pt_lim_const | apply derivable_pt_lim_id].
Qed.
Definition gg (y : R) : R := ln (1 + y) - y + y ^ 2 / 2 - y ^ 3 / 3.
Lemma D_gg y : -1 < y -> derivable_pt_lim gg y (- y ^ 3 / (1 + y)).
Proof.
  intros H. unfold gg. replace (- y ^ 3 / (1 + y)) with (/ (1 + y) - 1 + (INR 2 * y ^ 1 * (1 / 2)) - (INR 3 * y ^ 2 * (1 / 3))) by (cbn; field; lra).
  apply (derivable_pt_lim_minus (fun y => ln (1 + y) - y + y ^ 2 / 2) (fun y => y ^ 3 / 3)).
  - apply (derivable_pt_lim_plus (fun y => ln (1 + y) - y) (fun y => y ^ 2 / 2)).
    + apply (derivable_pt_lim_minus (fun y => ln (1 + y)) id); [now apply D_ln1 | apply derivable_pt_lim_id].
    + pose proof (derivable_pt_lim_scal (fun y => y ^ 2) (1 / 2) y _ (derivable_pt_lim_pow y 2)) as D. rewrite Rmult_comm in D. eapply derivable_pt_lim_ext; [|exact D]. intros z. unfold mult_real_fct. field.
  - pose proof (derivable_pt_lim_scal (fun y => y ^ 3) (1 / 3) y _ (derivable_pt_lim_pow y 3)) as D. rewrite Rmult_comm in D. eapply derivable_pt_lim_ext; [|exact D]. intros z. unfold mult_real_fct. field.
Qed.
Lemma gg_0 : gg 0 = 0.
Proof. unfold gg. replace (1 + 0) with 1 by ring. rewrite ln_1. lra. Qed.
Lemma gg_neg y : -1 < y -> gg y <= 0.
Proof.
  intros H. rewrite <- gg_0. destruct (Rle_lt_dec y 0) as [L|L].
  - apply (mono gg (fun y => - y ^ 3 / (1 + y))); [exact L| |].
    + intros c Hc. apply D_gg. lra.
    + intros c Hc. apply le_div_iff; [lra|]. rewrite Rmult_0_l. replace (- c ^ 3) with ((- c) ^ 3) by ring. apply pow_le. lra.
  - apply (mono_down gg (fun y => - y ^ 3 / (1 + y))); [lra| |].
    + intros c Hc. apply D_gg. lra.
    + intros c Hc. apply div_le_iff; [lra|]. rewrite Rmult_0_l. pose proof (pow_le c 3 ltac:(lra)). lra.
Qed.

(* -- shape > 1: the law -- *)
Lemma gb_pos a : 1 <= a -> 2 / 3 <= gb a.
Proof. unfold gb. lra. Qed.
Lemma gc_spec a : 1 <= a -> 0 < gc a /\ 9 * gb a * (gc a * gc a) = 1.
Proof.
  intros H. pose proof (gb_pos a H) as B. unfold gc. pose proof (sqrt_lt_R0 (9 * gb a) ltac:(lra)) as P. pose proof (sqrt_sqrt (9 * gb a) ltac:(lra)) as Q. set (q := sqrt _) in *. clearbody q.
  split; [apply Rdiv_lt_0_compat; lra|]. rewrite <- Q. field. lra.
Qed.
Lemma gamma_exponent a X : 1 <= a -> 0 < 1 + gc a * X -> let v := (1 + gc a * X) ^ 3 in
  1 / 2 * X * X + gb a * (1 - v + ln v) = 3 * gb a * gg (gc a * X).
Proof.
  intros H P v. destruct (gc_spec a H) as [C E]. unfold v, gg. set (c := gc a) in *. set (b := gb a) in *. clearbody b c.
  replace (ln ((1 + c * X) ^ 3)) with (3 * ln (1 + c * X)). 2:{ cbn [pow]. rewrite Rmult_1_r, !ln_mult by nra. ring. }
  set (l := ln _). clearbody l. replace (1 / 2 * X * X) with (9 * b * (c * c) * (1 / 2 * X * X)) by (rewrite E; ring). field.
Qed.
(* the number returned for the normal number X *)
Definition gamma_value (a X : R) : R := gb a * (1 + gc a * X) ^ 3.
(* the probability of accepting X by the second test *)
Definition gamma_prob (a X : R) : R := let v := (1 + gc a * X) ^ 3 in exp (1 / 2 * X * X + gb a * (1 - v + ln v)).
Theorem C97_accept : forall a X U, 1 <= a -> 0 <= U -> 0 < 1 + gc a * X ->
  0 < gamma_prob a X <= 1 /\ (gamma_exact (gb a) ((1 + gc a * X) ^ 3) X U = true <-> U < gamma_prob a X).
Proof.
  intros a X U H HU P. unfold gamma_prob. cbv zeta. split.
  - split; [apply exp_pos|]. rewrite (gamma_exponent a X H P). rewrite <- exp_0. apply exp_le_iff. pose proof (gg_neg (gc a * X) ltac:(lra)). pose proof (gb_pos a H). nra.
  - unfold gamma_exact. destruct (Req_EM_T U 0) as [->|N]; [split; [intros _; apply exp_pos | reflexivity]|].
    destruct (Rlt_dec _ _) as [L|L]; split; intros K; try reflexivity; try discriminate.
    + rewrite <- (exp_ln U) by lra. now apply exp_increasing.
    + exfalso. apply L. apply exp_lt_inv. rewrite exp_ln by lra. exact K.
Qed.
Theorem C97_monotone : forall a x, 1 <= a -> 0 < 1 + gc a * x ->
  0 < gamma_value a x /\ derivable_pt_lim (gamma_value a) x (gb a * (3 * gc a * (1 + gc a * x) ^ 2)).
Proof.
  intros a x H P. pose proof (gb_pos a H) as B. split. { unfold gamma_value. pose proof (pow_lt _ 3 P). nra. }
  unfold gamma_value. apply (derivable_pt_lim_scal (fun x => (1 + gc a * x) ^ 3)).
  replace (3 * gc a * (1 + gc a * x) ^ 2) with (INR 3 * (1 + gc a * x) ^ 2 * (0 + gc a * 1)) by (replace (INR 3) with 3 by (cbn; ring); ring).
  apply (derivable_pt_lim_comp (fun x => 1 + gc a * x) (fun y => y ^ 3)); [|apply (derivable_pt_lim_pow (1 + gc a * x) 3)].
  apply (derivable_pt_lim_plus (fun _ => 1) (fun x => gc a * x)); [apply derivable_pt_lim_const|]. apply (derivable_pt_lim_scal id). apply derivable_pt_lim_id.
Qed.
(* normal density times probability of acceptance = gamma density of the value times its derivative, up to a constant *)
Theorem C97_law : forall a, 1 <= a -> exists k, 0 < k /\ forall x, 0 < 1 + gc a * x ->
  let y := gamma_value a x in
  exp (- (x * x / 2)) * gamma_prob a x = k * (Rpower y (a - 1) * exp (- y)) * (gb a * (3 * gc a * (1 + gc a * x) ^ 2)).
Proof.
  intros a H. pose proof (gb_pos a H) as B. destruct (gc_spec a H) as [C _].
  exists (exp (gb a) * Rpower (gb a) (1 - a) / (gb a * (3 * gc a))). split.
  { apply Rdiv_lt_0_compat; [|nra]. apply Rmult_lt_0_compat; apply exp_pos. }
  intros x P y. unfold gamma_prob. cbv zeta. rewrite <- exp_plus. set (w := 1 + gc a * x) in *. unfold y, gamma_value. fold w.
  assert (L3 : ln (w ^ 3) = 3 * ln w). { cbn [pow]. rewrite Rmult_1_r, !ln_mult by nra. ring. }
  assert (W3 : 0 < w ^ 3) by (apply pow_lt; exact P).
  transitivity (exp (gb a - gb a * w ^ 3) * exp (gb a * (3 * ln w))). { rewrite <- exp_plus. f_equal. rewrite L3. lra. }
  transitivity (exp (gb a) * exp (- (gb a * w ^ 3)) * (Rpower (gb a) (1 - a) * Rpower (gb a * w ^ 3) (a - 1) * w ^ 2)).
  2:{ field. lra. }
  assert (E : Rpower (gb a) (1 - a) * Rpower (gb a * w ^ 3) (a - 1) * w ^ 2 = exp (gb a * (3 * ln w))).
  { replace (w ^ 2) with (exp (2 * ln w)). 2:{ replace (2 * ln w) with (ln w + ln w) by ring. rewrite exp_plus, exp_ln by exact P. ring. }
    unfold Rpower. rewrite <- !exp_plus. f_equal. rewrite ln_mult, L3 by (try exact W3; lra). unfold gb. field. }
  rewrite E. replace (gb a - gb a * w ^ 3) with (gb a + - (gb a * w ^ 3)) by ring. rewrite exp_plus. ring.
Qed.

(* -- the squeeze -- *)
Definition hh (y : R) : R := 2 * gg y - ln (1 - 11916 / 10000 * y ^ 4).
Definition hp (y : R) : R := 27664 / 10000 + 47664 / 10000 * y + 23832 / 10000 * y ^ 4.
Definition hd (y : R) : R := y ^ 3 * hp y / ((1 + y) * (1 - 11916 / 10000 * y ^ 4)).
Lemma D_hh y : -1 < y -> 11916 / 10000 * y ^ 4 < 1 -> derivable_pt_lim hh y (hd y).
Proof.
  intros H Q. unfold hh. replace (hd y) with (2 * (- y ^ 3 / (1 + y)) - / (1 - 11916 / 10000 * y ^ 4) * (0 - 11916 / 10000 * (INR 4 * y ^ 3))).
  2:{ unfold hd, hp. replace (INR 4) with 4 by (cbn; ring). field. lra. }
  apply (derivable_pt_lim_minus (fun y => 2 * gg y) (fun y => ln (1 - 11916 / 10000 * y ^ 4))).
  - apply (derivable_pt_lim_scal gg). now apply D_gg.
  - apply (derivable_pt_lim_comp (fun y => 1 - 11916 / 10000 * y ^ 4) ln); [|apply derivable_pt_lim_ln; lra].
    apply (derivable_pt_lim_minus (fun _ => 1) (fun y => 11916 / 10000 * y ^ 4)); [apply derivable_pt_lim_const|]. apply (derivable_pt_lim_scal (fun y => y ^ 4)). apply (derivable_pt_lim_pow y 4).
Qed.
Lemma hh_0 : hh 0 = 0.
Proof. unfold hh. rewrite gg_0. replace (1 - 11916 / 10000 * 0 ^ 4) with 1 by ring. rewrite ln_1. ring. Qed.
Lemma pow4_tangent t y : 4 * t ^ 3 * y - 3 * t ^ 4 <= y ^ 4.
Proof. assert (0 <= (y - t) ^ 2 * ((y + t) ^ 2 + 2 * t ^ 2)). { apply Rmult_le_pos; [apply pow2_ge_0|]. pose proof (pow2_ge_0 (y + t)). pose proof (pow2_ge_0 t). lra. } lra. Qed.
Lemma pow4_chord l r y : l <= y <= r -> y ^ 4 <= l ^ 4 + (y - l) * ((l + r) * (l ^ 2 + r ^ 2)).
Proof.
  intros H. assert (0 <= (y - l) * (r - y) * ((y ^ 2 + (l + r) * y + (l ^ 2 + l * r + r ^ 2)))).
  { apply Rmult_le_pos; [apply Rmult_le_pos; lra|]. replace (y ^ 2 + (l + r) * y + (l ^ 2 + l * r + r ^ 2)) with ((y + (l + r) / 2) ^ 2 + 1 / 2 * l ^ 2 + 1 / 2 * r ^ 2 + 1 / 4 * (l + r) ^ 2) by field.
    pose proof (pow2_ge_0 (y + (l + r) / 2)). pose proof (pow2_ge_0 l). pose proof (pow2_ge_0 r). pose proof (pow2_ge_0 (l + r)). lra. }
  lra.
Qed.
Lemma pow4_le y m : - m <= y <= m -> y ^ 4 <= m ^ 4.
Proof. intros H. assert (A : 0 <= y ^ 2 <= m ^ 2) by nra. replace (y ^ 4) with (y ^ 2 * y ^ 2) by ring. replace (m ^ 4) with (m ^ 2 * m ^ 2) by ring. nra. Qed.
Lemma cube_neg y : y <= 0 -> y ^ 3 <= 0.
Proof. intros H. pose proof (pow_le (- y) 3 ltac:(lra)). replace ((- y) ^ 3) with (- y ^ 3) in * by ring. lra. Qed.
Lemma hd_sign y : -1 < y -> 11916 / 10000 * y ^ 4 < 1 -> (0 <= y ^ 3 * hp y -> 0 <= hd y) /\ (y ^ 3 * hp y <= 0 -> hd y <= 0).
Proof.
  intros H Q. assert (D : 0 < (1 + y) * (1 - 11916 / 10000 * y ^ 4)) by (apply Rmult_lt_0_compat; lra). unfold hd. split; intros K; [apply le_div_iff | apply div_le_iff]; lra.
Qed.
Lemma hh_088 : 6 / 10000 <= hh (-88 / 100).
Proof.
  unfold hh, gg. replace (1 + -88 / 100) with (12 / 100) by lra. replace (1 - 11916 / 10000 * (-88 / 100) ^ 4) with (1 - 11916 / 10000 * (-88 / 100) ^ 4) by reflexivity.
  set (d := 1 - 11916 / 10000 * (-88 / 100) ^ 4). assert (D : 0 < d) by (unfold d; lra).
  assert (A : ln d - 2 * ln (12 / 100) <= 32 * (9783 / 100000 - (9783 / 100000) ^ 2 / 2 + (9783 / 100000) ^ 3 / 3)).
  { pose proof (gg_neg (9783 / 100000) ltac:(lra)) as G. unfold gg in G. set (r := 1 + 9783 / 100000) in *.
    assert (L : ln d <= ln ((12 / 100) * (12 / 100) * r ^ 32)).
    { assert (d <= (12 / 100) * (12 / 100) * r ^ 32) as [M|M] by (unfold d, r; lra); [left; apply ln_increasing; assumption | rewrite M; lra]. }
    assert (R32 : ln (r ^ 32) = 32 * ln r). { rewrite ln_pow by (unfold r; lra). rewrite INR_IZR_INZ. reflexivity. }
    rewrite ln_mult, R32, ln_mult in L by (try lra; apply pow_lt; unfold r; lra). lra. }
  lra.
Qed.
Lemma hh_pos y : -1 < y -> 11916 / 10000 * y ^ 4 < 1 -> 0 <= hh y.
Proof.
  intros H Q. destruct (Rle_lt_dec 0 y) as [P|N].
  - rewrite <- hh_0. apply (mono hh hd); [exact P| |]; intros c Hc; pose proof (pow4_le c y ltac:(lra)).
    + apply D_hh; lra.
    + apply hd_sign; [lra..|]. unfold hp. pose proof (pow_le c 3 ltac:(lra)). pose proof (pow_le c 4 ltac:(lra)). nra.
  - destruct (Rle_lt_dec (-70 / 100) y) as [A|A].
    + rewrite <- hh_0. apply (mono_down hh hd); [lra| |]; intros c Hc; pose proof (pow4_le c (70 / 100) ltac:(lra)).
      * apply D_hh; lra.
      * apply hd_sign; [lra..|]. unfold hp. pose proof (cube_neg c ltac:(lra)). pose proof (pow4_tangent (-70 / 100) c). nra.
    + pose proof hh_088 as H8. destruct (Rle_lt_dec y (-88 / 100)) as [B|B].
      * apply (Rle_trans _ (hh (-88 / 100))); [lra|]. apply (mono_down hh hd); [exact B| |]; intros c Hc; assert (c ^ 4 <= y ^ 4) by (replace (y ^ 4) with ((- y) ^ 4) by ring; apply pow4_le; lra).
        -- apply D_hh; lra.
        -- apply hd_sign; [lra..|]. unfold hp. pose proof (cube_neg c ltac:(lra)). pose proof (pow4_tangent (-88 / 100) c). nra.
      * assert (D : forall c, -88 / 100 <= c <= -70 / 100 -> derivable_pt_lim hh c (hd c)) by (intros c Hc; pose proof (pow4_le c (88 / 100) ltac:(lra)); apply D_hh; lra).
        assert (E : forall c, -88 / 100 <= c <= -70 / 100 -> - (5 / 100) <= hd c).
        { intros c Hc. pose proof (pow4_le c (88 / 100) ltac:(lra)) as C4. unfold hd.
          assert (P : hp c <= 22 / 10000). { unfold hp. pose proof (pow4_chord (-88 / 100) (-70 / 100) c Hc). lra. }
          assert (Z : 0 <= - c ^ 3 <= 682 / 1000). { pose proof (cube_neg c ltac:(lra)). split; [lra|]. assert (0 <= (- c) ^ 2 <= (88 / 100) ^ 2) by nra. nra. }
          assert (D1 : 12 / 100 * (285 / 1000) <= (1 + c) * (1 - 11916 / 10000 * c ^ 4)) by (apply Rmult_le_compat; lra).
          apply le_div_iff; [lra|]. set (z := c ^ 3) in *. set (p := hp c) in *. set (q := (1 + c) * _) in *. clearbody z p q. nra. }
        assert (G : forall c, -879 / 1000 <= c <= -71 / 100 -> 0 <= hd c).
        { intros c Hc. pose proof (pow4_le c (88 / 100) ltac:(lra)) as C4. apply hd_sign; [lra..|]. pose proof (cube_neg c ltac:(lra)).
          assert (P : hp c <= 0). { unfold hp. pose proof (pow4_chord (-879 / 1000) (-71 / 100) c Hc). lra. } nra. }
        assert (S1 : forall c, -88 / 100 <= c <= -879 / 1000 -> 5 / 10000 <= hh c).
        { intros c Hc. pose proof (mono_below hh hd (-88 / 100) c (5 / 100) ltac:(lra) ltac:(intros; apply D; lra) ltac:(intros; apply E; lra)). lra. }
        assert (S2 : forall c, -879 / 1000 <= c <= -71 / 100 -> 5 / 10000 <= hh c).
        { intros c Hc. pose proof (S1 (-879 / 1000) ltac:(lra)). pose proof (mono hh hd (-879 / 1000) c ltac:(lra) ltac:(intros; apply D; lra) ltac:(intros; apply G; lra)). lra. }
        destruct (Rle_lt_dec y (-879 / 1000)) as [C|C]; [pose proof (S1 y ltac:(lra)); lra|].
        destruct (Rle_lt_dec y (-71 / 100)) as [F|F]; [pose proof (S2 y ltac:(lra)); lra|].
        pose proof (S2 (-71 / 100) ltac:(lra)). pose proof (mono_below hh hd (-71 / 100) y (5 / 100) ltac:(lra) ltac:(intros; apply D; lra) ltac:(intros; apply E; lra)). lra.
Qed.
Lemma squeeze_bound a X : 1 <= a -> 0 < 1 + gc a * X -> 331 / 10000 * (X * X) * (X * X) < 1 ->
  1 - 331 / 10000 * (X * X) * (X * X) <= gamma_prob a X.
Proof.
  intros H P Q. unfold gamma_prob. cbv zeta. rewrite (gamma_exponent a X H P). destruct (gc_spec a H) as [C E]. pose proof (gb_pos a H) as B.
  set (b := gb a) in *. set (c := gc a) in *. clearbody b c. set (m := 3 / 2 * b). assert (M : 1 <= m) by (unfold m; lra).
  set (y := c * X) in *. set (u := 331 / 10000 * (X * X) * (X * X)) in *.
  assert (U : u = 11916 / 10000 * y ^ 4 * (m * m)).
  { unfold u, y, m. replace (11916 / 10000 * (c * X) ^ 4 * (3 / 2 * b * (3 / 2 * b))) with (331 / 10000 * (X * X) * (X * X) * ((9 * b * (c * c)) * (9 * b * (c * c)))) by field. rewrite E. ring. }
  set (d := 11916 / 10000 * y ^ 4) in *. assert (D0 : 0 <= d). { unfold d. replace (y ^ 4) with ((y ^ 2) ^ 2) by ring. pose proof (pow2_ge_0 (y ^ 2)). lra. }
  assert (D2 : d <= d * m) by (clear - D0 M; clearbody d m; nra). assert (D1 : d * m <= u) by (rewrite U; clear - D0 D2 M; clearbody d m; nra).
  pose proof (hh_pos y ltac:(lra) ltac:(fold d; lra)) as HH. unfold hh in HH. fold d in HH.
  assert (I : 0 <= / m <= 1). { split; [left; apply Rinv_0_lt_compat; lra|]. rewrite <- Rinv_1. apply Rinv_le_contravar; lra. }
  pose proof (ln_concave (/ m) (1 - d * m) I ltac:(lra)) as L. replace (1 - / m + / m * (1 - d * m)) with (1 - d) in L by (field; lra).
  assert (L2 : ln (1 - d * m) <= m * ln (1 - d)). { apply (Rmult_le_compat_l m) in L; [|lra]. rewrite <- Rmult_assoc, Rinv_r, Rmult_1_l in L by lra. exact L. }
  apply (Rle_trans _ (1 - d * m)); [lra|]. apply ln_le_exp; [lra|]. apply (Rle_trans _ _ _ L2). unfold m. nra.
Qed.
Theorem C97_squeeze : forall a X U, 1 <= a -> 0 < 1 + gc a * X -> 0 <= U -> squeeze X U = true -> U < gamma_prob a X.
Proof.
  intros a X U H P HU S. unfold squeeze in S. destruct (Rlt_dec _ _) as [L|L]; [|discriminate]. pose proof (squeeze_bound a X H P ltac:(lra)). lra.
Qed.
Theorem C97_large : forall a X U, 1 <= a -> 0 <= U ->
  gamma_large a X U = (if Rle_dec (1 + gc a * X) 0 then GNormal else if Rlt_dec U (gamma_prob a X) then GVal (gamma_value a X) else GMore).
Proof.
  intros a X U H HU. unfold gamma_large. cbv zeta. destruct (Rle_dec _ _) as [L|L]; [reflexivity|]. assert (P : 0 < 1 + gc a * X) by lra.
  replace ((1 + gc a * X) * (1 + gc a * X) * (1 + gc a * X)) with ((1 + gc a * X) ^ 3) by ring. fold (gamma_value a X).
  pose proof (C97_squeeze a X U H P HU) as S. destruct (C97_accept a X U H HU P) as [_ A].
  destruct (Rlt_dec U (gamma_prob a X)) as [K|K].
  - destruct (squeeze X U); [reflexivity|]. rewrite (proj2 A K). reflexivity.
  - destruct (squeeze X U); [exfalso; apply K; now apply S|]. destruct (gamma_exact _ _ _ _); [exfalso; apply K; now apply A | reflexivity].
Qed.

(* -- shape < 1 -- *)
(* the part of the exponential number already spent when x is proposed, and the distribution function of the proposal *)
Definition lead (a x : R) : R := if Rle_dec (powr x a) (1 - a) then 0 else (powr x a - 1 + a) / a.
Definition small_F (a x : R) : R := if Rle_dec (powr x a) (1 - a) then powr x a else 1 - a * exp (- lead a x).
Definition small_f (a x : R) : R := a * Rpower x (a - 1) * exp (- lead a x).
Lemma powr_back a x : 0 < a -> 0 <= x -> powr (powr x (1 / a)) a = x.
Proof.
  intros H P. unfold powr at 2. destruct (Req_EM_T x 0) as [->|N].
  - unfold powr. destruct (Req_EM_T 0 0); [reflexivity | lra].
  - unfold powr. destruct (Req_EM_T _ _) as [Z|_]; [pose proof (exp_pos (1 / a * ln x)); unfold Rpower in Z; lra|]. rewrite Rpower_mult. replace (1 / a * a) with 1 by (field; lra). apply Rpower_1. lra.
Qed.
Lemma powr_pos x a : 0 < x -> powr x a = Rpower x a.
Proof. intros H. unfold powr. destruct (Req_EM_T x 0); [lra | reflexivity]. Qed.
Theorem C97_small : forall a U V, 0 < a < 1 -> 0 <= U < 1 -> exists X,
  0 <= lead a X <= X /\ gamma_small a U V = (if Rle_dec (X - lead a X) V then Some X else None) /\ forall x, 0 < x -> X <= x <-> U <= small_F a x.
Proof.
  intros a U V Ha HU. unfold gamma_small. destruct (Rle_dec U (1 - a)) as [L|L].
  - exists (powr U (1 / a)). pose proof (powr_back a U ltac:(lra) ltac:(lra)) as B.
    assert (LD : lead a (powr U (1 / a)) = 0) by (unfold lead; rewrite B; destruct (Rle_dec _ _); [reflexivity | lra]). rewrite LD.
    split; [|split]. { split; [lra|]. unfold powr. destruct (Req_EM_T _ _); [lra | left; apply exp_pos]. }
    { cbv zeta. rewrite Rminus_0_r. reflexivity. }
    intros x Hx. rewrite powr_le by lra. unfold small_F. rewrite (powr_pos x a Hx). destruct (Rle_dec _ _) as [K|K]; [tauto|]. split; [|lra]. intros _.
    unfold lead. rewrite (powr_pos x a Hx). destruct (Rle_dec _ _); [lra|]. assert (T : 0 < (Rpower x a - 1 + a) / a) by (apply Rdiv_lt_0_compat; lra). set (t := (Rpower x a - 1 + a) / a) in *. clearbody t.
    assert (Q : exp (- t) < exp 0) by (apply exp_increasing; lra). rewrite exp_0 in Q. pose proof (Rmult_lt_compat_l a _ _ ltac:(lra) Q). lra.
  - cbv zeta. set (Y := - ln ((1 - U) / a)). assert (HY : 0 < Y). { unfold Y. pose proof (ln_neg ((1 - U) / a)) as N. assert (0 < (1 - U) / a < 1); [|lra]. split; [apply Rdiv_lt_0_compat; lra|].
      apply (Rmult_lt_reg_r a); [lra|]. unfold Rdiv. rewrite Rmult_assoc, Rinv_l, Rmult_1_r by lra. lra. }
    assert (YE : exp (- Y) = (1 - U) / a) by (unfold Y; rewrite Ropp_involutive; apply exp_ln; apply Rdiv_lt_0_compat; lra).
    clearbody Y. set (base := 1 - a + a * Y). assert (HB : 1 - a < base) by (unfold base; nra). pose proof (powr_back a base ltac:(lra) ltac:(lra)) as B.
    exists (powr base (1 / a)). assert (LD : lead a (powr base (1 / a)) = Y). { unfold lead. rewrite B. destruct (Rle_dec _ _); [lra|]. unfold base. field. lra. }
    rewrite LD. split; [|split].
    + split; [lra|]. rewrite powr_pos by lra. pose proof (ln_concave a Y ltac:(lra) HY) as C. fold base in C. rewrite <- (exp_ln Y HY) at 1. unfold Rpower. apply exp_le_iff.
      apply (Rmult_le_reg_l a); [lra|]. replace (a * (1 / a * ln base)) with (ln base) by (field; lra). exact C.
    + destruct (Rle_dec _ _), (Rle_dec _ _); try reflexivity; lra.
    + intros x Hx. rewrite powr_le by lra. unfold small_F, lead. rewrite (powr_pos x a Hx). destruct (Rle_dec _ _) as [K|K]; [split; intros; lra|].
      transitivity (Y <= (Rpower x a - 1 + a) / a). { rewrite le_div_iff by lra. unfold base. split; intros; lra. }
      set (t := (Rpower x a - 1 + a) / a). clearbody t. transitivity (exp (- t) <= exp (- Y)); [rewrite exp_le_iff; split; intros; lra|]. rewrite YE, le_div_iff by lra. split; intros; lra.
Qed.
Theorem C97_small_accept : forall d T, 0 <= T < 1 -> d <= std_exponential T <-> 1 - T <= exp (- d).
Proof. intros d T H. unfold std_exponential. rewrite <- ln_le_exp by lra. split; intros; lra. Qed.
Lemma Rpower_lt_iff a x y : 0 < a -> 0 < x -> 0 < y -> Rpower x a < y <-> x < Rpower y (1 / a).
Proof.
  intros A X Y. unfold Rpower. rewrite <- (exp_ln y) at 1 by exact Y. rewrite <- (exp_ln x) at 2 by exact X. rewrite !exp_lt_iff. split; intros H.
  - apply (Rmult_lt_reg_l a); [lra|]. replace (a * (1 / a * ln y)) with (ln y) by (field; lra). exact H.
  - apply (Rmult_lt_compat_l a) in H; [|lra]. replace (a * (1 / a * ln y)) with (ln y) in H by (field; lra). exact H.
Qed.
Lemma Rpower_gt_iff a x y : 0 < a -> 0 < x -> 0 < y -> y < Rpower x a <-> Rpower y (1 / a) < x.
Proof.
  intros A X Y. unfold Rpower. rewrite <- (exp_ln y) at 1 by exact Y. rewrite <- (exp_ln x) at 2 by exact X. rewrite !exp_lt_iff. split; intros H.
  - apply (Rmult_lt_reg_l a); [lra|]. replace (a * (1 / a * ln y)) with (ln y) by (field; lra). exact H.
  - apply (Rmult_lt_compat_l a) in H; [|lra]. replace (a * (1 / a * ln y)) with (ln y) in H by (field; lra). exact H.
Qed.
Theorem C97_small_density : forall a x, 0 < a < 1 -> 0 < x -> Rpower x a <> 1 - a -> derivable_pt_lim (small_F a) x (small_f a x).
Proof.
  intros a x Ha Hx N. set (x0 := Rpower (1 - a) (1 / a)). assert (P0 : 0 < x0) by apply exp_pos.
  destruct (Rlt_le_dec (Rpower x a) (1 - a)) as [L|L].
  - assert (X : x < x0) by (apply Rpower_lt_iff; lra). replace (small_f a x) with (a * Rpower x (a - 1)).
    + eapply (derivable_pt_lim_locally_ext (fun x => Rpower x a) _ x 0 x0); [lra| |apply derivable_pt_lim_power; exact Hx].
      intros z Hz. unfold small_F. rewrite powr_pos by lra. pose proof (proj2 (Rpower_lt_iff a z (1 - a) ltac:(lra) ltac:(lra) ltac:(lra)) ltac:(fold x0; lra)). destruct (Rle_dec _ _); [reflexivity | lra].
    + unfold small_f, lead. rewrite powr_pos by lra. destruct (Rle_dec _ _); [|lra]. rewrite Ropp_0, exp_0. ring.
  - assert (L' : 1 - a < Rpower x a) by lra. assert (X : x0 < x) by (apply Rpower_gt_iff; lra).
    set (g := fun x => / a * Rpower x a + (a - 1) / a).
    eapply (derivable_pt_lim_locally_ext (fun x => 1 - a * exp (- g x)) _ x x0 (x + 1)); [lra| |].
    + intros z Hz. unfold small_F, lead. rewrite powr_pos by lra. pose proof (proj2 (Rpower_gt_iff a z (1 - a) ltac:(lra) ltac:(lra) ltac:(lra)) ltac:(fold x0; lra)). destruct (Rle_dec _ _); [lra|]. do 4 f_equal. unfold g. field. lra.
    + assert (G : derivable_pt_lim g x (/ a * (a * Rpower x (a - 1)) + 0)).
      { unfold g. apply (derivable_pt_lim_plus (fun x => / a * Rpower x a) (fun _ => (a - 1) / a)); [|apply derivable_pt_lim_const]. apply (derivable_pt_lim_scal (fun x => Rpower x a)). now apply derivable_pt_lim_power. }
      replace (small_f a x) with (0 - a * (exp (- g x) * - (/ a * (a * Rpower x (a - 1)) + 0))).
      * apply (derivable_pt_lim_minus (fun _ => 1) (fun x => a * exp (- g x))); [apply derivable_pt_lim_const|]. apply (derivable_pt_lim_scal (fun x => exp (- g x))).
        apply (derivable_pt_lim_comp (fun x => - g x) exp); [|apply derivable_pt_lim_exp]. apply (derivable_pt_lim_opp g). exact G.
      * unfold small_f, lead. rewrite powr_pos by lra. destruct (Rle_dec _ _); [lra|]. replace ((Rpower x a - 1 + a) / a) with (g x) by (unfold g; field; lra). field. lra.
Qed.
Theorem C97_small_law : forall a x, small_f a x * exp (- (x - lead a x)) = a * (Rpower x (a - 1) * exp (- x)).
Proof. intros a x. unfold small_f. rewrite Rmult_assoc, <- exp_plus. replace (- lead a x + - (x - lead a x)) with (- x) by ring. ring. Qed.

Example C97_case : gamma_large 1 0 (1 / 2) = GVal (2 / 3) /\ gamma_large 1 (-6) (1 / 2) = GNormal /\ gamma_prob 1 0 = 1 /\
  gamma_small (1 / 2) (1 / 4) 1 = Some (1 / 16) /\ gamma_small (1 / 2) (1 / 4) 0 = None.
Proof.
  assert (P : gamma_prob 1 0 = 1). { unfold gamma_prob. cbv zeta. replace ((1 + gc 1 * 0) ^ 3) with 1 by ring. rewrite ln_1. replace (1 / 2 * 0 * 0 + gb 1 * (1 - 1 + 0)) with 0 by ring. apply exp_0. }
  assert (W : powr (1 / 4) (1 / (1 / 2)) = 1 / 16). { rewrite powr_pos by lra. replace (1 / (1 / 2)) with (1 + 1) by lra. rewrite Rpower_plus, Rpower_1 by lra. lra. }
  split; [|split; [|split; [exact P|split]]].
  - rewrite C97_large by lra. rewrite P, Rmult_0_r. destruct (Rle_dec _ _); [lra|]. destruct (Rlt_dec _ _); [|lra]. f_equal. unfold gamma_value, gb. rewrite Rmult_0_r. lra.
  - rewrite C97_large by lra. destruct (gc_spec 1 ltac:(lra)) as [C E]. unfold gb in E. destruct (Rle_dec _ _); [reflexivity|]. exfalso. nra.
  - unfold gamma_small. destruct (Rle_dec _ _); [|lra]. cbv zeta. rewrite W. destruct (Rle_dec _ _); [reflexivity | lra].
  - unfold gamma_small. destruct (Rle_dec _ _); [|lra]. cbv zeta. rewrite W. destruct (Rle_dec _ _); [lra | reflexivity].
Qed.

Print Assumptions C97_accept.
Print Assumptions C97_monotone.
Print Assumptions C97_law.
Print Assumptions C97_squeeze.
Print Assumptions C97_large.
Print Assumptions C97_small.
Print Assumptions C97_small_accept.
Print Assumptions C97_small_density.
Print Assumptions C97_small_law.
