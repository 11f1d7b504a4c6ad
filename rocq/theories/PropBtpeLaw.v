(* C98, continued: the points that random_binomial_btpe proposes outside the triangle. w = u * p4 is uniform in [0, p4), v in [0, 1). *)
From Verif Require Import Word InvDist PropInvDist PropGamma Btpe PropBtpe.
From Coq Require Import Reals Lra Lia Psatz.
Open Scope R_scope.

Section Law.
  Variables (n : nat) (r : R).
  (* abscissa and height of the point: parallelograms, left tail, right tail *)
  Definition X2 (w : R) : R := bxl n r + (w - bp1 n r) / bc n r.
  Definition V2 (w v : R) : R := v * bc n r + 1 - Rabs (bxm n r - X2 w) / bp1 n r.
  Definition X3 (v : R) : R := bxl n r + ln v / blaml n r.
  Definition V3 (w v : R) : R := v * (w - bp2 n r) * blaml n r.
  Definition X4 (v : R) : R := bxr n r - ln v / blamr n r.
  Definition V4 (w v : R) : R := v * (w - bp3 n r) * blamr n r.
End Law.

(* the floor of the abscissa is tried with the height of the point *)
Theorem C98_regions : forall n r u v, 0 < r <= 1 / 2 -> 30 < r * INR n -> 0 < v < 1 -> let w := u * bp4 n r in
  (bp1 n r < w <= bp2 n r -> btpe n r u v = if Rlt_dec 1 (V2 n r w v) then BpMore else accept n r (Int_part (X2 n r w)) (V2 n r w v)) /\
  (bp2 n r < w <= bp3 n r -> btpe n r u v = if (Int_part (X3 n r v) <? 0)%Z then BpMore else accept n r (Int_part (X3 n r v)) (V3 n r w v)) /\
  (bp3 n r < w -> btpe n r u v = if (Z.of_nat n <? Int_part (X4 n r v))%Z then BpMore else accept n r (Int_part (X4 n r v)) (V4 n r w v)).
Proof.
  intros n r u v Hr Hn Hv w. pose proof (p_order n r Hr Hn) as P. unfold btpe. cbv zeta. fold w. split; [|split]; intros W.
  - destruct (Rle_dec w (bp1 n r)); [lra|]. destruct (Rle_dec w (bp2 n r)); [|lra]. fold (X2 n r w). replace (IZR (bm n r) - X2 n r w + 1 / 2) with (bxm n r - X2 n r w) by (unfold bxm; lra). reflexivity.
  - destruct (Rle_dec w (bp1 n r)); [lra|]. destruct (Rle_dec w (bp2 n r)); [lra|]. destruct (Rle_dec w (bp3 n r)); [|lra]. destruct (Req_EM_T v 0); [lra|]. reflexivity.
  - destruct (Rle_dec w (bp1 n r)); [lra|]. destruct (Rle_dec w (bp2 n r)); [lra|]. destruct (Rle_dec w (bp3 n r)); [lra|]. destruct (Req_EM_T v 0); [lra|]. reflexivity.
Qed.

(* the maps from (w, v) keep areas: the abscissa depends on one of the two only, and the product of the two derivatives is 1 or -1 *)
Lemma affine_deriv a b c x : derivable_pt_lim (fun t => a + (t - b) * c) x c.
Proof.
  assert (E : c = 0 + ((1 - 0) * c + (x - b) * 0)) by ring. refine (eq_ind_r (fun l => derivable_pt_lim (fun t => a + (t - b) * c) x l) _ E).
  apply (derivable_pt_lim_plus (fun _ => a) (fun t => (t - b) * c)); [apply derivable_pt_lim_const|]. apply (derivable_pt_lim_mult (fun t => t - b) (fun _ => c)); [|apply derivable_pt_lim_const].
  apply (derivable_pt_lim_minus (fun t => t) (fun _ => b)); [apply derivable_pt_lim_id | apply derivable_pt_lim_const].
Qed.
Lemma deriv_ext f g x l : (forall t, f t = g t) -> derivable_pt_lim f x l -> derivable_pt_lim g x l.
Proof. intros E D eps He. destruct (D eps He) as [d Hd]. exists d. intros h Hh Hl. rewrite <- !E. now apply Hd. Qed.
Lemma ln_deriv a c x : 0 < x -> derivable_pt_lim (fun t => a + ln t * c) x (/ x * c).
Proof.
  intros H. replace (/ x * c) with (0 + (/ x * c + ln x * 0)) by ring. apply (derivable_pt_lim_plus (fun _ => a) (fun t => ln t * c)); [apply derivable_pt_lim_const|].
  apply (derivable_pt_lim_mult ln (fun _ => c)); [now apply derivable_pt_lim_ln | apply derivable_pt_lim_const].
Qed.
Theorem C98_area : forall n r w v, 0 < r <= 1 / 2 -> 30 < r * INR n -> 0 < v ->
  (exists a b, derivable_pt_lim (X2 n r) w a /\ derivable_pt_lim (V2 n r w) v b /\ a * b = 1) /\
  (exists a b, derivable_pt_lim (X3 n r) v a /\ derivable_pt_lim (fun w => V3 n r w v) w b /\ a * b = 1) /\
  (exists a b, derivable_pt_lim (X4 n r) v a /\ derivable_pt_lim (fun w => V4 n r w v) w b /\ a * b = -1).
Proof.
  intros n r w v Hr Hn Hv. pose proof (c_pos n r Hr Hn) as C. pose proof (laml_pos n r Hr Hn) as L. pose proof (lamr_pos n r Hr Hn) as R. split; [|split].
  - exists (/ bc n r), (bc n r). split; [|split; [|field; lra]].
    + apply affine_deriv.
    + eapply deriv_ext; [|apply (affine_deriv (1 - Rabs (bxm n r - X2 n r w) / bp1 n r) 0)]. intros t. unfold V2. cbv beta. lra.
  - exists (/ v * / blaml n r), (v * blaml n r). split; [|split; [|field; lra]].
    + now apply ln_deriv.
    + eapply deriv_ext; [|apply (affine_deriv 0 (bp2 n r))]. intros t. unfold V3. cbv beta. ring.
  - exists (/ v * - / blamr n r), (v * blamr n r). split; [|split; [|field; lra]].
    + eapply deriv_ext; [|apply (ln_deriv (bxr n r) (- / blamr n r)); exact Hv]. intros t. unfold X4. cbv beta. unfold Rdiv. ring.
    + eapply deriv_ext; [|apply (affine_deriv 0 (bp3 n r))]. intros t. unfold V4. cbv beta. ring.
Qed.

(* the points of the tails are those under c exp (- lam |x - end|), each given once *)
Theorem C98_left_tail : forall n r x h, 0 < r <= 1 / 2 -> 30 < r * INR n ->
  (x < bxl n r /\ 0 < h <= bc n r * exp (blaml n r * (x - bxl n r))) <->
  exists! p, bp2 n r < fst p <= bp3 n r /\ 0 < snd p < 1 /\ X3 n r (snd p) = x /\ V3 n r (fst p) (snd p) = h.
Proof.
  intros n r x h Hr Hn. pose proof (c_pos n r Hr Hn) as C. pose proof (laml_pos n r Hr Hn) as L. unfold bp3, X3, V3. set (c := bc n r) in *. set (l := blaml n r) in *. set (p2 := bp2 n r). set (xl := bxl n r). clearbody c l p2 xl.
  split.
  - intros [Hx Hh]. set (v := exp (l * (x - xl))) in *. assert (P : 0 < v) by apply exp_pos. assert (LV : ln v = l * (x - xl)) by apply ln_exp.
    assert (V1 : v < 1). { rewrite <- exp_0. apply exp_increasing. nra. }
    assert (EV : v = exp (l * (x - xl))) by reflexivity. clearbody v.
    exists (p2 + h / (v * l), v). cbn [fst snd]. assert (VL : 0 < v * l) by nra. split.
    + cbn [fst snd]. assert (0 < h / (v * l) <= c / l). { split; [apply Rdiv_lt_0_compat; lra|]. apply div_le_iff; [exact VL|]. replace (c / l * (v * l)) with (c * v) by (field; lra). lra. }
      set (q := h / (v * l)) in *. assert (Q : q * (v * l) = h) by (unfold q; field; lra). clearbody q. set (d := c / l) in *. clearbody d. split; [lra|]. split; [lra|]. split; [rewrite LV; field; lra | rewrite <- Q; ring].
    + intros [w v'] [_ [H1 [H2 H3]]]. cbn [fst snd] in *. assert (E : v' = v). { rewrite EV, <- H2. replace (l * (xl + ln v' / l - xl)) with (ln v') by (field; lra). symmetry. apply exp_ln. lra. }
      subst v'. f_equal. rewrite <- H3. field. lra.
  - intros [[w v] [[H1 [H2 [H3 H4]]] _]]. cbn [fst snd] in *. pose proof (ln_increasing v 1 ltac:(lra) ltac:(lra)) as LV. rewrite ln_1 in LV. assert (I : 0 < / l) by now apply Rinv_0_lt_compat.
    assert (c / l * l = c) by (field; lra). split; [rewrite <- H3; unfold Rdiv; nra|].
    replace (l * (x - xl)) with (ln v) by (rewrite <- H3; field; lra). rewrite exp_ln by lra. rewrite <- H4. assert (0 < (w - p2) * l <= c) by (split; nra). nra.
Qed.
Theorem C98_right_tail : forall n r x h, 0 < r <= 1 / 2 -> 30 < r * INR n ->
  (bxr n r < x /\ 0 < h <= bc n r * exp (- blamr n r * (x - bxr n r))) <->
  exists! p, bp3 n r < fst p <= bp4 n r /\ 0 < snd p < 1 /\ X4 n r (snd p) = x /\ V4 n r (fst p) (snd p) = h.
Proof.
  intros n r x h Hr Hn. pose proof (c_pos n r Hr Hn) as C. pose proof (lamr_pos n r Hr Hn) as L. unfold bp4, X4, V4. set (c := bc n r) in *. set (l := blamr n r) in *. set (p3 := bp3 n r). set (xr := bxr n r). clearbody c l p3 xr.
  split.
  - intros [Hx Hh]. set (v := exp (- l * (x - xr))) in *. assert (P : 0 < v) by apply exp_pos. assert (LV : ln v = - l * (x - xr)) by apply ln_exp.
    assert (V1 : v < 1). { rewrite <- exp_0. apply exp_increasing. nra. }
    assert (EV : v = exp (- l * (x - xr))) by reflexivity. clearbody v.
    exists (p3 + h / (v * l), v). cbn [fst snd]. assert (VL : 0 < v * l) by nra. split.
    + cbn [fst snd]. assert (0 < h / (v * l) <= c / l). { split; [apply Rdiv_lt_0_compat; lra|]. apply div_le_iff; [exact VL|]. replace (c / l * (v * l)) with (c * v) by (field; lra). lra. }
      set (q := h / (v * l)) in *. assert (Q : q * (v * l) = h) by (unfold q; field; lra). clearbody q. set (d := c / l) in *. clearbody d. split; [lra|]. split; [lra|]. split; [rewrite LV; field; lra | rewrite <- Q; ring].
    + intros [w v'] [_ [H1 [H2 H3]]]. cbn [fst snd] in *. assert (E : v' = v). { rewrite EV, <- H2. replace (- l * (xr - ln v' / l - xr)) with (ln v') by (field; lra). symmetry. apply exp_ln. lra. }
      subst v'. f_equal. rewrite <- H3. field. lra.
  - intros [[w v] [[H1 [H2 [H3 H4]]] _]]. cbn [fst snd] in *. pose proof (ln_increasing v 1 ltac:(lra) ltac:(lra)) as LV. rewrite ln_1 in LV. assert (I : 0 < / l) by now apply Rinv_0_lt_compat.
    assert (c / l * l = c) by (field; lra). split; [rewrite <- H3; unfold Rdiv; nra|].
    replace (- l * (x - xr)) with (ln v) by (rewrite <- H3; field; lra). rewrite exp_ln by lra. rewrite <- H4. assert (0 < (w - p3) * l <= c) by (split; nra). nra.
Qed.

(* the points of the parallelograms: width xr - xl, between the triangle and the triangle raised by c *)
Theorem C98_parallelograms : forall n r x h, 0 < r <= 1 / 2 -> 30 < r * INR n ->
  let tri := 1 - Rabs (bxm n r - x) / bp1 n r in
  (bxl n r < x <= bxr n r /\ tri < h < tri + bc n r) <->
  exists! p, bp1 n r < fst p <= bp2 n r /\ 0 < snd p < 1 /\ X2 n r (fst p) = x /\ V2 n r (fst p) (snd p) = h.
Proof.
  intros n r x h Hr Hn tri. pose proof (c_pos n r Hr Hn) as C. unfold V2, X2, bp2, bxl, bxr. set (c := bc n r) in *. set (q := bp1 n r) in *. set (m := bxm n r) in *.
  split.
  - intros [Hx Hh]. assert (E : m - q + (q + (x - (m - q)) * c - q) / c = x) by (field; lra). exists (q + (x - (m - q)) * c, (h - tri) / c). cbn [fst snd]. split.
    + cbn [fst snd]. rewrite E. fold tri. assert (V : (h - tri) / c * c = h - tri) by (field; lra). assert (I : 0 < / c) by now apply Rinv_0_lt_compat. set (v := (h - tri) / c) in *. clearbody v.
      split; [split; nra|]. split; [split; nra|]. split; [reflexivity|]. unfold tri in *. lra.
    + intros [w v] [_ [_ [H2 H3]]]. cbn [fst snd] in *. rewrite H2 in H3. f_equal; [rewrite <- H2; field; lra|]. rewrite <- H3. unfold tri. replace (v * c + 1 - Rabs (m - x) / q - (1 - Rabs (m - x) / q)) with (v * c) by ring. field. lra.
  - intros [[w v] [[H1 [H2 [H3 H4]]] _]]. cbn [fst snd] in *. assert (W : (w - q) / c * c = w - q) by (field; lra). set (d := (w - q) / c) in *. clearbody d. rewrite H3 in H4. fold tri in H4 |- *. unfold tri. split; [split; nra|]. split; nra.
Qed.

(* -- the correction terms of Step52 -- *)
(* the first five terms of the Stirling series of log gamma *)
Definition stirling_series (z : R) : R := 1 / (12 * z) - 1 / (360 * z ^ 3) + 1 / (1260 * z ^ 5) - 1 / (1680 * z ^ 7) + 1 / (1188 * z ^ 9).
(* the source has 13680 where 166320 / 12 = 13860 is meant *)
Theorem C98_digits_refuted : forall z, 0 < z -> stirling z = stirling_series z - 1 / (924 * z).
Proof. intros z H. unfold stirling, stirling_series. field. lra. Qed.

(* -- the constants, written out a second time: they shape the hat and the quick tests, and no theorem above determines them -- *)
Theorem C98_setup : forall n r, 0 < r <= 1 / 2 -> 30 < r * INR n ->
  let N := INR n in let q := 1 - r in let fm := N * r + r in
  exists m k : Z, IZR m <= fm < IZR m + 1 /\ IZR k <= 2.195 * sqrt (N * r * q) - 4.6 * q < IZR k + 1 /\
    let p1 := IZR k + 0.5 in let xl := IZR m + 0.5 - p1 in let xr := IZR m + 0.5 + p1 in let c := 0.134 + 20.5 / (15.3 + IZR m) in
    let a := (fm - xl) / (fm - xl * r) in let b := (xr - fm) / (xr * q) in
    bp1 n r = p1 /\ bxl n r = xl /\ bxr n r = xr /\ bc n r = c /\ blaml n r = a + a ^ 2 / 2 /\ blamr n r = b + b ^ 2 / 2.
Proof.
  intros n r Hr Hn N q fm. exists (bm n r), (Int_part (2195 / 1000 * sqrt (INR n * r * bq r) - 46 / 10 * bq r)).
  split; [unfold bm; change fm with (bfm n r); destruct (base_Int_part (bfm n r)); lra|].
  split; [destruct (base_Int_part (2195 / 1000 * sqrt (INR n * r * bq r) - 46 / 10 * bq r)) as [A B]; change (2.195 * sqrt (N * r * q) - 4.6 * q) with (2.195 * sqrt (INR n * r * bq r) - 4.6 * bq r); lra|].
  cbv zeta. set (p1 := IZR (Int_part _) + 0.5). assert (P : bp1 n r = p1) by (unfold bp1, p1; lra). pose proof (m_range n r Hr).
  assert (XL : bxl n r = IZR (bm n r) + 0.5 - p1) by (unfold bxl, bxm; lra). assert (XR : bxr n r = IZR (bm n r) + 0.5 + p1) by (unfold bxr, bxm; lra).
  split; [exact P|]. split; [exact XL|]. split; [exact XR|]. split; [unfold bc; replace (15.3 + IZR (bm n r)) with (153 / 10 + IZR (bm n r)) by lra; lra|]. rewrite <- XL, <- XR. split.
  - unfold blaml. cbv zeta. change (bfm n r) with fm. set (t := (fm - bxl n r) / (fm - bxl n r * r)). field.
  - unfold blamr. cbv zeta. change (bfm n r) with fm. change (bq r) with q. set (t := (bxr n r - fm) / (bxr n r * q)). field.
Qed.
(* Step52: v is taken when it is below the lower bound, or not above the upper bound and the last one *)
Theorem C98_step52 : forall n r y v, 0 < v ->
  let k := Rabs (IZR y - IZR (bm n r)) in let s2 := INR n * r * (1 - r) in
  let rho := k / s2 * ((k * (k / 3 + 0.625) + 0.16666666666666666) / s2 + 0.5) in let t := - k ^ 2 / (2 * s2) in
  step52 n r y v = true <-> ln v < t - rho \/ ln v <= t + rho /\ ln v <= bound52 n r y.
Proof.
  intros n r y v Hv k s2 rho t. unfold step52. cbv zeta. assert (K : IZR (Z.abs (y - bm n r)) = k) by (unfold k; now rewrite abs_IZR, minus_IZR). rewrite K. change (nrq n r) with s2.
  replace (k / s2 * ((k * (k / 3 + 625 / 1000) + 16666666666666666 / 100000000000000000) / s2 + 1 / 2)) with rho.
  2: { unfold rho. replace 0.625 with (625 / 1000) by lra. replace 0.16666666666666666 with (16666666666666666 / 100000000000000000) by lra. replace 0.5 with (1 / 2) by lra. reflexivity. }
  replace (- k * k / (2 * s2)) with t by (unfold t, Rdiv; ring). destruct (Req_EM_T v 0); [lra|].
  destruct (Rlt_dec (ln v) (t - rho)); [split; [left; assumption | reflexivity]|]. destruct (Rlt_dec (t + rho) (ln v)); [split; [discriminate | intros [?|[? _]]; lra]|].
  destruct (Rlt_dec (bound52 n r y) (ln v)); [split; [discriminate | intros [?|[_ ?]]; lra] | split; [right; split; lra | reflexivity]].
Qed.

Example C98_law_case : 0 < 1 / 2 <= 1 / 2 /\ 30 < 1 / 2 * INR 200 /\ bxm 200 (1 / 2) = 100 + 1 / 2 /\ X2 200 (1 / 2) (bp1 200 (1 / 2)) = bxl 200 (1 / 2) /\ V3 200 (1 / 2) (bp3 200 (1 / 2)) 1 = bc 200 (1 / 2).
Proof.
  assert (N : INR 200 = 200) by (rewrite INR_IZR_INZ; reflexivity). assert (H : 30 < 1 / 2 * INR 200) by (rewrite N; lra). pose proof (c_pos 200 (1 / 2) ltac:(lra) H). pose proof (laml_pos 200 (1 / 2) ltac:(lra) H).
  split; [lra|]. split; [exact H|]. split; [unfold bxm; now rewrite bm200|]. split; [unfold X2; field; lra|]. unfold V3, bp3. field. lra.
Qed.

Print Assumptions C98_regions.
Print Assumptions C98_area.
Print Assumptions C98_left_tail.
Print Assumptions C98_right_tail.
Print Assumptions C98_parallelograms.
Print Assumptions C98_digits_refuted.
Print Assumptions C98_setup.
Print Assumptions C98_step52.
