(* C92: random_hypergeometric and the ratio-of-uniforms method. *)
From Verif Require Import Word Bounded HyperLem PropHyper Hrua.
From Coq Require Import Reals Lra ZifyBool ZifyNat ZifyN.
Ltac Zify.zify_post_hook ::= idtac.
Open Scope R_scope.

(* -- two inequalities about the logarithm -- *)
Lemma mono_to_1 (f f' : R -> R) u : 0 < u <= 1 ->
  (forall x, 0 < x -> derivable_pt_lim f x (f' x)) -> (forall x, 0 < x -> f' x <= 0) -> f 1 <= f u.
Proof.
  intros [H0 H1] D N. destruct (Rle_lt_or_eq_dec u 1 H1) as [L|E]; [|subst u; apply Rle_refl].
  destruct (MVT_cor2 f f' u 1 L) as (c & E & C); [intros x Hx; apply D; lra|].
  pose proof (N c ltac:(lra)). assert (f' c * (1 - u) <= 0) by nra. lra.
Qed.

Lemma ln_above u : 0 < u <= 1 -> 2 * ln u <= u * (4 - u) - 3.
Proof.
  intros H. pose proof (mono_to_1 (fun x => x * (4 - x) - 3 - 2 * ln x) (fun x => (1 * (4 - x) + x * (0 - 1) - 0) - 2 * / x) u H) as M.
  cbn beta in M. rewrite ln_1 in M. enough (0 <= u * (4 - u) - 3 - 2 * ln u) by lra.
  replace 0 with (1 * (4 - 1) - 3 - 2 * 0) by lra. apply M.
  - intros x Hx. apply derivable_pt_lim_minus.
    + apply derivable_pt_lim_minus; [|apply derivable_pt_lim_const].
      apply (derivable_pt_lim_mult (fun x => x) (fun x => 4 - x)); [apply derivable_pt_lim_id|].
      apply derivable_pt_lim_minus; [apply derivable_pt_lim_const | apply derivable_pt_lim_id].
    + apply derivable_pt_lim_scal. now apply derivable_pt_lim_ln.
  - intros x Hx. replace (1 * (4 - x) + x * (0 - 1) - 0 - 2 * / x) with (- 2 * (x - 1) ^ 2 * / x) by (field; lra).
    pose proof (Rinv_0_lt_compat x Hx). assert (0 <= (x - 1) ^ 2) by apply pow2_ge_0. nra.
Qed.
Lemma ln_below u : 0 < u <= 1 -> u - / u <= 2 * ln u.
Proof.
  intros H. pose proof (mono_to_1 (fun x => 2 * ln x - x + / x) (fun x => 2 * / x - 1 + - 1 / Rsqr x) u H) as M.
  cbn beta in M. rewrite ln_1, Rinv_1 in M. enough (0 <= 2 * ln u - u + / u) by lra.
  replace 0 with (2 * 0 - 1 + 1) by lra. apply M.
  - intros x Hx. apply derivable_pt_lim_plus.
    + apply derivable_pt_lim_minus; [|apply derivable_pt_lim_id]. apply derivable_pt_lim_scal. now apply derivable_pt_lim_ln.
    + replace (- 1 / Rsqr x) with ((0 * x - 1 * 1) / Rsqr x) by (unfold Rsqr; field; lra).
      assert (E : derivable_pt_lim ((fun _ => 1) / (fun x => x))%F x ((0 * x - 1 * 1) / Rsqr x)).
      { apply (derivable_pt_lim_div (fun _ => 1) (fun x => x)); [apply derivable_pt_lim_const | apply derivable_pt_lim_id | lra]. }
      intros eps He. destruct (E eps He) as [d Hd]. exists d. intros y Hy Hl. specialize (Hd y Hy Hl). unfold div_fct in Hd.
      assert (A : forall z, 1 / z = / z) by (intros z; unfold Rdiv; apply Rmult_1_l). rewrite !A in Hd. exact Hd.
  - intros x Hx. replace (2 * / x - 1 + - 1 / Rsqr x) with (- (1 - / x) ^ 2) by (unfold Rsqr; field; lra).
    pose proof (pow2_ge_0 (1 - / x)). lra.
Qed.

(* the decision of the loop is one comparison: the two shortcuts never change it *)
Lemma accept_iff good bad sample U K : 0 < U <= 1 ->
  accept good bad sample U K = true <-> 2 * ln U <= hg good bad sample - lf4 good bad sample K.
Proof.
  intros H. unfold accept. set (T := hg good bad sample - _). clearbody T.
  pose proof (ln_above U H) as A. pose proof (ln_below U H) as B.
  destruct (Rle_dec (U * (4 - U) - 3) T) as [C|C]; [split; [intros _; lra | reflexivity]|].
  destruct (Rle_dec 1 (U * (U - T))) as [D|D].
  - split; [discriminate|]. intros E. exfalso.
    assert (P : 0 < / U) by (apply Rinv_0_lt_compat; lra).
    assert (T <= U - / U).
    { apply (Rmult_le_compat_l (/ U)) in D; [|lra]. rewrite <- Rmult_assoc, Rinv_l, Rmult_1_l, Rmult_1_r in D by lra. lra. }
    assert (Q : T = U - / U) by lra. assert (2 * ln U = U - / U) by lra.
    (* equality holds only at U = 1, where the first shortcut accepts *)
    destruct (Rle_lt_or_eq_dec U 1 (proj2 H)) as [L|L].
    + assert (0 < (1 - U) ^ 3 / U).
      { apply Rmult_lt_0_compat; [|exact P]. apply pow_lt. lra. }
      (* ln_below is strict below 1: use the midpoint *)
      set (s := sqrt U). assert (S0 : 0 < s) by (apply sqrt_lt_R0; lra). assert (SS : s * s = U) by (apply sqrt_sqrt; lra).
      assert (S1 : s < 1) by nra. pose proof (ln_below s ltac:(lra)) as Bs.
      assert (LU : ln U = 2 * ln s) by (rewrite <- SS, ln_mult by exact S0; ring).
      assert (IU : / U = / s * / s) by (rewrite <- SS; now rewrite Rinv_mult by lra).
      assert (I : 1 < / s) by (rewrite <- Rinv_1; apply Rinv_lt_contravar; lra).
      assert (Z : s * / s = 1) by (apply Rinv_r; lra).
      assert (E2 : s * s - / s * / s = 2 * (s - / s) + 0 -> False).
      { intros E2. assert (F : (s - / s) * (s + / s - 2) = 0) by lra. assert (s + / s > 2) by nra. nra. }
      assert (U - / U < 2 * (s - / s)) by (rewrite <- SS at 1; rewrite IU; assert (s + / s > 2) by nra; nra). lra.
    + subst U. rewrite ln_1 in *. rewrite Rinv_1 in *. lra.
  - destruct (Rle_dec (2 * ln U) T) as [E|E]; [tauto|]. split; [discriminate | tauto].
Qed.

(* -- the weights -- *)
Lemma choose_step n k : (Z.of_nat (S k) * choose n (S k) = (Z.of_nat n - Z.of_nat k) * choose n k)%Z.
Proof. pose proof (choose_absorb n k) as A. cbn [choose] in A. lia. Qed.
Lemma choose_fac n k : (k <= n)%nat -> (choose n k * (fac k * fac (n - k)) = fac n)%Z.
Proof.
  induction k as [|k IH]; intros H.
  - rewrite choose_0, Nat.sub_0_r. cbn [fac]. lia.
  - specialize (IH ltac:(lia)). pose proof (choose_step n k) as S1.
    replace (n - k)%nat with (S (n - S k)) in IH by lia. cbn [fac] in *.
    replace (Z.of_nat n - Z.of_nat k)%Z with (Z.of_nat (S (n - S k))) in S1 by lia.
    rewrite <- IH.
    transitivity ((Z.of_nat (S k) * choose n (S k)) * (fac k * fac (n - S k)))%Z; [ring|]. rewrite S1. ring.
Qed.
Lemma fac_pos n : (0 < fac n)%Z.
Proof. induction n as [|n IH]; [reflexivity|]. cbn [fac]. lia. Qed.
Lemma choose_pos n k : (k <= n)%nat -> (0 < choose n k)%Z.
Proof. intros H. pose proof (choose_fac n k H). pose proof (fac_pos n). pose proof (fac_pos k). pose proof (fac_pos (n - k)). nia. Qed.

(* the number of ways to get k good ones *)
Definition ways (good bad sample k : Z) : Z := (choose (Z.to_nat good) (Z.to_nat k) * choose (Z.to_nat bad) (Z.to_nat (sample - k)))%Z.

Section H.
  Variables good bad sample : Z.
  Hypothesis Hg : (0 <= good)%Z.
  Hypothesis Hb : (0 <= bad)%Z.
  Hypothesis Hs : (10 <= sample <= good + bad - 10)%Z.
  Notation n := (computed good bad sample).
  Notation M := (mingb good bad).
  Notation L := (maxgb good bad).
  Notation W := (ways M L n).
  Lemma sizes : (0 <= M <= L /\ 10 <= n <= L /\ 2 * n <= M + L /\ M + L = good + bad)%Z.
  Proof. unfold computed, mingb, maxgb, popsize. lia. Qed.
  Lemma W_pos K : (0 <= K <= Z.min n M)%Z -> (0 < W K)%Z.
  Proof. intros H. pose proof sizes. unfold ways. apply Z.mul_pos_pos; apply choose_pos; lia. Qed.
  Lemma W_step K : (0 <= K < Z.min n M)%Z -> (W (K + 1) * ((K + 1) * (L - n + K + 1)) = W K * ((M - K) * (n - K)))%Z.
  Proof.
    intros H. pose proof sizes as S. unfold ways.
    pose proof (choose_step (Z.to_nat M) (Z.to_nat K)) as A. pose proof (choose_step (Z.to_nat L) (Z.to_nat (n - (K + 1)))) as B.
    replace (Datatypes.S (Z.to_nat K)) with (Z.to_nat (K + 1)) in A by lia.
    replace (Datatypes.S (Z.to_nat (n - (K + 1)))) with (Z.to_nat (n - K)) in B by lia.
    rewrite !Z2Nat.id in A, B by lia.
    set (x := choose (Z.to_nat M) (Z.to_nat (K + 1))) in *. set (y := choose (Z.to_nat M) (Z.to_nat K)) in *.
    set (z := choose (Z.to_nat L) (Z.to_nat (n - K))) in *. set (t := choose (Z.to_nat L) (Z.to_nat (n - (K + 1)))) in *.
    transitivity (((K + 1) * x) * ((L - (n - (K + 1))) * t))%Z; [ring|]. rewrite A, <- B. ring.
  Qed.
  Lemma hm_eq : hm good bad sample = ((n + 1) * (M + 1) / (M + L + 2))%Z.
  Proof.
    pose proof sizes as S. unfold hm. rewrite <- mult_IZR. replace (popsize good bad + 2)%Z with (M + L + 2)%Z by (unfold popsize; lia).
    set (x := ((n + 1) * (M + 1))%Z). set (y := (M + L + 2)%Z). assert (Y : (0 < y)%Z) by (unfold y; lia).
    assert (YR : 0 < IZR y) by (apply IZR_lt; exact Y).
    pose proof (Z.div_mod x y ltac:(lia)) as E. pose proof (Z.mod_pos_bound x y Y) as B.
    pose proof (base_Int_part (IZR x / IZR y)) as [P1 P2]. set (q := Int_part _) in *.
    assert (A1 : IZR q * IZR y <= IZR x) by (apply (Rmult_le_compat_r (IZR y)) in P1; [|lra]; unfold Rdiv in P1; rewrite Rmult_assoc, Rinv_l, Rmult_1_r in P1 by lra; exact P1).
    assert (A2 : IZR x < (IZR q + 1) * IZR y).
    { assert (Q : IZR x / IZR y < IZR q + 1) by lra. apply (Rmult_lt_compat_r (IZR y)) in Q; [|exact YR]. unfold Rdiv in Q. rewrite Rmult_assoc, Rinv_l, Rmult_1_r in Q by lra. exact Q. }
    rewrite <- plus_IZR, <- mult_IZR in A2. rewrite <- mult_IZR in A1. apply lt_IZR in A2. apply le_IZR in A1.
    apply Z.div_unique with (r := (x - y * q)%Z); [left; nia | ring].
  Qed.
  Lemma hm_range : (0 <= hm good bad sample <= Z.min n M)%Z.
  Proof.
    pose proof sizes as S. rewrite hm_eq. split; [apply Z.div_pos; nia|].
    generalize dependent (mingb good bad). generalize dependent (maxgb good bad). generalize dependent (computed good bad sample). intros n' L' M' S.
    apply Z.min_glb; apply Z.lt_succ_r; apply Z.div_lt_upper_bound; try lia.
    - assert (M' + 1 < M' + L' + 2)%Z by lia. nia.
    - assert (n' + 1 < M' + L' + 2)%Z by lia. nia.
  Qed.
  Notation m := (hm good bad sample).
  Lemma W_up K : (0 <= K < Z.min n M)%Z -> (K < m)%Z -> (W K <= W (K + 1))%Z.
  Proof.
    intros H Hm. pose proof sizes as S. pose proof (W_step K H) as E. pose proof (W_pos K ltac:(lia)). pose proof (W_pos (K + 1) ltac:(lia)).
    assert (G : ((K + 1) * (M + L + 2) <= (n + 1) * (M + 1))%Z).
    { rewrite hm_eq in Hm. pose proof (Z.mul_div_le ((n + 1) * (M + 1)) (M + L + 2) ltac:(lia)). nia. }
    assert (Q : ((K + 1) * (L - n + K + 1) <= (M - K) * (n - K))%Z) by lia.
    assert (0 < (K + 1) * (L - n + K + 1))%Z by (apply Z.mul_pos_pos; lia).
    set (x := ((K + 1) * (L - n + K + 1))%Z) in *. set (y := ((M - K) * (n - K))%Z) in *. clearbody x y. nia.
  Qed.
  Lemma W_down K : (0 <= K < Z.min n M)%Z -> (m <= K)%Z -> (W (K + 1) <= W K)%Z.
  Proof.
    intros H Hm. pose proof sizes as S. pose proof (W_step K H) as E. pose proof (W_pos K ltac:(lia)). pose proof (W_pos (K + 1) ltac:(lia)).
    assert (G : ((n + 1) * (M + 1) < (K + 1) * (M + L + 2))%Z).
    { rewrite hm_eq in Hm. pose proof (Z.mul_succ_div_gt ((n + 1) * (M + 1)) (M + L + 2) ltac:(lia)). nia. }
    assert (Q : ((M - K) * (n - K) < (K + 1) * (L - n + K + 1))%Z) by lia.
    assert (0 < (M - K) * (n - K))%Z by (apply Z.mul_pos_pos; lia).
    set (x := ((K + 1) * (L - n + K + 1))%Z) in *. set (y := ((M - K) * (n - K))%Z) in *. clearbody x y. nia.
  Qed.
  Lemma W_mode K : (0 <= K <= Z.min n M)%Z -> (W K <= W m)%Z.
  Proof.
    intros H. pose proof hm_range as R. destruct (Z_le_gt_dec K m) as [C|C].
    - assert (G : forall d, (K + Z.of_nat d <= m)%Z -> (W K <= W (K + Z.of_nat d))%Z).
      { induction d as [|d IH]; intros D; [rewrite Z.add_0_r; lia|]. specialize (IH ltac:(lia)).
        pose proof (W_up (K + Z.of_nat d) ltac:(lia) ltac:(lia)). replace (K + Z.of_nat (S d))%Z with (K + Z.of_nat d + 1)%Z by lia. lia. }
      specialize (G (Z.to_nat (m - K)) ltac:(lia)). now replace (K + Z.of_nat (Z.to_nat (m - K)))%Z with m in G by lia.
    - assert (G : forall d, (m + Z.of_nat d <= Z.min n M)%Z -> (W (m + Z.of_nat d) <= W m)%Z).
      { induction d as [|d IH]; intros D; [rewrite Z.add_0_r; lia|]. specialize (IH ltac:(lia)).
        pose proof (W_down (m + Z.of_nat d) ltac:(lia) ltac:(lia)). replace (m + Z.of_nat (S d))%Z with (m + Z.of_nat d + 1)%Z by lia. lia. }
      specialize (G (Z.to_nat (K - m)) ltac:(lia)). now replace (m + Z.of_nat (Z.to_nat (K - m)))%Z with K in G by lia.
  Qed.

  Lemma lf4_W K : (0 <= K <= Z.min n M)%Z -> ln (IZR (W K)) = ln (IZR (fac (Z.to_nat M))) + ln (IZR (fac (Z.to_nat L))) - lf4 good bad sample K.
  Proof.
    intros H. pose proof sizes as S. unfold lf4, logfactorial, ways.
    pose proof (choose_fac (Z.to_nat M) (Z.to_nat K) ltac:(lia)) as A. pose proof (choose_fac (Z.to_nat L) (Z.to_nat (n - K)) ltac:(lia)) as B.
    replace (Z.to_nat M - Z.to_nat K)%nat with (Z.to_nat (M - K)) in A by lia.
    replace (Z.to_nat L - Z.to_nat (n - K))%nat with (Z.to_nat (L - n + K)) in B by lia.
    assert (CP : 0 < IZR (choose (Z.to_nat M) (Z.to_nat K))) by (apply IZR_lt, choose_pos; lia).
    assert (CQ : 0 < IZR (choose (Z.to_nat L) (Z.to_nat (n - K)))) by (apply IZR_lt, choose_pos; lia).
    assert (F : forall i, 0 < IZR (fac i)) by (intros i; apply IZR_lt, fac_pos).
    rewrite <- A, <- B. rewrite !mult_IZR.
    rewrite !ln_mult by (repeat apply Rmult_lt_0_compat; auto). lra.
  Qed.
  Lemma accept_ways U K : 0 < U <= 1 -> (0 <= K <= Z.min n M)%Z ->
    accept good bad sample U K = true <-> U ^ 2 * IZR (W m) <= IZR (W K).
  Proof.
    intros HU HK. rewrite accept_iff by exact HU. unfold hg.
    pose proof (lf4_W K HK) as A. pose proof (lf4_W m hm_range) as B.
    assert (P : 0 < IZR (W K)) by (apply IZR_lt, W_pos, HK). assert (Q : 0 < IZR (W m)) by (apply IZR_lt, W_pos, hm_range).
    assert (E : ln (U ^ 2 * IZR (W m)) = 2 * ln U + ln (IZR (W m))).
    { rewrite ln_mult by (exact Q || (apply pow_lt; lra)). f_equal. replace (U ^ 2) with (U * U) by ring. rewrite ln_mult by lra. ring. }
    assert (X : 0 < U ^ 2 * IZR (W m)) by (apply Rmult_lt_0_compat; [apply pow_lt; lra | exact Q]).
    split; intros G.
    - destruct (Rle_lt_dec (U ^ 2 * IZR (W m)) (IZR (W K))) as [C|C]; [exact C|]. apply ln_increasing in C; [lra | exact P].
    - destruct G as [G|G]; [apply ln_increasing in G; [lra | exact X]|]. rewrite <- G in A. lra.
  Qed.

  Notation fx := (fixup good bad sample).
  Lemma fix_ways K : (0 <= K <= Z.min n M)%Z -> ways good bad sample (fx K) = W K.
  Proof.
    intros H. pose proof sizes as S. unfold ways, fixup.
    assert (Y : forall a b, (0 <= b <= a)%Z -> choose (Z.to_nat a) (Z.to_nat (a - b)) = choose (Z.to_nat a) (Z.to_nat b)).
    { intros a b Hab. pose proof (choose_sym (Z.to_nat (a - b)) (Z.to_nat b)) as E. now replace (Z.to_nat (a - b) + Z.to_nat b)%nat with (Z.to_nat a) in E by lia. }
    unfold computed, mingb, maxgb, popsize in *.
    destruct (bad <? good)%Z eqn:G; destruct (Z.min sample (good + bad - sample) <? sample)%Z eqn:C.
    - replace (Z.min sample (good + bad - sample)) with (good + bad - sample)%Z in * by lia. replace (Z.min good bad) with bad in * by lia. replace (Z.max good bad) with good in * by lia.
      rewrite (Y good (good + bad - sample - K)%Z) by lia. replace (sample - (good - (good + bad - sample - K)))%Z with (bad - K)%Z by lia. rewrite (Y bad K) by lia. ring.
    - replace (Z.min sample (good + bad - sample)) with sample in * by lia. replace (Z.min good bad) with bad in * by lia. replace (Z.max good bad) with good in * by lia.
      replace (sample - (sample - K))%Z with K by lia. ring.
    - replace (Z.min sample (good + bad - sample)) with (good + bad - sample)%Z in * by lia. replace (Z.min good bad) with good in * by lia. replace (Z.max good bad) with bad in * by lia.
      rewrite (Y good K) by lia. replace (sample - (good - K))%Z with (bad - (good + bad - sample - K))%Z by lia. rewrite (Y bad) by lia. reflexivity.
    - replace (Z.min sample (good + bad - sample)) with sample in * by lia. replace (Z.min good bad) with good in * by lia. replace (Z.max good bad) with bad in * by lia.
      reflexivity.
  Qed.
  Lemma fix_range K : (0 <= K <= Z.min n M)%Z -> (Z.max 0 (sample - bad) <= fx K <= Z.min good sample)%Z.
  Proof. intros H. unfold fixup, computed, mingb, popsize in *. destruct (bad <? good)%Z eqn:G; destruct (_ <? sample)%Z eqn:C; lia. Qed.
  (* every value of the support is reached by exactly one K *)
  Lemma fix_onto k : (Z.max 0 (sample - bad) <= k <= Z.min good sample)%Z -> exists K, (0 <= K <= Z.min n M)%Z /\ fx K = k.
  Proof.
    intros H. unfold fixup, computed, mingb, popsize in *.
    destruct (bad <? good)%Z eqn:G; destruct (Z.min sample (good + bad - sample) <? sample)%Z eqn:C.
    - exists (good + bad - sample - (good - k))%Z. lia.
    - exists (sample - k)%Z. lia.
    - exists (good - k)%Z. lia.
    - exists k. lia.
  Qed.
  Lemma fix_inj K K' : fx K = fx K' -> K = K'.
  Proof. unfold fixup. destruct (bad <? good)%Z; destruct (_ <? sample)%Z; lia. Qed.
  Lemma dbl_range iu : (0 < iu < 2 ^ 53)%Z -> 0 < dbl iu <= 1.
  Proof.
    intros H. unfold dbl. set (d := (2 ^ 53)%Z) in *. assert (D : 0 < IZR d) by (apply IZR_lt; reflexivity).
    assert (A : 0 < IZR iu) by (apply IZR_lt; lia). assert (B : IZR iu < IZR d) by (apply IZR_lt; lia).
    split; [now apply Rdiv_lt_0_compat|]. apply (Rmult_le_reg_r (IZR d)); [exact D|]. unfold Rdiv. rewrite Rmult_assoc, Rinv_l by lra. lra.
  Qed.
  (* what is tried *)
  Lemma try_iff iu iv K : (0 <= iu < 2 ^ 53)%Z ->
    hrua_try good bad sample iu iv = HVal K <->
    (0 < iu)%Z /\ (0 <= K <= Z.min n M)%Z /\ IZR K <= hX good bad sample iu iv < IZR K + 1 /\ hX good bad sample iu iv < IZR (Int_part (ha good bad sample + 16 * hc good bad sample)) /\
    dbl iu ^ 2 * IZR (W m) <= IZR (W K).
  Proof.
    intros H. unfold hrua_try. destruct (iu =? 0)%Z eqn:I.
    { split; [destruct (iv =? 2 ^ 52)%Z; discriminate|]. intros (A & _). lia. }
    set (X := hX good bad sample iu iv). assert (U : 0 < dbl iu <= 1) by (apply dbl_range; lia).
    assert (IX : IZR (Int_part X) <= X < IZR (Int_part X) + 1) by (destruct (base_Int_part X); lra).
    assert (un : forall k, IZR k <= X < IZR k + 1 -> k = Int_part X).
    { intros k [A B]. assert (k < Int_part X + 1)%Z by (apply lt_IZR; rewrite plus_IZR; lra). assert (Int_part X < k + 1)%Z by (apply lt_IZR; rewrite plus_IZR; lra). lia. }
    destruct (Rlt_dec X 0) as [X0|X0].
    { split; [discriminate|]. intros (_ & [A _] & [B _] & _). apply IZR_le in A. lra. }
    assert (K0 : (0 <= Int_part X)%Z).
    { assert (-1 < Int_part X)%Z by (apply lt_IZR; lra). lia. }
    unfold hb. destruct (Rle_dec _ X) as [XB|XB].
    { split; [discriminate|]. intros (_ & A & B & C & _). exfalso. revert XB. unfold Rmin. destruct (Rle_dec _ _) as [D|D]; intros XB; [|lra].
      assert (K < Z.min n M + 1)%Z by lia. assert (Z.min n M + 1 < K + 1)%Z by (apply lt_IZR; rewrite (plus_IZR K); lra). lia. }
    apply Rnot_le_lt in XB. assert (XB1 := Rlt_le_trans _ _ _ XB (Rmin_l _ _)). assert (XB2 := Rlt_le_trans _ _ _ XB (Rmin_r _ _)).
    assert (K1 : (Int_part X <= Z.min n M)%Z) by (assert (Int_part X < Z.min n M + 1)%Z by (apply lt_IZR; lra); lia).
    pose proof (accept_ways (dbl iu) (Int_part X) U (conj K0 K1)) as AW.
    destruct (accept good bad sample (dbl iu) (Int_part X)) eqn:AC.
    - split; [intros E; injection E as <- | intros (_ & _ & B & _); now rewrite (un K B)].
      repeat split; try lia; tauto.
    - split; [discriminate|]. intros (_ & _ & B & _ & C). rewrite (un K B) in C. now apply AW in C.
  Qed.
End H.

(* ------------------------------------------------------------------- C92 *)
Definition possible (good bad sample k : Z) : Prop := (Z.max 0 (sample - bad) <= k <= Z.min good sample)%Z.
Definition args_ok (good bad sample : Z) : Prop := (0 <= good /\ 0 <= bad /\ 10 <= sample <= good + bad - 10)%Z.
Definition pairs_ok (l : list (Z * Z)) : Prop := Forall (fun p => 0 <= fst p < 2 ^ 53 /\ 0 <= snd p < 2 ^ 53)%Z l.

(* The two shortcuts ("fast acceptance", "fast rejection") decide as the exact test does, and the exact
   test is the one of the ratio-of-uniforms method for the hypergeometric law: a pair (U, V) with
   X = a + h (V - 1/2) / U in [K, K+1) gives the value k of K exactly when U^2 is at most the probability of k
   divided by the largest probability of all. K to k is a bijection onto the possible values. *)
Theorem C92_ratio_of_uniforms :
  forall good bad sample, args_ok good bad sample ->
  exists kmax, possible good bad sample kmax /\
  (forall k, possible good bad sample k -> (0 < ways good bad sample k <= ways good bad sample kmax)%Z) /\
  forall iu iv k, (0 < iu < 2 ^ 53)%Z ->
  hrua good bad sample [(iu, iv)] = HVal k <->
  possible good bad sample k /\
  exists K, fixup good bad sample K = k /\ IZR K <= hX good bad sample iu iv < IZR K + 1 /\
    hX good bad sample iu iv < IZR (Int_part (ha good bad sample + 16 * hc good bad sample)) /\
    dbl iu ^ 2 * IZR (ways good bad sample kmax) <= IZR (ways good bad sample k).
Proof.
  intros good bad sample (Hg & Hb & Hs). exists (fixup good bad sample (hm good bad sample)).
  pose proof (hm_range good bad sample Hg Hb Hs) as HM.
  split; [apply fix_range; assumption|]. split.
  - intros k Hk. destruct (fix_onto good bad sample k Hk) as (K & HK & <-). rewrite !fix_ways by assumption.
    split; [now apply W_pos | now apply W_mode].
  - intros iu iv k Hu. cbn [hrua]. rewrite (fix_ways good bad sample) by assumption. split.
    + intros E. destruct (hrua_try good bad sample iu iv) as [| |K] eqn:T; [discriminate | discriminate|]. injection E as <-.
      apply try_iff in T; [|assumption..|lia]. destruct T as (_ & R & X & B & A).
      split; [now apply fix_range|]. exists K. rewrite fix_ways by assumption. auto.
    + intros (P & K & <- & X & B & A).
      destruct (fix_onto good bad sample _ P) as (K' & R & E). apply fix_inj in E. subst K'.
      rewrite fix_ways in A by assumption.
      assert (T : hrua_try good bad sample iu iv = HVal K) by (apply try_iff; [assumption..|lia|]; repeat split; try tauto; lia).
      now rewrite T.
Qed.
(* the decision alone *)
Theorem C92_shortcuts :
  forall good bad sample U K, 0 < U <= 1 ->
  accept good bad sample U K = true <-> 2 * ln U <= hg good bad sample - lf4 good bad sample K.
Proof. exact accept_iff. Qed.
Theorem C92_bijection :
  forall good bad sample, args_ok good bad sample ->
  (forall K K', fixup good bad sample K = fixup good bad sample K' -> K = K') /\
  (forall k, possible good bad sample k <-> exists K, (0 <= K <= Z.min (computed good bad sample) (mingb good bad))%Z /\ fixup good bad sample K = k).
Proof.
  intros good bad sample (Hg & Hb & Hs). split; [apply fix_inj|]. intros k. split; [now apply fix_onto|].
  intros (K & H & <-). now apply fix_range.
Qed.

Lemma hrua_range good bad sample l k : args_ok good bad sample -> pairs_ok l -> hrua good bad sample l = HVal k -> possible good bad sample k.
Proof.
  intros (Hg & Hb & Hs) Hl. induction Hl as [|[iu iv] l [Hu Hv] Hl IH]; [discriminate|]. cbn [hrua fst] in *.
  destruct (hrua_try good bad sample iu iv) as [| |K] eqn:T; [discriminate | exact IH|]. intros E. injection E as <-.
  apply try_iff in T; [|assumption..|exact Hu]. apply fix_range; tauto.
Qed.
(* random_hypergeometric returns a possible value for all arguments and whatever is drawn *)
Theorem C92_range :
  forall r l good bad sample, (0 <= good)%Z -> (0 <= bad)%Z -> (0 <= sample <= good + bad)%Z -> pairs_ok l ->
  match random_hypergeometric r l good bad sample with
  | HVal k => (Z.of_nat (List.length r) = if (good + bad) / 2 <? sample then good + bad - sample else sample)%Z \/ (10 <= sample <= good + bad - 10)%Z -> possible good bad sample k
  | _ => True end.
Proof.
  intros r l good bad sample Hg Hb Hs Hl. unfold random_hypergeometric.
  destruct ((10 <=? sample) && (sample <=? good + bad - 10))%Z eqn:C.
  - destruct (hrua good bad sample l) as [| |k] eqn:E; [exact I | exact I|]. intros _.
    apply (hrua_range good bad sample l); [split; [exact Hg|split; [exact Hb|lia]] | exact Hl | exact E].
  - destruct (hypergeometric r good bad sample) as [k|] eqn:E; [|exact I]. intros [L|L]; [|lia].
    destruct (C84_range r good bad sample Hg Hb Hs L) as (k' & E' & R). rewrite E in E'. injection E' as ->. exact R.
Qed.
(* The behaviour is undefined only after U = 0, V = 1/2 were drawn together *)
Theorem C92_undefined :
  forall good bad sample l, hrua good bad sample l = HUndef -> In (0, 2 ^ 52)%Z l.
Proof.
  intros good bad sample l. induction l as [|[iu iv] l IH]; [discriminate|]. cbn [hrua In].
  destruct (hrua_try good bad sample iu iv) as [| |K] eqn:T; [|intros E; right; now apply IH | discriminate]. intros _. left.
  unfold hrua_try in T. destruct (iu =? 0)%Z eqn:A; [destruct (iv =? 2 ^ 52)%Z eqn:B; [|discriminate]|].
  - apply Z.eqb_eq in A, B. now subst.
  - destruct (Rlt_dec _ _); [discriminate|]. destruct (Rle_dec _ _); [discriminate|]. destruct (accept _ _ _ _ _); discriminate.
Qed.
(* and then it is, for all arguments: nan is converted to int64_t *)
Theorem C92_nan_refuted :
  forall good bad sample l, hrua good bad sample ((0, 2 ^ 52)%Z :: l) = HUndef.
Proof. reflexivity. Qed.

(* Possible values more than 16 standard deviations above the mean are never returned *)
Theorem C92_tail_refuted :
  exists good bad sample k, args_ok good bad sample /\ possible good bad sample k /\ (0 < ways good bad sample k)%Z /\
  forall l, pairs_ok l -> hrua good bad sample l <> HVal k.
Proof.
  exists 1000%Z, 1000%Z, 1000%Z, 1000%Z.
  assert (A : args_ok 1000 1000 1000) by (unfold args_ok; lia). assert (P : possible 1000 1000 1000 1000) by (unfold possible; lia).
  split; [exact A|]. split; [exact P|]. split.
  { unfold ways. rewrite choose_n. rewrite Z.sub_diag. change (Z.to_nat 0) with 0%nat. rewrite choose_0. reflexivity. }
  intros l Hl. induction Hl as [|[iu iv] l [Hu Hv] Hl IH]; [discriminate|]. cbn [hrua fst] in *.
  destruct (hrua_try 1000 1000 1000 iu iv) as [| |K] eqn:T; [discriminate | exact IH|]. intros E. injection E as E.
  destruct A as (Hg & Hb & Hs). apply try_iff in T; [|assumption..|exact Hu]. destruct T as (_ & _ & X & B & _).
  assert (K = 1000%Z) by (revert E; unfold fixup, computed, popsize; cbn; lia). subst K.
  assert (H : ha 1000 1000 1000 + 16 * hc 1000 1000 1000 < 1000).
  { unfold ha, hc, hmu, hvar, hp, hq. replace (computed 1000 1000 1000) with 1000%Z by reflexivity. replace (mingb 1000 1000) with 1000%Z by reflexivity.
    replace (maxgb 1000 1000) with 1000%Z by reflexivity. replace (popsize 1000 1000) with 2000%Z by reflexivity.
    change (2000 - 1000)%Z with 1000%Z. change (2000 - 1)%Z with 1999%Z.
    assert (sqrt (1000 * 1000 * (1000 / 2000) * (1000 / 2000) / 1999 + 1 / 2) < 20); [|lra].
    rewrite <- (sqrt_square 20) by lra. apply sqrt_lt_1; lra. }
  destruct (base_Int_part (ha 1000 1000 1000 + 16 * hc 1000 1000 1000)) as [I _]. lra.
Qed.

(* the numbers tried are centred at the mean plus one half, and spread by h *)
Theorem C92_centre : forall good bad sample iu iv, (0 < good + bad)%Z -> (0 < iu)%Z ->
  hX good bad sample iu iv - 1 / 2 - IZR (Z.min sample (good + bad - sample) * Z.min good bad) / IZR (good + bad) =
  (D1 * hc good bad sample + D2) * (IZR iv - IZR (2 ^ 52)) / IZR iu.
Proof.
  intros good bad sample iu iv P U. unfold hX, ha, hh, hmu, hp, dbl, computed, mingb, popsize. rewrite mult_IZR.
  assert (IZR (good + bad) <> 0) by (apply not_0_IZR; lia). assert (IZR iu <> 0) by (apply not_0_IZR; lia).
  replace (IZR (2 ^ 53)) with (2 * IZR (2 ^ 52)) by (rewrite <- mult_IZR; reflexivity). assert (IZR (2 ^ 52) <> 0) by (apply not_0_IZR; lia).
  set (x := IZR (2 ^ 52)) in *. clearbody x. field. repeat split; assumption.
Qed.
(* the constants of lines 94 and 95 are those of the comment above them, to 15 decimals *)
Lemma fact_fac k : INR (fact k) = IZR (fac k).
Proof. induction k as [|k IH]; [reflexivity|]. rewrite fact_simpl, mult_INR, IH. cbn [fac]. rewrite mult_IZR, <- INR_IZR_INZ. reflexivity. Qed.
Definition une (i : nat) : R := / IZR (fac i).
Lemma sum_alt N : sum_f_R0 (tg_alt une) N = sum_f_R0 (fun i => / INR (fact i) * (-1) ^ i) N.
Proof. apply sum_eq. intros i _. unfold tg_alt, une. rewrite fact_fac. ring. Qed.
Lemma exp_m1 N : sum_f_R0 (tg_alt une) (S (2 * N)) <= exp (-1) <= sum_f_R0 (tg_alt une) (2 * N).
Proof.
  apply alternated_series_ineq.
  - intros i. unfold une. apply Rinv_le_contravar; [apply IZR_lt, fac_pos|]. apply IZR_le. pose proof (fac_pos i). cbn [fac]. nia.
  - intros eps He. destruct (cv_speed_pow_fact 1 eps He) as [K HK]. exists K. intros i Hi. specialize (HK i Hi).
    unfold R_dist in *. rewrite pow1, fact_fac in HK. unfold une. unfold Rdiv in HK. rewrite Rmult_1_l in HK. exact HK.
  - intros eps He. unfold exp. destruct (exist_exp (-1)) as [l Hl]. cbn [proj1_sig]. destruct (Hl eps He) as [K HK]. exists K. intros i Hi.
    rewrite sum_alt. now apply HK.
Qed.
Theorem C92_constants :
  Rabs (D1 - 2 * sqrt (2 / exp 1)) < / 10 ^ 15 /\ Rabs (D2 - (3 - 2 * sqrt (3 / exp 1))) < / 10 ^ 15.
Proof.
  assert (E : / exp 1 = exp (-1)) by (symmetry; apply exp_Ropp).
  unfold Rdiv. rewrite E. clear E. destruct (exp_m1 10) as [A B]. set (x := exp (-1)) in *. clearbody x.
  assert (LO : 36787944117144232 / 10 ^ 17 < x).
  { eapply Rlt_le_trans; [|exact A]. unfold tg_alt, une. cbn [sum_f_R0 Nat.mul Nat.add pow fac].
    repeat (match goal with |- context [IZR (Z.of_nat ?n * ?y)] => let z := eval vm_compute in (Z.of_nat n * y)%Z in change (Z.of_nat n * y)%Z with z end). lra. }
  assert (HI : x < 36787944117144233 / 10 ^ 17).
  { eapply Rle_lt_trans; [exact B|]. unfold tg_alt, une. cbn [sum_f_R0 Nat.mul Nat.add pow fac].
    repeat (match goal with |- context [IZR (Z.of_nat ?n * ?y)] => let z := eval vm_compute in (Z.of_nat n * y)%Z in change (Z.of_nat n * y)%Z with z end). lra. }
  assert (SQ : forall y lo hi, 0 <= lo -> lo * lo < y < hi * hi -> 0 < hi -> lo < sqrt y < hi).
  { intros y lo hi H0 [H1 H2] H3. split.
    - rewrite <- (sqrt_square lo) by exact H0. apply sqrt_lt_1; nra.
    - rewrite <- (sqrt_square hi) by lra. apply sqrt_lt_1; nra. }
  destruct (SQ (2 * x) ((D1 - / 10 ^ 15) / 2) ((D1 + / 10 ^ 15) / 2)) as [P Q]; [unfold D1; lra | unfold D1; lra | unfold D1; lra|].
  destruct (SQ (3 * x) ((3 - D2 - / 10 ^ 15) / 2) ((3 - D2 + / 10 ^ 15) / 2)) as [P' Q']; [unfold D2; lra | unfold D2; lra | unfold D2; lra|].
  split; apply Rabs_def1; lra.
Qed.
Example C92_case : args_ok 14 8 11 /\ possible 14 8 11 9 /\ ways 14 8 11 9 = 56056%Z /\ fixup 14 8 11 2 = 9%Z /\
  random_hypergeometric [5; 0; 3]%Z [] 4 6 3 = HVal 1 /\ pairs_ok [(1, 2); (2 ^ 53 - 1, 0)]%Z.
Proof.
  split; [unfold args_ok; lia|]. split; [unfold possible; lia|]. split; [vm_compute; reflexivity|]. split; [reflexivity|]. split; [vm_compute; reflexivity|].
  repeat constructor; cbn [fst snd]; lia.
Qed.

Print Assumptions C92_ratio_of_uniforms.
Print Assumptions C92_shortcuts.
Print Assumptions C92_bijection.
Print Assumptions C92_range.
Print Assumptions C92_undefined.
Print Assumptions C92_nan_refuted.
Print Assumptions C92_tail_refuted.
Print Assumptions C92_centre.
Print Assumptions C92_constants.
