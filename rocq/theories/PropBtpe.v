(* C98: random_binomial_btpe. *)
From Verif Require Import Word HyperLem InvDist PropInvDist PropGamma Btpe.
From Verif Require PropHrua.
From Coq Require Import Reals Lra Lia.
Open Scope R_scope.

Lemma floor_nonneg x : 0 <= x -> (0 <= Int_part x)%Z.
Proof. intros H. destruct (base_Int_part x) as [_ B]. assert (-1 < Int_part x)%Z; [|lia]. apply lt_IZR. lra. Qed.
Lemma floor_lt x (n : Z) : x < IZR n + 1 -> (Int_part x <= n)%Z.
Proof. intros H. destruct (base_Int_part x) as [A _]. assert (Int_part x < n + 1)%Z; [|lia]. apply lt_IZR. rewrite plus_IZR. lra. Qed.
Lemma floor_ge x (n : Z) : IZR n <= x -> (n <= Int_part x)%Z.
Proof. intros H. destruct (base_Int_part x) as [_ B]. assert (n - 1 < Int_part x)%Z; [|lia]. apply lt_IZR. rewrite minus_IZR. lra. Qed.

(* -- the ratio of probabilities -- *)
Lemma pmf_pos n r k : 0 < r < 1 -> (k <= n)%nat -> 0 < binomial_pmf n r k.
Proof.
  intros H K. unfold binomial_pmf. pose proof (IZR_lt _ _ (PropHrua.choose_pos n k K)). pose proof (pow_lt r k ltac:(lra)). pose proof (pow_lt (1 - r) (n - k) ltac:(lra)).
  apply Rmult_lt_0_compat; [apply Rmult_lt_0_compat|]; assumption.
Qed.
Lemma pmf_step n r i : 0 < r < 1 -> (S i <= n)%nat ->
  binomial_pmf n r (S i) = binomial_pmf n r i * (r / bq r * (INR n + 1) / IZR (Z.of_nat i + 1) - r / bq r).
Proof.
  intros H L. rewrite <- (binomial_pmf_next n r i H L). unfold bq. replace (IZR (Z.of_nat i + 1)) with (INR (S i)) by (rewrite INR_IZR_INZ; f_equal; lia).
  pose proof (lt_0_INR (S i) ltac:(lia)). field. lra.
Qed.
Lemma times_spec n r k : 0 < r < 1 -> forall lo F, (lo + k <= n)%nat ->
  times (r / bq r * (INR n + 1)) (r / bq r) (Z.of_nat lo) k F = F * (binomial_pmf n r (lo + k) / binomial_pmf n r lo).
Proof.
  intros H. induction k as [|k IH]; intros lo F L; cbn [times]; pose proof (pmf_pos n r lo H ltac:(lia)) as P.
  - rewrite Nat.add_0_r. field. lra.
  - replace (Z.of_nat lo + 1)%Z with (Z.of_nat (S lo)) at 1 by lia. rewrite IH by lia. pose proof (pmf_pos n r (S lo) H ltac:(lia)) as P'. rewrite (pmf_step n r lo H) in * by lia.
    replace (S lo + k)%nat with (lo + S k)%nat by lia. set (p := binomial_pmf n r lo) in *. set (z := _ - r / bq r) in *. clearbody p z. assert (z <> 0) by nra. field. split; lra.
Qed.
Lemma over_spec n r k : 0 < r < 1 -> forall lo F, (lo + k <= n)%nat ->
  over (r / bq r * (INR n + 1)) (r / bq r) (Z.of_nat lo) k F = F * (binomial_pmf n r lo / binomial_pmf n r (lo + k)).
Proof.
  intros H. induction k as [|k IH]; intros lo F L; cbn [over]; pose proof (pmf_pos n r lo H ltac:(lia)) as P.
  - rewrite Nat.add_0_r. field. lra.
  - replace (Z.of_nat lo + 1)%Z with (Z.of_nat (S lo)) at 1 by lia. rewrite IH by lia. pose proof (pmf_pos n r (S lo) H ltac:(lia)) as P'. rewrite (pmf_step n r lo H) in * by lia.
    pose proof (pmf_pos n r (lo + S k) H ltac:(lia)) as Q. replace (S lo + k)%nat with (lo + S k)%nat by lia.
    set (p := binomial_pmf n r lo) in *. set (z := _ - r / bq r) in *. clearbody p z. assert (z <> 0) by nra. field. split; lra.
Qed.
Lemma bm_range n r : 0 < r < 1 -> (0 <= bm n r <= Z.of_nat n)%Z.
Proof.
  intros H. unfold bm, bfm. pose proof (pos_INR n). split; [apply floor_nonneg; nra|]. apply floor_lt. rewrite <- INR_IZR_INZ. nra.
Qed.
Theorem C98_ratio : forall n r y, 0 < r < 1 -> (0 <= y <= Z.of_nat n)%Z ->
  ratio n r y = binomial_pmf n r (Z.to_nat y) / binomial_pmf n r (Z.to_nat (bm n r)).
Proof.
  intros n r y H Y. pose proof (bm_range n r H) as M. unfold ratio. cbv zeta. set (m := bm n r) in *. clearbody m.
  destruct (Z.ltb_spec m y) as [L|L]; [|destruct (Z.ltb_spec y m) as [L'|L']].
  - replace m with (Z.of_nat (Z.to_nat m)) at 1 by lia. rewrite times_spec by (try exact H; lia). replace (Z.to_nat m + Z.to_nat (y - m))%nat with (Z.to_nat y) by lia. ring.
  - replace y with (Z.of_nat (Z.to_nat y)) at 1 by lia. rewrite over_spec by (try exact H; lia). replace (Z.to_nat y + Z.to_nat (m - y))%nat with (Z.to_nat m) by lia. ring.
  - replace y with m by lia. pose proof (pmf_pos n r (Z.to_nat m) H ltac:(lia)). field. lra.
Qed.
(* so, away from Step52, y is accepted exactly when v is at most the ratio of the probabilities of y and of the mode m *)
Theorem C98_accept : forall n r y v, 0 < r < 1 -> (0 <= y <= Z.of_nat n)%Z -> (Z.abs (y - bm n r) <= 20)%Z \/ nrq n r / 2 - 1 <= IZR (Z.abs (y - bm n r)) ->
  (step50 n r y v = true <-> v * binomial_pmf n r (Z.to_nat (bm n r)) <= binomial_pmf n r (Z.to_nat y)).
Proof.
  intros n r y v H Y K. assert (E : step50 n r y v = if Rlt_dec (ratio n r y) v then false else true).
  { unfold step50. cbv zeta. destruct (Z.ltb_spec 20 (Z.abs (y - bm n r))); [|reflexivity]. destruct (Rlt_dec (IZR (Z.abs (y - bm n r))) (nrq n r / 2 - 1)); [destruct K; [lia | lra] | reflexivity]. }
  rewrite E, C98_ratio by assumption. pose proof (bm_range n r H). pose proof (pmf_pos n r (Z.to_nat (bm n r)) H ltac:(lia)) as P.
  rewrite <- le_div_iff by exact P. set (q := binomial_pmf n r (Z.to_nat y) / binomial_pmf n r (Z.to_nat (bm n r))). clearbody q. clear. destruct (Rlt_dec q v) as [D|D]; split; intros G.
  - discriminate G.
  - exfalso. lra.
  - lra.
  - reflexivity.
Qed.

(* -- the range -- *)
Section Range.
  Variables (n : nat) (r : R).
  Hypothesis Hr : 0 < r <= 1 / 2.
  Hypothesis Hn : 30 < r * INR n.
  Lemma sigma : 38 / 10 <= sqrt (INR n * r * bq r) <= r * INR n / 5.
  Proof.
    unfold bq. set (N := r * INR n) in *. replace (INR n * r * (1 - r)) with (N * (1 - r)) by (unfold N; ring). clearbody N. split.
    - apply le_sqrt_iff; nra.
    - apply sqrt_le_iff; nra.
  Qed.
  Lemma p1_range : 7 / 2 <= bp1 n r <= 44 / 100 * (r * INR n).
  Proof.
    pose proof sigma as [A B]. unfold bp1. set (x := 2195 / 1000 * sqrt (INR n * r * bq r) - 46 / 10 * bq r).
    assert (X : IZR 3 <= x) by (unfold x, bq in *; lra). split.
    - pose proof (IZR_le _ _ (floor_ge x 3 X)). lra.
    - destruct (base_Int_part x) as [F _]. unfold x in F at 2. unfold bq in *. lra.
  Qed.
  Lemma m_range : r * INR n - 1 < IZR (bm n r) <= r * INR n + 1 / 2.
  Proof. unfold bm. destruct (base_Int_part (bfm n r)) as [A B]. unfold bfm in *. lra. Qed.
  Lemma xl_pos : 0 < bxl n r.
  Proof. pose proof p1_range. pose proof m_range. unfold bxl, bxm. lra. Qed.
  Lemma xr_le : bxr n r < IZR (Z.of_nat n) + 1.
  Proof. rewrite <- INR_IZR_INZ. pose proof p1_range. pose proof m_range. unfold bxr, bxm. assert (2 * (r * INR n) <= INR n) by (pose proof (pos_INR n); nra). lra. Qed.
  Lemma c_pos : 0 < bc n r.
  Proof. unfold bc. pose proof m_range. assert (0 < 205 / 10 / (153 / 10 + IZR (bm n r))) by (apply Rdiv_lt_0_compat; lra). lra. Qed.
  Lemma laml_pos : 0 < blaml n r.
  Proof.
    unfold blaml. cbv zeta. pose proof xl_pos as X. pose proof p1_range as P. destruct (base_Int_part (bfm n r)) as [A B]. fold (bm n r) in A, B.
    assert (D : 0 < bfm n r - bxl n r) by (unfold bxl, bxm; lra). assert (E : 0 < bfm n r - bxl n r * r) by nra.
    assert (0 < (bfm n r - bxl n r) / (bfm n r - bxl n r * r)) by (apply Rdiv_lt_0_compat; assumption). nra.
  Qed.
  Lemma lamr_pos : 0 < blamr n r.
  Proof.
    unfold blamr. cbv zeta. pose proof p1_range as P. pose proof m_range as M. destruct (base_Int_part (bfm n r)) as [A B]. fold (bm n r) in A, B.
    assert (D : 0 < bxr n r - bfm n r) by (unfold bxr, bxm; lra). assert (E : 0 < bxr n r * bq r) by (apply Rmult_lt_0_compat; unfold bxr, bxm, bq; lra).
    assert (0 < (bxr n r - bfm n r) / (bxr n r * bq r)) by (apply Rdiv_lt_0_compat; assumption). nra.
  Qed.
  Lemma p_order : 0 < bp1 n r /\ bp1 n r < bp2 n r < bp3 n r /\ bp3 n r < bp4 n r.
  Proof.
    pose proof p1_range as P. pose proof c_pos as C. unfold bp4, bp3, bp2. pose proof (Rdiv_lt_0_compat _ _ C laml_pos). pose proof (Rdiv_lt_0_compat _ _ C lamr_pos).
    split; [lra|]. split; [|lra]. split; [nra|lra].
  Qed.
  Lemma accept_val y v z : accept n r y v = BpVal z -> z = y.
  Proof. unfold accept. destruct (step50 _ _ _ _); congruence. Qed.
  Lemma btpe_range u v z : 0 <= u < 1 -> 0 <= v < 1 -> btpe n r u v = BpVal z -> (0 <= z <= Z.of_nat n)%Z.
  Proof.
    intros HU HV. unfold btpe. cbv zeta. pose proof xl_pos as XL. pose proof xr_le as XR. pose proof p_order as P. pose proof c_pos as C. set (w := u * bp4 n r). assert (W : 0 <= w) by (unfold w; nra). clearbody w.
    destruct (Rle_dec w (bp1 n r)) as [L1|L1].
    - intros E. injection E as <-. assert (0 <= bp1 n r * v <= bp1 n r) by nra. unfold bxl, bxr in *. split; [apply floor_nonneg; lra | apply floor_lt; lra].
    - destruct (Rle_dec w (bp2 n r)) as [L2|L2].
      + destruct (Rlt_dec _ _); [discriminate|]. intros E. apply accept_val in E. subst z.
        assert (Q : 0 <= (w - bp1 n r) / bc n r <= 2 * bp1 n r). { split; [apply le_div_iff | apply div_le_iff]; try exact C; unfold bp2 in *; lra. }
        unfold bxl, bxr in *. split; [apply floor_nonneg; lra | apply floor_lt; lra].
      + destruct (Rle_dec w (bp3 n r)) as [L3|L3]; (destruct (Req_EM_T v 0) as [?|V]; [discriminate|]); pose proof (ln_neg v ltac:(lra)) as LV.
        * destruct (Z.ltb_spec (Int_part (bxl n r + ln v / blaml n r)) 0) as [?|G]; [discriminate|]. intros E. apply accept_val in E. subst z. split; [exact G|].
          apply floor_lt. assert (ln v / blaml n r <= 0) by (apply div_le_iff; [exact laml_pos | lra]). unfold bxl, bxr in *. lra.
        * destruct (Z.ltb_spec (Z.of_nat n) (Int_part (bxr n r - ln v / blamr n r))) as [?|G]; [discriminate|]. intros E. apply accept_val in E. subst z. split; [|exact G].
          apply floor_nonneg. assert (ln v / blamr n r <= 0) by (apply div_le_iff; [exact lamr_pos | lra]). unfold bxl, bxr in *. lra.
  Qed.
  Lemma btpe_undef : exists u, 0 <= u < 1 /\ btpe n r u 0 = BpUndef.
  Proof.
    pose proof p_order as P. set (d := bp4 n r) in *. exists ((bp2 n r / d + 1) / 2). assert (D : 0 < bp2 n r / d < 1).
    { split; [apply Rdiv_lt_0_compat; lra|]. apply (Rmult_lt_reg_r d); [lra|]. unfold Rdiv. rewrite Rmult_assoc, Rinv_l, Rmult_1_r by lra. lra. }
    split; [lra|]. unfold btpe. cbv zeta. fold d. replace ((bp2 n r / d + 1) / 2 * d) with ((bp2 n r + d) / 2) by (field; lra).
    destruct (Rle_dec _ _); [lra|]. destruct (Rle_dec _ _); [lra|]. destruct (Rle_dec _ _); (destruct (Req_EM_T 0 0); [reflexivity | lra]).
  Qed.
End Range.
(* random_binomial calls the function with p <= 1/2 and p n > 30 *)
Theorem C98_range : forall n r u v y, 0 < r <= 1 / 2 -> 30 < r * INR n -> 0 <= u < 1 -> 0 <= v < 1 -> btpe n r u v = BpVal y -> (0 <= y <= Z.of_nat n)%Z.
Proof. intros. now apply (btpe_range n r) with u v. Qed.
Theorem C98_undefined_refuted : forall n r, 0 < r <= 1 / 2 -> 30 < r * INR n -> exists u, 0 <= u < 1 /\ btpe n r u 0 = BpUndef.
Proof. intros. now apply btpe_undef. Qed.

(* -- Step52 -- *)
Fixpoint frac (A lo : Z) (k : nat) (pq : Z * Z) : Z * Z :=
  match k with O => pq | S k => frac A (lo + 1) k ((fst pq * (A - (lo + 1)))%Z, (snd pq * (lo + 1))%Z) end.
Lemma times_frac A k : forall lo p q, (0 <= lo)%Z -> (0 < q)%Z ->
  times (IZR A) 1 lo k (IZR p / IZR q) = IZR (fst (frac A lo k (p, q))) / IZR (snd (frac A lo k (p, q))).
Proof.
  induction k as [|k IH]; intros lo p q L Q; [reflexivity|]. cbn [times frac fst snd]. rewrite <- IH by lia. f_equal. rewrite !mult_IZR, minus_IZR.
  pose proof (IZR_lt _ _ Q). assert (0 < IZR (lo + 1)) by (apply IZR_lt; lia). field. split; lra.
Qed.
(* 200 trials, probability 1/2, y = 121: Step52 is used, and accepts a v that is 1.003 times the ratio of the probabilities *)
Lemma bm200 : bm 200 (1 / 2) = 100%Z.
Proof.
  assert (E : bfm 200 (1 / 2) = 201 / 2) by (unfold bfm; replace (INR 200) with 200 by (rewrite INR_IZR_INZ; reflexivity); lra).
  unfold bm. rewrite E. apply Z.le_antisymm; [apply floor_lt; lra | apply floor_ge; lra].
Qed.
Definition top : Z := Eval vm_compute in fst (frac 201 100 21 (1, 1)%Z).
Definition bot : Z := Eval vm_compute in snd (frac 201 100 21 (1, 1)%Z).
Lemma ratio200 : ratio 200 (1 / 2) 121 = IZR top / IZR bot.
Proof.
  unfold ratio. rewrite bm200. cbv zeta. change (100 <? 121)%Z with true. change (Z.to_nat (121 - 100)) with 21%nat. cbv iota.
  replace (1 / 2 / bq (1 / 2) * (INR 200 + 1)) with (IZR 201). 2:{ unfold bq. replace (INR 200) with 200 by (rewrite INR_IZR_INZ; reflexivity). lra. }
  replace (1 / 2 / bq (1 / 2)) with 1 by (unfold bq; lra). replace (times (IZR 201) 1 100 21 1) with (times (IZR 201) 1 100 21 (IZR 1 / IZR 1)) by (f_equal; lra).
  rewrite times_frac by lia. reflexivity.
Qed.
Lemma ln_zpow (a : Z) (k : nat) : (0 < a)%Z -> ln (IZR (a ^ Z.of_nat k)) = INR k * ln (IZR a).
Proof. intros H. rewrite <- pow_IZR. apply ln_pow. now apply IZR_lt. Qed.
Lemma big200 : 0 < 201 * (ln 10201 - ln 9760) + 42 * (ln 80 - ln 122) + 2 * (ln (IZR bot) - ln (IZR top)).
Proof.
  assert (L : (9760 ^ 201 * 122 ^ 42 * top ^ 2 < 10201 ^ 201 * 80 ^ 42 * bot ^ 2)%Z) by reflexivity.
  assert (T : (0 < top)%Z) by reflexivity. assert (B : (0 < bot)%Z) by reflexivity.
  assert (P : forall a k, (0 < a)%Z -> 0 < IZR (a ^ Z.of_nat k)) by (intros a k H; apply IZR_lt; apply Z.pow_pos_nonneg; lia).
  apply IZR_lt in L. rewrite !mult_IZR in L.
  pose proof (P 9760%Z 201%nat eq_refl) as P1. pose proof (P 122%Z 42%nat eq_refl) as P2. pose proof (P top 2%nat T) as P3. pose proof (P 10201%Z 201%nat eq_refl) as P4. pose proof (P 80%Z 42%nat eq_refl) as P5. pose proof (P bot 2%nat B) as P6.
  pose proof (ln_zpow 9760 201 eq_refl) as E1. pose proof (ln_zpow 122 42 eq_refl) as E2. pose proof (ln_zpow top 2 T) as E3. pose proof (ln_zpow 10201 201 eq_refl) as E4. pose proof (ln_zpow 80 42 eq_refl) as E5. pose proof (ln_zpow bot 2 B) as E6.
  replace (INR 201) with 201 in * by (rewrite INR_IZR_INZ; reflexivity). replace (INR 42) with 42 in * by (rewrite INR_IZR_INZ; reflexivity). replace (INR 2) with 2 in * by (rewrite INR_IZR_INZ; reflexivity).
  change (Z.of_nat 201) with 201%Z in *. change (Z.of_nat 42) with 42%Z in *. change (Z.of_nat 2) with 2%Z in *.
  revert P1 P2 P3 P4 P5 P6 E1 E2 E3 E4 E5 E6 L. clear. generalize (ln (IZR top)) (ln (IZR bot)).
  generalize (IZR (9760 ^ 201)) (IZR (122 ^ 42)) (IZR (top ^ 2)) (IZR (10201 ^ 201)) (IZR (80 ^ 42)) (IZR (bot ^ 2)). intros a b c d e f lt lb P1 P2 P3 P4 P5 P6 E1 E2 E3 E4 E5 E6 L.
  apply ln_increasing in L; [|apply Rmult_lt_0_compat; [apply Rmult_lt_0_compat|]; assumption].
  rewrite !ln_mult in L by (try assumption; apply Rmult_lt_0_compat; assumption). lra.
Qed.
Lemma bound200 : ln (ratio 200 (1 / 2) 121) + 3 / 1000 < bound52 200 (1 / 2) 121 < - (42 / 10).
Proof.
  unfold bound52. rewrite ratio200. cbv zeta. unfold bxm. rewrite bm200. replace (INR 200) with 200 by (rewrite INR_IZR_INZ; reflexivity). unfold bq.
  replace (121 + 1) with 122 by lra. replace (100 + 1) with 101 by lra. replace (200 + 1 - 100) with 101 by lra. replace (200 - 121 + 1) with 80 by lra.
  replace (80 * (1 / 2) / (122 * (1 - 1 / 2))) with (80 / 122) by lra.
  assert (LD : forall a b, 0 < a -> 0 < b -> ln (a / b) = ln a - ln b) by (intros a b A B; unfold Rdiv; rewrite ln_mult, ln_Rinv by (try apply Rinv_0_lt_compat; assumption); ring).
  rewrite !LD by (try lra; apply IZR_lt; reflexivity).
  assert (L1 : ln 10201 = ln 101 + ln 101) by (rewrite <- ln_mult by lra; f_equal; lra). assert (L2 : ln 9760 = ln 122 + ln 80) by (rewrite <- ln_mult by lra; f_equal; lra).
  assert (S : 3 / 1000 < stirling 101 + stirling 101 + stirling 122 + stirling 80 < 4 / 1000) by (unfold stirling; lra).
  pose proof big200 as G. rewrite L1, L2 in G.
  pose proof (gg_neg (441 / 9760) ltac:(lra)) as U1. pose proof (gg_neg (- (42 / 122)) ltac:(lra)) as U2. unfold gg in U1, U2.
  replace (1 + 441 / 9760) with (10201 / 9760) in U1 by lra. replace (1 + - (42 / 122)) with (80 / 122) in U2 by lra. rewrite LD in U1, U2 by lra. rewrite L1, L2 in U1.
  revert G U1 U2 S. generalize (ln (IZR top)) (ln (IZR bot)) (ln 101) (ln 122) (ln 80) (stirling 101) (stirling 122) (stirling 80). intros t b x y z s1 s2 s3 G U1 U2 S. clear LD L1 L2. split; lra.
Qed.
Theorem C98_stirling_refuted : (20 < Z.abs (121 - bm 200 (1 / 2)))%Z /\ IZR (Z.abs (121 - bm 200 (1 / 2))) < nrq 200 (1 / 2) / 2 - 1 /\
  exists v, 0 < v < 1 /\ step50 200 (1 / 2) 121 v = true /\ (1 + 3 / 1000) * binomial_pmf 200 (1 / 2) 121 < v * binomial_pmf 200 (1 / 2) 100.
Proof.
  assert (N : nrq 200 (1 / 2) = 50) by (unfold nrq, bq; replace (INR 200) with 200 by (rewrite INR_IZR_INZ; reflexivity); lra).
  pose proof (C98_ratio 200 (1 / 2) 121 ltac:(lra) ltac:(lia)) as R. pose proof bound200 as [L U]. rewrite bm200 in *. change (Z.abs (121 - 100)) with 21%Z. rewrite N.
  split; [lia|]. split; [lra|]. exists (exp (bound52 200 (1 / 2) 121)). pose proof (exp_pos (bound52 200 (1 / 2) 121)) as E.
  assert (E1 : exp (bound52 200 (1 / 2) 121) < 1) by (apply (Rlt_le_trans _ (exp 0)); [apply exp_increasing; lra | rewrite exp_0; lra]). split; [lra|]. split.
  - unfold step50. rewrite bm200, N. cbv zeta. change (Z.abs (121 - 100)) with 21%Z. change (20 <? 21)%Z with true. cbv iota. destruct (Rlt_dec 21 (50 / 2 - 1)); [|lra].
    unfold step52. rewrite bm200, N. cbv zeta. change (Z.abs (121 - 100)) with 21%Z. destruct (Req_EM_T _ 0); [reflexivity|]. rewrite ln_exp. destruct (Rlt_dec _ _); [reflexivity|].
    destruct (Rlt_dec _ _); [lra|]. destruct (Rlt_dec _ _); [lra | reflexivity].
  - change (Z.to_nat 121) with 121%nat in R. change (Z.to_nat 100) with 100%nat in R. pose proof (pmf_pos 200 (1 / 2) 121 ltac:(lra) ltac:(lia)) as P. pose proof (pmf_pos 200 (1 / 2) 100 ltac:(lra) ltac:(lia)) as Q.
    set (p := binomial_pmf 200 (1 / 2) 121) in *. set (q := binomial_pmf 200 (1 / 2) 100) in *. set (w := bound52 200 (1 / 2) 121) in *. clearbody p q w.
    assert (K : (1 + 3 / 1000) * (p / q) < exp w).
    { rewrite <- R in *. set (t := ratio 200 (1 / 2) 121) in *. assert (T : 0 < t) by (rewrite R; apply Rdiv_lt_0_compat; assumption). apply exp_increasing in L. rewrite exp_plus, exp_ln in L by exact T.
      pose proof (exp_ineq1 (3 / 1000) ltac:(lra)). nra. }
    apply (Rmult_lt_compat_r q) in K; [|exact Q]. replace ((1 + 3 / 1000) * (p / q) * q) with ((1 + 3 / 1000) * p) in K by (field; lra). exact K.
Qed.
Example C98_step52_case : step52 200 (1 / 2) 121 (exp (-41 / 10)) = false /\ step52 200 (1 / 2) 121 (exp (-28 / 10)) = false /\
  step52 200 (1 / 2) 121 (exp (-6)) = true /\ step52 200 (1 / 2) 121 (exp (bound52 200 (1 / 2) 121)) = true /\ step52 200 (1 / 2) 121 0 = true.
Proof.
  assert (N : nrq 200 (1 / 2) = 50) by (unfold nrq, bq; replace (INR 200) with 200 by (rewrite INR_IZR_INZ; reflexivity); lra).
  pose proof bound200 as [_ U]. unfold step52. rewrite bm200, N. cbv zeta. change (Z.abs (121 - 100)) with 21%Z. rewrite !ln_exp.
  set (b := bound52 200 (1 / 2) 121) in *. clearbody b.
  split; [|split; [|split; [|split]]]; try (destruct (Req_EM_T (exp _) 0) as [E|_]; [match type of E with exp ?z = 0 => pose proof (exp_pos z); lra end|]).
  - destruct (Rlt_dec _ _); [lra|]. destruct (Rlt_dec _ _); [lra|]. destruct (Rlt_dec _ _); [reflexivity | lra].
  - destruct (Rlt_dec _ _); [lra|]. destruct (Rlt_dec _ _); [reflexivity | lra].
  - destruct (Rlt_dec _ _); [reflexivity | lra].
  - destruct (Rlt_dec _ _); [reflexivity|]. destruct (Rlt_dec _ _); [lra|]. destruct (Rlt_dec _ _); [lra | reflexivity].
  - destruct (Req_EM_T 0 0); [reflexivity | lra].
Qed.
Example C98_case : 30 < 1 / 2 * INR 200 /\ btpe 200 (1 / 2) 0 0 = BpVal 100 /\ ratio 200 (1 / 2) 100 = 1 /\ ratio 200 (1 / 2) 101 = 100 / 101 /\ step50 200 (1 / 2) 101 (1 / 2) = true.
Proof.
  assert (N : INR 200 = 200) by (rewrite INR_IZR_INZ; reflexivity).
  assert (Q : ratio 200 (1 / 2) 101 = 100 / 101). { unfold ratio. rewrite bm200, N. cbv zeta. change (100 <? 101)%Z with true. change (Z.to_nat (101 - 100)) with 1%nat. cbn [times]. unfold bq. change (100 + 1)%Z with 101%Z. lra. }
  split; [rewrite N; lra|]. split; [|split; [|split; [exact Q|]]].
  - unfold btpe. cbv zeta. rewrite Rmult_0_l. pose proof (p1_range 200 (1 / 2) ltac:(lra) ltac:(rewrite N; lra)). destruct (Rle_dec _ _); [|lra]. f_equal. unfold bxm. rewrite bm200. apply Z.le_antisymm; [apply floor_lt; lra | apply floor_ge; lra].
  - unfold ratio. rewrite bm200. reflexivity.
  - apply C98_accept; [lra | lia | left; rewrite bm200; lia |]. rewrite bm200. pose proof (C98_ratio 200 (1 / 2) 101 ltac:(lra) ltac:(lia)) as R. rewrite bm200, Q in R.
    pose proof (pmf_pos 200 (1 / 2) (Z.to_nat 100) ltac:(lra) ltac:(lia)) as P. set (q := binomial_pmf 200 (1 / 2) (Z.to_nat 100)) in *. set (p := binomial_pmf 200 (1 / 2) (Z.to_nat 101)) in *. clearbody p q.
    assert (p = 100 / 101 * q) by (rewrite R; field; lra). lra.
Qed.

Print Assumptions C98_ratio.
Print Assumptions C98_accept.
Print Assumptions C98_range.
Print Assumptions C98_undefined_refuted.
Print Assumptions C98_stirling_refuted.
