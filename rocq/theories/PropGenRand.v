(* The inline generating functions of sfmt.h and dsfmt.h *)
From Coq Require Import QArith Qabs Lqa.
From Verif Require Import Word Arr Half Lagged LaggedBuf Sfmt SfmtFacts Dsfmt DsfmtFacts Doubles Lanes FillArr FillC GenRand PropSfmt.
From Verif Require PropDsfmt.
From Coq Require Import List ZArith NArith Lia ZifyBool ZifyNat ZifyN.
Import ListNotations.
Open Scope N_scope.
Ltac Zify.zify_post_hook ::= idtac.

(* the 32-bit and 64-bit numbers at place p of the sequence of 128-bit words, the
   places counted in 32-bit units *)
Definition v32 (x : N -> N) (p : N) : N := (x (p / 4) / 2 ^ (32 * (p mod 4))) mod 2 ^ 32.
Definition v64 (x : N -> N) (p : N) : N := (x (p / 4) / 2 ^ (32 * (p mod 4))) mod 2 ^ 64.
(* what a series of calls should give from place p; None: a 64-bit call at an odd place *)
Fixpoint expected (x : N -> N) (p : N) (ds : list bool) : option (list N) :=
  match ds with
  | [] => Some []
  | false :: ds => option_map (cons (v32 x p)) (expected x (p + 1) ds)
  | true :: ds => if N.even p then option_map (cons (v64 x p)) (expected x (p + 2) ds) else None
  end.

Notation swin := (win sfK).
Notation dwin := (win dsK).
Lemma win_shift K x n m : win K (shifted n x) m = win K x (n + m).
Proof. unfold win, shifted. apply map_ext. intros i. f_equal. lia. Qed.
Lemma split4 n i : (i < 624)%nat -> (4 * n + N.of_nat i) / 4 = n + N.of_nat (i / 4) /\ (4 * n + N.of_nat i) mod 4 = N.of_nat (i mod 4).
Proof.
  intros _. rewrite Nat2N.inj_div, Nat2N.inj_mod. change (N.of_nat 4) with 4. rewrite (N.mul_comm 4 n), (N.add_comm (n * 4)).
  rewrite N.div_add, N.mod_add by lia. split; [lia|reflexivity].
Qed.
Lemma split2 n i : (2 * n + N.of_nat i) / 2 = n + N.of_nat (i / 2) /\ (2 * n + N.of_nat i) mod 2 = N.of_nat (i mod 2).
Proof.
  rewrite Nat2N.inj_div, Nat2N.inj_mod. change (N.of_nat 2) with 2. rewrite (N.mul_comm 2 n), (N.add_comm (n * 2)).
  rewrite N.div_add, N.mod_add by lia. split; [lia|reflexivity].
Qed.
Lemma win_at K x n i : (i < K)%nat -> nth i (win K x n) 0 = x (n + N.of_nat i).
Proof. intros H. pose proof (win_nth K x n i H) as E. rewrite nth_err_nth in E by (now rewrite win_length). congruence. Qed.
Lemma refill_at x n idx : lrec sfK sfP sf_f sf_g x (fun _ => 0) -> (0 <= idx <= 624)%Z ->
  exists n' i, sg_refill (swin x n, idx) = Some (swin x n', Z.of_nat i) /\ (i < 624)%nat /\ 4 * n' + N.of_nat i = 4 * n + Z.to_N idx.
Proof.
  intros R I. unfold sg_refill. cbn [fst snd]. destruct (624 <=? idx)%Z eqn:E.
  - pose proof (win_starts sfK sfP sf_f sf_g sK2 sPK x (fun _ => 0) n R) as S.
    rewrite (block_spec sfK sfP sf_f sf_g sK2 sPK _ _ _ _ S). rewrite win_shift. exists (n + N.of_nat sfK), 0%nat. split; [reflexivity|]. unfold sfK. split; lia.
  - exists n, (Z.to_nat idx). rewrite Z2Nat.id by lia. split; [reflexivity|]. split; lia.
Qed.
Lemma sg32_at x n idx : lrec sfK sfP sf_f sf_g x (fun _ => 0) -> (0 <= idx <= 624)%Z ->
  exists n' idx', sg32 (swin x n, idx) = Some ((swin x n', idx'), v32 x (4 * n + Z.to_N idx)) /\ (0 <= idx' <= 624)%Z /\ 4 * n' + Z.to_N idx' = 4 * n + Z.to_N idx + 1.
Proof.
  intros R I. destruct (refill_at x n idx R I) as (n' & i & E & L & P). exists n', (Z.of_nat i + 1)%Z. unfold sg32. rewrite E. unfold rd.
  rewrite (proj1 (unquads_ok _)), win_length. replace (_ && _)%bool with true by (unfold sfK; lia). rewrite Nat2Z.id, unquads_nth by (rewrite win_length; unfold sfK; lia).
  destruct (split4 n' i L) as [D M]. rewrite win_at by (unfold sfK; apply Nat.div_lt_upper_bound; lia). unfold v32. rewrite <- P, D, M. unfold lane, trunc. rewrite N.shiftr_div_pow2.
  split; [reflexivity|]. split; lia.
Qed.
Lemma even_place n i : N.even (4 * n + N.of_nat i) = (i mod 2 =? 0)%nat.
Proof.
  rewrite N.even_add, N.even_mul. cbn [N.even orb Bool.eqb]. change (N.even 4) with true. cbn [orb Bool.eqb].
  destruct (N.even (N.of_nat i)) eqn:E.
  - apply N.even_spec in E. destruct E as [k E]. symmetry. apply Nat.eqb_eq. replace i with (N.to_nat k * 2)%nat by lia. now rewrite Nat.mod_mul.
  - rewrite <- N.negb_odd in E. apply negb_false_iff, N.odd_spec in E. destruct E as [k E]. symmetry. apply Nat.eqb_neq.
    replace i with (1 + N.to_nat k * 2)%nat by lia. rewrite Nat.mod_add by lia. discriminate.
Qed.
Lemma sg64_at dbg x n idx : lrec sfK sfP sf_f sf_g x (fun _ => 0) -> (0 <= idx <= 624)%Z -> N.even (4 * n + Z.to_N idx) = true ->
  exists n' idx', sg64 dbg (swin x n, idx) = Some ((swin x n', idx'), v64 x (4 * n + Z.to_N idx)) /\ (0 <= idx' <= 624)%Z /\ 4 * n' + Z.to_N idx' = 4 * n + Z.to_N idx + 2.
Proof.
  intros R I V. destruct (refill_at x n idx R I) as (n' & i & E & L & P). unfold sg64. rewrite E. cbn [fst snd].
  assert (A : (Z.rem idx 2 =? 0)%Z = true).
  { replace (Z.to_N idx) with (N.of_nat (Z.to_nat idx)) in V by lia. rewrite even_place in V. apply Nat.eqb_eq in V. apply Z.eqb_eq. rewrite Z.rem_mod_nonneg by lia.
    rewrite <- (Z2Nat.id idx) by lia. change 2%Z with (Z.of_nat 2). rewrite <- Nat2Z.inj_mod, V. reflexivity. }
  rewrite A. rewrite andb_false_r. rewrite <- P, even_place in V. apply Nat.eqb_eq in V.
  pose proof (Nat.div_mod i 2 ltac:(lia)) as D2. rewrite V in D2. set (q := (i / 2)%nat) in *.
  exists n', (Z.of_nat i + 2)%Z. replace (Z.quot (Z.of_nat i) 2) with (Z.of_nat q) by (rewrite D2; replace (Z.of_nat (2 * q + 0)) with (Z.of_nat q * 2)%Z by lia; now rewrite Z.quot_mul).
  unfold rd. rewrite halves_length, win_length. replace (_ && _)%bool with true by (unfold sfK; lia). rewrite Nat2Z.id, halves_nth by (rewrite win_length; unfold sfK; lia).
  destruct (split4 n' i L) as [D M]. rewrite win_at by (unfold sfK; apply Nat.div_lt_upper_bound; lia). unfold v64. rewrite <- P, D, M. unfold trunc. rewrite N.shiftr_div_pow2.
  assert (Q : (i / 4 = q / 2 /\ i mod 4 = 2 * (q mod 2))%nat).
  { pose proof (Nat.div_mod q 2 ltac:(lia)) as Dq. pose proof (Nat.mod_upper_bound q 2 ltac:(lia)). split.
    - symmetry. apply (Nat.div_unique i 4 (q / 2) (2 * (q mod 2))); lia.
    - symmetry. apply (Nat.mod_unique i 4 (q / 2) (2 * (q mod 2))); lia. }
  destruct Q as [-> ->]. split; [|split; lia]. do 2 f_equal. do 3 f_equal. lia.
Qed.
Lemma sg64_odd x n idx : (0 <= idx <= 624)%Z -> N.even (4 * n + Z.to_N idx) = false -> sg64 true (swin x n, idx) = None.
Proof.
  intros I V. unfold sg64. cbn [snd andb]. replace (Z.to_N idx) with (N.of_nat (Z.to_nat idx)) in V by lia. rewrite even_place in V. apply Nat.eqb_neq in V.
  replace (Z.rem idx 2 =? 0)%Z with false; [reflexivity|]. symmetry. apply Z.eqb_neq. rewrite Z.rem_mod_nonneg by lia.
  rewrite <- (Z2Nat.id idx) by lia. change 2%Z with (Z.of_nat 2). rewrite <- Nat2Z.inj_mod. lia.
Qed.
Lemma sg_draws_at dbg x ds : lrec sfK sfP sf_f sf_g x (fun _ => 0) -> forall n idx, (0 <= idx <= 624)%Z ->
  match expected x (4 * n + Z.to_N idx) ds with
  | Some vs => exists s, sg_draws dbg ds (swin x n, idx) = Some (s, vs)
  | None => sg_draws true ds (swin x n, idx) = None
  end.
Proof.
  intros R. induction ds as [|d ds IH]; intros n idx I; cbn [expected sg_draws]; [eexists; reflexivity|]. destruct d.
  - destruct (N.even _) eqn:V; [|now rewrite sg64_odd].
    destruct (sg64_at true x n idx R I V) as (n1 & i1 & E1 & I1 & P1). destruct (sg64_at dbg x n idx R I V) as (n2 & i2 & E2 & I2 & P2).
    pose proof (IH n1 i1 I1) as H1. pose proof (IH n2 i2 I2) as H2. rewrite P1 in H1. rewrite P2 in H2. destruct (expected _ _ ds) as [vs|]; cbn [option_map].
    + destruct H2 as [s H2]. rewrite E2, H2. eexists. reflexivity.
    + now rewrite E1, H1.
  - destruct (sg32_at x n idx R I) as (n2 & i2 & E2 & I2 & P2).
    pose proof (IH n2 i2 I2) as H2. rewrite P2 in H2. destruct (expected _ _ ds) as [vs|]; cbn [option_map].
    + destruct H2 as [s H2]. rewrite E2, H2. eexists. reflexivity.
    + now rewrite E2, H2.
Qed.
Lemma st_win st x : legal st -> starts st x -> st = swin x 0 /\ lrec sfK sfP sf_f sf_g x (fun _ => 0).
Proof. intros L S. pose proof (starts_lstarts _ _ L S) as T. split; [exact (starts_win sfK sfP sf_f sf_g sK2 sPK _ _ _ _ T)|apply T]. Qed.

(* ------------------------------------------------------------------- C88 *)
(* SFMT: any series of 32-bit and 64-bit calls, from any place of the block, gives the
   consecutive pieces of the sequence; the assertion fails exactly when a 64-bit call
   comes at an odd place *)
Theorem C88_sfmt_calls :
  forall dbg st idx x ds vs, legal st -> starts st x -> (0 <= idx <= 624)%Z -> expected x (Z.to_N idx) ds = Some vs ->
  exists s, sg_draws dbg ds (st, idx) = Some (s, vs).
Proof.
  intros dbg st idx x ds vs L S I E. destruct (st_win st x L S) as [-> R]. pose proof (sg_draws_at dbg x ds R 0 idx I) as H.
  change (4 * 0 + Z.to_N idx) with (Z.to_N idx) in H. rewrite E in H. exact H.
Qed.
Theorem C88_sfmt_assertion :
  forall st idx x ds, legal st -> starts st x -> (0 <= idx <= 624)%Z -> (sg_draws true ds (st, idx) = None <-> expected x (Z.to_N idx) ds = None).
Proof.
  intros st idx x ds L S I. destruct (st_win st x L S) as [-> R]. pose proof (sg_draws_at true x ds R 0 idx I) as H.
  change (4 * 0 + Z.to_N idx) with (Z.to_N idx) in H. destruct (expected _ _ _) as [vs|]; [destruct H as [s ->]; split; discriminate|]. now rewrite H.
Qed.
(* the 64-bit calls of a fresh state are the draws of the buffer the class uses *)
Theorem C88_sfmt_as_buffer :
  forall dbg dbg' st buf n, legal st -> List.length buf = 312%nat ->
  option_map snd (sg_draws dbg (repeat true n) (st, 624%Z)) = option_map snd (sf_draws dbg' n (LB st 0 624 buf 312)).
Proof.
  intros dbg dbg' st buf n L B. pose proof (starts_lx st L) as S. set (x := lx sfK sfP sf_f sf_g st 0) in *.
  rewrite (C60_sfmt_is_the_recurrence dbg' st buf x n L B S).
  assert (X : forall n p, expected x (2 * p) (repeat true n) = Some (map (fun i => half64 x (p + N.of_nat i)) (seq 0 n))).
  { clear. induction n as [|n IH]; intros p; [reflexivity|]. cbn [repeat expected]. rewrite N.even_mul. change (N.even 2) with true. cbn [orb].
    replace (2 * p + 2) with (2 * (p + 1)) by lia. rewrite IH. cbn [option_map seq map]. f_equal. f_equal.
    - unfold v64, half64, trunc. change (N.of_nat 0) with 0. rewrite N.add_0_r, N.shiftr_div_pow2. change 4 with (2 * 2). rewrite <- N.div_div by lia.
      rewrite N.mul_mod_distr_l by lia. rewrite (N.mul_comm 2 p), N.div_mul by lia. do 3 f_equal. lia.
    - rewrite <- seq_shift, map_map. apply map_ext. intros i. f_equal. lia. }
  specialize (X n 312). destruct (C88_sfmt_calls dbg st 624 x _ _ L S ltac:(lia) X) as [s E]. rewrite E. reflexivity.
Qed.
(* without the assertion, a 64-bit call after an odd number of 32-bit calls returns
   the bits of the last 32-bit number again *)
Theorem C88_sfmt_misaligned_refuted :
  forall st idx s1 v, legal st -> (0 <= idx < 624)%Z -> Z.even idx = true -> sg32 (st, idx) = Some (s1, v) ->
  sg64 true s1 = None /\ exists s2 w, sg64 false s1 = Some (s2, w) /\ w mod 2 ^ 32 = v.
Proof.
  intros st idx s1 v L I V E. unfold sg32, sg_refill in E. cbn [fst snd] in E. replace (624 <=? idx)%Z with false in E by lia.
  apply Zeven_bool_iff in V. apply Zeven_ex in V. destruct V as [k K].
  unfold rd in E. rewrite (proj1 (unquads_ok st)), (proj1 L) in E. replace (_ && _)%bool with true in E by lia. rewrite unquads_nth in E by (rewrite (proj1 L); lia).
  remember (lane (N.of_nat (Z.to_nat idx mod 4)) (nth (Z.to_nat idx / 4) st 0)) as c eqn:C. injection E as <- <-. rewrite C. clear C c. unfold sg64, sg_refill. cbn [fst snd]. subst idx.
  replace (Z.rem (2 * k + 1) 2) with 1%Z by (rewrite Z.rem_mod_nonneg by lia; apply (Z.mod_unique _ _ k); lia). split; [reflexivity|]. cbn [andb].
  replace (624 <=? 2 * k + 1)%Z with false by lia. replace (Z.quot (2 * k + 1) 2) with k by (rewrite Z.quot_div_nonneg by lia; apply (Z.div_unique _ _ _ 1); lia).
  unfold rd. rewrite halves_length, (proj1 L). replace (_ && _)%bool with true by lia. rewrite halves_nth by (rewrite (proj1 L); lia). do 2 eexists. split; [reflexivity|].
  replace (Z.to_nat (2 * k)) with (2 * Z.to_nat k)%nat by lia. set (q := Z.to_nat k).
  pose proof (Nat.div_mod q 2 ltac:(lia)) as Dq. pose proof (Nat.mod_upper_bound q 2 ltac:(lia)) as Uq.
  replace (2 * q / 4)%nat with (q / 2)%nat by (apply (Nat.div_unique _ _ _ (2 * (q mod 2))); lia).
  replace (2 * q mod 4)%nat with (2 * (q mod 2))%nat by (apply (Nat.mod_unique _ _ (q / 2)); lia).
  unfold lane, trunc. replace (32 * N.of_nat (2 * (q mod 2))) with (64 * N.of_nat (q mod 2)) by lia.
  set (w := N.shiftr _ _). change (2 ^ 64) with (2 ^ 32 * 2 ^ 32). rewrite N.mod_mul_r by discriminate.
  rewrite N.add_mod, (N.mul_comm (2 ^ 32)), N.mod_mul, N.add_0_r, !N.mod_mod by discriminate. reflexivity.
Qed.
(* two 32-bit numbers make the number that one 64-bit call gives *)
Theorem C88_sfmt_mix :
  forall dbg st idx x, legal st -> starts st x -> (0 <= idx <= 624)%Z -> Z.even idx = true ->
  option_map snd (sg_mix (st, idx)) = option_map snd (sg64 dbg (st, idx)).
Proof.
  intros dbg st idx x L S I V. destruct (st_win st x L S) as [-> R].
  assert (V' : N.even (4 * 0 + Z.to_N idx) = true).
  { apply Zeven_bool_iff, Zeven_ex in V. destruct V as [k K]. apply N.even_spec. exists (Z.to_N k). lia. }
  destruct (sg32_at x 0 idx R I) as (n1 & i1 & E1 & I1 & P1). destruct (sg32_at x n1 i1 R I1) as (n2 & i2 & E2 & I2 & P2).
  destruct (sg64_at dbg x 0 idx R I V') as (n3 & i3 & E3 & I3 & P3). unfold sg_mix. rewrite E1, E2, E3. cbn [option_map snd]. f_equal. rewrite P1.
  change (4 * 0 + Z.to_N idx) with (Z.to_N idx) in *. set (p := Z.to_N idx) in *. apply N.even_spec in V'. destruct V' as [q Q]. rewrite Q.
  pose proof (N.div_mod q 2 ltac:(lia)) as Dq. pose proof (N.mod_upper_bound q 2 ltac:(lia)) as Uq. unfold v32, v64.
  replace ((2 * q) / 4) with (q / 2) by (apply (N.div_unique _ _ _ (2 * (q mod 2))); lia).
  replace ((2 * q) mod 4) with (2 * (q mod 2)) by (apply (N.mod_unique _ _ (q / 2)); lia).
  replace ((2 * q + 1) / 4) with (q / 2) by (apply (N.div_unique _ _ _ (2 * (q mod 2) + 1)); lia).
  replace ((2 * q + 1) mod 4) with (2 * (q mod 2) + 1) by (apply (N.mod_unique _ _ (q / 2)); lia).
  replace (32 * (2 * (q mod 2) + 1)) with (32 * (2 * (q mod 2)) + 32) by lia. rewrite N.pow_add_r, <- N.div_div by (try (apply N.pow_nonzero; lia); discriminate).
  set (w := x (q / 2) / _). apply N.bits_inj. intros i. rewrite N.lor_spec, shl_spec, <- !N.land_ones, !N.land_spec, <- N.shiftr_div_pow2.
  destruct (N.ltb_spec i 32) as [A|A].
  - replace (32 <=? i) with false by lia. rewrite !N.ones_spec_low by lia. now rewrite orb_false_r.
  - replace (32 <=? i) with true by lia. rewrite shr_spec, (N.ones_spec_high 32 i) by lia. rewrite andb_false_r. replace (i - 32 + 32) with i by lia. cbn [orb andb].
    f_equal. destruct (N.ltb_spec i 64); [rewrite !N.ones_spec_low by lia|rewrite !N.ones_spec_high by lia]; reflexivity.
Qed.

(* dSFMT: one call gives the next double of the sequence *)
Lemma dg64_at x u n idx : lrec dsK dsP ds_f ds_g x u -> (0 <= idx <= 382)%Z ->
  exists n' idx', dg64 (dwin x n, u n, idx) = Some ((dwin x n', u n', idx'), half64 x (2 * n + Z.to_N idx)) /\ (0 <= idx' <= 382)%Z /\ 2 * n' + Z.to_N idx' = 2 * n + Z.to_N idx + 1.
Proof.
  intros R I.
  assert (F : exists n' i, (if (382 <=? idx)%Z then match lg_block dsK dsP ds_f ds_g (dwin x n) (u n) with Some (st, u) => Some (st, u, 0%Z) | None => None end else Some (dwin x n, u n, idx))
              = Some (dwin x n', u n', Z.of_nat i) /\ (i < 382)%nat /\ 2 * n' + N.of_nat i = 2 * n + Z.to_N idx).
  { destruct (382 <=? idx)%Z eqn:E.
    - pose proof (win_starts dsK dsP ds_f ds_g dK2 dPK x u n R) as S. rewrite (block_spec dsK dsP ds_f ds_g dK2 dPK _ _ _ _ S). rewrite win_shift.
      exists (n + N.of_nat dsK), 0%nat. split; [reflexivity|]. unfold dsK. split; lia.
    - exists n, (Z.to_nat idx). rewrite Z2Nat.id by lia. split; [reflexivity|]. split; lia. }
  destruct F as (n' & i & F & L & P). exists n', (Z.of_nat i + 1)%Z. unfold dg64. rewrite F. unfold rd. rewrite halves_length, win_length.
  replace (_ && _)%bool with true by (unfold dsK; lia). rewrite Nat2Z.id, halves_nth by (rewrite win_length; unfold dsK; lia). destruct (split2 n' i) as [D M].
  rewrite win_at by (unfold dsK; apply Nat.div_lt_upper_bound; lia). unfold half64. rewrite <- P, D, M. split; [reflexivity|]. split; lia.
Qed.
Theorem C88_dsfmt_calls :
  forall f st u0 idx x u n, PropDsfmt.legal st -> PropDsfmt.starts st u0 x u -> (0 <= idx <= 382)%Z ->
  option_map snd (dg_draws (dg_map f) n (st, u0, idx)) = Some (map (fun i => f (half64 x (Z.to_N idx + N.of_nat i))) (seq 0 n)).
Proof.
  intros f st u0 idx x u n L S I. pose proof (PropDsfmt.starts_lstarts _ _ _ _ L S) as T. pose proof (starts_win dsK dsP ds_f ds_g dK2 dPK _ _ _ _ T) as W.
  destruct T as (_ & _ & U & R). rewrite W, <- U. clear W L S st.
  assert (G : forall n m idx, (0 <= idx <= 382)%Z -> exists s, dg_draws (dg_map f) n (dwin x m, u m, idx) = Some (s, map (fun i => f (half64 x (2 * m + Z.to_N idx + N.of_nat i))) (seq 0 n))).
  { clear n idx I. induction n as [|n IH]; intros m idx I; [eexists; reflexivity|]. destruct (dg64_at x u m idx R I) as (m1 & i1 & E & I1 & P1).
    cbn [dg_draws]. unfold dg_map at 1. rewrite E. destruct (IH m1 i1 I1) as [s H]. rewrite H. eexists. f_equal. f_equal. cbn [seq map]. rewrite N.add_0_r. f_equal.
    rewrite <- seq_shift, map_map. apply map_ext. intros i. rewrite P1. do 2 f_equal. lia. }
  destruct (G n 0 idx I) as [s E]. rewrite E. reflexivity.
Qed.
(* the doubles of a fresh state are those the class draws *)
Theorem C88_dsfmt_as_buffer :
  forall st u0 idx buf n, PropDsfmt.legal st -> u0 < 2 ^ 128 -> List.length buf = 382%nat ->
  option_map snd (dg_draws (dg_map (fun v => v)) n (st, u0, 382%Z)) = option_map snd (ds_draws n (LB st u0 idx buf 382)).
Proof.
  intros st u0 idx buf n L U B. pose proof (PropDsfmt.starts_lx st u0 L U) as S.
  rewrite (C88_dsfmt_calls _ st u0 382 _ _ n L S ltac:(lia)), (PropDsfmt.C60_dsfmt_is_the_recurrence st u0 idx buf _ _ n L B S). reflexivity.
Qed.
(* the ranges of the three other conversions, as numerators over 2^52 *)
Theorem C88_dsfmt_ranges :
  forall s s' v, dg64 s = Some (s', v) ->
  exists m, m < 2 ^ 52 /\ v mod 2 ^ 52 = m /\ dg_close_open s = Some (s', m) /\ dg_open_close s = Some (s', 2 ^ 52 - m) /\
  dg_open_open s = Some (s', 2 * (m / 2) + 1) /\ 0 < 2 ^ 52 - m <= 2 ^ 52 /\ 0 < 2 * (m / 2) + 1 < 2 ^ 52 /\ dg_uint32 s = Some (s', v mod 2 ^ 32).
Proof.
  intros s s' v E. exists (v mod 2 ^ 52). assert (H : v mod 2 ^ 52 < 2 ^ 52) by (apply N.mod_lt; discriminate).
  unfold dg_close_open, dg_open_close, dg_open_open, dg_uint32, dg_map. rewrite E.
  split; [exact H|]. split; [reflexivity|]. split; [reflexivity|]. split; [reflexivity|]. split; [|split; [lia|split]].
  - do 2 f_equal. unfold mant. rewrite <- !N.land_ones. rewrite N.land_lor_distr_l. change (N.land 1 (N.ones 52)) with 1. set (w := N.land v (N.ones 52)).
    apply N.bits_inj. intros i. rewrite N.lor_spec. destruct i as [|i].
    + rewrite N.testbit_odd_0. cbn. apply orb_true_r.
    + replace (N.pos i) with (N.succ (N.pred (N.pos i))) by lia. rewrite N.testbit_odd_succ by lia. rewrite <- N.div2_div, N.div2_spec, N.shiftr_spec by lia.
      rewrite N.add_1_r. rewrite (N.bits_above_log2 1) by (cbn; lia). apply orb_false_r.
  - change (2 ^ 52) with (2 * 2 ^ 51) in *. set (m := v mod _) in *. assert (m / 2 < 2 ^ 51) by (apply N.div_lt_upper_bound; [lia|exact H]). lia.
  - do 2 f_equal. change 0xffffffff with (N.ones 32). apply N.land_ones.
Qed.
(* conversions of sfmt.h: exact in binary64 whatever the rounding mode *)
Section Reals.
  Variable rnd : Q -> Q.
  Hypothesis R64 : forall x, rep 53 (-1074) 971 x -> (rnd x == x)%Q.
  Lemma real2_exact v : v < 2 ^ 32 -> (to_real2 rnd v == frac (Z.of_N v) 32)%Q.
  Proof.
    intros H. unfold to_real2. rewrite (scale_mul_exact 53 (-1074) 971 rnd ltac:(lia) ltac:(lia) R64) by (try lia; change (2 ^ 0)%Z with 1%Z; rewrite Z.div_1_r; lia).
    change (2 ^ 0)%Z with 1%Z. rewrite Z.div_1_r. reflexivity.
  Qed.
  Lemma res53_exact v : v < 2 ^ 64 -> (to_res53 rnd v == frac (Z.of_N v / 2 ^ 11) 53)%Q.
  Proof.
    intros H. unfold to_res53. apply (scale_mul_exact 53 (-1074) 971 rnd ltac:(lia) ltac:(lia) R64); try lia.
  Qed.
  Lemma real3_exact v : v < 2 ^ 32 -> (to_real3 rnd v == frac (2 * Z.of_N v + 1) 33)%Q.
  Proof.
    intros H. unfold to_real3, fmul, fadd, fdiv.
    assert (E1 : (rnd (fint rnd (Z.of_N v) + (1 # 2)) == inject_Z (2 * Z.of_N v + 1) * p2 (-1))%Q).
    { apply (rnd_rep 53 (-1074) 971 rnd R64); [|lia|lia]. rewrite (fint_small 53 (-1074) 971 rnd ltac:(lia) ltac:(lia) R64) by lia.
      change (p2 (-1)) with (1 # 2)%Q. rewrite inject_Z_plus, inject_Z_mult. ring. }
    assert (E2 : (rnd (1 / fint rnd (2 ^ 32)) == inject_Z 1 * p2 (- 32))%Q).
    { apply (rnd_rep 53 (-1074) 971 rnd R64); [|cbn; lia|lia]. rewrite (fint_pow 53 (-1074) 971 rnd ltac:(lia) ltac:(lia) R64) by lia. reflexivity. }
    unfold frac. apply (rnd_rep 53 (-1074) 971 rnd R64); [|lia|lia]. rewrite E1, E2. change (- (33))%Z with (-1 + -32)%Z. rewrite p2_add. ring.
  Qed.
End Reals.
Theorem C88_sfmt_reals :
  forall rnd, (forall x, rep 53 (-1074) 971 x -> (rnd x == x)%Q) -> forall v,
  (v < 2 ^ 32 -> (to_real2 rnd v == inject_Z (Z.of_N v) / inject_Z (2 ^ 32))%Q /\ (0 <= to_real2 rnd v < 1)%Q) /\
  (v < 2 ^ 32 -> (to_real3 rnd v == (inject_Z (Z.of_N v) + (1 # 2)) / inject_Z (2 ^ 32))%Q /\ (0 < to_real3 rnd v < 1)%Q) /\
  (v < 2 ^ 64 -> (to_res53 rnd v == inject_Z (Z.of_N v / 2 ^ 11) / inject_Z (2 ^ 53))%Q /\ (0 <= to_res53 rnd v < 1)%Q).
Proof.
  intros rnd R v. split; [|split]; intros H.
  - rewrite (real2_exact rnd R v H). split; [unfold frac; now rewrite p2_opp|]. apply frac_bounds; lia.
  - rewrite (real3_exact rnd R v H). split.
    + unfold frac. change (p2 (- (33))) with (1 # 8589934592)%Q. rewrite inject_Z_plus, inject_Z_mult. change (inject_Z (2 ^ 32)) with (4294967296 # 1)%Q. field.
    + split; [|apply frac_bounds; lia]. unfold frac. apply Qmult_lt_0_compat; [|apply p2_pos]. change 0%Q with (inject_Z 0). rewrite <- Zlt_Qlt. lia.
  - rewrite (res53_exact rnd R v H). split; [unfold frac; now rewrite p2_opp|]. apply frac_bounds; [lia|].
    split; [apply Z.div_pos; lia|apply Z.div_lt_upper_bound; lia].
Qed.
(* [0,1]: the constant is the double nearest to 1/(2^32 - 1), and the product is
   rounded by any monotone rounding *)
Definition c1 : Q := (4294967297 # 18446744073709551616)%Q.
Theorem C88_sfmt_real1_constant :
  rep 53 (-1074) 971 c1 /\ forall r, rep 53 (-1074) 971 r -> (Qabs.Qabs (c1 - (1 # 4294967295)) <= Qabs.Qabs (r - (1 # 4294967295)))%Q.
Proof.
  split; [exists 4294967297%Z, (-64)%Z; split; [|split; [|reflexivity]]; lia|].
  intros r (m & e & Hm & He & E). change (Qabs.Qabs (c1 - (1 # 4294967295))) with (1 # 79228162495817593519834398720)%Q. rewrite E.
  destruct (Z_le_dec (-84) e) as [L|L].
  - assert (P : (inject_Z m * p2 e == inject_Z (m * 2 ^ (e + 84)) * p2 (-84))%Q).
    { rewrite inject_Z_mult, <- p2_int by lia. rewrite <- Qmult_assoc, <- p2_add. now replace (e + 84 + -84)%Z with e by lia. }
    rewrite P. set (k := (m * 2 ^ (e + 84))%Z). clearbody k. change (p2 (-84)) with (1 # 19342813113834066795298816)%Q.
    destruct (Z.le_gt_cases k 4503599628419072) as [A|A].
    + rewrite Qabs.Qabs_neg; unfold Qle, Qminus, Qopp, Qplus, Qmult, inject_Z; cbn; lia.
    + rewrite Qabs.Qabs_pos; unfold Qle, Qminus, Qopp, Qplus, Qmult, inject_Z; cbn; lia.
  - assert (P : (inject_Z m * p2 e <= 1 # 4294967296)%Q).
    { apply Qle_trans with (inject_Z (2 ^ 53) * p2 (-85))%Q; [|discriminate].
      replace (-85)%Z with (e + (-85 - e))%Z by lia. rewrite p2_add. rewrite (Qmult_comm (p2 e)), Qmult_assoc. apply Qmult_le_compat_r; [|apply Qlt_le_weak, p2_pos].
      rewrite p2_int by lia. rewrite <- inject_Z_mult. rewrite <- Zle_Qle. pose proof (Z.pow_pos_nonneg 2 (-85 - e) ltac:(lia) ltac:(lia)). nia. }
    set (y := (inject_Z m * p2 e)%Q) in *. clearbody y. rewrite Qabs.Qabs_neg; lra.
Qed.
Theorem C88_sfmt_real1 :
  forall rnd, (forall x, rep 53 (-1074) 971 x -> (rnd x == x)%Q) -> (forall x y, (x <= y)%Q -> (rnd x <= rnd y)%Q) ->
  forall v, v < 2 ^ 32 -> (0 <= to_real1 rnd c1 v <= 1)%Q.
Proof.
  intros rnd R M v H. unfold to_real1, fmul. pose proof (fint_small 53 (-1074) 971 rnd ltac:(lia) ltac:(lia) R (Z.of_N v) ltac:(lia) ltac:(lia)) as E.
  assert (Z0 : (rnd 0 == 0)%Q) by (apply R; exists 0%Z, 0%Z; split; [|split]; [lia|lia|reflexivity]).
  assert (Z1 : (rnd 1 == 1)%Q) by (apply R; exists 1%Z, 0%Z; split; [|split]; [lia|lia|reflexivity]).
  split; [rewrite <- Z0|rewrite <- Z1]; apply M; rewrite E; unfold c1, Qle; cbn; lia.
Qed.
Example C88_case :
  legal ex_st /\ expected (lx sfK sfP sf_f sf_g ex_st 0) 624 [false; false; true] <> None /\ expected (lx sfK sfP sf_f sf_g ex_st 0) 624 [false; true] = None.
Proof. split; [exact ex_st_legal|]. split; [discriminate|reflexivity]. Qed.

Print Assumptions C88_sfmt_calls.
Print Assumptions C88_sfmt_assertion.
Print Assumptions C88_sfmt_as_buffer.
Print Assumptions C88_sfmt_misaligned_refuted.
Print Assumptions C88_sfmt_mix.
Print Assumptions C88_dsfmt_calls.
Print Assumptions C88_dsfmt_as_buffer.
Print Assumptions C88_dsfmt_ranges.
Print Assumptions C88_sfmt_reals.
Print Assumptions C88_sfmt_real1_constant.
Print Assumptions C88_sfmt_real1.
