(* Facts about MT64: the array and the recurrence *)
From Verif Require Import Word Arr Buffer32 OptBuffer Py Half Mt64.
From Coq Require Import String ZifyBool ZifyNat ZifyN.
Open Scope N_scope.
Ltac Zify.zify_post_hook ::= idtac.

(* The recurrence of Matsumoto and Nishimura, Mersenne Twister (1998), (2.1):
   x(n+312) = x(n+156) xor (upper bit of x(n), lower 31 bits of x(n+1)) A, where
   zA = z >> 1, xor a if z is odd *)
Definition m64A (z : N) : N := if N.odd z then N.lxor (z / 2) 0xB5026F5AA96619E9 else z / 2.
Definition m64rec (x : N -> N) : Prop :=
  forall n, x (n + 312) = N.lxor (x (n + 156)) (m64A (x n / 2 ^ 31 * 2 ^ 31 + x (n + 1) mod 2 ^ 31)).
Definition wfs (x : N -> N) : Prop := forall n, wf 64 (x n).
Definition shifted (k : N) (x : N -> N) : N -> N := fun i => x (k + i).

(* ------------------------------------------------------- words *)
Lemma land_up u : wf 64 u -> N.land u 0xFFFFFFFF80000000 = u / 2 ^ 31 * 2 ^ 31.
Proof.
  intros H. apply N.bits_inj. intros i. rewrite N.land_spec.
  change 0xFFFFFFFF80000000 with (N.shiftl (N.ones 33) 31).
  rewrite <- N.shiftl_mul_pow2, <- N.shiftr_div_pow2. destruct (i <? 31) eqn:F.
  - rewrite !N.shiftl_spec_low by lia. apply andb_false_r.
  - rewrite !N.shiftl_spec_high' by lia. rewrite N.shiftr_spec'. replace (i - 31 + 31) with i by lia.
    destruct (i <? 64) eqn:G.
    + rewrite N.ones_spec_low by lia. apply andb_true_r.
    + rewrite N.ones_spec_high by lia. rewrite andb_false_r. symmetry. apply wf_testbit with (w := 64); [exact H|lia].
Qed.
Lemma land_low l : N.land l 0x7fffffff = l mod 2 ^ 31.
Proof. change 0x7fffffff with (N.ones 31). apply N.land_ones. Qed.
Lemma m64_y_eq u l : wf 64 u -> m64_y u l = u / 2 ^ 31 * 2 ^ 31 + l mod 2 ^ 31.
Proof.
  intros H. unfold m64_y. rewrite land_up, land_low by exact H.
  rewrite N.lor_comm, <- N.shiftl_mul_pow2, <- N.land_ones.
  rewrite <- N.lxor_lor; [rewrite N.add_comm; symmetry; apply N.add_nocarry_lxor|];
    apply N.bits_inj; intros i; rewrite N.land_spec, N.land_spec, N.bits_0; destruct (i <? 31) eqn:F;
    try (rewrite N.shiftl_spec_low by lia; apply andb_false_r);
    rewrite (N.ones_spec_high 31) by lia; now rewrite andb_false_r.
Qed.
Lemma m64_y_wf u l : wf 64 u -> wf 64 (m64_y u l).
Proof. intros H. unfold m64_y. apply wf_lor; apply wf_land_r; reflexivity. Qed.
Lemma m64_a_eq y : m64_a y = m64A y.
Proof.
  unfold m64_a, m64A. change 1 with (N.ones 1) at 2. rewrite N.land_ones, <- N.bit0_mod, N.bit0_odd, N.shiftr_div_pow2.
  change (2 ^ 1) with 2. destruct (N.odd y); cbn [N.b2n]; [reflexivity|]. change (0 =? 0) with true. now rewrite N.lxor_0_r.
Qed.
Lemma m64_a_wf y : wf 64 y -> wf 64 (m64_a y).
Proof. intros H. unfold m64_a. apply wf_lxor; [now apply wf_shr|]. destruct (_ =? _); reflexivity. Qed.
Lemma m64_a_bit y : wf 64 y -> N.testbit (m64_a y) 63 = N.odd y.
Proof.
  intros H. unfold m64_a. rewrite N.lxor_spec, N.shiftr_spec'.
  replace (N.testbit y (63 + 1)) with false by (symmetry; apply wf_testbit with (w := 64); [exact H|lia]).
  change 1 with (N.ones 1). rewrite N.land_ones, <- N.bit0_mod, N.bit0_odd. destruct (N.odd y); reflexivity.
Qed.
Lemma m64_a_inj y z : wf 64 y -> wf 64 z -> m64_a y = m64_a z -> y = z.
Proof.
  intros Hy Hz E. pose proof (m64_a_bit y Hy) as By. pose proof (m64_a_bit z Hz) as Bz.
  assert (O : N.odd y = N.odd z) by congruence. clear By Bz.
  rewrite !m64_a_eq in E. unfold m64A in E. rewrite O in E.
  assert (D : y / 2 = z / 2) by (destruct (N.odd z); [exact (lxor_inj_r _ _ _ E)|exact E]).
  rewrite (N.div_mod y 2), (N.div_mod z 2) by discriminate. rewrite D. f_equal.
  change 2 with (2 ^ 1). rewrite <- !N.bit0_mod, !N.bit0_odd. now rewrite O.
Qed.
Lemma m64_tw_eq u l : wf 64 u -> m64_tw u l = m64A (u / 2 ^ 31 * 2 ^ 31 + l mod 2 ^ 31).
Proof. intros H. unfold m64_tw. now rewrite m64_a_eq, m64_y_eq. Qed.
Lemma m64_tw_wf u l : wf 64 u -> wf 64 (m64_tw u l).
Proof. intros H. apply m64_a_wf, m64_y_wf, H. Qed.
Lemma m64_y_inj u l v m : m64_y u l = m64_y v m -> N.land u 0xFFFFFFFF80000000 = N.land v 0xFFFFFFFF80000000 /\ N.land l 0x7fffffff = N.land m 0x7fffffff.
Proof.
  intros E. unfold m64_y in E. split.
  - apply (f_equal (fun y => N.land y 0xFFFFFFFF80000000)) in E. rewrite !N.land_lor_distr_l, <- !N.land_assoc in E.
    change (N.land 2147483647 18446744071562067968) with 0 in E. change (N.land 18446744071562067968 18446744071562067968) with 18446744071562067968 in E.
    now rewrite !N.land_0_r, !N.lor_0_r in E.
  - apply (f_equal (fun y => N.land y 0x7fffffff)) in E. rewrite !N.land_lor_distr_l, <- !N.land_assoc in E.
    change (N.land 18446744071562067968 2147483647) with 0 in E. change (N.land 2147483647 2147483647) with 2147483647 in E.
    now rewrite !N.land_0_r, !N.lor_0_l in E.
Qed.
Lemma word_split u : wf 64 u -> u = N.lor (N.land u 0xFFFFFFFF80000000) (N.land u 0x7fffffff).
Proof.
  intros H. rewrite <- N.land_lor_distr_r. change (N.lor 18446744071562067968 2147483647) with (N.ones 64).
  rewrite N.land_ones. symmetry. apply trunc_small. exact H.
Qed.
Lemma word_eq u v : wf 64 u -> wf 64 v -> N.land u 0xFFFFFFFF80000000 = N.land v 0xFFFFFFFF80000000 ->
  N.land u 0x7fffffff = N.land v 0x7fffffff -> u = v.
Proof. intros Hu Hv A B. rewrite (word_split u Hu), (word_split v Hv), A, B. reflexivity. Qed.
Lemma land_lxor_l a b m : N.land (N.lxor a b) m = N.lxor (N.land a m) (N.land b m).
Proof. apply N.bits_inj. intros i. rewrite N.lxor_spec, !N.land_spec, N.lxor_spec. now destruct (N.testbit a i), (N.testbit b i), (N.testbit m i). Qed.
Lemma m64_y_lxor_form u l : m64_y u l = N.lxor (N.land u 0xFFFFFFFF80000000) (N.land l 0x7fffffff).
Proof.
  unfold m64_y. symmetry. apply N.lxor_lor. rewrite (N.land_comm l), N.land_assoc, <- (N.land_assoc u).
  change (N.land 18446744071562067968 2147483647) with 0. now rewrite N.land_0_r.
Qed.
Lemma lxor_4 a b c d : N.lxor (N.lxor a b) (N.lxor c d) = N.lxor (N.lxor a c) (N.lxor b d).
Proof. rewrite !N.lxor_assoc. f_equal. rewrite <- !N.lxor_assoc. f_equal. apply N.lxor_comm. Qed.
Lemma m64_y_lin u v l m : m64_y (N.lxor u v) (N.lxor l m) = N.lxor (m64_y u l) (m64_y v m).
Proof. rewrite !m64_y_lxor_form, !land_lxor_l. apply lxor_4. Qed.
Lemma m64_a_lin y z : m64_a (N.lxor y z) = N.lxor (m64_a y) (m64_a z).
Proof.
  rewrite !m64_a_eq. unfold m64A. rewrite <- !N.bit0_odd, N.lxor_spec. change 2 with (2 ^ 1).
  rewrite <- !N.shiftr_div_pow2, shiftr_lxor. destruct (N.testbit y 0), (N.testbit z 0); cbn [xorb].
  - rewrite lxor_4, N.lxor_nilpotent, N.lxor_0_r. reflexivity.
  - rewrite !N.lxor_assoc. f_equal. apply N.lxor_comm.
  - apply N.lxor_assoc.
  - reflexivity.
Qed.
Lemma m64_tw_lin u v l m : m64_tw (N.lxor u v) (N.lxor l m) = N.lxor (m64_tw u l) (m64_tw v m).
Proof. unfold m64_tw. now rewrite m64_y_lin, m64_a_lin. Qed.

Lemma xsrm_inj w k m a b : 0 < k -> wf w a -> wf w b ->
  N.lxor a (N.land (N.shiftr a k) m) = N.lxor b (N.land (N.shiftr b k) m) -> a = b.
Proof.
  intros Hk Ha Hb H. apply N.bits_inj.
  assert (G : forall d i, w <= i + d -> N.testbit a i = N.testbit b i).
  { induction d as [|d IH] using N.peano_ind; intros i Hi.
    - rewrite (proj1 (wf_testbit w a) Ha), (proj1 (wf_testbit w b) Hb) by lia. reflexivity.
    - apply (f_equal (fun x => N.testbit x i)) in H. rewrite !N.lxor_spec, !N.land_spec, !N.shiftr_spec' in H.
      rewrite (IH (i + k)) in H by lia. destruct (N.testbit a i), (N.testbit b i), (N.testbit b (i + k)), (N.testbit m i); easy. }
  intros i. apply (G w). lia.
Qed.
Lemma temper_wf y : wf 64 y -> wf 64 (m64_temper y).
Proof.
  intros H. unfold m64_temper. cbv zeta.
  repeat match goal with
  | |- wf _ (N.lxor _ _) => apply wf_lxor
  | |- wf _ (N.shiftr _ _) => apply wf_shr
  | |- wf _ (N.land _ _) => apply wf_land_r; reflexivity
  | |- _ => assumption
  end.
Qed.
Lemma temper_inj y z : wf 64 y -> wf 64 z -> m64_temper y = m64_temper z -> y = z.
Proof.
  intros Hy Hz E. unfold m64_temper in E. cbv zeta in E.
  apply xsr_inj in E; [|lia].
  apply (xslm_inj 64) in E; [|lia|..].
  2,3: repeat match goal with
  | |- wf _ (N.lxor _ _) => apply wf_lxor
  | |- wf _ (N.shiftr _ _) => apply wf_shr
  | |- wf _ (N.land _ _) => apply wf_land_r; reflexivity
  | |- _ => assumption
  end.
  apply (xslm_inj 64) in E; [|lia|..].
  2,3: repeat match goal with
  | |- wf _ (N.lxor _ _) => apply wf_lxor
  | |- wf _ (N.shiftr _ _) => apply wf_shr
  | |- wf _ (N.land _ _) => apply wf_land_r; reflexivity
  | |- _ => assumption
  end.
  apply xsrm_inj with (w := 64) (k := 29) (m := 0x5555555555555555) in E; [exact E|lia|assumption..].
Qed.

(* ------------------------------------------------------- sequences *)
Lemma m64rec_tw x : wfs x -> m64rec x -> forall n, x (n + 312) = N.lxor (x (n + 156)) (m64_tw (x n) (x (n + 1))).
Proof. intros W H n. rewrite m64_tw_eq by apply W. apply H. Qed.
Lemma tw_m64rec x : wfs x -> (forall n, x (n + 312) = N.lxor (x (n + 156)) (m64_tw (x n) (x (n + 1)))) -> m64rec x.
Proof. intros W H n. rewrite <- m64_tw_eq by apply W. apply H. Qed.
Lemma shifted_rec k x : m64rec x -> m64rec (shifted k x).
Proof. intros H n. unfold shifted. rewrite !N.add_assoc. apply H. Qed.
Lemma shifted_wf k x : wfs x -> wfs (shifted k x).
Proof. intros H n. apply H. Qed.
Lemma m64rec_lxor x y : wfs x -> wfs y -> m64rec x -> m64rec y -> m64rec (fun i => N.lxor (x i) (y i)).
Proof.
  intros Wx Wy Hx Hy. apply tw_m64rec; [intros n; now apply wf_lxor|].
  intros n. rewrite (m64rec_tw x Wx Hx n), (m64rec_tw y Wy Hy n), m64_tw_lin. apply lxor_4.
Qed.
(* x(n+312) is determined by the 312 words before it *)
Lemma rec_unique x y : m64rec x -> m64rec y -> (forall i, i < 312 -> x i = y i) -> forall n, x n = y n.
Proof.
  intros Hx Hy H n. induction n as [n IH] using (well_founded_induction N.lt_wf_0).
  destruct (n <? 312) eqn:E; [apply H; lia|].
  replace n with (n - 312 + 312) by lia. rewrite Hx, Hy. rewrite !IH by lia. reflexivity.
Qed.
(* and determines the earlier ones, but for the lower bits of the very first *)
Lemma rec_back1 x y m : wfs x -> wfs y -> m64rec x -> m64rec y -> (forall i, m < i -> x i = y i) ->
  N.land (x m) 0xFFFFFFFF80000000 = N.land (y m) 0xFFFFFFFF80000000 /\ (0 < m -> x m = y m).
Proof.
  intros Wx Wy Hx Hy H. pose proof (m64rec_tw x Wx Hx) as Tx. pose proof (m64rec_tw y Wy Hy) as Ty.
  assert (U : N.land (x m) 0xFFFFFFFF80000000 = N.land (y m) 0xFFFFFFFF80000000).
  { pose proof (Tx m) as A. rewrite (H (m + 312)), Ty, (H (m + 156)), (H (m + 1)) in A by lia.
    apply lxor_inj_l in A. apply m64_a_inj in A; try apply m64_y_wf; auto.
    apply m64_y_inj in A. now destruct A. }
  split; [exact U|]. intros M. apply word_eq; auto.
  pose proof (Tx (m - 1)) as A. rewrite (H (m - 1 + 312)), Ty, (H (m - 1 + 156)) in A by lia.
  apply lxor_inj_l in A. apply m64_a_inj in A; try apply m64_y_wf; auto.
  apply m64_y_inj in A. destruct A as [_ A]. replace (m - 1 + 1) with m in A by lia. now symmetry.
Qed.
Lemma rec_back x y m : wfs x -> wfs y -> m64rec x -> m64rec y -> (forall i, m <= i -> x i = y i) ->
  (forall i, 0 < i -> x i = y i) /\ N.land (x 0) 0xFFFFFFFF80000000 = N.land (y 0) 0xFFFFFFFF80000000.
Proof.
  intros Wx Wy Hx Hy H.
  assert (G : forall i, 0 < i -> x i = y i).
  { revert H. induction m as [|m IH] using N.peano_ind; intros H; [intros i _; apply H; lia|].
    destruct (N.eq_dec m 0) as [->|Nz]; [intros i Hi; apply H; lia|].
    apply IH. intros i Hi. destruct (N.eq_dec i m) as [->|Ne]; [|apply H; lia].
    apply (rec_back1 x y m Wx Wy Hx Hy); [|lia]. intros j Hj. apply H. lia. }
  split; [exact G|]. apply (rec_back1 x y 0 Wx Wy Hx Hy). exact G.
Qed.

(* ------------------------------------------------------- the array as a ring *)
Definition wr (p i : Z) : Z := (if p + i <? 312 then p + i else p + i - 312)%Z.
(* from index p on, round the array, key holds x 0, x 1, ..., x 311 *)
Definition ring (key : list N) (p : Z) (x : N -> N) : Prop :=
  Z.of_nat (List.length key) = 312%Z /\ (0 <= p < 312)%Z /\
  forall i, (0 <= i < 312)%Z -> rd key (wr p i) = Some (x (Z.to_N i)).
Lemma wr_range p i : (0 <= p < 312 -> 0 <= i < 312 -> 0 <= wr p i < 312)%Z.
Proof. intros. unfold wr. destruct (p + i <? 312)%Z eqn:E; lia. Qed.
Lemma wr_inj p i j : (0 <= p < 312 -> 0 <= i < 312 -> 0 <= j < 312 -> wr p i = wr p j -> i = j)%Z.
Proof. intros ? ? ?. unfold wr. destruct (p + i <? 312)%Z eqn:E, (p + j <? 312)%Z eqn:F; lia. Qed.
Lemma rd_upd l i j v : (0 <= i < Z.of_nat (List.length l))%Z ->
  rd (upd l (Z.to_nat i) v) j = if (i =? j)%Z then Some v else rd l j.
Proof.
  intros H. destruct (i =? j)%Z eqn:E.
  - apply Z.eqb_eq in E. subst j. rewrite (rd_nth _ _ 0) by (rewrite upd_length; exact H).
    rewrite upd_nth_same by lia. reflexivity.
  - apply Z.eqb_neq in E. unfold rd. rewrite upd_length. destruct (_ && _) eqn:F; [|reflexivity].
    rewrite !(nth_error_nth' _ 0) by (rewrite ?upd_length; lia).
    rewrite upd_nth_other by lia. reflexivity.
Qed.
Lemma ring_ext key p x y : (forall i, x i = y i) -> ring key p x -> ring key p y.
Proof. intros E [L [P H]]. split; [exact L|split; [exact P|]]. intros i Hi. rewrite H by exact Hi. now rewrite E. Qed.
(* the update of one word, in place *)
Definition step_at (key : list N) (p : Z) : option (list N) := m64_set1 key p (wr p 1) (wr p 156).
Lemma gen_at_step key p : (0 <= p < 312)%Z -> m64_gen_at key p = step_at key p.
Proof.
  intros H. unfold m64_gen_at, step_at, wr.
  destruct (p <? 156)%Z eqn:E.
  - replace (p + 1 <? 312)%Z with true by lia. replace (p + 156 <? 312)%Z with true by lia. reflexivity.
  - destruct (p <? 311)%Z eqn:F.
    + replace (p + 1 <? 312)%Z with true by lia. replace (p + 156 <? 312)%Z with false by lia.
      replace (p + 156 - 312)%Z with (p + -156)%Z by lia. reflexivity.
    + replace p with 311%Z by lia. reflexivity.
Qed.
Lemma step_ring key p x : wfs x -> m64rec x -> ring key p x ->
  exists key', step_at key p = Some key' /\ ring key' (wr p 1) (shifted 1 x).
Proof.
  intros W R [L [P H]]. unfold step_at, m64_set1.
  pose proof (H 0 ltac:(lia))%Z as H0. replace (wr p 0) with p in H0 by (unfold wr; destruct (p + 0 <? 312)%Z eqn:E; lia).
  pose proof (H 1 ltac:(lia))%Z as H1. pose proof (H 156 ltac:(lia))%Z as H156.
  rewrite H0, H1, H156. eexists. split; [reflexivity|]. split; [now rewrite upd_length|].
  split; [apply wr_range; lia|]. intros i Hi. rewrite rd_upd by (rewrite L; exact P).
  unfold shifted. destruct (p =? wr (wr p 1) i)%Z eqn:E.
  - apply Z.eqb_eq in E. assert (i = 311)%Z as -> by (clear - E P Hi; unfold wr in E; destruct (p + 1 <? 312)%Z eqn:F;
      match goal with H : context[(?a <? 312)%Z] |- _ => destruct (a <? 312)%Z eqn:G end; lia).
    f_equal. change (1 + Z.to_N 311) with (0 + 312). rewrite (m64rec_tw x W R). reflexivity.
  - apply Z.eqb_neq in E. assert (Hi' : (0 <= i + 1 < 312)%Z).
    { clear - E P Hi. unfold wr in E. destruct (p + 1 <? 312)%Z eqn:F;
      match goal with H : context[(?a <? 312)%Z] |- _ => destruct (a <? 312)%Z eqn:G end; lia. }
    replace (wr (wr p 1) i) with (wr p (i + 1)).
    + rewrite H by exact Hi'. do 2 f_equal. lia.
    + clear - P Hi Hi'. unfold wr. destruct (p + 1 <? 312)%Z eqn:F; destruct (p + (i + 1) <? 312)%Z eqn:G;
      match goal with |- context[(?a <? 312)%Z] => destruct (a <? 312)%Z eqn:K end; lia.
Qed.
(* a pass of mt64_gen, from index p *)
Lemma gen_from_ring n : forall p key x, wfs x -> m64rec x -> ring key p x -> (p + Z.of_nat n = 312)%Z ->
  exists key', m64_gen_from n p key = Some key' /\ ring key' 0 (shifted (N.of_nat n) x).
Proof.
  induction n as [|n IH]; intros p key x W R H E.
  - destruct H as [_ [P _]]. lia.
  - destruct (step_ring key p x W R H) as (k1 & E1 & R1). destruct H as [L [P H]].
    cbn [m64_gen_from]. rewrite gen_at_step, E1 by exact P.
    destruct n as [|n].
    + exists k1. split; [reflexivity|]. replace (wr p 1) with 0%Z in R1 by (unfold wr; destruct (p + 1 <? 312)%Z eqn:F; lia).
      exact R1.
    + assert (F : (p + 1 < 312)%Z) by lia. replace (wr p 1) with (p + 1)%Z in R1 by (unfold wr; destruct (p + 1 <? 312)%Z eqn:G; lia).
      destruct (IH (p + 1)%Z k1 _ (shifted_wf 1 _ W) (shifted_rec 1 _ R) R1 ltac:(lia)) as (k2 & E2 & R2).
      exists k2. split; [exact E2|]. eapply ring_ext; [|exact R2]. intros i. unfold shifted. f_equal. lia.
Qed.
Lemma gen_ring key p x : p <> 313%Z -> wfs x -> m64rec x -> ring key 0 x ->
  exists key', m64_gen (M64 key p) = Some (M64 key' 0) /\ ring key' 0 (shifted 312 x).
Proof.
  intros Np W R H. unfold m64_gen. cbn [m64_key m64_pos]. rewrite (proj2 (Z.eqb_neq p 313) Np).
  destruct (gen_from_ring 312 0 key x W R H ltac:(lia)) as (k & E & Rk). rewrite E.
  exists k. split; [reflexivity|exact Rk].
Qed.

(* ------------------------------------------------------- drawing *)
(* the words still to come from a state: the array is the block of the sequence
   in use, pos the number of words taken from it *)
Definition stream (s : m64) (x : N -> N) : Prop :=
  (0 <= m64_pos s <= 312)%Z /\ exists y, wfs y /\ m64rec y /\ ring (m64_key s) 0 y /\ forall i, x i = y (Z.to_N (m64_pos s) + i).
Lemma next_stream s x : stream s x ->
  exists s', m64_next s = Some (s', m64_temper (x 0)) /\ stream s' (shifted 1 x).
Proof.
  intros [P (y & W & R & H & E)]. unfold m64_next. destruct s as [key p]. cbn [m64_key m64_pos] in *.
  destruct (312 <=? p)%Z eqn:Ep.
  - destruct (gen_ring key p y ltac:(lia) W R H) as (k & G & Rk). rewrite G. cbn [m64_key m64_pos].
    destruct Rk as [L [_ Hk]]. pose proof (Hk 0%Z ltac:(lia)) as H0. change (wr 0 0) with 0%Z in H0. rewrite H0.
    eexists. split; [|split].
    + f_equal. f_equal. f_equal. rewrite E. unfold shifted. f_equal. lia.
    + cbn [m64_pos]. lia.
    + exists (shifted 312 y). cbn [m64_key m64_pos]. split; [now apply shifted_wf|]. split; [now apply shifted_rec|].
      split; [split; [exact L|split; [lia|exact Hk]]|]. intros i. unfold shifted. rewrite E. f_equal. lia.
  - destruct H as [L [_ H]]. cbn [m64_key m64_pos]. pose proof (H p ltac:(lia)) as Hp.
    replace (wr 0 p) with p in Hp by (unfold wr; destruct (0 + p <? 312)%Z eqn:F; lia).
    rewrite Hp. eexists. split; [|split].
    + do 2 f_equal. f_equal. rewrite E. f_equal. lia.
    + cbn [m64_pos]. lia.
    + exists y. cbn [m64_key m64_pos]. split; [exact W|]. split; [exact R|]. split; [split; [exact L|split; [lia|exact H]]|].
      intros i. unfold shifted. rewrite E. f_equal. lia.
Qed.
Lemma draws_stream n : forall s x, stream s x ->
  exists s', m64_draws n s = Some (s', map (fun i => m64_temper (x (N.of_nat i))) (seq 0 n)) /\ stream s' (shifted (N.of_nat n) x).
Proof.
  induction n as [|n IH]; intros s x H.
  - exists s. split; [reflexivity|]. exact H.
  - destruct (next_stream s x H) as (s1 & E1 & H1). destruct (IH s1 _ H1) as (s2 & E2 & H2).
    exists s2. cbn [m64_draws]. rewrite E1, E2. split.
    + do 2 f_equal. cbn [seq map]. change (N.of_nat 0) with 0. f_equal. rewrite <- seq_shift, map_map.
      apply map_ext. intros i. unfold shifted. do 2 f_equal. lia.
    + destruct H2 as [P (y & W & R & Hr & E)]. split; [exact P|]. exists y. repeat (split; [assumption|]).
      intros i. rewrite <- E. unfold shifted. f_equal. lia.
Qed.

(* every array starts a sequence *)
Definition wstep (l : list N) : list N := (tl l ++ [N.lxor (nth 156 l 0) (m64_tw (nth 0 l 0) (nth 1 l 0))])%list.
Definition m64seq (key : list N) (n : N) : N := nth 0 (N.iter n wstep key) 0.
Definition kok (key : list N) : Prop := Z.of_nat (List.length key) = 312%Z /\ Forall (wf 64) key.
Lemma nth_wf l i : Forall (wf 64) l -> wf 64 (nth i l 0).
Proof. intros H. destruct (nth_in_or_default i l 0) as [I|E]; [rewrite Forall_forall in H; auto|rewrite E; apply wf_0]. Qed.
Lemma wstep_ok l : kok l -> kok (wstep l).
Proof.
  intros [L F]. unfold wstep. split.
  - destruct l as [|a l]; [cbn in L; lia|]. cbn [tl]. rewrite app_length. cbn [List.length] in *. lia.
  - apply Forall_app. split; [destruct l as [|a l]; [constructor|inversion F; assumption]|].
    constructor; [|constructor]. apply wf_lxor; [now apply nth_wf|]. apply m64_tw_wf. now apply nth_wf.
Qed.
Lemma wstep_nth l i : kok l -> (S i < N.to_nat 312)%nat -> nth i (wstep l) 0 = nth (S i) l 0.
Proof.
  intros [L _] Hi. destruct l as [|a l]; [cbn in L; lia|]. unfold wstep. cbn [tl]. cbn [List.length] in L.
  rewrite app_nth1 by lia. reflexivity.
Qed.
Lemma wstep_last l : kok l -> nth (N.to_nat 311) (wstep l) 0 = N.lxor (nth 156 l 0) (m64_tw (nth 0 l 0) (nth 1 l 0)).
Proof.
  intros [L _]. destruct l as [|a l]; [cbn in L; lia|]. unfold wstep. cbn [tl]. cbn [List.length] in L.
  rewrite app_nth2 by lia. replace (N.to_nat 311 - List.length l)%nat with 0%nat by lia. reflexivity.
Qed.
Lemma iter_ok n l : kok l -> kok (N.iter n wstep l).
Proof. apply Niter_inv. exact wstep_ok. Qed.
Lemma iter_nth i : forall n l, kok l -> i < 312 -> nth (N.to_nat i) (N.iter n wstep l) 0 = m64seq l (n + i).
Proof.
  induction i as [|i IH] using N.peano_ind; intros n l H Hi.
  - unfold m64seq. now rewrite N.add_0_r.
  - replace (n + N.succ i) with (N.succ n + i) by lia. rewrite <- IH by (try assumption; lia).
    rewrite N.iter_succ. rewrite wstep_nth; [f_equal; lia|now apply iter_ok|lia].
Qed.
Lemma m64seq_wfs l : kok l -> wfs (m64seq l).
Proof. intros H n. apply nth_wf. apply (iter_ok n l H). Qed.
Lemma m64seq_rec l : kok l -> m64rec (m64seq l).
Proof.
  intros H. apply tw_m64rec; [now apply m64seq_wfs|]. intros n.
  pose proof (iter_nth 156 n l H ltac:(lia)) as A. pose proof (iter_nth 0 n l H ltac:(lia)) as B.
  pose proof (iter_nth 1 n l H ltac:(lia)) as C. pose proof (iter_nth 311 (N.succ n) l H ltac:(lia)) as D.
  replace (N.succ n + 311) with (n + 312) in D by lia. rewrite N.add_0_r in B.
  rewrite <- A, <- B, <- C, <- D. rewrite N.iter_succ. rewrite wstep_last by now apply iter_ok. reflexivity.
Qed.
Lemma m64seq_ring l : kok l -> ring l 0 (m64seq l).
Proof.
  intros H. destruct H as [L F]. split; [exact L|split; [lia|]]. intros i Hi.
  replace (wr 0 i) with i by (unfold wr; destruct (0 + i <? 312)%Z eqn:E; lia).
  rewrite (rd_nth l i 0) by lia. f_equal. pose proof (iter_nth (Z.to_N i) 0 l (conj L F) ltac:(lia)) as G.
  change (0 + Z.to_N i) with (Z.to_N i) in G. rewrite <- G. change (N.iter 0 wstep l) with l. f_equal. lia.
Qed.
Lemma ring_unique key x y : m64rec x -> m64rec y -> ring key 0 x -> ring key 0 y -> forall i, x i = y i.
Proof.
  intros Rx Ry [_ [_ Hx]] [_ [_ Hy]]. apply rec_unique; [assumption..|]. intros i Hi.
  pose proof (Hx (Z.of_N i) ltac:(lia)) as A. rewrite Hy in A by lia. rewrite N2Z.id in A. congruence.
Qed.
Definition unwr (p j : Z) : Z := (if p <=? j then j - p else j - p + 312)%Z.
Lemma wr_unwr p j : (0 <= p < 312 -> 0 <= j < 312 -> 0 <= unwr p j < 312 /\ wr p (unwr p j) = j)%Z.
Proof. intros P J. unfold unwr, wr. destruct (p <=? j)%Z eqn:E; match goal with |- context[(?a <? 312)%Z] => destruct (a <? 312)%Z eqn:F end; lia. Qed.
Lemma ring_rd key p x j : ring key p x -> (0 <= j < 312)%Z -> rd key j = Some (x (Z.to_N (unwr p j))).
Proof. intros [L [P H]] Hj. destruct (wr_unwr p j P Hj) as [A B]. rewrite <- H by exact A. now rewrite B. Qed.
Lemma ring_kok key p x : wfs x -> ring key p x -> kok key.
Proof.
  intros W H. split; [apply H|]. apply Forall_forall. intros v I. destruct (In_nth key v 0 I) as (n & Hn & E).
  assert (L : Z.of_nat (List.length key) = 312%Z) by apply H.
  pose proof (ring_rd key p x (Z.of_nat n) H ltac:(lia)) as A. rewrite (rd_nth _ _ 0) in A by lia.
  rewrite Nat2Z.id, E in A. injection A as ->. apply W.
Qed.
Lemma block_stream key p : kok key -> (0 <= p <= 312)%Z -> stream (M64 key p) (shifted (Z.to_N p) (m64seq key)).
Proof.
  intros K P. split; [exact P|]. exists (m64seq key). cbn [m64_key m64_pos].
  split; [now apply m64seq_wfs|]. split; [now apply m64seq_rec|]. split; [now apply m64seq_ring|]. reflexivity.
Qed.
(* a block of a sequence, as an array *)
Definition block (x : N -> N) : list N := map (fun i => x (N.of_nat i)) (seq 0 312).
Lemma block_ring x : ring (block x) 0 x.
Proof.
  assert (L : List.length (block x) = N.to_nat 312) by (unfold block; rewrite map_length, seq_length; reflexivity).
  split; [rewrite L; lia|split; [lia|]]. intros i Hi.
  replace (wr 0 i) with i by (unfold wr; destruct (0 + i <? 312)%Z eqn:E; lia).
  rewrite (rd_nth _ _ (x (N.of_nat 0))) by (rewrite L; lia). f_equal. unfold block.
  rewrite (map_nth (fun i => x (N.of_nat i)) (seq 0 312) 0%nat). rewrite seq_nth by lia. f_equal. lia.
Qed.

Lemma genrand_ok n : forall p i, List.length (m64_genrand n p i) = n /\ Forall (wf 64) (m64_genrand n p i).
Proof.
  induction n as [|n IH]; intros p i; [split; [reflexivity|constructor]|]. cbn [m64_genrand].
  destruct (IH (wadd 64 (wmul 64 6364136223846793005 (N.lxor p (N.shiftr p 62))) i) (i + 1)) as [L F].
  split; [cbn [List.length]; now rewrite L|]. constructor; [apply wf_wadd|exact F].
Qed.
Lemma init_ok s : wf 64 s -> kok (m64_init s).
Proof.
  intros W. unfold m64_init. destruct (genrand_ok 311 s 1) as [L F]. split; [cbn [List.length]; rewrite L; reflexivity|].
  constructor; assumption.
Qed.
Lemma upd_kok l i v : kok l -> wf 64 v -> kok (upd l i v).
Proof. intros [L F] W. split; [now rewrite upd_length|now apply upd_Forall]. Qed.
Lemma mix_kok mult x l i : kok l -> kok (fst (m64_mix mult x l i)).
Proof.
  intros K. unfold m64_mix. cbv zeta.
  assert (K1 := upd_kok l i (wadd 64 (N.lxor (nth i l 0) (wmul 64 (N.lxor (nth (i - 1) l 0) (N.shiftr (nth (i - 1) l 0) 62)) mult)) x) K (wf_wadd _ _ _)).
  destruct (_ <=? _)%nat; cbn [fst]; [|exact K1]. apply upd_kok; [exact K1|]. apply nth_wf, K1.
Qed.
Lemma loop1_kok n : forall key l i j, kok l -> kok (fst (m64_loop1 n key l i j)).
Proof.
  induction n as [|n IH]; intros key l i j K; [exact K|]. cbn [m64_loop1].
  pose proof (mix_kok 3935559000370003845 (wadd 64 (nth j key 0) (N.of_nat j)) l i K) as K1. destruct (m64_mix _ _ _ _) as [l1 i1]. now apply IH.
Qed.
Lemma loop2_kok n : forall l i, kok l -> kok (m64_loop2 n l i).
Proof.
  induction n as [|n IH]; intros l i K; [exact K|]. cbn [m64_loop2].
  pose proof (mix_kok 2862933555777941757 (wneg 64 (N.of_nat i)) l i K) as K1. destruct (m64_mix _ _ _ _) as [l1 i1]. now apply IH.
Qed.
Lemma seed_ok words : kok (m64_key (m64_init_by_array words)) /\ m64_pos (m64_init_by_array words) = 312%Z /\ nth 0 (m64_key (m64_init_by_array words)) 0 = 0x8000000000000000.
Proof.
  unfold m64_init_by_array.
  assert (K0 : kok (m64_init 19650218)) by (apply init_ok; reflexivity).
  pose proof (loop1_kok (Nat.max 312 (List.length words)) words _ 1 0 K0) as K1.
  destruct (m64_loop1 _ _ _ _ _) as [l i]. cbn [fst] in K1. cbn [m64_key m64_pos].
  pose proof (loop2_kok 311 l i K1) as K2. split; [apply upd_kok; [exact K2|reflexivity]|]. split; [reflexivity|].
  apply upd_nth_same. destruct K2 as [L _]. lia.
Qed.
(* the accesses of init_by_array are in bounds: i in 1..311, j below the length *)
Lemma mix_index mult x l i : (1 <= i < N.to_nat 312)%nat -> (1 <= snd (m64_mix mult x l i) < N.to_nat 312)%nat.
Proof. intros H. unfold m64_mix. cbv zeta. destruct (312 <=? S i)%nat eqn:E; cbn [snd]; [lia|]. apply Nat.leb_gt in E. change 312%nat with (N.to_nat 312) in E. lia. Qed.

(* ------------------------------------------------------- no information is lost *)
Lemma gen_inj key1 p1 key2 p2 : p1 <> 313%Z -> p2 <> 313%Z -> kok key1 -> kok key2 -> m64_gen (M64 key1 p1) = m64_gen (M64 key2 p2) ->
  (forall i, (1 <= i < 312)%Z -> rd key1 i = rd key2 i) /\ N.land (nth 0 key1 0) 0xFFFFFFFF80000000 = N.land (nth 0 key2 0) 0xFFFFFFFF80000000.
Proof.
  intros N1 N2 K1 K2 E.
  destruct (gen_ring key1 p1 _ N1 (m64seq_wfs _ K1) (m64seq_rec _ K1) (m64seq_ring _ K1)) as (k & G1 & R1).
  destruct (gen_ring key2 p2 _ N2 (m64seq_wfs _ K2) (m64seq_rec _ K2) (m64seq_ring _ K2)) as (k' & G2 & R2).
  rewrite G1, G2 in E. injection E as <-.
  assert (A := ring_unique k _ _ (shifted_rec 312 _ (m64seq_rec _ K1)) (shifted_rec 312 _ (m64seq_rec _ K2)) R1 R2).
  destruct (rec_back (m64seq key1) (m64seq key2) 312 (m64seq_wfs _ K1) (m64seq_wfs _ K2) (m64seq_rec _ K1) (m64seq_rec _ K2)) as [B C].
  { intros i Hi. pose proof (A (i - 312)) as X. unfold shifted in X. replace (312 + (i - 312)) with i in X by lia. exact X. }
  split; [|exact C]. intros i Hi. rewrite (ring_rd _ _ _ i (m64seq_ring _ K1)), (ring_rd _ _ _ i (m64seq_ring _ K2)) by lia.
  f_equal. apply B. unfold unwr. replace (0 <=? i)%Z with true by lia. lia.
Qed.
Lemma not_dead x m : wfs x -> m64rec x -> N.land (x 0) 0xFFFFFFFF80000000 <> 0 -> ~ (forall i, m <= i -> x i = 0).
Proof.
  intros W R Nz H. apply Nz. destruct (rec_back x (fun _ => 0) m W (fun _ => wf_0 32) R) as [_ C]; [intros n; reflexivity|exact H|exact C].
Qed.
Lemma zero_key key x : wfs x -> m64rec x -> ring key 0 x -> Forall (eq 0) key -> forall i, x i = 0.
Proof.
  intros W R H Z. apply (rec_unique x (fun _ => 0) R); [intros n; reflexivity|]. intros i Hi.
  pose proof (ring_rd _ _ _ (Z.of_N i) H ltac:(lia)) as A. apply rd_In in A. rewrite Forall_forall in Z. apply Z in A.
  unfold unwr in A. replace (0 <=? Z.of_N i)%Z with true in A by lia. rewrite Z.sub_0_r, N2Z.id in A. now symmetry.
Qed.
Lemma never_zero n s s' vs : kok (m64_key s) -> (0 <= m64_pos s <= 312)%Z -> N.land (nth 0 (m64_key s) 0) 0xFFFFFFFF80000000 <> 0 ->
  m64_draws n s = Some (s', vs) -> ~ Forall (eq 0) (m64_key s').
Proof.
  intros K P Nz D Z. destruct s as [key p]. cbn [m64_key m64_pos] in *.
  destruct (draws_stream n _ _ (block_stream key p K P)) as (s1 & E1 & [P1 (y & W & R & H & E)]).
  rewrite D in E1. injection E1 as <- _. pose proof (zero_key _ y W R H Z) as Y.
  apply (not_dead (m64seq key) (Z.to_N p + N.of_nat n + 312) (m64seq_wfs _ K) (m64seq_rec _ K)); [exact Nz|].
  intros i Hi. rewrite <- (Y (Z.to_N (m64_pos s') + (i - Z.to_N p - N.of_nat n))). rewrite <- E. unfold shifted. f_equal. lia.
Qed.

(* ------------------------------------------------------- the state *)
Lemma to_cint_in z : (- 2 ^ 31 <= z < 2 ^ 31)%Z -> to_cint (PInt z) = Ok z.
Proof. intros [A B]. unfold to_cint. replace ((- 2 ^ 31 <=? z)%Z && (z <? 2 ^ 31)%Z)%bool with true; [reflexivity|]. symmetry. apply andb_true_iff. split; [now apply Z.leb_le|now apply Z.ltb_lt]. Qed.
Lemma m64_set_get s t : kok (m64_key (core s)) -> (- 2 ^ 31 <= m64_pos (core s) < 2 ^ 31)%Z -> wf 32 (u32 s) -> m64_setst (m64_get s) t = (s, Ok tt).
Proof.
  intros [L F] P U. destruct s as [[k p] h u], t as [[k' p'] h' u']. cbn [m64_key m64_pos core u32] in *.
  assert (M : N.of_nat (List.length k) = 312) by (clear - L; lia). unfold m64_setst, m64_get. cbn [m64_key m64_pos core has32 u32].
  do 2 (repeat (rewrite bind_lift; cbn; rewrite ?check_arr_ok, ?to_cint_in by assumption); rewrite bind_modify; cbn [m64_key m64_pos core has32 u32]).
  rewrite (set_half_run _ h u) by (try reflexivity; exact U). reflexivity.
Qed.
