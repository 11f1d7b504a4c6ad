(* Facts about MT19937: the array and the recurrence *)
From Verif Require Import Word Arr Py Mt19937.
From Coq Require Import String ZifyBool ZifyNat ZifyN.
Open Scope N_scope.
Ltac Zify.zify_post_hook ::= idtac.

(* The recurrence of Matsumoto and Nishimura, Mersenne Twister (1998), (2.1):
   x(n+624) = x(n+397) xor (upper bit of x(n), lower 31 bits of x(n+1)) A, where
   zA = z >> 1, xor a if z is odd *)
Definition mtA (z : N) : N := if N.odd z then N.lxor (z / 2) 0x9908b0df else z / 2.
Definition mtrec (x : N -> N) : Prop :=
  forall n, x (n + 624) = N.lxor (x (n + 397)) (mtA (x n / 2 ^ 31 * 2 ^ 31 + x (n + 1) mod 2 ^ 31)).
Definition wfs (x : N -> N) : Prop := forall n, wf 32 (x n).
Definition shifted (k : N) (x : N -> N) : N -> N := fun i => x (k + i).

(* ------------------------------------------------------- words *)
Lemma land_up u : wf 32 u -> N.land u 0x80000000 = u / 2 ^ 31 * 2 ^ 31.
Proof.
  intros H. apply N.bits_inj. intros i. rewrite N.land_spec.
  change 0x80000000 with (2 ^ 31). rewrite N.pow2_bits_eqb.
  rewrite <- N.shiftl_mul_pow2, <- N.shiftr_div_pow2.
  destruct (31 =? i) eqn:E.
  - apply N.eqb_eq in E. subst i. rewrite N.shiftl_spec_high' by lia. rewrite N.shiftr_spec'. now rewrite andb_true_r.
  - rewrite andb_false_r. apply N.eqb_neq in E. destruct (i <? 31) eqn:F.
    + now rewrite N.shiftl_spec_low by lia.
    + rewrite N.shiftl_spec_high' by lia. rewrite N.shiftr_spec'. symmetry.
      apply wf_testbit with (w := 32); [exact H|lia].
Qed.
Lemma land_low l : N.land l 0x7fffffff = l mod 2 ^ 31.
Proof. change 0x7fffffff with (N.ones 31). apply N.land_ones. Qed.
Lemma mt_y_eq u l : wf 32 u -> mt_y u l = u / 2 ^ 31 * 2 ^ 31 + l mod 2 ^ 31.
Proof.
  intros H. unfold mt_y. rewrite land_up, land_low by exact H.
  rewrite N.lor_comm, <- N.shiftl_mul_pow2, <- N.land_ones.
  rewrite <- N.lxor_lor; [rewrite N.add_comm; symmetry; apply N.add_nocarry_lxor|];
    apply N.bits_inj; intros i; rewrite N.land_spec, N.land_spec, N.bits_0; destruct (i <? 31) eqn:F;
    try (rewrite N.shiftl_spec_low by lia; apply andb_false_r);
    rewrite (N.ones_spec_high 31) by lia; now rewrite andb_false_r.
Qed.
Lemma mt_y_wf u l : wf 32 u -> wf 32 (mt_y u l).
Proof. intros H. unfold mt_y. apply wf_lor; apply wf_land_r; reflexivity. Qed.
Lemma mt_a_eq y : mt_a y = mtA y.
Proof.
  unfold mt_a, mtA. change 1 with (N.ones 1) at 2. rewrite N.land_ones, <- N.bit0_mod, N.bit0_odd, N.shiftr_div_pow2.
  change (2 ^ 1) with 2. destruct (N.odd y); cbn [N.b2n]; [reflexivity|]. change (0 =? 0) with true. now rewrite N.lxor_0_r.
Qed.
Lemma mt_a_wf y : wf 32 y -> wf 32 (mt_a y).
Proof. intros H. unfold mt_a. apply wf_lxor; [now apply wf_shr|]. destruct (_ =? _); reflexivity. Qed.
Lemma mt_a_bit y : wf 32 y -> N.testbit (mt_a y) 31 = N.odd y.
Proof.
  intros H. unfold mt_a. rewrite N.lxor_spec, N.shiftr_spec'.
  replace (N.testbit y (31 + 1)) with false by (symmetry; apply wf_testbit with (w := 32); [exact H|lia]).
  change 1 with (N.ones 1). rewrite N.land_ones, <- N.bit0_mod, N.bit0_odd. destruct (N.odd y); reflexivity.
Qed.
Lemma mt_a_inj y z : wf 32 y -> wf 32 z -> mt_a y = mt_a z -> y = z.
Proof.
  intros Hy Hz E. pose proof (mt_a_bit y Hy) as By. pose proof (mt_a_bit z Hz) as Bz.
  assert (O : N.odd y = N.odd z) by congruence. clear By Bz.
  rewrite !mt_a_eq in E. unfold mtA in E. rewrite O in E.
  assert (D : y / 2 = z / 2) by (destruct (N.odd z); [exact (lxor_inj_r _ _ _ E)|exact E]).
  rewrite (N.div_mod y 2), (N.div_mod z 2) by discriminate. rewrite D. f_equal.
  change 2 with (2 ^ 1). rewrite <- !N.bit0_mod, !N.bit0_odd. now rewrite O.
Qed.
Lemma mt_tw_eq u l : wf 32 u -> mt_tw u l = mtA (u / 2 ^ 31 * 2 ^ 31 + l mod 2 ^ 31).
Proof. intros H. unfold mt_tw. now rewrite mt_a_eq, mt_y_eq. Qed.
Lemma mt_tw_wf u l : wf 32 u -> wf 32 (mt_tw u l).
Proof. intros H. apply mt_a_wf, mt_y_wf, H. Qed.
Lemma mt_y_inj u l v m : mt_y u l = mt_y v m -> N.land u 0x80000000 = N.land v 0x80000000 /\ N.land l 0x7fffffff = N.land m 0x7fffffff.
Proof.
  intros E. unfold mt_y in E. split.
  - apply (f_equal (fun y => N.land y 0x80000000)) in E. rewrite !N.land_lor_distr_l, <- !N.land_assoc in E.
    change (N.land 2147483647 2147483648) with 0 in E. change (N.land 2147483648 2147483648) with 2147483648 in E.
    now rewrite !N.land_0_r, !N.lor_0_r in E.
  - apply (f_equal (fun y => N.land y 0x7fffffff)) in E. rewrite !N.land_lor_distr_l, <- !N.land_assoc in E.
    change (N.land 2147483648 2147483647) with 0 in E. change (N.land 2147483647 2147483647) with 2147483647 in E.
    now rewrite !N.land_0_r, !N.lor_0_l in E.
Qed.
Lemma word_split u : wf 32 u -> u = N.lor (N.land u 0x80000000) (N.land u 0x7fffffff).
Proof.
  intros H. rewrite <- N.land_lor_distr_r. change (N.lor 2147483648 2147483647) with (N.ones 32).
  rewrite N.land_ones. symmetry. apply trunc_small. exact H.
Qed.
Lemma word_eq u v : wf 32 u -> wf 32 v -> N.land u 0x80000000 = N.land v 0x80000000 ->
  N.land u 0x7fffffff = N.land v 0x7fffffff -> u = v.
Proof. intros Hu Hv A B. rewrite (word_split u Hu), (word_split v Hv), A, B. reflexivity. Qed.
Lemma land_lxor_l a b m : N.land (N.lxor a b) m = N.lxor (N.land a m) (N.land b m).
Proof. apply N.bits_inj. intros i. rewrite N.lxor_spec, !N.land_spec, N.lxor_spec. now destruct (N.testbit a i), (N.testbit b i), (N.testbit m i). Qed.
Lemma mt_y_lxor_form u l : mt_y u l = N.lxor (N.land u 0x80000000) (N.land l 0x7fffffff).
Proof.
  unfold mt_y. symmetry. apply N.lxor_lor. rewrite (N.land_comm l), N.land_assoc, <- (N.land_assoc u).
  change (N.land 2147483648 2147483647) with 0. now rewrite N.land_0_r.
Qed.
Lemma lxor_4 a b c d : N.lxor (N.lxor a b) (N.lxor c d) = N.lxor (N.lxor a c) (N.lxor b d).
Proof. rewrite !N.lxor_assoc. f_equal. rewrite <- !N.lxor_assoc. f_equal. apply N.lxor_comm. Qed.
Lemma mt_y_lin u v l m : mt_y (N.lxor u v) (N.lxor l m) = N.lxor (mt_y u l) (mt_y v m).
Proof. rewrite !mt_y_lxor_form, !land_lxor_l. apply lxor_4. Qed.
Lemma mt_a_lin y z : mt_a (N.lxor y z) = N.lxor (mt_a y) (mt_a z).
Proof.
  rewrite !mt_a_eq. unfold mtA. rewrite <- !N.bit0_odd, N.lxor_spec. change 2 with (2 ^ 1).
  rewrite <- !N.shiftr_div_pow2, shiftr_lxor. destruct (N.testbit y 0), (N.testbit z 0); cbn [xorb].
  - rewrite lxor_4, N.lxor_nilpotent, N.lxor_0_r. reflexivity.
  - rewrite !N.lxor_assoc. f_equal. apply N.lxor_comm.
  - apply N.lxor_assoc.
  - reflexivity.
Qed.
Lemma mt_tw_lin u v l m : mt_tw (N.lxor u v) (N.lxor l m) = N.lxor (mt_tw u l) (mt_tw v m).
Proof. unfold mt_tw. now rewrite mt_y_lin, mt_a_lin. Qed.

Lemma temper_wf y : wf 32 y -> wf 32 (mt_temper y).
Proof.
  intros H. unfold mt_temper. cbv zeta.
  repeat match goal with
  | |- wf _ (N.lxor _ _) => apply wf_lxor
  | |- wf _ (N.shiftr _ _) => apply wf_shr
  | |- wf _ (N.land _ _) => apply wf_land_r; reflexivity
  | |- _ => assumption
  end.
Qed.
Lemma temper_inj y z : wf 32 y -> wf 32 z -> mt_temper y = mt_temper z -> y = z.
Proof.
  intros Hy Hz E. unfold mt_temper in E. cbv zeta in E.
  apply xsr_inj in E; [|lia].
  apply (xslm_inj 32) in E; [|lia|..].
  2,3: repeat match goal with
  | |- wf _ (N.lxor _ _) => apply wf_lxor
  | |- wf _ (N.shiftr _ _) => apply wf_shr
  | |- wf _ (N.land _ _) => apply wf_land_r; reflexivity
  | |- _ => assumption
  end.
  apply (xslm_inj 32) in E; [|lia|..].
  2,3: repeat match goal with
  | |- wf _ (N.lxor _ _) => apply wf_lxor
  | |- wf _ (N.shiftr _ _) => apply wf_shr
  | |- _ => assumption
  end.
  apply xsr_inj in E; [exact E|lia].
Qed.

(* ------------------------------------------------------- sequences *)
Lemma mtrec_tw x : wfs x -> mtrec x -> forall n, x (n + 624) = N.lxor (x (n + 397)) (mt_tw (x n) (x (n + 1))).
Proof. intros W H n. rewrite mt_tw_eq by apply W. apply H. Qed.
Lemma tw_mtrec x : wfs x -> (forall n, x (n + 624) = N.lxor (x (n + 397)) (mt_tw (x n) (x (n + 1)))) -> mtrec x.
Proof. intros W H n. rewrite <- mt_tw_eq by apply W. apply H. Qed.
Lemma shifted_rec k x : mtrec x -> mtrec (shifted k x).
Proof. intros H n. unfold shifted. rewrite !N.add_assoc. apply H. Qed.
Lemma shifted_wf k x : wfs x -> wfs (shifted k x).
Proof. intros H n. apply H. Qed.
Lemma mtrec_lxor x y : wfs x -> wfs y -> mtrec x -> mtrec y -> mtrec (fun i => N.lxor (x i) (y i)).
Proof.
  intros Wx Wy Hx Hy. apply tw_mtrec; [intros n; now apply wf_lxor|].
  intros n. rewrite (mtrec_tw x Wx Hx n), (mtrec_tw y Wy Hy n), mt_tw_lin. apply lxor_4.
Qed.
(* x(n+624) is determined by the 624 words before it *)
Lemma rec_unique x y : mtrec x -> mtrec y -> (forall i, i < 624 -> x i = y i) -> forall n, x n = y n.
Proof.
  intros Hx Hy H n. induction n as [n IH] using (well_founded_induction N.lt_wf_0).
  destruct (n <? 624) eqn:E; [apply H; lia|].
  replace n with (n - 624 + 624) by lia. rewrite Hx, Hy. rewrite !IH by lia. reflexivity.
Qed.
(* and determines the earlier ones, but for the lower bits of the very first *)
Lemma rec_back1 x y m : wfs x -> wfs y -> mtrec x -> mtrec y -> (forall i, m < i -> x i = y i) ->
  N.land (x m) 0x80000000 = N.land (y m) 0x80000000 /\ (0 < m -> x m = y m).
Proof.
  intros Wx Wy Hx Hy H. pose proof (mtrec_tw x Wx Hx) as Tx. pose proof (mtrec_tw y Wy Hy) as Ty.
  assert (U : N.land (x m) 0x80000000 = N.land (y m) 0x80000000).
  { pose proof (Tx m) as A. rewrite (H (m + 624)), Ty, (H (m + 397)), (H (m + 1)) in A by lia.
    apply lxor_inj_l in A. apply mt_a_inj in A; try apply mt_y_wf; auto.
    apply mt_y_inj in A. now destruct A. }
  split; [exact U|]. intros M. apply word_eq; auto.
  pose proof (Tx (m - 1)) as A. rewrite (H (m - 1 + 624)), Ty, (H (m - 1 + 397)) in A by lia.
  apply lxor_inj_l in A. apply mt_a_inj in A; try apply mt_y_wf; auto.
  apply mt_y_inj in A. destruct A as [_ A]. replace (m - 1 + 1) with m in A by lia. now symmetry.
Qed.
Lemma rec_back x y m : wfs x -> wfs y -> mtrec x -> mtrec y -> (forall i, m <= i -> x i = y i) ->
  (forall i, 0 < i -> x i = y i) /\ N.land (x 0) 0x80000000 = N.land (y 0) 0x80000000.
Proof.
  intros Wx Wy Hx Hy H.
  assert (G : forall i, 0 < i -> x i = y i).
  { revert H. induction m as [|m IH] using N.peano_ind; intros H; [intros i _; apply H; lia|].
    destruct (N.eq_dec m 0) as [->|Nz]; [intros i Hi; apply H; lia|].
    apply IH. intros i Hi. destruct (N.eq_dec i m) as [->|Ne]; [|apply H; lia].
    apply (rec_back1 x y m Wx Wy Hx Hy); [|lia]. intros j Hj. apply H. lia. }
  split; [exact G|]. apply (rec_back1 x y 0 Wx Wy Hx Hy). exact G.
Qed.

(* ------------------------------------------------------- the array as a ring *)
Definition wr (p i : Z) : Z := (if p + i <? 624 then p + i else p + i - 624)%Z.
(* from index p on, round the array, key holds x 0, x 1, ..., x 623 *)
Definition ring (key : list N) (p : Z) (x : N -> N) : Prop :=
  Z.of_nat (List.length key) = 624%Z /\ (0 <= p < 624)%Z /\
  forall i, (0 <= i < 624)%Z -> rd key (wr p i) = Some (x (Z.to_N i)).
Lemma wr_range p i : (0 <= p < 624 -> 0 <= i < 624 -> 0 <= wr p i < 624)%Z.
Proof. intros. unfold wr. destruct (p + i <? 624)%Z eqn:E; lia. Qed.
Lemma wr_inj p i j : (0 <= p < 624 -> 0 <= i < 624 -> 0 <= j < 624 -> wr p i = wr p j -> i = j)%Z.
Proof. intros ? ? ?. unfold wr. destruct (p + i <? 624)%Z eqn:E, (p + j <? 624)%Z eqn:F; lia. Qed.
Lemma rd_upd l i j v : (0 <= i < Z.of_nat (List.length l))%Z ->
  rd (upd l (Z.to_nat i) v) j = if (i =? j)%Z then Some v else rd l j.
Proof.
  intros H. destruct (i =? j)%Z eqn:E.
  - apply Z.eqb_eq in E. subst j. rewrite (rd_nth _ _ 0) by (rewrite upd_length; exact H).
    rewrite upd_nth_same by lia. reflexivity.
  - apply Z.eqb_neq in E. unfold rd. rewrite upd_length. destruct (_ && _) eqn:F; [|reflexivity].
    rewrite !(nth_error_nth' _ 0) by (rewrite ?upd_length; lia).
    rewrite upd_nth_other by lia. reflexivity.
Qed.
Lemma ring_ext key p x y : (forall i, x i = y i) -> ring key p x -> ring key p y.
Proof. intros E [L [P H]]. split; [exact L|split; [exact P|]]. intros i Hi. rewrite H by exact Hi. now rewrite E. Qed.
(* the update of one word, in place *)
Definition step_at (key : list N) (p : Z) : option (list N) := mt_set1 key p (wr p 1) (wr p 397).
Lemma gen_at_step key p : (0 <= p < 624)%Z -> mt_gen_at key p = step_at key p.
Proof.
  intros H. unfold mt_gen_at, step_at, wr.
  destruct (p <? 227)%Z eqn:E.
  - replace (p + 1 <? 624)%Z with true by lia. replace (p + 397 <? 624)%Z with true by lia. reflexivity.
  - destruct (p <? 623)%Z eqn:F.
    + replace (p + 1 <? 624)%Z with true by lia. replace (p + 397 <? 624)%Z with false by lia.
      replace (p + 397 - 624)%Z with (p + -227)%Z by lia. reflexivity.
    + replace p with 623%Z by lia. reflexivity.
Qed.
Lemma gen_next_step key p : (0 <= p < 624)%Z ->
  mt_gen_next (MT key p) = match step_at key p with Some k => Some (MT k (wr p 1)) | None => None end.
Proof.
  intros H. rewrite <- gen_at_step by exact H. unfold mt_gen_next, mt_gen_at, wr. cbn [mt_key mt_pos].
  destruct (p <? 227)%Z eqn:E; [replace (p + 1 <? 624)%Z with true by lia; reflexivity|].
  destruct (p <? 623)%Z eqn:F; [replace (p + 1 <? 624)%Z with true by lia; reflexivity|].
  replace p with 623%Z by lia. reflexivity.
Qed.
Lemma step_ring key p x : wfs x -> mtrec x -> ring key p x ->
  exists key', step_at key p = Some key' /\ ring key' (wr p 1) (shifted 1 x).
Proof.
  intros W R [L [P H]]. unfold step_at, mt_set1.
  pose proof (H 0 ltac:(lia))%Z as H0. replace (wr p 0) with p in H0 by (unfold wr; destruct (p + 0 <? 624)%Z eqn:E; lia).
  pose proof (H 1 ltac:(lia))%Z as H1. pose proof (H 397 ltac:(lia))%Z as H397.
  rewrite H0, H1, H397. eexists. split; [reflexivity|]. split; [now rewrite upd_length|].
  split; [apply wr_range; lia|]. intros i Hi. rewrite rd_upd by (rewrite L; exact P).
  unfold shifted. destruct (p =? wr (wr p 1) i)%Z eqn:E.
  - apply Z.eqb_eq in E. assert (i = 623)%Z as -> by (clear - E P Hi; unfold wr in E; destruct (p + 1 <? 624)%Z eqn:F;
      match goal with H : context[(?a <? 624)%Z] |- _ => destruct (a <? 624)%Z eqn:G end; lia).
    f_equal. change (1 + Z.to_N 623) with (0 + 624). rewrite (mtrec_tw x W R). reflexivity.
  - apply Z.eqb_neq in E. assert (Hi' : (0 <= i + 1 < 624)%Z).
    { clear - E P Hi. unfold wr in E. destruct (p + 1 <? 624)%Z eqn:F;
      match goal with H : context[(?a <? 624)%Z] |- _ => destruct (a <? 624)%Z eqn:G end; lia. }
    replace (wr (wr p 1) i) with (wr p (i + 1)).
    + rewrite H by exact Hi'. do 2 f_equal. lia.
    + clear - P Hi Hi'. unfold wr. destruct (p + 1 <? 624)%Z eqn:F; destruct (p + (i + 1) <? 624)%Z eqn:G;
      match goal with |- context[(?a <? 624)%Z] => destruct (a <? 624)%Z eqn:K end; lia.
Qed.
(* a pass of mt19937_gen, from index p *)
Lemma gen_from_ring n : forall p key x, wfs x -> mtrec x -> ring key p x -> (p + Z.of_nat n = 624)%Z ->
  exists key', mt_gen_from n p key = Some key' /\ ring key' 0 (shifted (N.of_nat n) x).
Proof.
  induction n as [|n IH]; intros p key x W R H E.
  - destruct H as [_ [P _]]. lia.
  - destruct (step_ring key p x W R H) as (k1 & E1 & R1). destruct H as [L [P H]].
    cbn [mt_gen_from]. rewrite gen_at_step, E1 by exact P.
    destruct n as [|n].
    + exists k1. split; [reflexivity|]. replace (wr p 1) with 0%Z in R1 by (unfold wr; destruct (p + 1 <? 624)%Z eqn:F; lia).
      exact R1.
    + assert (F : (p + 1 < 624)%Z) by lia. replace (wr p 1) with (p + 1)%Z in R1 by (unfold wr; destruct (p + 1 <? 624)%Z eqn:G; lia).
      destruct (IH (p + 1)%Z k1 _ (shifted_wf 1 _ W) (shifted_rec 1 _ R) R1 ltac:(lia)) as (k2 & E2 & R2).
      exists k2. split; [exact E2|]. eapply ring_ext; [|exact R2]. intros i. unfold shifted. f_equal. lia.
Qed.
Lemma gen_ring key p x : wfs x -> mtrec x -> ring key 0 x ->
  exists key', mt_gen (MT key p) = Some (MT key' 0) /\ ring key' 0 (shifted 624 x).
Proof.
  intros W R H. unfold mt_gen. cbn [mt_key].
  destruct (gen_from_ring 624 0 key x W R H ltac:(lia)) as (k & E & Rk). rewrite E.
  exists k. split; [reflexivity|exact Rk].
Qed.

(* ------------------------------------------------------- drawing *)
(* the words still to come from a state: the array is the block of the sequence
   in use, pos the number of words taken from it *)
Definition stream (s : mt) (x : N -> N) : Prop :=
  (0 <= mt_pos s <= 624)%Z /\ exists y, wfs y /\ mtrec y /\ ring (mt_key s) 0 y /\ forall i, x i = y (Z.to_N (mt_pos s) + i).
Lemma next_stream s x : stream s x ->
  exists s', mt_next s = Some (s', mt_temper (x 0)) /\ stream s' (shifted 1 x).
Proof.
  intros [P (y & W & R & H & E)]. unfold mt_next. destruct s as [key p]. cbn [mt_key mt_pos] in *.
  destruct (p =? 624)%Z eqn:Ep.
  - destruct (gen_ring key p y W R H) as (k & G & Rk). rewrite G. cbn [mt_key mt_pos].
    destruct Rk as [L [_ Hk]]. pose proof (Hk 0%Z ltac:(lia)) as H0. change (wr 0 0) with 0%Z in H0. rewrite H0.
    eexists. split; [|split].
    + f_equal. f_equal. f_equal. rewrite E. unfold shifted. f_equal. lia.
    + cbn [mt_pos]. lia.
    + exists (shifted 624 y). cbn [mt_key mt_pos]. split; [now apply shifted_wf|]. split; [now apply shifted_rec|].
      split; [split; [exact L|split; [lia|exact Hk]]|]. intros i. unfold shifted. rewrite E. f_equal. lia.
  - destruct H as [L [_ H]]. cbn [mt_key mt_pos]. pose proof (H p ltac:(lia)) as Hp.
    replace (wr 0 p) with p in Hp by (unfold wr; destruct (0 + p <? 624)%Z eqn:F; lia).
    rewrite Hp. eexists. split; [|split].
    + do 2 f_equal. f_equal. rewrite E. f_equal. lia.
    + cbn [mt_pos]. lia.
    + exists y. cbn [mt_key mt_pos]. split; [exact W|]. split; [exact R|]. split; [split; [exact L|split; [lia|exact H]]|].
      intros i. unfold shifted. rewrite E. f_equal. lia.
Qed.
Lemma draws_stream n : forall s x, stream s x ->
  exists s', mt_draws n s = Some (s', map (fun i => mt_temper (x (N.of_nat i))) (seq 0 n)) /\ stream s' (shifted (N.of_nat n) x).
Proof.
  induction n as [|n IH]; intros s x H.
  - exists s. split; [reflexivity|]. exact H.
  - destruct (next_stream s x H) as (s1 & E1 & H1). destruct (IH s1 _ H1) as (s2 & E2 & H2).
    exists s2. cbn [mt_draws]. rewrite E1, E2. split.
    + do 2 f_equal. cbn [seq map]. change (N.of_nat 0) with 0. f_equal. rewrite <- seq_shift, map_map.
      apply map_ext. intros i. unfold shifted. do 2 f_equal. lia.
    + destruct H2 as [P (y & W & R & Hr & E)]. split; [exact P|]. exists y. repeat (split; [assumption|]).
      intros i. rewrite <- E. unfold shifted. f_equal. lia.
Qed.

(* every array starts a sequence *)
Definition wstep (l : list N) : list N := (tl l ++ [N.lxor (nth 397 l 0) (mt_tw (nth 0 l 0) (nth 1 l 0))])%list.
Definition mtseq (key : list N) (n : N) : N := nth 0 (N.iter n wstep key) 0.
Definition kok (key : list N) : Prop := Z.of_nat (List.length key) = 624%Z /\ Forall (wf 32) key.
Lemma nth_wf l i : Forall (wf 32) l -> wf 32 (nth i l 0).
Proof. intros H. destruct (nth_in_or_default i l 0) as [I|E]; [rewrite Forall_forall in H; auto|rewrite E; apply wf_0]. Qed.
Lemma wstep_ok l : kok l -> kok (wstep l).
Proof.
  intros [L F]. unfold wstep. split.
  - destruct l as [|a l]; [cbn in L; lia|]. cbn [tl]. rewrite app_length. cbn [List.length] in *. lia.
  - apply Forall_app. split; [destruct l as [|a l]; [constructor|inversion F; assumption]|].
    constructor; [|constructor]. apply wf_lxor; [now apply nth_wf|]. apply mt_tw_wf. now apply nth_wf.
Qed.
Lemma wstep_nth l i : kok l -> (S i < N.to_nat 624)%nat -> nth i (wstep l) 0 = nth (S i) l 0.
Proof.
  intros [L _] Hi. destruct l as [|a l]; [cbn in L; lia|]. unfold wstep. cbn [tl]. cbn [List.length] in L.
  rewrite app_nth1 by lia. reflexivity.
Qed.
Lemma wstep_last l : kok l -> nth (N.to_nat 623) (wstep l) 0 = N.lxor (nth 397 l 0) (mt_tw (nth 0 l 0) (nth 1 l 0)).
Proof.
  intros [L _]. destruct l as [|a l]; [cbn in L; lia|]. unfold wstep. cbn [tl]. cbn [List.length] in L.
  rewrite app_nth2 by lia. replace (N.to_nat 623 - List.length l)%nat with 0%nat by lia. reflexivity.
Qed.
Lemma iter_ok n l : kok l -> kok (N.iter n wstep l).
Proof. apply Niter_inv. exact wstep_ok. Qed.
Lemma iter_nth i : forall n l, kok l -> i < 624 -> nth (N.to_nat i) (N.iter n wstep l) 0 = mtseq l (n + i).
Proof.
  induction i as [|i IH] using N.peano_ind; intros n l H Hi.
  - unfold mtseq. now rewrite N.add_0_r.
  - replace (n + N.succ i) with (N.succ n + i) by lia. rewrite <- IH by (try assumption; lia).
    rewrite N.iter_succ. rewrite wstep_nth; [f_equal; lia|now apply iter_ok|lia].
Qed.
Lemma mtseq_wfs l : kok l -> wfs (mtseq l).
Proof. intros H n. apply nth_wf. apply (iter_ok n l H). Qed.
Lemma mtseq_rec l : kok l -> mtrec (mtseq l).
Proof.
  intros H. apply tw_mtrec; [now apply mtseq_wfs|]. intros n.
  pose proof (iter_nth 397 n l H ltac:(lia)) as A. pose proof (iter_nth 0 n l H ltac:(lia)) as B.
  pose proof (iter_nth 1 n l H ltac:(lia)) as C. pose proof (iter_nth 623 (N.succ n) l H ltac:(lia)) as D.
  replace (N.succ n + 623) with (n + 624) in D by lia. rewrite N.add_0_r in B.
  rewrite <- A, <- B, <- C, <- D. rewrite N.iter_succ. rewrite wstep_last by now apply iter_ok. reflexivity.
Qed.
Lemma mtseq_ring l : kok l -> ring l 0 (mtseq l).
Proof.
  intros H. destruct H as [L F]. split; [exact L|split; [lia|]]. intros i Hi.
  replace (wr 0 i) with i by (unfold wr; destruct (0 + i <? 624)%Z eqn:E; lia).
  rewrite (rd_nth l i 0) by lia. f_equal. pose proof (iter_nth (Z.to_N i) 0 l (conj L F) ltac:(lia)) as G.
  change (0 + Z.to_N i) with (Z.to_N i) in G. rewrite <- G. change (N.iter 0 wstep l) with l. f_equal. lia.
Qed.
Lemma ring_unique key x y : mtrec x -> mtrec y -> ring key 0 x -> ring key 0 y -> forall i, x i = y i.
Proof.
  intros Rx Ry [_ [_ Hx]] [_ [_ Hy]]. apply rec_unique; [assumption..|]. intros i Hi.
  pose proof (Hx (Z.of_N i) ltac:(lia)) as A. rewrite Hy in A by lia. rewrite N2Z.id in A. congruence.
Qed.

(* ------------------------------------------------------- the jump code *)
Lemma mt_wrap_wr i p : mt_wrap i p = wr p i.
Proof. unfold mt_wrap, wr. destruct (i <? 624 - p)%Z eqn:E, (p + i <? 624)%Z eqn:F; lia. Qed.
Lemma add_from_ring n : forall i p1 p2 k1 k2 x y, (0 <= i)%Z -> (i + Z.of_nat n = 624)%Z ->
  Z.of_nat (List.length k1) = 624%Z -> (0 <= p1 < 624)%Z -> (0 <= p2 < 624)%Z ->
  (forall j, (0 <= j < 624)%Z -> rd k1 (wr p1 j) = Some (if (j <? i)%Z then N.lxor (x (Z.to_N j)) (y (Z.to_N j)) else x (Z.to_N j))) ->
  ring k2 p2 y ->
  exists k, mt_add_from n i p1 p2 k1 k2 = Some k /\ ring k p1 (fun j => N.lxor (x j) (y j)).
Proof.
  induction n as [|n IH]; intros i p1 p2 k1 k2 x y I0 I L P1 P2 H1 R2.
  - exists k1. split; [reflexivity|]. split; [exact L|split; [exact P1|]]. intros j Hj. rewrite H1 by exact Hj.
    replace (j <? i)%Z with true by lia. reflexivity.
  - cbn [mt_add_from]. rewrite !mt_wrap_wr. rewrite H1 by lia. pose proof (proj2 (proj2 R2)) as H2.
    rewrite H2 by lia. replace (i <? i)%Z with false by lia.
    apply IH; [lia|lia|now rewrite upd_length|exact P1|exact P2| |exact R2].
    intros j Hj. rewrite rd_upd by (rewrite L; apply wr_range; lia).
    destruct (wr p1 i =? wr p1 j)%Z eqn:E.
    + apply Z.eqb_eq in E. apply wr_inj in E; [|lia..]. subst j. replace (i <? i + 1)%Z with true by lia. reflexivity.
    + apply Z.eqb_neq in E. assert (Ne : i <> j) by (intros ->; now apply E).
      rewrite H1 by exact Hj. replace (j <? i + 1)%Z with (j <? i)%Z by lia. reflexivity.
Qed.
Lemma add_ring k1 p1 k2 p2 x y : ring k1 p1 x -> ring k2 p2 y ->
  exists k, mt_add (MT k1 p1) (MT k2 p2) = Some (MT k p1) /\ ring k p1 (fun j => N.lxor (x j) (y j)).
Proof.
  intros [L1 [P1 H1]] R2. unfold mt_add. cbn [mt_key mt_pos].
  destruct (add_from_ring 624 0 p1 p2 k1 k2 x y) as (k & E & R); try assumption; try lia; [apply R2| |].
  - intros j Hj. rewrite H1 by exact Hj. replace (j <? 0)%Z with false by lia. reflexivity.
  - rewrite E. exists k. split; [reflexivity|exact R].
Qed.
(* the polynomial in the shift with coefficients cs, highest first, applied to x *)
Fixpoint pol (cs : list bool) (x : N -> N) (i : N) : N :=
  match cs with
  | [] => 0
  | c :: cs => N.lxor (if c then x (N.of_nat (List.length cs) + i) else 0) (pol cs x i)
  end.
Lemma pol_wf cs x i : wfs x -> wf 32 (pol cs x i).
Proof. intros W. induction cs as [|c cs IH]; [apply wf_0|]. cbn [pol]. apply wf_lxor; [destruct c; [apply W|apply wf_0]|exact IH]. Qed.
Lemma pol_shifted cs x k i : pol cs (shifted k x) i = pol cs x (k + i).
Proof.
  induction cs as [|c cs IH]; [reflexivity|]. cbn [pol]. rewrite IH. f_equal. destruct c; [|reflexivity].
  unfold shifted. f_equal. lia.
Qed.
Definition adv (p : Z) (n : nat) : Z := ((p + Z.of_nat n) mod 624)%Z.
Lemma adv_S p n : (0 <= p < 624)%Z -> adv (wr p 1) n = adv p (S n).
Proof.
  intros H. unfold adv, wr. destruct (p + 1 <? 624)%Z eqn:E; [f_equal; lia|].
  replace (p + Z.of_nat (S n))%Z with (p + 1 - 624 + Z.of_nat n + 1 * 624)%Z by lia. now rewrite Z_mod_plus_full.
Qed.
Lemma horner_ring cs : forall ks ps x kt pt y, wfs x -> mtrec x -> wfs y -> mtrec y -> ring ks ps x -> ring kt pt y ->
  exists k, mt_horner cs (MT ks ps) (MT kt pt) = Some (MT k (adv pt (List.length cs)))
    /\ ring k (adv pt (List.length cs)) (fun i => N.lxor (y (N.of_nat (List.length cs) + i)) (pol cs x i)).
Proof.
  induction cs as [|c cs IH]; intros ks ps x kt pt y Wx Rx Wy Ry Hx Hy.
  - exists kt. assert (adv pt (@List.length bool []) = pt) as -> by (unfold adv; cbn; destruct Hy as [_ [P _]]; rewrite Z.add_0_r; now apply Z.mod_small).
    split; [reflexivity|]. eapply ring_ext; [|exact Hy]. intros i. cbn [List.length pol]. now rewrite N.lxor_0_r.
  - cbn [mt_horner List.length]. rewrite gen_next_step by apply Hy.
    destruct (step_ring kt pt y Wy Ry Hy) as (k1 & E1 & H1). rewrite E1.
    assert (P : (0 <= pt < 624)%Z) by apply Hy. rewrite <- adv_S by exact P.
    destruct c.
    + destruct (add_ring k1 _ ks ps _ _ H1 Hx) as (k2 & E2 & H2). rewrite E2.
      destruct (IH ks ps x k2 (wr pt 1) _ Wx Rx
        (fun n => wf_lxor 32 _ _ (shifted_wf 1 y Wy n) (Wx n))
        (mtrec_lxor _ _ (shifted_wf 1 y Wy) Wx (shifted_rec 1 y Ry) Rx) Hx H2) as (k3 & E3 & H3).
      exists k3. split; [exact E3|]. eapply ring_ext; [|exact H3]. intros i. cbn [pol]. unfold shifted.
      rewrite N.lxor_assoc. f_equal. f_equal. lia.
    + destruct (IH ks ps x k1 (wr pt 1) _ Wx Rx (shifted_wf 1 y Wy) (shifted_rec 1 y Ry) Hx H1) as (k3 & E3 & H3).
      exists k3. split; [exact E3|]. eapply ring_ext; [|exact H3]. intros i. cbn [pol]. unfold shifted.
      rewrite N.lxor_0_l. f_equal. f_equal. lia.
Qed.
(* where the jump code starts reading *)
Definition start (p : Z) : Z := if (624 <=? p)%Z then 0%Z else p.
Lemma jump_ring js cs key p x : lead js = Some cs -> wfs x -> mtrec x -> ring key (start p) x ->
  exists k, mt_jump_state js (MT key p) = Some (MT k (adv (start p) (List.length cs)))
    /\ ring k (adv (start p) (List.length cs)) (pol (true :: cs) x).
Proof.
  intros E W R H. unfold mt_jump_state. rewrite E. cbn [mt_key mt_pos].
  replace (if (624 <=? p)%Z then MT key 0 else MT key p) with (MT key (start p)) by (unfold start; destruct (624 <=? p)%Z; reflexivity).
  cbv zeta. destruct (horner_ring cs key (start p) x key (start p) x W R W R H H) as (k & E1 & H1).
  exists k. split; [exact E1|]. exact H1.
Qed.
Lemma lead_pol js cs x i : lead js = Some cs -> pol js x i = pol (true :: cs) x i.
Proof.
  induction js as [|[] js IH]; cbn [lead]; intros E; [discriminate|injection E as ->; reflexivity|].
  cbn [pol]. rewrite N.lxor_0_l. now apply IH.
Qed.
Definition unwr (p j : Z) : Z := (if p <=? j then j - p else j - p + 624)%Z.
Lemma wr_unwr p j : (0 <= p < 624 -> 0 <= j < 624 -> 0 <= unwr p j < 624 /\ wr p (unwr p j) = j)%Z.
Proof. intros P J. unfold unwr, wr. destruct (p <=? j)%Z eqn:E; match goal with |- context[(?a <? 624)%Z] => destruct (a <? 624)%Z eqn:F end; lia. Qed.
Lemma ring_rd key p x j : ring key p x -> (0 <= j < 624)%Z -> rd key j = Some (x (Z.to_N (unwr p j))).
Proof. intros [L [P H]] Hj. destruct (wr_unwr p j P Hj) as [A B]. rewrite <- H by exact A. now rewrite B. Qed.
Lemma ring_kok key p x : wfs x -> ring key p x -> kok key.
Proof.
  intros W H. split; [apply H|]. apply Forall_forall. intros v I. destruct (In_nth key v 0 I) as (n & Hn & E).
  assert (L : Z.of_nat (List.length key) = 624%Z) by apply H.
  pose proof (ring_rd key p x (Z.of_nat n) H ltac:(lia)) as A. rewrite (rd_nth _ _ 0) in A by lia.
  rewrite Nat2Z.id, E in A. injection A as ->. apply W.
Qed.
Lemma block_stream key p : kok key -> (0 <= p <= 624)%Z -> stream (MT key p) (shifted (Z.to_N p) (mtseq key)).
Proof.
  intros K P. split; [exact P|]. exists (mtseq key). cbn [mt_key mt_pos].
  split; [now apply mtseq_wfs|]. split; [now apply mtseq_rec|]. split; [now apply mtseq_ring|]. reflexivity.
Qed.
(* a block of a sequence, as an array *)
Definition block (x : N -> N) : list N := map (fun i => x (N.of_nat i)) (seq 0 624).
Lemma block_ring x : ring (block x) 0 x.
Proof.
  assert (L : List.length (block x) = N.to_nat 624) by (unfold block; rewrite map_length, seq_length; reflexivity).
  split; [rewrite L; lia|split; [lia|]]. intros i Hi.
  replace (wr 0 i) with i by (unfold wr; destruct (0 + i <? 624)%Z eqn:E; lia).
  rewrite (rd_nth _ _ (x (N.of_nat 0))) by (rewrite L; lia). f_equal. unfold block.
  rewrite (map_nth (fun i => x (N.of_nat i)) (seq 0 624) 0%nat). rewrite seq_nth by lia. f_equal. lia.
Qed.

(* the outputs after the jump are those the original gives after J more draws *)
Definition jumps_by (js : list bool) (J : N) : Prop :=
  forall key x, kok key -> wfs x -> mtrec x -> ring key 0 x ->
    exists s', mt_jump_state js (MT key 624) = Some s' /\
      forall n s2 vs, mt_draws n s' = Some (s2, vs) -> vs = map (fun i => mt_temper (x (624 + J + N.of_nat i))) (seq 0 n).
Lemma map_seq_last (f g : nat -> N) n : map f (seq 0 (S n)) = map g (seq 0 (S n)) -> f n = g n.
Proof. rewrite seq_S, !map_app. cbn [map]. intros E. apply app_inj_tail in E. now destruct E as [_ ?]. Qed.
Lemma jump_words js cs J : lead js = Some cs -> let q := adv 0 (List.length cs) in (2 <= q)%Z -> jumps_by js J ->
  forall x, wfs x -> mtrec x ->
    pol (true :: cs) x 0 = x (624 + J) /\ pol (true :: cs) x (625 - Z.to_N q) = x (625 - Z.to_N q + J).
Proof.
  intros E q Q H x W R.
  assert (Q' : (q < 624)%Z) by (apply Z.mod_pos_bound; lia).
  destruct (jump_ring js cs (block x) 624 x E W R (block_ring x)) as (k & E1 & R1).
  change (start 624) with 0%Z in *. fold q in E1, R1.
  assert (Wp : wfs (pol (true :: cs) x)) by (intros i; now apply pol_wf).
  pose proof (ring_kok _ _ _ Wp R1) as K.
  destruct (H (block x) x (ring_kok _ _ _ W (block_ring x)) W R (block_ring x)) as (s' & E2 & D).
  rewrite E1 in E2. injection E2 as <-.
  assert (O : forall i, shifted (Z.to_N q) (mtseq k) i = shifted (624 + J) x i).
  { intros i. destruct (draws_stream (S (N.to_nat i)) _ _ (block_stream k q K ltac:(lia))) as (s2 & E3 & _).
    apply D in E3. apply map_seq_last in E3. rewrite N2Nat.id in E3. apply temper_inj in E3; [exact E3|now apply shifted_wf, mtseq_wfs|apply W]. }
  assert (B : forall i, 0 < i -> mtseq k i = shifted (624 + J - Z.to_N q) x i).
  { apply (rec_back (mtseq k) (shifted (624 + J - Z.to_N q) x) (Z.to_N q)).
    - now apply mtseq_wfs.
    - now apply shifted_wf.
    - now apply mtseq_rec.
    - now apply shifted_rec.
    - intros i Hi. replace i with (Z.to_N q + (i - Z.to_N q)) at 1 by lia.
      change (mtseq k (Z.to_N q + (i - Z.to_N q))) with (shifted (Z.to_N q) (mtseq k) (i - Z.to_N q)).
      rewrite O. unfold shifted. f_equal. lia. }
  pose proof (mtseq_ring k K) as M. split.
  - pose proof (ring_rd _ _ _ q R1 ltac:(lia)) as A. rewrite (ring_rd _ _ _ q M) in A by lia.
    unfold unwr in A. replace (q <=? q)%Z with true in A by lia. replace (0 <=? q)%Z with true in A by lia.
    rewrite Z.sub_0_r, Z.sub_diag in A. change (Z.to_N 0) with 0 in A.
    pose proof (O 0) as O0. unfold shifted in O0. rewrite !N.add_0_r in O0. congruence.
  - pose proof (ring_rd _ _ _ 1%Z R1 ltac:(lia)) as A. rewrite (ring_rd _ _ _ 1%Z M) in A by lia.
    unfold unwr in A. replace (q <=? 1)%Z with false in A by lia. replace (0 <=? 1)%Z with true in A by lia.
    replace (Z.to_N (1 - q + 624)) with (625 - Z.to_N q) in A by lia. change (Z.to_N (1 - 0)) with 1 in A.
    rewrite (B 1 ltac:(lia)) in A.
    refine (eq_trans (eq_sym (f_equal (fun o => match o with Some v => v | None => 0 end) A)) _). unfold shifted. f_equal. lia.
Qed.
(* an array whose sequence is not of period 624 *)
Definition probe : list N := (0 :: 1 :: repeat 0 622)%list.
Lemma probe_ok : kok probe.
Proof. split; [reflexivity|]. repeat constructor. Qed.
Lemma probe_words : mtseq probe 1 <> mtseq probe 625.
Proof.
  assert (A : mtseq probe 1 = 1) by (vm_compute; reflexivity).
  assert (B : mtseq probe 625 = 0) by (vm_compute; reflexivity). rewrite A, B. discriminate.
Qed.
Lemma jump_wrong js cs J : lead js = Some cs -> (2 <= adv 0 (List.length cs))%Z -> ~ jumps_by js J.
Proof.
  intros E Q H. set (q := Z.to_N (adv 0 (List.length cs))).
  assert (Q' : (adv 0 (List.length cs) < 624)%Z) by (apply Z.mod_pos_bound; lia).
  pose proof (jump_words js cs J E Q H) as G. cbv zeta in G. fold q in G.
  set (m := 625 - q + J).
  assert (P : forall x, wfs x -> mtrec x -> x m = x (624 + m)).
  { intros x W R. destruct (G x W R) as [_ G2].
    destruct (G (shifted (625 - q) x) (shifted_wf _ _ W) (shifted_rec _ _ R)) as [G1 _].
    rewrite pol_shifted, N.add_0_r, G2 in G1. unfold shifted in G1. fold m in G1. rewrite G1. f_equal. unfold m. lia. }
  assert (W := mtseq_wfs probe probe_ok). assert (R := mtseq_rec probe probe_ok).
  apply probe_words.
  destruct (rec_back (mtseq probe) (shifted 624 (mtseq probe)) m W (shifted_wf _ _ W) R (shifted_rec _ _ R)) as [B _].
  - intros i Hi. pose proof (P (shifted (i - m) (mtseq probe)) (shifted_wf _ _ W) (shifted_rec _ _ R)) as A.
    unfold shifted in *. replace (i - m + m) with i in A by lia. rewrite A. f_equal. lia.
  - rewrite (B 1 ltac:(lia)). reflexivity.
Qed.

(* ------------------------------------------------------- repeated jumps *)
Definition jump_unit (ps : mt_polys) (p : list bool) (k : Z) : Prop :=
  In (p, k) [(poly_144 ps, 65536); (poly_140 ps, 4096); (poly_136 ps, 256); (poly_132 ps, 16); (poly_128 ps, 1)]%Z.
Definition ostep (o : option mt) (u : list bool * Z) : option mt :=
  match o with Some s => mt_jump_state (fst u) s | None => None end.
Lemma ostep_none us : fold_left ostep us None = None.
Proof. induction us as [|u us IH]; [reflexivity|exact IH]. Qed.
Definition weight (us : list (list bool * Z)) : Z := fold_right (fun u a => (snd u + a)%Z) 0%Z us.
Lemma jump_n_plan ps : forall fuel r s, (r <= Z.of_nat fuel)%Z ->
  exists us, Forall (fun u => jump_unit ps (fst u) (snd u)) us /\ weight us = Z.max 0 r /\
    mt_jump_n ps fuel r s = fold_left ostep us (Some s).
Proof.
  induction fuel as [|fuel IH]; intros r s H.
  - exists []. cbn [mt_jump_n]. replace (r <=? 0)%Z with true by lia. split; [constructor|split; [cbn; lia|reflexivity]].
  - cbn [mt_jump_n]. destruct (r <=? 0)%Z eqn:E; [exists []; split; [constructor|split; [cbn; lia|reflexivity]]|].
    match goal with |- context[let '(p, k) := ?e in _] => assert (U : exists p k, e = (p, k) /\ jump_unit ps p k /\ (1 <= k <= r)%Z) end.
    { unfold jump_unit. destruct (65536 <=? r)%Z eqn:E1; [|destruct (4096 <=? r)%Z eqn:E2; [|destruct (256 <=? r)%Z eqn:E3; [|destruct (16 <=? r)%Z eqn:E4]]];
        do 2 eexists; (split; [reflexivity|split; [cbn [In]; tauto|lia]]). }
    destruct U as (p & k & -> & U & K).
    destruct (mt_jump_state p s) as [s1|] eqn:Ej.
    + destruct (IH (r - k)%Z s1 ltac:(lia)) as (us & F & Wt & Eq). exists ((p, k) :: us).
      split; [constructor; assumption|]. split; [cbn [weight fold_right snd]; unfold weight in Wt; rewrite Wt; lia|].
      cbn [fold_left ostep fst]. rewrite Ej. exact Eq.
    + destruct (IH (r - k)%Z s ltac:(lia)) as (us & F & Wt & _). exists ((p, k) :: us).
      split; [constructor; assumption|]. split; [cbn [weight fold_right snd]; unfold weight in Wt; rewrite Wt; lia|].
      cbn [fold_left ostep fst]. rewrite Ej. symmetry. apply ostep_none.
Qed.
(* the polynomial acts on every sequence as a shift by J *)
Definition shifts_by (js : list bool) (J : N) : Prop := forall x, wfs x -> mtrec x -> forall i, pol js x i = x (J + i).
Lemma jump_shift js cs J key p x : lead js = Some cs -> shifts_by js J -> wfs x -> mtrec x -> ring key (start p) x ->
  exists k, mt_jump_state js (MT key p) = Some (MT k (adv (start p) (List.length cs)))
    /\ ring k (adv (start p) (List.length cs)) (shifted J x).
Proof.
  intros E S W R H. destruct (jump_ring js cs key p x E W R H) as (k & E1 & R1). exists k. split; [exact E1|].
  eapply ring_ext; [|exact R1]. intros i. rewrite <- (lead_pol js cs x i E). now apply S.
Qed.
Lemma adv_range p n : (0 <= adv p n < 624)%Z.
Proof. apply Z.mod_pos_bound. lia. Qed.
Lemma start_adv p n : start (adv p n) = adv p n.
Proof. pose proof (adv_range p n). unfold start. replace (624 <=? adv p n)%Z with false by lia. reflexivity. Qed.
Definition polys_ok (ps : mt_polys) (B : N) : Prop :=
  forall p k, jump_unit ps p k -> shifts_by p (Z.to_N k * B) /\ exists cs, lead p = Some cs.
Lemma plan_shift ps B us : polys_ok ps B -> Forall (fun u => jump_unit ps (fst u) (snd u)) us ->
  forall s x, wfs x -> mtrec x -> ring (mt_key s) (start (mt_pos s)) x ->
  exists s', fold_left ostep us (Some s) = Some s' /\ ring (mt_key s') (start (mt_pos s')) (shifted (Z.to_N (weight us) * B) x).
Proof.
  intros P F. induction F as [|[p k] us U F IH]; intros s x W R H.
  - exists s. split; [reflexivity|]. eapply ring_ext; [|exact H]. intros i. unfold shifted. f_equal.
  - cbn [fst snd] in U. destruct (P p k U) as [S (cs & E)]. destruct s as [key pos]. cbn [mt_key mt_pos] in H.
    destruct (jump_shift p cs _ key pos x E S W R H) as (k1 & E1 & R1).
    cbn [fold_left ostep fst]. rewrite E1.
    destruct (IH (MT k1 (adv (start pos) (List.length cs))) (shifted (Z.to_N k * B) x) (shifted_wf _ _ W) (shifted_rec _ _ R)) as (s2 & E2 & R2).
    { cbn [mt_key mt_pos]. rewrite start_adv. exact R1. }
    exists s2. split; [exact E2|]. eapply ring_ext; [|exact R2]. intros i. unfold shifted. f_equal.
    cbn [weight fold_right snd]. fold (weight us).
    assert (0 <= weight us)%Z.
    { clear - F. induction F as [|[q m] us U F IH]; [cbn; lia|]. cbn [weight fold_right snd]. unfold weight in IH.
      unfold jump_unit in U. cbn [In fst snd] in U.
      destruct U as [U|[U|[U|[U|[U|[]]]]]]; injection U as _ <-; lia. }
    assert (0 <= k)%Z by (clear - U; unfold jump_unit in U; cbn [In] in U; destruct U as [U|[U|[U|[U|[U|[]]]]]]; injection U as _ <-; lia).
    rewrite Z2N.inj_add, N.mul_add_distr_r by assumption. lia.
Qed.

(* ------------------------------------------------------- seeding *)
Lemma genrand_ok n : forall p i, List.length (mt_genrand n p i) = n /\ Forall (wf 32) (mt_genrand n p i).
Proof.
  induction n as [|n IH]; intros p i; [split; [reflexivity|constructor]|]. cbn [mt_genrand].
  destruct (IH (wadd 32 (wmul 32 1812433253 (N.lxor p (N.shiftr p 30))) i) (i + 1)) as [L F].
  split; [cbn [List.length]; now rewrite L|]. constructor; [apply wf_wadd|exact F].
Qed.
Lemma init_genrand_ok s : wf 32 s -> kok (mt_init_genrand s).
Proof.
  intros W. unfold mt_init_genrand. destruct (genrand_ok 623 s 1) as [L F]. split; [cbn [List.length]; rewrite L; reflexivity|].
  constructor; assumption.
Qed.
Lemma upd_kok l i v : kok l -> wf 32 v -> kok (upd l i v).
Proof. intros [L F] W. split; [now rewrite upd_length|now apply upd_Forall]. Qed.
Lemma mix_kok mult x l i : kok l -> kok (fst (mt_mix mult x l i)).
Proof.
  intros K. unfold mt_mix. cbv zeta.
  assert (K1 := upd_kok l i (wadd 32 (N.lxor (nth i l 0) (wmul 32 (N.lxor (nth (i - 1) l 0) (N.shiftr (nth (i - 1) l 0) 30)) mult)) x) K (wf_wadd _ _ _)).
  destruct (_ <=? _)%nat; cbn [fst]; [|exact K1]. apply upd_kok; [exact K1|]. apply nth_wf, K1.
Qed.
Lemma loop1_kok n : forall key l i j, kok l -> kok (fst (mt_loop1 n key l i j)).
Proof.
  induction n as [|n IH]; intros key l i j K; [exact K|]. cbn [mt_loop1].
  pose proof (mix_kok 1664525 (wadd 32 (nth j key 0) (N.of_nat j)) l i K) as K1. destruct (mt_mix _ _ _ _) as [l1 i1]. now apply IH.
Qed.
Lemma loop2_kok n : forall l i, kok l -> kok (mt_loop2 n l i).
Proof.
  induction n as [|n IH]; intros l i K; [exact K|]. cbn [mt_loop2].
  pose proof (mix_kok 1566083941 (wneg 32 (N.of_nat i)) l i K) as K1. destruct (mt_mix _ _ _ _) as [l1 i1]. now apply IH.
Qed.
Lemma seed_ok words : kok (mt_key (mt_seed words)) /\ mt_pos (mt_seed words) = 624%Z /\ nth 0 (mt_key (mt_seed words)) 0 = 0x80000000.
Proof.
  unfold mt_seed, mt_init_by_array.
  assert (K0 : kok (mt_init_genrand 19650218)) by (apply init_genrand_ok; reflexivity).
  pose proof (loop1_kok (Nat.max 624 (List.length words)) words _ 1 0 K0) as K1.
  destruct (mt_loop1 _ _ _ _ _) as [l i]. cbn [fst] in K1. cbn [mt_key mt_pos].
  pose proof (loop2_kok 623 l i K1) as K2. split; [apply upd_kok; [exact K2|reflexivity]|]. split; [reflexivity|].
  apply upd_nth_same. destruct K2 as [L _]. lia.
Qed.
Lemma seed_numpy_ok words : kok words -> kok (mt_key (mt_seed_numpy words)) /\ mt_pos (mt_seed_numpy words) = 623%Z /\ nth 0 (mt_key (mt_seed_numpy words)) 0 = 0x80000000.
Proof. intros K. cbn [mt_seed_numpy mt_key mt_pos]. split; [apply upd_kok; [exact K|reflexivity]|]. split; [reflexivity|]. apply upd_nth_same. destruct K as [L _]. lia. Qed.
(* the accesses of init_by_array are in bounds: i in 1..623, j below the length *)
Lemma mix_index mult x l i : (1 <= i < N.to_nat 624)%nat -> (1 <= snd (mt_mix mult x l i) < N.to_nat 624)%nat.
Proof. intros H. unfold mt_mix. cbv zeta. destruct (624 <=? S i)%nat eqn:E; cbn [snd]; [lia|]. apply Nat.leb_gt in E. change 624%nat with (N.to_nat 624) in E. lia. Qed.

(* ------------------------------------------------------- no information is lost *)
Lemma gen_inj key1 p1 key2 p2 : kok key1 -> kok key2 -> mt_gen (MT key1 p1) = mt_gen (MT key2 p2) ->
  (forall i, (1 <= i < 624)%Z -> rd key1 i = rd key2 i) /\ N.land (nth 0 key1 0) 0x80000000 = N.land (nth 0 key2 0) 0x80000000.
Proof.
  intros K1 K2 E.
  destruct (gen_ring key1 p1 _ (mtseq_wfs _ K1) (mtseq_rec _ K1) (mtseq_ring _ K1)) as (k & G1 & R1).
  destruct (gen_ring key2 p2 _ (mtseq_wfs _ K2) (mtseq_rec _ K2) (mtseq_ring _ K2)) as (k' & G2 & R2).
  rewrite G1, G2 in E. injection E as <-.
  assert (A := ring_unique k _ _ (shifted_rec 624 _ (mtseq_rec _ K1)) (shifted_rec 624 _ (mtseq_rec _ K2)) R1 R2).
  destruct (rec_back (mtseq key1) (mtseq key2) 624 (mtseq_wfs _ K1) (mtseq_wfs _ K2) (mtseq_rec _ K1) (mtseq_rec _ K2)) as [B C].
  { intros i Hi. pose proof (A (i - 624)) as X. unfold shifted in X. replace (624 + (i - 624)) with i in X by lia. exact X. }
  split; [|exact C]. intros i Hi. rewrite (ring_rd _ _ _ i (mtseq_ring _ K1)), (ring_rd _ _ _ i (mtseq_ring _ K2)) by lia.
  f_equal. apply B. unfold unwr. replace (0 <=? i)%Z with true by lia. lia.
Qed.
Lemma not_dead x m : wfs x -> mtrec x -> N.land (x 0) 0x80000000 <> 0 -> ~ (forall i, m <= i -> x i = 0).
Proof.
  intros W R Nz H. apply Nz. destruct (rec_back x (fun _ => 0) m W (fun _ => wf_0 32) R) as [_ C]; [intros n; reflexivity|exact H|exact C].
Qed.
Lemma zero_key key x : wfs x -> mtrec x -> ring key 0 x -> Forall (eq 0) key -> forall i, x i = 0.
Proof.
  intros W R H Z. apply (rec_unique x (fun _ => 0) R); [intros n; reflexivity|]. intros i Hi.
  pose proof (ring_rd _ _ _ (Z.of_N i) H ltac:(lia)) as A. apply rd_In in A. rewrite Forall_forall in Z. apply Z in A.
  unfold unwr in A. replace (0 <=? Z.of_N i)%Z with true in A by lia. rewrite Z.sub_0_r, N2Z.id in A. now symmetry.
Qed.
Lemma never_zero n s s' vs : kok (mt_key s) -> (0 <= mt_pos s <= 624)%Z -> N.land (nth 0 (mt_key s) 0) 0x80000000 <> 0 ->
  mt_draws n s = Some (s', vs) -> ~ Forall (eq 0) (mt_key s').
Proof.
  intros K P Nz D Z. destruct s as [key p]. cbn [mt_key mt_pos] in *.
  destruct (draws_stream n _ _ (block_stream key p K P)) as (s1 & E1 & [P1 (y & W & R & H & E)]).
  rewrite D in E1. injection E1 as <- _. pose proof (zero_key _ y W R H Z) as Y.
  apply (not_dead (mtseq key) (Z.to_N p + N.of_nat n + 624) (mtseq_wfs _ K) (mtseq_rec _ K)); [exact Nz|].
  intros i Hi. rewrite <- (Y (Z.to_N (mt_pos s') + (i - Z.to_N p - N.of_nat n))). rewrite <- E. unfold shifted. f_equal. lia.
Qed.

(* ------------------------------------------------------- the state *)
Lemma to_cint_in z : (- 2 ^ 31 <= z < 2 ^ 31)%Z -> to_cint (PInt z) = Ok z.
Proof. intros [A B]. unfold to_cint. replace ((- 2 ^ 31 <=? z)%Z && (z <? 2 ^ 31)%Z)%bool with true; [reflexivity|]. symmetry. apply andb_true_iff. split; [now apply Z.leb_le|now apply Z.ltb_lt]. Qed.
Lemma mt_set_get s t : kok (mt_key s) -> (- 2 ^ 31 <= mt_pos s < 2 ^ 31)%Z -> mt_setst (mt_get s) t = (s, Ok tt).
Proof.
  intros [L F] P. destruct s as [k p], t as [k' p']. cbn [mt_key mt_pos] in *.
  assert (M : N.of_nat (List.length k) = 624) by (clear - L; lia). unfold mt_setst, mt_get. cbn [mt_key mt_pos].
  do 4 (repeat (rewrite bind_lift; cbn; rewrite ?check_arr_ok, ?to_cint_in by assumption); try (rewrite bind_modify; cbn [mt_key mt_pos])).
  reflexivity.
Qed.
