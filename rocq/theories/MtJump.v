(* The jump polynomials of MT19937 are powers of the shift: mt19937-poly.h *)
From Verif Require Import Word Arr Py Mt19937 Mt19937Facts Mt19937Poly MtChar.
From Coq Require Import ZifyBool ZifyNat ZifyN.
Open Scope N_scope.
Ltac Zify.zify_post_hook ::= idtac.

Definition bit (x : N -> N) (k : N) : bseq := fun n => N.testbit (x n) k.
(* bit k of the recurrence *)
Lemma mtA_bit y k : N.testbit (mtA y) k = xorb (N.testbit y (k + 1)) (N.testbit 0x9908b0df k && N.testbit y 0).
Proof.
  unfold mtA. rewrite <- N.bit0_odd, <- N.div2_div, N.div2_spec. destruct (N.testbit y 0).
  - now rewrite N.lxor_spec, N.shiftr_spec', andb_true_r.
  - now rewrite N.shiftr_spec', andb_false_r, xorb_false_r.
Qed.
Lemma mix_bit u l k : wf 32 u -> N.testbit (u / 2 ^ 31 * 2 ^ 31 + l mod 2 ^ 31) k = if k <? 31 then N.testbit l k else N.testbit u k.
Proof.
  intros W. rewrite <- mt_y_eq by exact W. unfold mt_y. rewrite land_up, land_low by exact W. rewrite N.lor_spec.
  destruct (k <? 31) eqn:E.
  - rewrite N.mul_pow2_bits_low, N.mod_pow2_bits_low by lia. apply orb_false_l.
  - rewrite N.mul_pow2_bits_high, N.mod_pow2_bits_high by lia. rewrite orb_false_r. rewrite <- N.shiftr_div_pow2, N.shiftr_spec'. f_equal. lia.
Qed.
Lemma rec_bit x k n : wfs x -> mtrec x ->
  T (bit x k) n = xorb (if k + 1 <? 31 then bit x (k + 1) (n + 1) else bit x (k + 1) n) (N.testbit 0x9908b0df k && bit x 0 (n + 1)).
Proof.
  intros W R. unfold T, bit. rewrite (R n), N.lxor_spec. rewrite mtA_bit, !mix_bit by apply W. change (0 <? 31) with true. cbv iota.
  destruct (k + 1 <? 31); now destruct (N.testbit (x (n + 397)) k), (N.testbit 0x9908b0df k), (N.testbit (x (n + 1)) 0), (N.testbit _ (k + 1)).
Qed.
(* T^k of bit 0 *)
Lemma elim x : wfs x -> mtrec x -> forall k i, (k <= 32)%nat ->
  Ti k (bit x 0) i = xorb (bit x (N.of_nat k) (i + cexp k)) (act2 (rowsof 1 (Ak k)) (bit x 0) i).
Proof.
  intros W R k. induction k as [|k IH]; intros i K.
  - change (cexp 0) with 0. rewrite N.add_0_r. cbn [Ti Ak rowsof map act2]. now rewrite xorb_false_r.
  - rewrite Ti_S. assert (E : forall j, Ti k (bit x 0) j = xs (sh (cexp k) (bit x (N.of_nat k))) (act2 (rowsof 1 (Ak k)) (bit x 0)) j) by (intros j; apply IH; lia).
    rewrite (T_ext _ _ i E), T_xs, T_sh, <- act2_T, rec_bit by assumption.
    change (Ak (S k)) with ((if N.testbit 0x9908b0df (N.of_nat k) then Some (cexp k + 1) else None) :: Ak k).
    assert (B : (if N.of_nat k + 1 <? 31 then bit x (N.of_nat k + 1) (i + cexp k + 1) else bit x (N.of_nat k + 1) (i + cexp k)) = bit x (N.of_nat (S k)) (i + cexp (S k))).
    { replace (N.of_nat (S k)) with (N.of_nat k + 1) by lia. unfold cexp. destruct (N.of_nat k + 1 <? 31) eqn:L; f_equal; lia. }
    rewrite B, xorb_assoc. f_equal. destruct (N.testbit 0x9908b0df (N.of_nat k)).
    + change (rowsof 1 (Some (cexp k + 1) :: Ak k)) with (N.shiftl 1 (cexp k + 1) :: rowsof 1 (Ak k)). cbn [act2]. rewrite act_pow, andb_true_l. f_equal. f_equal. lia.
    + change (rowsof 1 (None :: Ak k)) with (0 :: rowsof 1 (Ak k)). reflexivity.
Qed.
Lemma bit_high x k n : wfs x -> 32 <= k -> bit x k n = false.
Proof. intros W K. unfold bit. apply wf_testbit with (w := 32); [apply W|exact K]. Qed.
Lemma phi0_bit0 x : wfs x -> mtrec x -> phi0 (bit x 0).
Proof.
  intros W R i. rewrite (elim x W R 32 i (le_n 32)). rewrite bit_high by (assumption || lia). apply xorb_false_l.
Qed.
Lemma phi0_ext z w : (forall k, z k = w k) -> phi0 z -> phi0 w.
Proof. intros E P i. rewrite <- (Ti_ext 32 z w i E), <- (act2_ext (rowsof 1 A32) z w i E). apply P. Qed.
Lemma phi0_xs z w : phi0 z -> phi0 w -> phi0 (xs z w).
Proof. intros P Q i. rewrite Ti_xs, act2_xs, P, Q. reflexivity. Qed.
Lemma phi0_0 : phi0 (fun _ => false).
Proof.
  intros i. assert (E : forall z : bseq, xs z z i = false) by (intros z; apply xorb_nilpotent).
  rewrite (Ti_ext 32 (fun _ => false) (xs (fun _ => false) (fun _ => false))) by reflexivity.
  rewrite (act2_ext (rowsof 1 A32) (fun _ => false) (xs (fun _ => false) (fun _ => false))) by reflexivity.
  rewrite Ti_xs, act2_xs. now rewrite !xorb_nilpotent.
Qed.
Lemma phi0_bits x : wfs x -> mtrec x -> forall k, phi0 (sh (cexp k) (bit x (N.of_nat k))).
Proof.
  intros W R k. induction k as [|k IH].
  - apply (phi0_ext (bit x 0)); [|now apply phi0_bit0]. intros j. unfold sh. change (cexp 0) with 0. now rewrite N.add_0_r.
  - apply (phi0_ext (xs (T (sh (cexp k) (bit x (N.of_nat k)))) (if N.testbit 0x9908b0df (N.of_nat k) then sh (cexp k + 1) (bit x 0) else fun _ => false))).
    + intros j. unfold xs. rewrite T_sh, rec_bit by assumption.
      assert (B : (if N.of_nat k + 1 <? 31 then bit x (N.of_nat k + 1) (j + cexp k + 1) else bit x (N.of_nat k + 1) (j + cexp k)) = sh (cexp (S k)) (bit x (N.of_nat (S k))) j).
      { unfold sh. replace (N.of_nat (S k)) with (N.of_nat k + 1) by lia. unfold cexp. destruct (N.of_nat k + 1 <? 31) eqn:L; f_equal; lia. }
      rewrite B, xorb_assoc. destruct (N.testbit 0x9908b0df (N.of_nat k)).
      * unfold sh at 2. rewrite andb_true_l. replace (j + (cexp k + 1)) with (j + cexp k + 1) by lia. now rewrite xorb_nilpotent, xorb_false_r.
      * cbn [andb]. now rewrite !xorb_false_r.
    + apply phi0_xs; [now apply phi0_T|]. destruct (N.testbit 0x9908b0df (N.of_nat k)); [now apply phi0_sh, phi0_bit0|apply phi0_0].
Qed.
Lemma phi0_word x k : wfs x -> mtrec x -> phi0 (sh 30 (bit x k)).
Proof.
  intros W R. pose proof (phi0_bits x W R (N.to_nat k)) as P. apply (phi0_sh _ (30 - cexp (N.to_nat k))) in P. eapply phi0_ext; [|exact P].
  intros j. unfold sh. rewrite N2Nat.id. f_equal. unfold cexp. lia.
Qed.

(* pol and act *)
Lemma pbits_pol p : forall acc x i k, N.testbit (pol (pbits p acc) x i) k = xorb (actp p (bit x k) (i + N.of_nat (List.length acc))) (N.testbit (pol acc x i) k).
Proof.
  induction p as [p IH|p IH|]; intros acc x i k; cbn [pbits]; rewrite ?IH; cbn [pol actp List.length]; rewrite ?N.lxor_spec, ?N.bits_0.
  - unfold bit at 2. replace (i + N.of_nat (S (List.length acc))) with (i + N.of_nat (List.length acc) + 1) by lia. rewrite (N.add_comm (N.of_nat (List.length acc)) i).
    fold (bit x k). destruct (actp p (bit x k) _), (N.testbit (x _) k), (N.testbit (pol acc x i) k); reflexivity.
  - replace (i + N.of_nat (S (List.length acc))) with (i + N.of_nat (List.length acc) + 1) by lia. now rewrite xorb_false_l.
  - unfold bit. now rewrite (N.add_comm (N.of_nat (List.length acc)) i).
Qed.
Lemma coeffs_pol p x i k : N.testbit (pol (coeffs p) x i) k = act p (bit x k) i.
Proof.
  destruct p as [|p]; [apply N.bits_0|]. cbn [coeffs act]. rewrite pbits_pol. cbn [pol List.length N.of_nat]. now rewrite N.bits_0, xorb_false_r, N.add_0_r.
Qed.
Lemma pol_rec cs x : wfs x -> mtrec x -> mtrec (pol cs x).
Proof.
  intros W R. induction cs as [|c cs IH]; [intros n; reflexivity|].
  assert (Q : mtrec (fun i => N.lxor (if c then x (N.of_nat (List.length cs) + i) else 0) (pol cs x i))).
  { apply (mtrec_lxor (fun i => if c then x (N.of_nat (List.length cs) + i) else 0) (pol cs x)).
    - intros n. destruct c; [apply W|apply wf_0].
    - intros n. now apply pol_wf.
    - destruct c; [exact (shifted_rec _ x R)|intros n; reflexivity].
    - exact IH. }
  exact Q.
Qed.

(* a polynomial that moves every sequence by J, except perhaps the 31 lower bits of the first
   word, which no later word depends on *)
Definition moves1 (js : list bool) (J : N) : Prop :=
  forall x, wfs x -> mtrec x -> (forall i, 0 < i -> pol js x i = x (J + i)) /\ N.land (pol js x 0) 0x80000000 = N.land (x J) 0x80000000.
Lemma checked_moves p E J n : same n 31 p E = true -> stands E J -> moves1 (coeffs p) J.
Proof.
  intros S H x W R.
  destruct (rec_back (pol (coeffs p) x) (shifted J x) 61) as [A B].
  - intros i. now apply pol_wf.
  - now apply shifted_wf.
  - now apply pol_rec.
  - now apply shifted_rec.
  - intros i Hi. apply N.bits_inj. intros k. rewrite coeffs_pol. pose proof (same_act n 31 p E J (sh 30 (bit x k)) (i - 61) S H (phi0_word x k W R)) as Q.
    rewrite act_sh in Q. unfold sh in Q. replace (i - 61 + 31 + 30) with i in Q by lia. rewrite Q. unfold bit, shifted. f_equal. f_equal. lia.
  - split; [|rewrite B; unfold shifted; now rewrite N.add_0_r]. intros i Hi. rewrite A by exact Hi. reflexivity.
Qed.
Lemma start_stands : stands [N.shiftl 1 512] 512.
Proof. intros z _ i. cbn [act2]. now rewrite act_pow, xorb_false_r. Qed.
Lemma iftrue (a b : bool) : (if a then b else false) = true -> a = true /\ b = true.
Proof. now destruct a. Qed.
Lemma check_moves n a b E m p1 p2 p3 p4 p5 : check n a b 31 E p1 p2 p3 p4 p5 = true -> stands E m ->
  moves1 (coeffs p1) (2 ^ N.of_nat a * m) /\ moves1 (coeffs p2) (2 ^ N.of_nat b * (2 ^ N.of_nat a * m)) /\ moves1 (coeffs p3) (2 ^ N.of_nat b * (2 ^ N.of_nat b * (2 ^ N.of_nat a * m))) /\
  moves1 (coeffs p4) (2 ^ N.of_nat b * (2 ^ N.of_nat b * (2 ^ N.of_nat b * (2 ^ N.of_nat a * m)))) /\ moves1 (coeffs p5) (2 ^ N.of_nat b * (2 ^ N.of_nat b * (2 ^ N.of_nat b * (2 ^ N.of_nat b * (2 ^ N.of_nat a * m))))).
Proof.
  intros H S0. unfold check in H. cbv zeta in H.
  apply iftrue in H. destruct H as [H1 H]. apply iftrue in H. destruct H as [H2 H]. apply iftrue in H. destruct H as [H3 H]. apply iftrue in H. destruct H as [H4 H5].
  pose proof (stands_sqk a _ _ S0) as S1. pose proof (stands_sqk b _ _ S1) as S2. pose proof (stands_sqk b _ _ S2) as S3. pose proof (stands_sqk b _ _ S3) as S4. pose proof (stands_sqk b _ _ S4) as S5.
  split; [exact (checked_moves _ _ _ _ H1 S1)|]. split; [exact (checked_moves _ _ _ _ H2 S2)|]. split; [exact (checked_moves _ _ _ _ H3 S3)|]. split; [exact (checked_moves _ _ _ _ H4 S4)|exact (checked_moves _ _ _ _ H5 S5)].
Qed.
Lemma check_true : check 32 119 4 31 [N.shiftl 1 512] p128 p132 p136 p140 p144 = true.
Proof. vm_compute. reflexivity. Qed.
Lemma polys_move : moves1 (coeffs p128) (2 ^ 128) /\ moves1 (coeffs p132) (2 ^ 132) /\ moves1 (coeffs p136) (2 ^ 136) /\ moves1 (coeffs p140) (2 ^ 140) /\ moves1 (coeffs p144) (2 ^ 144).
Proof. exact (check_moves _ _ _ _ _ _ _ _ _ _ check_true start_stands). Qed.
(* the lower bits of the first word: some sequence with one more word before it *)
Lemma mtA_onto v : wf 32 v -> exists u, wf 32 u /\ mtA u = v.
Proof.
  intros W. exists (if N.testbit v 31 then 2 * N.lxor v 0x9908b0df + 1 else 2 * v). unfold mtA. destruct (N.testbit v 31) eqn:E.
  - assert (L : N.lxor v 0x9908b0df < 2 ^ 31).
    { destruct (N.lt_ge_cases (N.lxor v 0x9908b0df) (2 ^ 31)) as [L|L]; [exact L|]. exfalso.
      assert (W2 : wf 32 (N.lxor v 0x9908b0df)) by (apply wf_lxor; [exact W|reflexivity]). unfold wf in W2.
      assert (B : N.testbit (N.lxor v 0x9908b0df) 31 = true).
      { rewrite N.testbit_eqb. apply N.eqb_eq. rewrite (N.mod_small _ 2); [|apply N.div_lt_upper_bound; lia]. assert (1 <= N.lxor v 0x9908b0df / 2 ^ 31) by (apply N.div_le_lower_bound; lia). assert (N.lxor v 0x9908b0df / 2 ^ 31 < 2) by (apply N.div_lt_upper_bound; lia). lia. }
      rewrite N.lxor_spec, E in B. discriminate B. }
    split; [unfold wf; lia|]. rewrite N.odd_add, N.odd_mul. cbn [N.odd andb]. change (xorb false (N.odd 1)) with true. cbv iota.
    rewrite (N.mul_comm 2), N.div_add_l by lia. change (1 / 2) with 0. rewrite N.add_0_r, N.lxor_assoc, N.lxor_nilpotent. apply N.lxor_0_r.
  - assert (L : v < 2 ^ 31).
    { destruct (N.lt_ge_cases v (2 ^ 31)) as [L|L]; [exact L|]. exfalso. rewrite N.testbit_eqb in E. apply N.eqb_neq in E. apply E. unfold wf in W.
      rewrite N.mod_small; [|apply N.div_lt_upper_bound; lia]. assert (1 <= v / 2 ^ 31) by (apply N.div_le_lower_bound; lia). assert (v / 2 ^ 31 < 2) by (apply N.div_lt_upper_bound; lia). lia. }
    split; [unfold wf; lia|]. rewrite N.odd_mul. cbn [N.odd andb]. rewrite N.mul_comm. apply N.div_mul. lia.
Qed.
Lemma extend_back x : wfs x -> mtrec x -> exists y, wfs y /\ mtrec y /\ (forall i, 0 < i -> y (i + 1) = x i) /\ y 1 / 2 ^ 31 = x 0 / 2 ^ 31.
Proof.
  intros W R. destruct (mtA_onto (N.lxor (x 623) (x 396)) (wf_lxor 32 _ _ (W _) (W _))) as (u & Wu & E).
  set (y := fun n => if n =? 0 then u else if n =? 1 then x 0 / 2 ^ 31 * 2 ^ 31 + u mod 2 ^ 31 else x (n - 1)).
  assert (Y1 : y 1 = x 0 / 2 ^ 31 * 2 ^ 31 + u mod 2 ^ 31) by reflexivity.
  assert (YS : forall i, 0 < i -> y (i + 1) = x i).
  { intros i Hi. unfold y. replace (i + 1 =? 0) with false by lia. replace (i + 1 =? 1) with false by lia. f_equal. lia. }
  assert (M : u mod 2 ^ 31 < 2 ^ 31) by (apply N.mod_lt; discriminate).
  assert (Q : y 1 / 2 ^ 31 = x 0 / 2 ^ 31) by (rewrite Y1, N.div_add_l by discriminate; rewrite (N.div_small _ _ M); apply N.add_0_r).
  exists y. split; [|split; [|split; [exact YS|exact Q]]].
  - intros n. unfold y. destruct (n =? 0); [exact Wu|]. destruct (n =? 1); [|apply W]. pose proof (W 0) as W0. unfold wf in *.
    assert (x 0 / 2 ^ 31 < 2) by (apply N.div_lt_upper_bound; [discriminate|exact W0]). change (2 ^ 32) with (2 * 2 ^ 31). nia.
  - intros n. destruct (N.eq_dec n 0) as [->|N0].
    + change (y (0 + 624)) with (x 623). change (y (0 + 397)) with (x 396). change (y (0 + 1)) with (y 1). change (y 0) with u.
      assert (L1 : y 1 mod 2 ^ 31 = u mod 2 ^ 31) by (rewrite Y1, N.add_comm, N.mod_add by discriminate; apply N.mod_small; exact M). rewrite L1.
      rewrite N.mul_comm, <- N.div_mod by discriminate. rewrite E, (N.lxor_comm (x 623)), <- N.lxor_assoc, N.lxor_nilpotent. now rewrite N.lxor_0_l.
    + replace (n + 624) with (n - 1 + 624 + 1) by lia. replace (n + 397) with (n - 1 + 397 + 1) by lia. rewrite (YS (n - 1 + 624)), (YS (n - 1 + 397)), (YS n) by lia.
      rewrite (R (n - 1)). replace (n - 1 + 1) with n by lia. f_equal. f_equal. f_equal. f_equal.
      destruct (N.eq_dec n 1) as [->|N1]; [now rewrite Q|]. rewrite <- (YS (n - 1)) by lia. now replace (n - 1 + 1) with n by lia.
Qed.
(* ... are right as well when the constant coefficient is 0 *)
Lemma moves1_all p J : moves1 (coeffs p) J -> N.testbit p 0 = false -> 0 < J -> shifts_by (coeffs p) J.
Proof.
  intros H Z J0 x W R i. destruct (N.eq_dec i 0) as [->|Ne]; [|now apply H; [| |lia]].
  destruct (extend_back x W R) as (y & Wy & Ry & YS & _).
  assert (E : pol (coeffs p) x 0 = pol (coeffs p) y 1).
  { apply N.bits_inj. intros k. rewrite !coeffs_pol. destruct p as [|[p|p|]]; try discriminate Z; [reflexivity|]. cbn [act actp].
    assert (G : forall j, actp p (bit x k) (j + 1) = actp p (bit y k) (j + 1 + 1)).
    { intros j. rewrite <- (actp_sh p (bit x k) 1 j), <- (actp_sh p (bit y k) 1 (j + 1)), <- (actp_sh p (sh 1 (bit y k)) 1 j). apply actp_ext. intros j'. unfold sh, bit. now rewrite YS by lia. }
    exact (G 0). }
  rewrite E. destruct (H y Wy Ry) as [A _]. rewrite A by lia. rewrite N.add_0_r. now apply YS.
Qed.
