(* Karatsuba's product and squares of binary polynomials, on cells of four limbs. The
   cells, the table of multiples in a primitive array and the trees are there for
   speed; each operation is proved by the action of the limbs on sequences
   (Poly63's ract). *)
From Coq Require Import Uint63 PArray.
From Verif Require Import Word Gf2 Limb MtChar Poly63.
From Coq Require Import ZifyBool ZifyNat ZifyN Btauto.
Open Scope N_scope.
Ltac Zify.zify_post_hook ::= idtac.

Inductive cells := Z4 | C4 (a b c d : int) (r : cells).
Fixpoint flat (p : cells) : row := match p with Z4 => [] | C4 a b c d p => a :: b :: c :: d :: flat p end.
Fixpoint x4 (p q : cells) : cells :=
  match p with
  | Z4 => q
  | C4 a b c d p' => match q with
      | Z4 => p
      | C4 a' b' c' d' q' => C4 (PrimInt63.lxor a a') (PrimInt63.lxor b b') (PrimInt63.lxor c c') (PrimInt63.lxor d d') (x4 p' q')
      end
  end.
Fixpoint to4 (l : row) : cells :=
  match l with
  | a :: b :: c :: d :: l => C4 a b c d (to4 l)
  | [a; b; c] => C4 a b c L0 Z4
  | [a; b] => C4 a b L0 L0 Z4
  | [a] => C4 a L0 L0 L0 Z4
  | [] => Z4
  end.
Lemma x4_flat p : forall q, flat (x4 p q) = lx (flat p) (flat q).
Proof. induction p as [|a b c d p IH]; intros [|a' b' c' d' q]; cbn [x4 flat lx]; try reflexivity. now rewrite IH. Qed.
Lemma x4_act p q z i : ract (flat (x4 p q)) z i = xorb (ract (flat p) z i) (ract (flat q) z i).
Proof. rewrite x4_flat. apply ract_lx. Qed.
Lemma to4_act l z i : ract (flat (to4 l)) z i = ract l z i.
Proof.
  revert i. enough (H : forall n l, (List.length l <= n)%nat -> forall i, ract (flat (to4 l)) z i = ract l z i) by (intros i; apply (H (List.length l)); auto).
  clear l. intros n. induction n as [|n IH]; intros l Hl i; [destruct l; [reflexivity|cbn in Hl; lia]|].
  destruct l as [|a [|b [|c [|d l]]]]; cbn [to4 flat ract]; rewrite ?lN_0; try reflexivity.
  rewrite IH; [reflexivity|]. cbn [List.length] in Hl. lia.
Qed.
(* all limbs zero *)
Fixpoint zero4 (p : cells) : bool :=
  match p with Z4 => true | C4 a b c d p => PrimInt63.eqb a L0 && (PrimInt63.eqb b L0 && (PrimInt63.eqb c L0 && (PrimInt63.eqb d L0 && zero4 p))) end.
Lemma zero4_flat p : zero4 p = rzero (flat p).
Proof. induction p as [|a b c d p IH]; [reflexivity|]. cbn [zero4 flat rzero forallb]. now rewrite IH. Qed.
Lemma zero4_act p : zero4 p = true -> forall z i, ract (flat p) z i = false.
Proof. rewrite zero4_flat. apply rzero_act. Qed.
(* by one limb, and by nine bits *)
Fixpoint ls (k : int) (p : cells) : cells :=
  match p with
  | Z4 => if PrimInt63.eqb k L0 then Z4 else C4 k L0 L0 L0 Z4
  | C4 a b c d p => C4 k a b c (ls d p)
  end.
Lemma ls_act p : forall k z i, ract (flat (ls k p)) z i = xorb (act (lN k) z i) (ract (flat p) z (i + 63)).
Proof.
  induction p as [|a b c d p IH]; intros k z i; cbn [ls].
  - destruct (PrimInt63.eqb k L0) eqn:E; [apply eqb_correct in E; subst k|]; reflexivity.
  - cbn [flat ract]. now rewrite IH.
Qed.
Definition w9 (x y : int) : int := PrimInt63.addmuldiv 9 x y.
Definition h9 (x : int) : int := PrimInt63.lsr x 54.
Fixpoint s9 (k : int) (p : cells) : cells :=
  match p with
  | Z4 => let c := h9 k in if PrimInt63.eqb c 0 then Z4 else C4 c 0 0 0 Z4
  | C4 a b c d p => C4 (w9 a k) (w9 b a) (w9 c b) (w9 d c) (s9 d p)
  end.
Lemma Zlor_N a b : Z.of_N (N.lor a b) = Z.lor (Z.of_N a) (Z.of_N b).
Proof. destruct a, b; reflexivity. Qed.
Lemma w9_N x y : lN (w9 x y) = N.lxor (lN (PrimInt63.lsl x 9)) (lN (h9 y)).
Proof.
  unfold w9. rewrite addmuldiv_def_spec. unfold addmuldiv_def. change (PrimInt63.sub digits 9) with 54%uint63. fold (h9 y).
  assert (E : lN (PrimInt63.lor (PrimInt63.lsl x 9) (h9 y)) = N.lor (lN (PrimInt63.lsl x 9)) (lN (h9 y))).
  { apply N2Z.inj. rewrite Zof_lN, lor_spec', Zlor_N, !Zof_lN. reflexivity. }
  rewrite E. unfold h9. rewrite lN_lsl, lN_lsr. change (lN 9%uint63) with 9. change (lN 54%uint63) with 54.
  apply N.bits_inj. intros n. rewrite N.lor_spec, N.lxor_spec. destruct (N.lt_ge_cases n 9) as [H|H].
  - rewrite N.mod_pow2_bits_low by lia. rewrite N.mul_pow2_bits_low by exact H. now destruct (N.testbit _ n).
  - replace (N.testbit (lN y / 2 ^ 54) n) with false; [now destruct (N.testbit _ n)|]. symmetry.
    rewrite <- (N.mod_small (lN y / 2 ^ 54) (2 ^ 9)); [now apply N.mod_pow2_bits_high|]. apply N.div_lt_upper_bound; [discriminate|]. change (2 ^ 54 * 2 ^ 9) with (2 ^ 63). apply lN_lt.
Qed.
Lemma w9_act x y z i : act (lN (w9 x y)) z i = xorb (act (lN (PrimInt63.lsl x 9)) z i) (act (lN (h9 y)) z i).
Proof. now rewrite w9_N, act_lxor. Qed.
Lemma s9_act p : forall k z i, ract (flat (s9 k p)) z i = xorb (act (lN (h9 k)) z i) (ract (flat p) z (i + 9)).
Proof.
  induction p as [|a b c d p IH]; intros k z i; cbn [s9].
  - cbv zeta. destruct (PrimInt63.eqb (h9 k) 0) eqn:E; [apply eqb_correct in E; rewrite E|]; reflexivity.
  - cbn [flat ract]. rewrite IH, !w9_act.
    assert (S9 : forall x j, act (lN x) z (j + 9) = xorb (act (lN (PrimInt63.lsl x 9)) z j) (act (lN (h9 x)) z (j + 63))) by (intros x j; exact (limb_shift x 9%uint63 54%uint63 z j eq_refl)).
    replace (i + 9 + 63) with (i + 63 + 9) by lia. replace (i + 63 + 9 + 63) with (i + 63 + 63 + 9) by lia. replace (i + 63 + 63 + 9 + 63) with (i + 63 + 63 + 63 + 9) by lia.
    replace (i + 63 + 63 + 63 + 9 + 63) with (i + 63 + 63 + 63 + 63 + 9) by lia. rewrite !S9. btauto.
Qed.
(* squares *)
Definition sq0 (x : int) : int := spread (PrimInt63.land x 0xffffffff).
Definition sq1 (x : int) : int := PrimInt63.lsl (spread (PrimInt63.lsr x L32)) L1.
Fixpoint sq4 (p : cells) : cells :=
  match p with Z4 => Z4 | C4 a b c d p => C4 (sq0 a) (sq1 a) (sq0 b) (sq1 b) (C4 (sq0 c) (sq1 c) (sq0 d) (sq1 d) (sq4 p)) end.
Fixpoint rsq (l : row) : row := match l with [] => [] | x :: l => sq0 x :: sq1 x :: rsq l end.
Lemma rsq_act l : forall z i, ract (rsq l) z i = ract l (ract l z) i.
Proof.
  induction l as [|x l IH]; intros z i; [reflexivity|].
  change (ract (x :: l) (ract (x :: l) z) i) with (xorb (act (lN x) (xs (act (lN x) z) (sh 63 (ract l z))) i) (ract l (xs (act (lN x) z) (sh 63 (ract l z))) (i + 63))).
  rewrite act_xs, act_sh, ract_xs, ract_sh, act_ract, limb_square. cbn [rsq ract]. rewrite IH. unfold sq0, sq1. btauto.
Qed.
Lemma sq4_act p z i : ract (flat (sq4 p)) z i = ract (flat p) (ract (flat p) z) i.
Proof. rewrite <- rsq_act. f_equal. induction p as [|a b c d p IH]; [reflexivity|]. cbn [sq4 flat rsq]. now rewrite IH. Qed.

(* ------------------------------------------- the table of multiples *)
Fixpoint mlist (rs : list cells) : list cells := match rs with [] => [Z4] | r :: rs => flat_map (fun x => [x; x4 x r]) (mlist rs) end.
Fixpoint dbls (d : nat) (r : row) : list row := match d with O => [] | S d => r :: dbls d (dbl r) end.
Fixpoint fill (i : int) (l : list cells) (a : array cells) : array cells :=
  match l with [] => a | x :: l => fill (PrimInt63.add i L1) l (PArray.set a i x) end.
Definition atable (p : cells) : array cells := fill 0 (mlist (map to4 (dbls 9 (flat p)))) (PArray.make 512%uint63 Z4).
Lemma mlist_nth r rs : forall k, nth k (mlist (r :: rs)) Z4 = let x := nth (k / 2) (mlist rs) Z4 in if Nat.even k then x else if (k / 2 <? List.length (mlist rs))%nat then x4 x r else Z4.
Proof.
  cbn [mlist]. induction (mlist rs) as [|x l IH]; intros k.
  - cbn [flat_map]. cbv zeta. rewrite !nth_overflow by (cbn; lia). now destruct (Nat.even k).
  - cbn [flat_map]. change ([x; x4 x r] ++ flat_map (fun x => [x; x4 x r]) l) with (x :: x4 x r :: flat_map (fun x => [x; x4 x r]) l).
    destruct k as [|[|k]]; [reflexivity|reflexivity|]. cbn [nth]. rewrite IH. cbv zeta. change (Nat.even (S (S k))) with (Nat.even k).
    replace (S (S k) / 2)%nat with (S (k / 2)) by (replace (S (S k)) with (k + 1 * 2)%nat by lia; rewrite Nat.div_add by lia; lia). reflexivity.
Qed.
Lemma mlist_length rs : List.length (mlist rs) = (2 ^ List.length rs)%nat.
Proof.
  induction rs as [|r rs IH]; [reflexivity|]. cbn [mlist List.length Nat.pow]. rewrite <- IH. clear IH. generalize (mlist rs). intros l. induction l as [|x l IHl]; [reflexivity|]. cbn [flat_map app List.length] in *. lia.
Qed.
Lemma dbls_length d : forall r, List.length (map to4 (dbls d r)) = d.
Proof. intros r. rewrite map_length. revert r. induction d as [|d IH]; intros r; [reflexivity|]. cbn [dbls List.length]. now rewrite IH. Qed.
Lemma mlist_act d : forall r k z i, (k < 2 ^ d)%nat -> ract (flat (nth k (mlist (map to4 (dbls d r))) Z4)) z i = act (N.of_nat k) (ract r z) i.
Proof.
  induction d as [|d IH]; intros r k z i Hk; [assert (k = O) by (cbn in Hk; lia); subst k; reflexivity|].
  cbn [dbls map]. rewrite mlist_nth. cbv zeta. cbn [Nat.pow] in Hk. assert (Hd : (k / 2 < 2 ^ d)%nat) by (apply Nat.div_lt_upper_bound; lia).
  rewrite mlist_length, dbls_length. replace (k / 2 <? 2 ^ d)%nat with true by (symmetry; now apply Nat.ltb_lt).
  pose proof (IH (dbl r) (k / 2)%nat z i Hd) as E.
  assert (R : act (N.of_nat (k / 2)) (ract (dbl r) z) i = act (N.of_nat (k / 2)) (ract r z) (i + 1)) by (rewrite <- act_sh; apply act_ext; intros j; apply dbl_act).
  rewrite R in E. destruct (Nat.even k) eqn:Ev.
  - rewrite E. apply Nat.even_spec in Ev. destruct Ev as (m & ->). rewrite Nat.mul_comm, Nat.div_mul by lia. replace (N.of_nat (m * 2)) with (N.double (N.of_nat m)) by (rewrite N.double_spec; lia). now rewrite act_double.
  - rewrite x4_act, to4_act, E. rewrite <- Nat.negb_odd in Ev. apply negb_false_iff, Nat.odd_spec in Ev. destruct Ev as (m & ->).
    replace ((2 * m + 1) / 2)%nat with m by (apply (Nat.div_unique _ _ _ 1); lia). replace (N.of_nat (2 * m + 1)) with (N.succ_double (N.of_nat m)) by (rewrite N.succ_double_spec; lia).
    rewrite act_succ_double. apply xorb_comm.
Qed.
Lemma lN_add1 i : lN i < 2 ^ 62 -> lN (PrimInt63.add i L1) = lN i + 1.
Proof.
  intros H. apply N2Z.inj. rewrite Zof_lN, add_spec, N2Z.inj_add, Zof_lN. change (to_Z L1) with 1%Z. change (Z.of_N 1) with 1%Z. apply Z.mod_small.
  pose proof (to_Z_bounded i). apply N2Z.inj_lt in H. rewrite Zof_lN in H. change (Z.of_N (2 ^ 62)) with (2 ^ 62)%Z in H. split; [lia|]. apply (Z.lt_trans _ (2 ^ 62 + 1)); [lia|reflexivity].
Qed.
Lemma ltb_lN i j : lN i < lN j -> PrimInt63.ltb i j = true.
Proof. intros H. apply ltb_spec. rewrite <- !Zof_lN. lia. Qed.
Lemma fill_get l : forall i a k, lN i + N.of_nat (List.length l) <= lN (PArray.length a) -> lN (PArray.length a) < 2 ^ 62 ->
  PArray.get (fill i l a) k = if (lN i <=? lN k) && (lN k <? lN i + N.of_nat (List.length l)) then nth (N.to_nat (lN k - lN i)) l Z4 else PArray.get a k.
Proof.
  induction l as [|x l IH]; intros i a k H B; cbn [fill List.length] in *.
  - destruct (_ && _) eqn:E; [lia|reflexivity].
  - assert (A1 : lN (PrimInt63.add i L1) = lN i + 1) by (apply lN_add1; lia).
    assert (L : PArray.length (PArray.set a i x) = PArray.length a) by apply length_set.
    rewrite IH by (rewrite L, ?A1; lia). rewrite A1.
    destruct (N.eq_dec (lN k) (lN i)) as [E|E].
    + replace (_ && _) with false by lia. replace ((lN i <=? lN k) && _) with true by lia. apply lN_inj in E. subst k. rewrite N.sub_diag. cbn [N.to_nat nth].
      apply get_set_same. apply ltb_lN. lia.
    + rewrite get_set_other by (intros Q; subst k; now apply E). destruct ((lN i + 1 <=? lN k) && _) eqn:Q.
      * replace ((lN i <=? lN k) && _) with true by lia. replace (N.to_nat (lN k - lN i)) with (S (N.to_nat (lN k - (lN i + 1)))) by lia. reflexivity.
      * replace ((lN i <=? lN k) && _) with false by lia. reflexivity.
Qed.
Lemma atable_act p k z i : lN k < 512 -> ract (flat (PArray.get (atable p) k)) z i = act (lN k) (ract (flat p) z) i.
Proof.
  intros H. unfold atable.
  assert (L : lN (PArray.length (PArray.make 512%uint63 Z4)) = 512) by (rewrite length_make; reflexivity).
  assert (M : List.length (mlist (map to4 (dbls 9 (flat p)))) = 512%nat) by (rewrite mlist_length, dbls_length; reflexivity).
  rewrite fill_get by (rewrite L, ?M; cbn; lia). rewrite M. change (lN 0%uint63) with 0. replace (_ && _) with true by lia. rewrite N.sub_0_r.
  rewrite mlist_act; [now rewrite N2Nat.id|]. change (2 ^ 9)%nat with 512%nat. lia.
Qed.

(* ------------------------------------------- products with a table *)
Definition win9 (x s : int) : int := PrimInt63.land (PrimInt63.lsr x s) 511%uint63.
Definition lane4 (j : nat) (a b c d : int) : int := match j with 0 => a | 1 => b | 2 => c | _ => d end%nat.
(* p and q moved by four limbs *)
Definition add1 (p q : cells) : cells := match p with Z4 => C4 0 0 0 0 q | C4 a b c d p => C4 a b c d (x4 p q) end.
Lemma add1_act p q z i : ract (flat (add1 p q)) z i = xorb (ract (flat p) z i) (ract (flat q) z (i + 63 + 63 + 63 + 63)).
Proof. destruct p as [|a b c d p]; cbn [add1 flat ract]; [change (lN 0%uint63) with 0; cbn [act]; now rewrite !xorb_false_l|]. rewrite x4_act. btauto. Qed.
Fixpoint comb4 (t : array cells) (s : int) (j : nat) (q : cells) : cells :=
  match q with Z4 => Z4 | C4 a b c d q => add1 (PArray.get t (win9 (lane4 j a b c d) s)) (comb4 t s j q) end.
Definition pass4 (t : array cells) (q : cells) (s : int) : cells :=
  x4 (comb4 t s 0 q) (ls 0 (x4 (comb4 t s 1 q) (ls 0 (x4 (comb4 t s 2 q) (ls 0 (comb4 t s 3 q)))))).
Definition mul4 (t : array cells) (q : cells) : cells :=
  x4 (pass4 t q 0%uint63) (s9 0 (x4 (pass4 t q 9%uint63) (s9 0 (x4 (pass4 t q 18%uint63) (s9 0 (x4 (pass4 t q 27%uint63) (s9 0
    (x4 (pass4 t q 36%uint63) (s9 0 (x4 (pass4 t q 45%uint63) (s9 0 (pass4 t q 54%uint63)))))))))))).
Lemma win9_N x s : lN (win9 x s) = lN x / 2 ^ lN s mod 2 ^ 9.
Proof. unfold win9. rewrite lN_land, lN_lsr. change (lN 511%uint63) with (N.ones 9). apply N.land_ones. Qed.
Fixpoint wsel (s : N) (j : nat) (q : cells) (z : bseq) (i : N) : bool :=
  match q with Z4 => false | C4 a b c d q => xorb (act (lN (lane4 j a b c d) / 2 ^ s mod 2 ^ 9) z i) (wsel s j q z (i + 63 + 63 + 63 + 63)) end.
Lemma comb4_act p s j q : forall z i, ract (flat (comb4 (atable p) s j q)) z i = wsel (lN s) j q (ract (flat p) z) i.
Proof.
  induction q as [|a b c d q IH]; intros z i; cbn [comb4 wsel]; [reflexivity|]. rewrite add1_act, atable_act by (rewrite win9_N; apply N.mod_lt; discriminate). now rewrite win9_N, IH.
Qed.
Lemma wsel_win s q : forall z i, win s (flat q) z i = xorb (wsel s 0 q z i) (xorb (wsel s 1 q z (i + 63)) (xorb (wsel s 2 q z (i + 63 + 63)) (wsel s 3 q z (i + 63 + 63 + 63)))).
Proof.
  induction q as [|a b c d q IH]; intros z i; [reflexivity|]. cbn [flat win wsel lane4]. rewrite IH. btauto.
Qed.
Lemma pass4_act p q s z i : ract (flat (pass4 (atable p) q s)) z i = win (lN s) (flat q) (ract (flat p) z) i.
Proof.
  unfold pass4. rewrite x4_act, ls_act, x4_act, ls_act, x4_act, ls_act, !comb4_act, wsel_win. change (lN 0%uint63) with 0. cbn [act]. now rewrite !xorb_false_l.
Qed.
Lemma mul4_act p q z i : ract (flat (mul4 (atable p) q)) z i = ract (flat q) (ract (flat p) z) i.
Proof.
  unfold mul4. rewrite !x4_act, !s9_act, !x4_act, !s9_act, !x4_act, !s9_act, !x4_act, !s9_act, !x4_act, !s9_act, !x4_act, !s9_act, !pass4_act, win_all. change (lN (h9 0)) with 0. cbn [act].
  rewrite !xorb_false_l. rewrite <- !N.add_assoc. reflexivity.
Qed.

(* ------------------------------------------- halves of halves: Karatsuba's product *)
Fixpoint ptree (d : nat) : Type := match d with O => cells | S d => (ptree d * ptree d)%type end.
Fixpoint ttab (d : nat) : Type := match d with O => array cells | S d => (ttab d * ttab d * ttab d)%type end.
Section Trees.
Variable n : nat. (* cells in a leaf *)
Definition wd (d : nat) : N := 252 * N.of_nat n * 2 ^ N.of_nat d.
Fixpoint tact (d : nat) : ptree d -> bseq -> N -> bool :=
  match d with
  | O => fun a => ract (flat a)
  | S d => fun a z i => xorb (tact d (fst a) z i) (tact d (snd a) z (i + wd d))
  end.
Fixpoint tadd (d : nat) : ptree d -> ptree d -> ptree d :=
  match d with
  | O => x4
  | S d => fun a b => (tadd d (fst a) (fst b), tadd d (snd a) (snd b))
  end.
(* the first m cells and the rest *)
Fixpoint cut (m : nat) (l : cells) : cells * cells :=
  match m with
  | O => (Z4, l)
  | S m => match l with Z4 => (Z4, Z4) | C4 a b c d l => let p := cut m l in (C4 a b c d (fst p), snd p) end
  end.
Definition leaves (l : cells) : ptree 0 * ptree 0 := cut n l.
Fixpoint ttable (d : nat) : ptree d -> ttab d :=
  match d with
  | O => atable
  | S d => fun a => (ttable d (fst a), ttable d (snd a), ttable d (tadd d (fst a) (snd a)))
  end.
Fixpoint tmul (d : nat) : ttab d -> ptree d -> ptree d * ptree d :=
  match d with
  | O => fun t q => leaves (mul4 t q)
  | S d => fun t q =>
      let z0 := tmul d (fst (fst t)) (fst q) in
      let z2 := tmul d (snd (fst t)) (snd q) in
      let z1 := tmul d (snd t) (tadd d (fst q) (snd q)) in
      let m0 := tadd d (fst z1) (tadd d (fst z0) (fst z2)) in
      let m1 := tadd d (snd z1) (tadd d (snd z0) (snd z2)) in
      ((fst z0, tadd d (snd z0) m0), (tadd d m1 (fst z2), snd z2))
  end.
Fixpoint tsq (d : nat) : ptree d -> ptree d * ptree d :=
  match d with
  | O => fun a => leaves (sq4 a)
  | S d => fun a => (tsq d (fst a), tsq d (snd a))
  end.
Fixpoint tzero (d : nat) : ptree d -> bool :=
  match d with O => zero4 | S d => fun a => tzero d (fst a) && tzero d (snd a) end.
(* a list as a tree, given enough limbs *)
Fixpoint plant (d : nat) : cells -> ptree d * cells :=
  match d with
  | O => cut n
  | S d => fun l => let a := plant d l in let b := plant d (snd a) in ((fst a, fst b), snd b)
  end.
(* a pair of trees *)
Definition pact (d : nat) (p : ptree d * ptree d) (z : bseq) (i : N) : bool := xorb (tact d (fst p) z i) (tact d (snd p) z (i + wd d)).

Lemma tact_ext d : forall a z w i, (forall k, z k = w k) -> tact d a z i = tact d a w i.
Proof. induction d as [|d IH]; intros a z w i H; [now apply ract_ext|]. cbn [tact]. now rewrite (IH _ z w _ H), (IH _ z w _ H). Qed.
Lemma tact_sh d : forall a z m i, tact d a (sh m z) i = tact d a z (i + m).
Proof. induction d as [|d IH]; intros a z m i; [apply ract_sh|]. cbn [tact]. rewrite !IH. do 2 f_equal. lia. Qed.
Lemma tact_xs d : forall a z w i, tact d a (xs z w) i = xorb (tact d a z i) (tact d a w i).
Proof. induction d as [|d IH]; intros a z w i; [apply ract_xs|]. cbn [tact]. rewrite !IH. apply xorb_4. Qed.
Lemma tact_zero d : forall a i, tact d a (fun _ => false) i = false.
Proof. induction d as [|d IH]; intros a i; [apply ract_zero|]. cbn [tact]. now rewrite !IH. Qed.
Lemma tadd_act d : forall a b z i, tact d (tadd d a b) z i = xorb (tact d a z i) (tact d b z i).
Proof. induction d as [|d IH]; intros a b z i; [apply x4_act|]. cbn [tact tadd fst snd]. rewrite !IH. apply xorb_4. Qed.
Lemma tzero_act d : forall a, tzero d a = true -> forall z i, tact d a z i = false.
Proof. induction d as [|d IH]; intros a H z i; [now apply zero4_act|]. cbn [tzero tact] in *. apply andb_prop in H. now rewrite !IH by apply H. Qed.
Lemma cut_act m : forall l z i, ract (flat l) z i = xorb (ract (flat (fst (cut m l))) z i) (ract (flat (snd (cut m l))) z (i + 252 * N.of_nat m)).
Proof.
  induction m as [|m IH]; intros l z i; cbn [cut fst snd flat]; [cbn [ract]; rewrite xorb_false_l; f_equal; lia|]. destruct l as [|a b c d l]; [reflexivity|].
  cbn [flat ract fst snd]. rewrite (IH l z (i + 63 + 63 + 63 + 63)). replace (i + 252 * N.of_nat (S m)) with (i + 63 + 63 + 63 + 63 + 252 * N.of_nat m) by lia. btauto.
Qed.
Lemma leaves_act l z i : pact 0 (leaves l) z i = ract (flat l) z i.
Proof. unfold pact, leaves. rewrite (cut_act n l z i). cbn [tact]. unfold wd. do 2 f_equal. cbn. lia. Qed.
Lemma tmul_act d : forall b q z i, pact d (tmul d (ttable d b) q) z i = tact d q (tact d b z) i.
Proof.
  induction d as [|d IH]; intros b q z i; [cbn [tmul ttable]; rewrite leaves_act; apply mul4_act|].
  assert (W : wd (S d) = wd d + wd d) by (unfold wd; replace (N.of_nat (S d)) with (N.succ (N.of_nat d)) by lia; rewrite N.pow_succ_r'; lia).
  unfold pact. cbn [tmul ttable fst snd tact]. rewrite W.
  pose proof (IH (fst b) (fst q) z i) as H0. pose proof (IH (fst b) (fst q) z (i + wd d)) as H0'.
  pose proof (IH (snd b) (snd q) z (i + wd d)) as H2. pose proof (IH (snd b) (snd q) z (i + (wd d + wd d))) as H2'.
  pose proof (IH (tadd d (fst b) (snd b)) (tadd d (fst q) (snd q)) z (i + wd d)) as H1.
  set (z0 := tmul d (ttable d (fst b)) (fst q)) in *. set (z2 := tmul d (ttable d (snd b)) (snd q)) in *. set (z1 := tmul d (ttable d (tadd d (fst b) (snd b))) (tadd d (fst q) (snd q))) in *.
  unfold pact in H0, H0', H1, H2, H2'. rewrite !tadd_act. rewrite tadd_act in H1.
  set (zb := xs (tact d (fst b) z) (tact d (snd b) z)).
  assert (Q : forall a k, tact d a (tact d (tadd d (fst b) (snd b)) z) k = xorb (tact d a (tact d (fst b) z) k) (tact d a (tact d (snd b) z) k)).
  { intros a k. rewrite <- tact_xs. apply tact_ext. intros m. apply tadd_act. }
  assert (R : forall a k, tact d a (fun j => xorb (tact d (fst b) z j) (tact d (snd b) z (j + wd d))) k = xorb (tact d a (tact d (fst b) z) k) (tact d a (tact d (snd b) z) (k + wd d))).
  { intros a k. rewrite <- tact_sh, <- tact_xs. apply tact_ext. reflexivity. }
  rewrite !R. rewrite !Q in H1. replace (i + (wd d + wd d) + wd d) with (i + wd d + (wd d + wd d)) in * by lia. rewrite !N.add_assoc in *.
  revert H0 H0' H1 H2 H2'. clear.
  generalize (tact d (fst q) (tact d (fst b) z) i) (tact d (fst q) (tact d (fst b) z) (i + wd d)) (tact d (fst q) (tact d (snd b) z) (i + wd d)) (tact d (snd q) (tact d (fst b) z) (i + wd d))
    (tact d (snd q) (tact d (snd b) z) (i + wd d)) (tact d (snd q) (tact d (snd b) z) (i + wd d + wd d)).
  generalize (tact d (fst z0) z i) (tact d (snd z0) z (i + wd d)) (tact d (fst z0) z (i + wd d)) (tact d (snd z0) z (i + wd d + wd d))
    (tact d (fst z2) z (i + wd d)) (tact d (snd z2) z (i + wd d + wd d)) (tact d (fst z2) z (i + wd d + wd d)) (tact d (snd z2) z (i + wd d + wd d + wd d))
    (tact d (fst z1) z (i + wd d)) (tact d (snd z1) z (i + wd d + wd d)).
  intros a1 a2 a3 a4 a5 a6 a7 a8 a9 a0 b1 b2 b3 b4 b5 b6 <- <- H1 <- <-.
  transitivity (xorb (xorb (xorb a1 a2) (xorb a9 a0)) (xorb (xorb (xorb a3 a4) (xorb a5 a6)) (xorb a7 a8))); [btauto|]. rewrite H1. btauto.
Qed.
Lemma tact_gen (F : bseq -> N -> bool) d : (forall z w i, (forall k, z k = w k) -> F z i = F w i) -> (forall z m i, F (sh m z) i = F z (i + m)) ->
  (forall z w i, F (xs z w) i = xorb (F z i) (F w i)) -> (forall l z i, F (ract l z) i = ract l (F z) i) -> forall a z i, F (tact d a z) i = tact d a (F z) i.
Proof.
  intros E Sh X C. induction d as [|d IH]; intros a z i; [apply C|]. cbn [tact].
  rewrite (E _ (xs (tact d (fst a) z) (sh (wd d) (tact d (snd a) z)))) by reflexivity. now rewrite X, Sh, !IH.
Qed.
Lemma ract_tact l d a z i : ract l (tact d a z) i = tact d a (ract l z) i.
Proof. apply (tact_gen (ract l)); [apply ract_ext|apply ract_sh|apply ract_xs|intros b; apply ract_ract]. Qed.
Lemma tact_tact d a e b z i : tact d a (tact e b z) i = tact e b (tact d a z) i.
Proof. apply (tact_gen (tact d a)); [apply tact_ext|apply tact_sh|apply tact_xs|]. intros l w k. symmetry. apply ract_tact. Qed.
Lemma tsq_act d : forall a z i, pact d (tsq d a) z i = tact d a (tact d a z) i.
Proof.
  induction d as [|d IH]; intros a z i; [cbn [tsq]; rewrite leaves_act; apply sq4_act|].
  assert (W : wd (S d) = wd d + wd d) by (unfold wd; replace (N.of_nat (S d)) with (N.succ (N.of_nat d)) by lia; rewrite N.pow_succ_r'; lia).
  change (pact (S d) (tsq (S d) a) z i) with (xorb (pact d (tsq d (fst a)) z i) (pact d (tsq d (snd a)) z (i + wd (S d)))). rewrite !IH, W. cbn [tact].
  assert (R : forall b k, tact d b (fun j => xorb (tact d (fst a) z j) (tact d (snd a) z (j + wd d))) k = xorb (tact d b (tact d (fst a) z) k) (tact d b (tact d (snd a) z) (k + wd d))).
  { intros b k. rewrite <- tact_sh, <- tact_xs. apply tact_ext. reflexivity. }
  rewrite !R, (tact_tact d (snd a) d (fst a)), !N.add_assoc. btauto.
Qed.
Lemma plant_act d : forall l z i, ract (flat l) z i = xorb (tact d (fst (plant d l)) z i) (ract (flat (snd (plant d l))) z (i + wd d)).
Proof.
  induction d as [|d IH]; intros l z i.
  - rewrite (cut_act n l z i). cbn [plant tact]. unfold wd. do 2 f_equal. cbn. lia.
  - assert (W : wd (S d) = wd d + wd d) by (unfold wd; replace (N.of_nat (S d)) with (N.succ (N.of_nat d)) by lia; rewrite N.pow_succ_r'; lia).
    cbn [plant fst snd tact]. rewrite W, (IH l z i), (IH (snd (plant d l)) z (i + wd d)), N.add_assoc. btauto.
Qed.
End Trees.

