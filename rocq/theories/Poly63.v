(* Binary polynomials of high degree, quickly: lists of the kernel's 63-bit machine
   integers, least significant first. A list acts on bit sequences, x being the shift (MtChar's act), and every
   operation is proved by its action; any list of machine integers is a polynomial, so
   that no operation has a precondition. *)
From Coq Require Import Uint63.
From Verif Require Import Word Gf2 Limb MtChar.
From Coq Require Import ZifyBool ZifyNat ZifyN Btauto.
Open Scope N_scope.
Ltac Zify.zify_post_hook ::= idtac.

(* ------------------------------------------- the action of a list *)
Fixpoint ract (l : row) (z : bseq) (i : N) : bool :=
  match l with [] => false | x :: l => xorb (act (lN x) z i) (ract l z (i + 63)) end.
Lemma act_zero p i : act p (fun _ => false) i = false.
Proof. destruct p; [reflexivity|]. apply actp_0. Qed.
Lemma ract_ext l : forall z w i, (forall k, z k = w k) -> ract l z i = ract l w i.
Proof. induction l as [|x l IH]; intros z w i H; cbn [ract]; [reflexivity|]. now rewrite (act_ext _ _ _ _ H), (IH _ _ _ H). Qed.
Lemma ract_sh l : forall z m i, ract l (sh m z) i = ract l z (i + m).
Proof. induction l as [|x l IH]; intros z m i; cbn [ract]; [reflexivity|]. rewrite act_sh, IH. do 2 f_equal. lia. Qed.
Lemma ract_xs l : forall z w i, ract l (xs z w) i = xorb (ract l z i) (ract l w i).
Proof. induction l as [|x l IH]; intros z w i; cbn [ract]; [reflexivity|]. rewrite act_xs, IH. apply xorb_4. Qed.
Lemma ract_zero l : forall i, ract l (fun _ => false) i = false.
Proof. induction l as [|x l IH]; intros i; cbn [ract]; [reflexivity|]. now rewrite act_zero, IH. Qed.
Lemma actp_act p : forall q z i, actp p (act q z) i = act q (actp p z) i.
Proof.
  induction p as [p IH|p IH|]; intros q z i; cbn [actp].
  - rewrite IH, <- act_sh, <- act_xs. apply act_ext. reflexivity.
  - rewrite IH, <- act_sh. apply act_ext. reflexivity.
  - apply act_ext. reflexivity.
Qed.
Lemma act_act p q z i : act p (act q z) i = act q (act p z) i.
Proof. destruct p; [|apply actp_act]. cbn [act]. symmetry. change (act 0 z) with (fun _ : N => false). apply act_zero. Qed.
Lemma act_ract l : forall p z i, act p (ract l z) i = ract l (act p z) i.
Proof.
  induction l as [|x l IH]; intros p z i; [apply act_zero|].
  change (ract (x :: l) z) with (xs (act (lN x) z) (fun i => ract l z (i + 63))). rewrite act_xs. cbn [ract]. rewrite act_act. f_equal.
  rewrite <- IH. now rewrite <- act_sh.
Qed.
Lemma ract_ract a : forall b z i, ract a (ract b z) i = ract b (ract a z) i.
Proof.
  induction a as [|x a IH]; intros b z i; [symmetry; apply ract_zero|].
  change (ract (x :: a) z) with (xs (act (lN x) z) (sh 63 (ract a z))). rewrite ract_xs, ract_sh. cbn [ract]. rewrite act_ract. f_equal. apply IH.
Qed.
Lemma ract_lx a : forall b z i, ract (lx a b) z i = xorb (ract a z i) (ract b z i).
Proof.
  induction a as [|x a IH]; intros [|y b] z i; cbn [lx ract]; rewrite ?xorb_false_r; try reflexivity; [now rewrite xorb_false_l|].
  rewrite lN_lxor, act_lxor, IH. apply xorb_4.
Qed.
Lemma ract_app a : forall b z i, ract (a ++ b) z i = xorb (ract a z i) (ract b z (i + 63 * N.of_nat (List.length a))).
Proof.
  induction a as [|x a IH]; intros b z i; cbn [app ract List.length]; [rewrite xorb_false_l; f_equal; lia|]. rewrite IH, xorb_assoc. do 3 f_equal. lia.
Qed.
(* all limbs zero *)
Definition rzero (l : row) : bool := forallb (fun x => PrimInt63.eqb x L0) l.
Lemma rzero_act l : rzero l = true -> forall z i, ract l z i = false.
Proof.
  induction l as [|x l IH]; intros H z i; [reflexivity|]. cbn [rzero forallb] in H. apply andb_prop in H. destruct H as [Hx Hl]. apply eqb_correct in Hx. subst x.
  cbn [ract]. now rewrite (IH Hl).
Qed.
Lemma lx_zero a b : rzero (lx a b) = true -> forall z i, ract a z i = ract b z i.
Proof. intros H z i. pose proof (rzero_act _ H z i) as E. rewrite ract_lx in E. now apply Bool.xorb_eq. Qed.

(* ------------------------------------------- shifts *)
Lemma lN_lt x : lN x < 2 ^ 63.
Proof. apply N2Z.inj_lt. rewrite Zof_lN, N2Z.inj_pow. apply to_Z_bounded. Qed.
Lemma lN_lsl x k : lN (PrimInt63.lsl x k) = (lN x * 2 ^ lN k) mod 2 ^ 63.
Proof. apply N2Z.inj. rewrite Zof_lN, lsl_spec, N2Z.inj_mod, N2Z.inj_mul, !N2Z.inj_pow, !Zof_lN. reflexivity. Qed.
Lemma lN_lsr x k : lN (PrimInt63.lsr x k) = lN x / 2 ^ lN k.
Proof. apply N2Z.inj. rewrite Zof_lN, lsr_spec, N2Z.inj_div, N2Z.inj_pow, !Zof_lN. reflexivity. Qed.
(* the low k bits and the rest *)
Lemma act_split p k z i : act p z i = xorb (act (p mod 2 ^ k) z i) (act (p / 2 ^ k) z (i + k)).
Proof.
  rewrite <- act_shiftl, <- act_lxor. f_equal. apply N.bits_inj. intros n. rewrite N.lxor_spec, <- N.shiftr_div_pow2.
  destruct (N.ltb_spec n k) as [H|H].
  - rewrite N.mod_pow2_bits_low, N.shiftl_spec_low by exact H. now rewrite xorb_false_r.
  - rewrite N.mod_pow2_bits_high, N.shiftl_spec_high' by exact H. rewrite N.shiftr_spec', xorb_false_l. f_equal. lia.
Qed.
Lemma limb_shift x k k' z i : lN k + lN k' = 63 ->
  act (lN x) z (i + lN k) = xorb (act (lN (PrimInt63.lsl x k)) z i) (act (lN (PrimInt63.lsr x k')) z (i + 63)).
Proof.
  intros H. rewrite <- act_shiftl, (act_split (N.shiftl (lN x) (lN k)) 63), lN_lsl, lN_lsr, N.shiftl_mul_pow2.
  assert (E : lN x * 2 ^ lN k / 2 ^ 63 = lN x / 2 ^ lN k'); [|now rewrite E].
  rewrite <- H, (N.add_comm (lN k)), N.pow_add_r. apply N.div_mul_cancel_r; apply N.pow_nonzero; discriminate.
Qed.
Fixpoint shl (k k' c : int) (l : row) : row :=
  match l with
  | [] => if PrimInt63.eqb c L0 then [] else [c]
  | x :: l => PrimInt63.lxor (PrimInt63.lsl x k) c :: shl k k' (PrimInt63.lsr x k') l
  end.
Lemma shl_act k k' l : lN k + lN k' = 63 -> forall c z i, ract (shl k k' c l) z i = xorb (act (lN c) z i) (ract l z (i + lN k)).
Proof.
  intros H. induction l as [|x l IH]; intros c z i; cbn [shl].
  - destruct (PrimInt63.eqb c L0) eqn:E; [apply eqb_correct in E; subst c; reflexivity|]. reflexivity.
  - cbn [ract]. rewrite lN_lxor, act_lxor, IH, (limb_shift x k k' z i H). replace (i + lN k + 63) with (i + 63 + lN k) by lia. btauto.
Qed.
(* multiplication by x^(63 m + k) *)
Fixpoint zeros (m : nat) (l : row) : row := match m with O => l | S m => L0 :: zeros m l end.
Lemma zeros_act m : forall l z i, ract (zeros m l) z i = ract l z (i + 63 * N.of_nat m).
Proof.
  induction m as [|m IH]; intros l z i; cbn [zeros ract]; [f_equal; lia|]. rewrite IH, lN_0. cbn [act]. rewrite xorb_false_l. f_equal. lia.
Qed.
Definition mulx (m : nat) (k k' : int) (l : row) : row := zeros m (shl k k' L0 l).
Lemma mulx_act m k k' l z i : lN k + lN k' = 63 -> ract (mulx m k k' l) z i = ract l z (i + 63 * N.of_nat m + lN k).
Proof. intros H. unfold mulx. rewrite zeros_act, shl_act by exact H. rewrite lN_0. cbn [act]. apply xorb_false_l. Qed.

(* ------------------------------------------- tables of multiples *)
Inductive tab := Leaf (r : row) | Node (t0 t1 : tab).
Definition dbl (r : row) : row := shl 1%uint63 62%uint63 L0 r.
Fixpoint build (d : nat) (r acc : row) : tab :=
  match d with O => Leaf acc | S d => let r' := dbl r in Node (build d r' acc) (build d r' (lx acc r)) end.
Fixpoint look (t : tab) (x : int) : row :=
  match t with
  | Leaf a => a
  | Node t0 t1 => look (if PrimInt63.eqb (PrimInt63.land x L1) L0 then t0 else t1) (PrimInt63.lsr x L1)
  end.
Lemma dbl_act r z i : ract (dbl r) z i = ract r z (i + 1).
Proof. unfold dbl. rewrite shl_act by reflexivity. apply xorb_false_l. Qed.
Lemma land1 x : PrimInt63.eqb (PrimInt63.land x L1) L0 = negb (N.odd (lN x)).
Proof.
  pose proof (lN_land x L1) as E. change (lN L1) with (N.ones 1) in E. rewrite N.land_ones in E. change (2 ^ 1) with 2 in E.
  rewrite <- N.bit0_mod in E. rewrite N.bit0_odd in E. destruct (PrimInt63.eqb _ _) eqn:Q.
  - apply eqb_correct in Q. rewrite Q in E. now destruct (N.odd (lN x)).
  - destruct (N.odd (lN x)); [reflexivity|]. exfalso. change (N.b2n false) with (lN L0) in E. apply lN_inj in E. rewrite E in Q. discriminate Q.
Qed.
Lemma look_act d : forall r acc x z i, ract (look (build d r acc) x) z i = xorb (ract acc z i) (act (lN x mod 2 ^ N.of_nat d) (ract r z) i).
Proof.
  induction d as [|d IH]; intros r acc x z i; cbn [build look]; [change (2 ^ N.of_nat 0) with 1; rewrite N.mod_1_r; cbn [act]; now rewrite xorb_false_r|].
  rewrite land1.
  assert (E : act (lN x mod 2 ^ N.of_nat (S d)) (ract r z) i = xorb (if N.odd (lN x) then ract r z i else false) (act (lN (PrimInt63.lsr x L1) mod 2 ^ N.of_nat d) (ract r z) (i + 1))).
  { rewrite (act_split _ 1). rewrite lN_lsr. change (lN L1) with 1. f_equal.
    - assert (Q : (lN x mod 2 ^ N.of_nat (S d)) mod 2 ^ 1 = N.b2n (N.odd (lN x))).
      { change (2 ^ 1) with 2. rewrite <- N.bit0_mod, N.mod_pow2_bits_low by lia. now rewrite N.bit0_odd. }
      rewrite Q. destruct (N.odd (lN x)); reflexivity.
    - f_equal. replace (N.of_nat (S d)) with (1 + N.of_nat d) by lia. apply N.bits_inj. intros n. rewrite <- !N.shiftr_div_pow2, N.shiftr_spec'.
      destruct (N.ltb_spec n (N.of_nat d)) as [H|H].
      + rewrite !N.mod_pow2_bits_low by lia. now rewrite N.shiftr_spec'.
      + now rewrite !N.mod_pow2_bits_high by lia. }
  rewrite E. assert (R : forall x, act x (ract (dbl r) z) i = act x (ract r z) (i + 1)).
  { intros y. rewrite <- act_sh. apply act_ext. intros k. apply dbl_act. }
  destruct (N.odd (lN x)); cbn [negb]; rewrite IH, R, ?ract_lx; btauto.
Qed.

(* ------------------------------------------- products with a table, nine bits at a time *)
Fixpoint comb (t : tab) (s : int) (q : row) : row :=
  match q with [] => [] | x :: q => lx (look t (PrimInt63.lsr x s)) (L0 :: comb t s q) end.
Definition sh9 (l : row) : row := shl 9%uint63 54%uint63 L0 l.
Definition mulw (t : tab) (q : row) : row :=
  lx (comb t 0%uint63 q) (sh9 (lx (comb t 9%uint63 q) (sh9 (lx (comb t 18%uint63 q) (sh9 (lx (comb t 27%uint63 q) (sh9 (lx (comb t 36%uint63 q) (sh9 (lx (comb t 45%uint63 q) (sh9 (comb t 54%uint63 q)))))))))))).
Definition table (r : row) : tab := build 9 r [].
Lemma sh9_act l z i : ract (sh9 l) z i = ract l z (i + 9).
Proof. unfold sh9. rewrite shl_act by reflexivity. apply xorb_false_l. Qed.
Fixpoint win (s : N) (q : row) (z : bseq) (i : N) : bool :=
  match q with [] => false | x :: q => xorb (act (lN x / 2 ^ s mod 2 ^ 9) z i) (win s q z (i + 63)) end.
Lemma comb_act r s q : forall z i, ract (comb (table r) s q) z i = win (lN s) q (ract r z) i.
Proof.
  induction q as [|x q IH]; intros z i; cbn [comb win]; [reflexivity|]. rewrite ract_lx. unfold table at 1. rewrite look_act. cbn [ract]. rewrite lN_lsr, IH, lN_0. cbn [act]. now rewrite !xorb_false_l.
Qed.
Lemma win_all q : forall z i, ract q z i = xorb (win 0 q z i) (xorb (win 9 q z (i + 9)) (xorb (win 18 q z (i + 18)) (xorb (win 27 q z (i + 27)) (xorb (win 36 q z (i + 36)) (xorb (win 45 q z (i + 45)) (win 54 q z (i + 54))))))).
Proof.
  assert (A : forall p s z i, act (p / 2 ^ s) z (i + s) = xorb (act (p / 2 ^ s mod 2 ^ 9) z (i + s)) (act (p / 2 ^ (s + 9)) z (i + (s + 9)))).
  { intros p s z i. rewrite (act_split _ 9), N.div_div, <- N.pow_add_r, N.add_assoc by (apply N.pow_nonzero; discriminate). reflexivity. }
  assert (B : forall x z i, act (lN x) z i = xorb (act (lN x / 2 ^ 0 mod 2 ^ 9) z i) (xorb (act (lN x / 2 ^ 9 mod 2 ^ 9) z (i + 9)) (xorb (act (lN x / 2 ^ 18 mod 2 ^ 9) z (i + 18))
    (xorb (act (lN x / 2 ^ 27 mod 2 ^ 9) z (i + 27)) (xorb (act (lN x / 2 ^ 36 mod 2 ^ 9) z (i + 36)) (xorb (act (lN x / 2 ^ 45 mod 2 ^ 9) z (i + 45)) (act (lN x / 2 ^ 54 mod 2 ^ 9) z (i + 54)))))))).
  { intros x z i. pose proof (A (lN x) 0 z i) as A0. rewrite N.add_0_r in A0. replace (lN x / 2 ^ 0) with (lN x) in * by (symmetry; apply N.div_1_r). rewrite A0 at 1. rewrite N.add_0_l.
    f_equal. rewrite (A (lN x) 9). f_equal. rewrite (A (lN x) 18). f_equal. rewrite (A (lN x) 27). f_equal. rewrite (A (lN x) 36). f_equal. rewrite (A (lN x) 45). f_equal. rewrite (A (lN x) 54).
    rewrite (N.div_small (lN x) (2 ^ (54 + 9))) by apply lN_lt. cbn [act]. apply xorb_false_r. }
  induction q as [|x q IH]; intros z i; cbn [ract win]; [reflexivity|]. rewrite (B x z i), (IH z (i + 63)).
  replace (i + 63 + 9) with (i + 9 + 63) by lia. replace (i + 63 + 18) with (i + 18 + 63) by lia. replace (i + 63 + 27) with (i + 27 + 63) by lia.
  replace (i + 63 + 36) with (i + 36 + 63) by lia. replace (i + 63 + 45) with (i + 45 + 63) by lia. replace (i + 63 + 54) with (i + 54 + 63) by lia. btauto.
Qed.
Lemma mulw_act r q z i : ract (mulw (table r) q) z i = ract q (ract r z) i.
Proof.
  unfold mulw. rewrite !ract_lx, !sh9_act, !ract_lx, !sh9_act, !ract_lx, !sh9_act, !ract_lx, !sh9_act, !ract_lx, !sh9_act, !ract_lx, !sh9_act, !comb_act, win_all.
  rewrite <- !N.add_assoc. reflexivity.
Qed.

(* ------------------------------------------- squares *)
Definition st5 (y : int) (k m : int) : int := PrimInt63.land (PrimInt63.lxor y (PrimInt63.lsl y k)) m.
Definition spread (x : int) : int :=
  st5 (st5 (st5 (st5 (st5 x 16 0x0000ffff0000ffff) 8 0x00ff00ff00ff00ff) 4 0x0f0f0f0f0f0f0f0f) 2 0x3333333333333333) 1 0x5555555555555555.
(* a function that respects exclusive or is known from the powers of two *)
Lemma linear_basis (f g : N -> N) n : (forall a b, f (N.lxor a b) = N.lxor (f a) (f b)) -> (forall a b, g (N.lxor a b) = N.lxor (g a) (g b)) ->
  forallb (fun i => f (2 ^ N.of_nat i) =? g (2 ^ N.of_nat i)) (seq 0 n) = true -> forall a, a < 2 ^ N.of_nat n -> f a = g a.
Proof.
  intros F G.
  assert (F0 : f 0 = 0) by (pose proof (F 0 0) as Q; change (N.lxor 0 0) with 0 in Q; now rewrite N.lxor_nilpotent in Q).
  assert (G0 : g 0 = 0) by (pose proof (G 0 0) as Q; change (N.lxor 0 0) with 0 in Q; now rewrite N.lxor_nilpotent in Q).
  induction n as [|n IH]; intros H a Ha.
  - assert (a = 0) by (cbn in Ha; lia). subst a. congruence.
  - rewrite seq_S, forallb_app in H. apply andb_prop in H. destruct H as [H Hn]. cbn [Nat.add forallb] in Hn. rewrite andb_true_r in Hn. apply N.eqb_eq in Hn.
    assert (E : a = N.lxor (a mod 2 ^ N.of_nat n) (if N.testbit a (N.of_nat n) then 2 ^ N.of_nat n else 0)).
    { apply N.bits_inj. intros k. rewrite N.lxor_spec. replace (N.of_nat (S n)) with (N.succ (N.of_nat n)) in Ha by lia. destruct (N.lt_trichotomy k (N.of_nat n)) as [K|[K|K]].
      - rewrite N.mod_pow2_bits_low by exact K. destruct (N.testbit a (N.of_nat n)); [rewrite N.pow2_bits_false by lia|rewrite N.bits_0]; now rewrite xorb_false_r.
      - subst k. rewrite N.mod_pow2_bits_high, xorb_false_l by lia. destruct (N.testbit a (N.of_nat n)) eqn:T; [now rewrite N.pow2_bits_true|now rewrite N.bits_0].
      - rewrite N.mod_pow2_bits_high, xorb_false_l by lia. replace (N.testbit a k) with false by (symmetry; apply (proj1 (wf_testbit (N.succ (N.of_nat n)) a) Ha); lia).
        destruct (N.testbit a (N.of_nat n)); [now rewrite N.pow2_bits_false by lia|now rewrite N.bits_0]. }
    pose proof (IH H (a mod 2 ^ N.of_nat n) ltac:(apply N.mod_lt, N.pow_nonzero; discriminate)) as I. rewrite E, F, G. f_equal; [exact I|].
    destruct (N.testbit a (N.of_nat n)); [exact Hn|congruence].
Qed.
(* the shifts of the five steps do not wrap when the operand is below 2^k *)
Definition st5N (y k m : N) : N := N.land (N.lxor y (N.shiftl y k mod 2 ^ 63)) m.
Definition spreadN (x : N) : N :=
  st5N (st5N (st5N (st5N (st5N x 16 0x0000ffff0000ffff) 8 0x00ff00ff00ff00ff) 4 0x0f0f0f0f0f0f0f0f) 2 0x3333333333333333) 1 0x5555555555555555.
Lemma st5_N y k m : lN (st5 y k m) = st5N (lN y) (lN k) (lN m).
Proof. unfold st5, st5N. now rewrite lN_land, lN_lxor, lN_lsl, N.shiftl_mul_pow2. Qed.
Lemma spread_N x : lN (spread x) = spreadN (lN x).
Proof. unfold spread, spreadN. rewrite !st5_N. reflexivity. Qed.
Lemma shl_lin a b k : N.shiftl (N.lxor a b) k mod 2 ^ 63 = N.lxor (N.shiftl a k mod 2 ^ 63) (N.shiftl b k mod 2 ^ 63).
Proof.
  apply N.bits_inj. intros n. rewrite N.shiftl_lxor, N.lxor_spec.
  destruct (N.ltb_spec n 63); [rewrite !N.mod_pow2_bits_low by assumption; apply N.lxor_spec|now rewrite !N.mod_pow2_bits_high by assumption].
Qed.
Lemma st5N_lin k m a b : st5N (N.lxor a b) k m = N.lxor (st5N a k m) (st5N b k m).
Proof.
  unfold st5N. apply N.bits_inj. intros n. rewrite N.lxor_spec, !N.land_spec, !N.lxor_spec.
  rewrite shl_lin, N.lxor_spec. btauto.
Qed.
Lemma spreadN_lin a b : spreadN (N.lxor a b) = N.lxor (spreadN a) (spreadN b).
Proof. unfold spreadN. now rewrite !st5N_lin. Qed.
Lemma spr_double x : spr (N.double x) = N.double (N.double (spr x)). Proof. now destruct x. Qed.
Lemma spr_succ_double x : spr (N.succ_double x) = N.succ_double (N.double (spr x)). Proof. now destruct x. Qed.
Lemma sprp_lin p : forall q, spr (Pos.lxor p q) = Pos.lxor (sprp p) (sprp q).
Proof. induction p as [p IH|p IH|]; intros [q|q|]; cbn [Pos.lxor sprp]; rewrite ?spr_double, ?spr_succ_double, ?IH; reflexivity. Qed.
Lemma spr_lin a b : spr (N.lxor a b) = N.lxor (spr a) (spr b).
Proof. destruct a as [|p], b as [|q]; try reflexivity. apply sprp_lin. Qed.
Lemma spr_shiftl a k : spr (N.shiftl a k) = N.shiftl (spr a) (2 * k).
Proof.
  induction k as [|k IH] using N.peano_ind; [now rewrite N.mul_0_r, !N.shiftl_0_r|]. rewrite N.shiftl_succ_r, spr_double, IH. replace (2 * N.succ k) with (N.succ (N.succ (2 * k))) by lia. now rewrite !N.shiftl_succ_r.
Qed.
Lemma spread_low a : a < 2 ^ 32 -> spreadN a = spr a.
Proof. apply (linear_basis spreadN spr 32 spreadN_lin spr_lin). vm_compute. reflexivity. Qed.
Lemma spread_high a : a < 2 ^ 31 -> N.shiftl (spreadN a) 1 mod 2 ^ 63 = N.shiftl (spr a) 1.
Proof.
  apply (linear_basis (fun a => N.shiftl (spreadN a) 1 mod 2 ^ 63) (fun a => N.shiftl (spr a) 1) 31).
  - intros x y. now rewrite spreadN_lin, shl_lin.
  - intros x y. now rewrite spr_lin, N.shiftl_lxor.
  - vm_compute. reflexivity.
Qed.
Lemma limb_square x z i :
  act (lN x) (act (lN x) z) i = xorb (act (lN (spread (PrimInt63.land x 0xffffffff))) z i) (act (lN (PrimInt63.lsl (spread (PrimInt63.lsr x L32)) L1)) z (i + 63)).
Proof.
  rewrite spread_N, lN_land. change (lN 0xffffffff) with (N.ones 32). rewrite N.land_ones, spread_low by (apply N.mod_lt; discriminate).
  rewrite lN_lsl. change (2 ^ lN L1) with (2 ^ 1). rewrite <- N.shiftl_mul_pow2, spread_N, lN_lsr. change (lN L32) with 32.
  rewrite spread_high by (apply N.div_lt_upper_bound; [discriminate|]; apply lN_lt).
  rewrite act_shiftl. replace (i + 63 + 1) with (i + 2 * 32) by lia. rewrite <- act_shiftl, <- spr_shiftl, <- act_lxor, <- spr_lin, <- spr_act. do 2 f_equal.
  apply N.bits_inj. intros n. rewrite N.lxor_spec, <- N.shiftr_div_pow2. destruct (N.ltb_spec n 32) as [H|H].
  - rewrite N.mod_pow2_bits_low, N.shiftl_spec_low by exact H. now rewrite xorb_false_r.
  - rewrite N.mod_pow2_bits_high, N.shiftl_spec_high' by exact H. rewrite N.shiftr_spec', xorb_false_l. f_equal. lia.
Qed.

(* ------------------------------------------- coefficients *)
Fixpoint lbits (m : nat) (x : int) : list bool :=
  match m with O => [] | S m => negb (PrimInt63.eqb (PrimInt63.land x L1) L0) :: lbits m (PrimInt63.lsr x L1) end.
Definition rbits (l : row) : list bool := flat_map (lbits 63) l.
Fixpoint bact (cs : list bool) (z : bseq) (i : N) : bool :=
  match cs with [] => false | c :: cs => xorb (c && z i) (bact cs z (i + 1)) end.
Lemma lbits_act m : forall x z i, bact (lbits m x) z i = act (lN x mod 2 ^ N.of_nat m) z i.
Proof.
  induction m as [|m IH]; intros x z i; cbn [lbits bact]; [change (2 ^ N.of_nat 0) with 1; now rewrite N.mod_1_r|].
  rewrite IH, land1, negb_involutive, (act_split (lN x mod 2 ^ N.of_nat (S m)) 1), lN_lsr. change (lN L1) with 1. f_equal.
  - assert (Q : (lN x mod 2 ^ N.of_nat (S m)) mod 2 ^ 1 = N.b2n (N.odd (lN x))).
    { change (2 ^ 1) with 2. rewrite <- N.bit0_mod, N.mod_pow2_bits_low by lia. now rewrite N.bit0_odd. }
    rewrite Q. now destruct (N.odd (lN x)).
  - f_equal. replace (N.of_nat (S m)) with (1 + N.of_nat m) by lia. apply N.bits_inj. intros k. rewrite <- !N.shiftr_div_pow2, N.shiftr_spec'.
    destruct (N.ltb_spec k (N.of_nat m)) as [H|H].
    + rewrite !N.mod_pow2_bits_low by lia. now rewrite N.shiftr_spec'.
    + now rewrite !N.mod_pow2_bits_high by lia.
Qed.
Lemma bact_app a : forall b z i, bact (a ++ b) z i = xorb (bact a z i) (bact b z (i + N.of_nat (List.length a))).
Proof. induction a as [|c a IH]; intros b z i; cbn [app bact List.length]; [rewrite xorb_false_l; f_equal; lia|]. rewrite IH, xorb_assoc. do 3 f_equal. lia. Qed.
Lemma lbits_length m : forall x, List.length (lbits m x) = m.
Proof. induction m as [|m IH]; intros x; cbn [lbits List.length]; [reflexivity|]. now rewrite IH. Qed.
Lemma rbits_act l : forall z i, bact (rbits l) z i = ract l z i.
Proof.
  induction l as [|x l IH]; intros z i; [reflexivity|]. unfold rbits in *. cbn [flat_map ract]. rewrite bact_app, IH, lbits_act, lbits_length. f_equal.
  f_equal. apply N.mod_small, lN_lt.
Qed.
(* two lists of coefficients that differ by zeros at the end *)
Fixpoint bsame (a b : list bool) : bool :=
  match a, b with
  | [], _ => forallb negb b
  | _, [] => forallb negb a
  | x :: a, y :: b => Bool.eqb x y && bsame a b
  end.
Lemma bact_zero a : forallb negb a = true -> forall z i, bact a z i = false.
Proof. induction a as [|c a IH]; intros H z i; [reflexivity|]. cbn [forallb] in H. apply andb_prop in H. destruct H as [Hc H]. destruct c; [discriminate Hc|]. cbn [bact andb]. now rewrite IH. Qed.
Lemma bsame_act a : forall b, bsame a b = true -> forall z i, bact a z i = bact b z i.
Proof.
  induction a as [|x a IH]; intros [|y b] H z i; cbn [bsame] in H; try reflexivity; [now rewrite (bact_zero _ H)|now rewrite (bact_zero _ H)|].
  apply andb_prop in H. destruct H as [H1 H2]. apply Bool.eqb_prop in H1. subst y. cbn [bact]. now rewrite (IH b H2).
Qed.
