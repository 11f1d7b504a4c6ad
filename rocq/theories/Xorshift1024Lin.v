(* Xorshift1024: the array with its rotating index is a window of 1024 bits on
   which one draw is a linear map; the jump is 2^512 draws. *)
From Verif Require Import Word Buffer32 Gf2 Lcg Py Xoshiro Limb BitSlice XoshiroLin.
From Coq Require Import ZifyBool ZifyNat ZifyN.
Open Scope N_scope.

(* the new word from the two oldest ones *)
Definition xs_mix (s0 s1 : N) : N :=
  let s1 := N.lxor s1 (wshl 64 s1 31) in
  N.lxor (N.lxor (N.lxor s1 s0) (N.shiftr s1 11)) (N.shiftr s0 30).
Definition mask64 : N := 0xffffffffffffffff.
(* window w: word j is s[(p + j) mod 16] *)
Definition xs_T (w : N) : N :=
  N.lxor (xs_mix (N.land w mask64) (N.land (N.shiftr w 64) mask64))
         (N.lxor (N.shiftl (N.shiftr w 128) 64) (N.shiftl (N.land w mask64) 960)).
Lemma xs_mix_lxor a b c d : xs_mix (N.lxor a b) (N.lxor c d) = N.lxor (xs_mix a c) (xs_mix b d).
Proof. unfold xs_mix. rewrite !wshl_lxor, !shiftr_lxor. lxor_eq. Qed.
Lemma land_lxor a b c : N.land (N.lxor a b) c = N.lxor (N.land a c) (N.land b c).
Proof.
  apply N.bits_inj. intros i. rewrite ?N.lxor_spec, ?N.land_spec, ?N.lxor_spec.
  destruct (N.testbit a i), (N.testbit b i), (N.testbit c i); reflexivity.
Qed.
Lemma wf_mix a b : wf 64 a -> wf 64 b -> wf 64 (xs_mix a b).
Proof. intros. unfold xs_mix. wf_tac. Qed.
Lemma wf_land_mask a : wf 64 (N.land a mask64).
Proof. apply wf_land_r. reflexivity. Qed.
Lemma wf_shiftl w k x : wf w x -> wf (w + k) (N.shiftl x k).
Proof.
  unfold wf. intros H. rewrite N.shiftl_mul_pow2, N.pow_add_r. pose proof (pow2_pos k). nia.
Qed.
Lemma wf_shr_sub w k x : wf (w + k) x -> wf w (N.shiftr x k).
Proof.
  unfold wf. intros H. rewrite N.shiftr_div_pow2. apply N.div_lt_upper_bound; [apply pow2_nz|].
  now rewrite <- N.pow_add_r, N.add_comm.
Qed.
Lemma xs_linear : linear N.lxor 0 xs_T (wf 1024).
Proof.
  constructor.
  - apply N.lxor_comm.
  - intros. symmetry. apply N.lxor_assoc.
  - apply N.lxor_0_r.
  - apply N.lxor_nilpotent.
  - intros a b _ _. unfold xs_T. rewrite !shiftr_lxor, !land_lxor, xs_mix_lxor, !shiftl_lxor. lxor_eq.
  - reflexivity.
  - intros; now apply wf_lxor.
  - intros a Ha. unfold xs_T. apply wf_lxor; [|apply wf_lxor].
    + eapply wf_mono; [|apply wf_mix; apply wf_land_mask]. lia.
    + eapply wf_mono; [|apply (wf_shiftl 896 64), (wf_shr_sub 896 128), Ha]. lia.
    + apply (wf_shiftl 64 960), wf_land_mask.
Qed.

Definition phi1024 : N := 0x10000000000007879787878786d3815400440024003007b2853116c08605c805fa1422cb7814f5c680040f0e46e848800cd40a7e2537771eababab341e2554b59df6a7cadba32bca9e860f083d70158c634b3216457d7b0284a32d044029b08f7030d5352015561300111e1c02bc181802200aa001400f0001000000000000001.
(* a word at positions 1..15 is where a word at position 15 arrives *)
Lemma xs_T_shift x j : wf 64 x -> (1 <= j)%N -> j < 15 -> xs_T (N.shiftl x (64 * (j + 1))) = N.shiftl x (64 * j).
Proof.
  intros Hx H1 H2. unfold xs_T.
  assert (E1 : forall k, 64 <= k -> N.land (N.shiftl x k) mask64 = 0).
  { intros k Hk. apply N.bits_inj. intros i. rewrite N.land_spec, N.bits_0.
    destruct (N.ltb_spec i k) as [L|L].
    - rewrite N.shiftl_spec_low by exact L. reflexivity.
    - replace (N.testbit mask64 i) with false; [apply andb_false_r|].
      symmetry. apply (proj1 (wf_testbit 64 mask64)); [reflexivity|lia]. }
  rewrite E1 by lia.
  rewrite N.shiftr_shiftl_l by lia. rewrite E1 by lia.
  rewrite N.shiftr_shiftl_l by lia. rewrite N.shiftl_shiftl.
  change (xs_mix 0 0) with 0. rewrite N.shiftl_0_l, N.lxor_0_l, N.lxor_0_r. f_equal. lia.
Qed.
Lemma phi_gen_pos phi : 
  (forall x, wf 64 x -> ev N.lxor 0 xs_T phi (N.shiftl x 960) = 0) ->
  forall k x, (k <= 14)%nat -> wf 64 x -> ev N.lxor 0 xs_T phi (N.shiftl x (64 * (15 - N.of_nat k))) = 0.
Proof.
  intros H15. induction k as [|k IH]; intros x Hk Hx.
  - now apply H15.
  - specialize (IH x ltac:(lia) Hx).
    rewrite <- (xs_T_shift x (15 - N.of_nat (S k))) by (assumption || lia).
    replace (15 - N.of_nat (S k) + 1) with (15 - N.of_nat k) by lia.
    rewrite (l_ev_T _ _ _ _ xs_linear).
    + rewrite IH. apply (l_T_0 _ _ _ _ xs_linear).
    + eapply wf_mono; [|apply wf_shiftl, Hx]. lia.
Qed.

(* packing lists of words *)
Fixpoint pack (l : list N) : N := match l with [] => 0 | x :: l => N.lxor x (N.shiftl (pack l) 64) end.
Lemma pack_wf l : Forall (wf 64) l -> wf (64 * N.of_nat (length l)) (pack l).
Proof.
  induction 1 as [|x l Hx Hl IH]; [reflexivity|]. cbn [pack length].
  apply wf_lxor.
  - eapply wf_mono; [|exact Hx]. lia.
  - eapply wf_mono; [|apply wf_shiftl, IH]. lia.
Qed.
Lemma pack_app l m : pack (l ++ m) = N.lxor (pack l) (N.shiftl (pack m) (64 * N.of_nat (length l))).
Proof.
  induction l as [|x l IH]; cbn [pack app length].
  - now rewrite N.lxor_0_l, N.mul_0_r, N.shiftl_0_r.
  - rewrite IH, shiftl_lxor, N.shiftl_shiftl, N.lxor_assoc. do 3 f_equal. lia.
Qed.
Lemma pack_div x l : wf 64 x -> N.shiftr (pack (x :: l)) 64 = pack l.
Proof.
  intros Hx. cbn [pack]. rewrite shiftr_lxor, N.shiftr_shiftl_l by lia. rewrite N.shiftl_0_r.
  replace (N.shiftr x 64) with 0; [apply N.lxor_0_l|].
  symmetry. rewrite N.shiftr_div_pow2. apply N.div_small. exact Hx.
Qed.
Lemma land_shiftl_mask y : N.land (N.shiftl y 64) mask64 = 0.
Proof.
  apply N.bits_inj. intros i. rewrite N.land_spec, N.bits_0.
  destruct (N.ltb_spec i 64) as [L|L].
  - rewrite N.shiftl_spec_low by exact L. reflexivity.
  - rewrite (proj1 (wf_testbit 64 mask64)) by (reflexivity || lia). apply andb_false_r.
Qed.
Lemma land_mask_id x : wf 64 x -> N.land x mask64 = x.
Proof. intros H. change mask64 with (N.ones 64). rewrite N.land_ones. now apply N.mod_small. Qed.
Lemma pack_low x l : wf 64 x -> N.land (pack (x :: l)) mask64 = x.
Proof. intros Hx. cbn [pack]. now rewrite land_lxor, land_shiftl_mask, N.lxor_0_r, land_mask_id. Qed.
Lemma pack_inj l m : length l = length m -> Forall (wf 64) l -> Forall (wf 64) m -> pack l = pack m -> l = m.
Proof.
  revert m. induction l as [|x l IH]; intros [|y m] Hlen Hl Hm E; try discriminate; [reflexivity|].
  inversion Hl; inversion Hm; subst. f_equal.
  - rewrite <- (pack_low x l), <- (pack_low y m) by assumption. now rewrite E.
  - apply IH; [cbn in Hlen; lia|assumption..|]. rewrite <- (pack_div x l), <- (pack_div y m) by assumption. now rewrite E.
Qed.
Lemma xs_T_pack w0 w1 r : wf 64 w0 -> wf 64 w1 -> length r = 14%nat ->
  xs_T (pack (w0 :: w1 :: r)) = pack (xs_mix w0 w1 :: r ++ [w0]).
Proof.
  intros H0 H1 Hr. unfold xs_T. rewrite pack_low, pack_div, pack_low by assumption.
  replace (N.shiftr (pack (w0 :: w1 :: r)) 128) with (pack r).
  2:{ change 128 with (64 + 64). rewrite <- N.shiftr_shiftr. now rewrite !pack_div. }
  cbn [pack]. rewrite pack_app, Hr, shiftl_lxor, N.shiftl_shiftl. cbn [pack].
  now rewrite N.shiftl_0_l, N.lxor_0_r.
Qed.

(* every 1024-bit word is a packed list of 16 words *)
Fixpoint unpack (n : nat) (w : N) : list N :=
  match n with O => [] | S n => N.land w mask64 :: unpack n (N.shiftr w 64) end.
Lemma pack_unpack n : forall w, wf (64 * N.of_nat n) w -> pack (unpack n w) = w.
Proof.
  induction n as [|n IH]; intros w Hw; cbn [unpack pack].
  - unfold wf in Hw. cbn in Hw. lia.
  - rewrite IH.
    + change mask64 with (N.ones 64). apply N.bits_inj. intros i. rewrite N.lxor_spec.
      destruct (N.ltb_spec i 64) as [L|L].
      * rewrite N.land_spec, N.ones_spec_low, N.shiftl_spec_low by assumption. now rewrite andb_true_r, xorb_false_r.
      * rewrite N.land_spec, N.ones_spec_high, N.shiftl_spec_high', N.shiftr_spec' by assumption.
        rewrite andb_false_r, xorb_false_l. f_equal. lia.
    + apply wf_shr_sub. eapply wf_mono; [|exact Hw]. lia.
Qed.
Lemma unpack_wf n w : Forall (wf 64) (unpack n w).
Proof. revert w. induction n; intros; cbn; constructor; auto using wf_land_mask. Qed.
Lemma unpack_length n w : length (unpack n w) = n.
Proof. revert w. induction n; intros; cbn; congruence. Qed.

Lemma annihilates_pack phi :
  (forall x, wf 64 x -> ev N.lxor 0 xs_T phi x = 0) ->
  (forall x, wf 64 x -> ev N.lxor 0 xs_T phi (N.shiftl x 960) = 0) ->
  forall k l, (length l = k)%nat -> (k <= 16)%nat -> Forall (wf 64) l ->
  ev N.lxor 0 xs_T phi (N.shiftl (pack l) (64 * (16 - N.of_nat k))) = 0.
Proof.
  intros H0 H15. induction k as [|k IH]; intros l Hl Hk Hf.
  - destruct l; [|discriminate]. cbn [pack]. rewrite N.shiftl_0_l. apply (l_ev_0 _ _ _ _ xs_linear).
  - destruct l as [|x l]; [discriminate|]. inversion Hf as [|? ? Hx Hf']; subst. cbn in Hl.
    assert (Hl' : length l = k) by lia. cbn [pack].
    rewrite shiftl_lxor, N.shiftl_shiftl.
    rewrite (l_ev_add _ _ _ _ xs_linear).
    + replace (64 + 64 * (16 - N.of_nat (S k))) with (64 * (16 - N.of_nat k)) by lia.
      rewrite IH by (assumption || lia). rewrite N.lxor_0_r.
      destruct (Nat.eq_dec k 15) as [->|Hn].
      * change (64 * (16 - N.of_nat 16)) with 0. rewrite N.shiftl_0_r. now apply H0.
      * replace (16 - N.of_nat (S k)) with (15 - N.of_nat k) by lia.
        apply phi_gen_pos; try assumption. lia.
    + eapply wf_mono; [|apply wf_shiftl, Hx]. lia.
    + eapply wf_mono; [|apply wf_shiftl, pack_wf, Hf']. lia.
Qed.

(* the window as sixteen words of symbolic bits *)
Notation bwin := (list (list (list PrimInt63.int))).
Definition bmix (s0 s1 : list (list PrimInt63.int)) : list (list PrimInt63.int) :=
  let s1 := bxor s1 (bshl 31 s1) in
  bxor (bxor (bxor s1 s0) (bshr 11 s1)) (bshr 30 s0).
Definition bwin_step (b : bwin) : bwin :=
  match b with w0 :: w1 :: r => bmix w0 w1 :: r ++ [w0] | _ => b end.
Fixpoint bwin_add (a b : bwin) : bwin :=
  match a, b with x :: a, y :: b => bxor x y :: bwin_add a b | _, _ => [] end.
Definition RW (s : N) (b : bwin) (w : N) : Prop :=
  exists l, length l = 16%nat /\ Forall (wf 64) l /\ Forall2 (rel s) b l /\ w = pack l.
Lemma bmix_rel s a b x y : rel s a x -> rel s b y -> rel s (bmix a b) (xs_mix x y).
Proof.
  intros A B. unfold bmix, xs_mix.
  assert (C : rel s (bxor b (bshl 31 b)) (N.lxor y (wshl 64 y 31))) by (apply rel_xor; [exact B|apply (rel_shl s 31); [lia|exact B]]).
  apply rel_xor; [apply rel_xor; [apply rel_xor; assumption|]|].
  - apply (rel_shr s 11); [lia|exact C].
  - apply (rel_shr s 30); [lia|exact A].
Qed.
Lemma RW_step s b w : RW s b w -> RW s (bwin_step b) (xs_T w).
Proof.
  intros (l & Ll & Fl & R & ->). destruct R as [|b0 x0 b' l' R0 R]; [discriminate|].
  destruct R as [|b1 x1 b'' l'' R1 R]; [discriminate|]. cbn [bwin_step].
  inversion Fl as [|? ? F0 Fl']; subst. inversion Fl' as [|? ? F1 Fr]; subst. cbn [length] in Ll.
  exists (xs_mix x0 x1 :: l'' ++ [x0]). repeat apply conj.
  - cbn [length]. rewrite app_length. cbn [length]. lia.
  - constructor; [now apply wf_mix|]. apply Forall_app. split; [exact Fr|now repeat constructor].
  - constructor; [now apply bmix_rel|]. apply Forall2_app; [exact R|]. constructor; [exact R0|constructor].
  - apply xs_T_pack; try assumption. lia.
Qed.
Fixpoint lxors (a b : list N) : list N := match a, b with x :: a, y :: b => N.lxor x y :: lxors a b | _, _ => [] end.
Lemma lxors_pack a : forall b, length a = length b -> pack (lxors a b) = N.lxor (pack a) (pack b).
Proof.
  induction a as [|x a IH]; intros [|y b] H; try discriminate; [reflexivity|]. cbn [lxors pack]. rewrite IH by (cbn in H; lia).
  rewrite shiftl_lxor. lxor_eq.
Qed.
Lemma RW_add s a b x y : RW s a x -> RW s b y -> RW s (bwin_add a b) (N.lxor x y).
Proof.
  intros (l & Ll & Fl & R & ->) (m & Lm & Fm & Q & ->). exists (lxors l m). rewrite lxors_pack by congruence.
  assert (Le : length l = length m) by congruence.
  assert (G : length (lxors l m) = length l /\ Forall (wf 64) (lxors l m) /\ Forall2 (rel s) (bwin_add a b) (lxors l m)).
  { clear Ll Lm. revert b m Le Fm Q. induction R as [|b0 x0 b' l' R0 R IH]; intros b m Le Fm Q.
    - refine_conj; constructor.
    - destruct Q as [|c0 y0 c' m' Q0 Q]; [discriminate|]. inversion Fl; inversion Fm; subst.
      destruct (IH ltac:(assumption) c' m' ltac:(cbn in Le; lia) ltac:(assumption) Q) as (G1 & G2 & G3). cbn [lxors bwin_add length].
      refine_conj; [now rewrite G1|constructor; [now apply wf_lxor|exact G2]|constructor; [now apply rel_xor|exact G3]]. }
  destruct G as (G1 & G2 & G3). refine_conj; auto. congruence.
Qed.
(* words 0 and 15 are arbitrary, the others zero *)
Definition bwin_unit : bwin := bunit 4 0 :: repeat bnil 14 ++ [bunit 4 1].
Definition bwin_zero (b : bwin) : bool := forallb bzero b.
Definition win2 (x y : N) : N := pack (x :: repeat 0 14 ++ [y]).
Lemma RW_unit x y : wf 64 x -> wf 64 y -> RW (packw [x; y]) bwin_unit (win2 x y).
Proof.
  intros Hx Hy. assert (Hl : Forall (wf 64) [x; y]) by (repeat constructor; assumption).
  assert (Z : Forall2 (rel (packw [x; y])) (repeat bnil 14) (repeat 0 14)).
  { generalize 14%nat. induction n as [|n IH]; constructor; [apply rel_nil|exact IH]. }
  exists (x :: repeat 0 14 ++ [y]). refine_conj.
  - reflexivity.
  - constructor; [exact Hx|]. apply Forall_app. split; [|now repeat constructor]. apply Forall_forall. intros z Hz.
    apply repeat_spec in Hz. subst. apply wf_0.
  - pose proof (fun j => rel_unit (packw [x; y]) 4 j [x; y] eq_refl Hl) as U. constructor; [apply (U 0%nat); clear; lia|].
    apply Forall2_app; [exact Z|]. constructor; [|constructor]. apply (U 1%nat). clear. lia.
  - reflexivity.
Qed.
Lemma RW_zero s b w : RW s b w -> bwin_zero b = true -> w = 0.
Proof.
  intros (l & _ & _ & R & ->) Z. induction R as [|b0 x0 b' l' R0 R IH]; [reflexivity|]. cbn [bwin_zero forallb] in Z.
  apply andb_prop in Z as [Z0 Z]. cbn [pack]. rewrite (IH Z). rewrite (rel_zero s b0 x0 R0 Z0). reflexivity.
Qed.
Lemma xs_annihilates_gen phi :
  bwin_zero (ev bwin_add bwin_unit bwin_step phi bwin_unit) = true ->
  forall w, wf 1024 w -> ev N.lxor 0 xs_T phi w = 0.
Proof.
  intros B w Hw.
  assert (W : forall x y, wf 64 x -> wf 64 y -> ev N.lxor 0 xs_T phi (win2 x y) = 0).
  { intros x y Hx Hy. destruct phi as [|p]; [reflexivity|]. cbn [ev] in *.
    apply (RW_zero (packw [x; y]) (evp bwin_add bwin_step p bwin_unit)); [|exact B].
    apply (evp_rel (RW (packw [x; y]))); [apply RW_add|apply RW_step|now apply RW_unit]. }
  pose proof (annihilates_pack phi) as H.
  assert (H0 : forall x, wf 64 x -> ev N.lxor 0 xs_T phi x = 0).
  { intros x Hx. rewrite <- (W x 0 Hx (wf_0 64)) at 2. f_equal. unfold win2.
    change (pack (x :: repeat 0 14 ++ [0])) with (N.lxor x 0). symmetry. apply N.lxor_0_r. }
  assert (H15 : forall x, wf 64 x -> ev N.lxor 0 xs_T phi (N.shiftl x 960) = 0).
  { intros x Hx. rewrite <- (W 0 x (wf_0 64) Hx) at 2. f_equal. unfold win2. cbn [pack repeat app].
    rewrite N.shiftl_0_l, N.lxor_0_r. repeat rewrite N.lxor_0_l. rewrite !N.shiftl_shiftl. reflexivity. }
  specialize (H H0 H15 16%nat (unpack 16 w) (unpack_length _ _) ltac:(lia) (unpack_wf _ _)).
  rewrite pack_unpack in H by exact Hw.
  change (64 * (16 - N.of_nat 16)) with 0 in H. now rewrite N.shiftl_0_r in H.
Qed.
Lemma phi1024_basis : bwin_zero (ev bwin_add bwin_unit bwin_step phi1024 bwin_unit) = true.
Proof. vm_cast_no_check (eq_refl true). Qed.
Lemma phi1024_annihilates w : wf 1024 w -> ev N.lxor 0 xs_T phi1024 w = 0.
Proof. exact (xs_annihilates_gen phi1024 phi1024_basis w). Qed.
Lemma phi1024_table : sq_check 32 phi1024 512 2 (words_val 64 XORSHIFT1024_JUMP) = true.
Proof. vm_cast_no_check (eq_refl true). Qed.
Lemma xs_window_jump w : wf 1024 w ->
  jump_loop N.lxor 0 xs_T 64 XORSHIFT1024_JUMP w = N.iter (2 ^ 512) xs_T w.
Proof.
  intros H. exact (jump_check 32 phi1024 _ _ _ _ xs_linear phi1024_annihilates 64 XORSHIFT1024_JUMP 512 w eq_refl phi1024_table H).
Qed.
